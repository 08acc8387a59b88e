(** Lemmas and a concrete case for Recalc_props. *)
From Coq Require Import List ZArith Lia Bool String.
From Verif Require Import Base Invar_model Invar_spec Invar_proofs Symmetry_model Symmetry_spec Symmetry_tables
  Symmetry_proofs Symmetry_factor Symmetry_dim Subspaces_model Subspaces_proofs Recalc_model Recalc_spec Recalc_proofs Recalc_general
  Selection_spec Sectors_aux.
Import ListNotations.
Local Open Scope string_scope.
Local Open Scope Z_scope.

Definition zops : matops Z Z := {| mo_zero := fun _ _ => 0; mo_transform := fun a f u c v => a + f * u * c * v; mo_finite := fun _ => true |}.
Definition case_table : list (recalc_entry Z) :=
  [{| re_i1 := 1; re_ip := 3; re_IN1 := [1; 2]; re_INp := [-1; 2]; re_factor := 7 |};
   {| re_i1 := 2; re_ip := 1; re_IN1 := [0; 1]; re_INp := [0; 1]; re_factor := -1 |}].
Lemma general_case :
  exists sh I1 Ip Iop s, In sh shipped /\ sh_name sh = "QS" /\ sh_channels sh = 1%nat /\
    triangle (sh_sym sh) I1 Ip Iop = Ok true /\ I1 <> Ip /\
    (forall r, In r case_table -> in_range (sh_combs sh) r /\ names_ancestors (sh_sym sh) (sh_combs sh) (sh_tab sh) I1 Ip r /\
       is_allowed (sh_sym sh) (re_IN1 r) = true /\ is_allowed (sh_sym sh) (re_INp r) = true) /\
    recalc_general Z Z zops (sh_sym sh) (sh_combs sh) (sh_tab sh)
      [(I1, {| eg_nrstored := 2; eg_blocks := [2; 3; 5; 7] |}); (Ip, {| eg_nrstored := 3; eg_blocks := [11; 13; 17; 19] |})]
      [(I1, s); (Ip, s)] [(([1; 2], [-1; 2]), 10); (([0; 1], [0; 1]), 100)] I1 Ip case_table Iop
    = Ok (Some (7 * 2 * 10 * 17 + (-1) * 3 * 100 * 11)).
Proof.
  exists (the_table "QS" 1), [0; 2], [-1; 1], [1; 2], {| sd_dims := [1; 1; 1; 1]; sd_anc := [] |}.
  destruct (the_table_in "QS" 1) as (A & B & D); [vm_compute; reflexivity|].
  split; [auto|]. split; [auto|]. split; [auto|]. split; [vm_compute; reflexivity|]. split; [discriminate|]. split.
  - intros r [<-|[<-|[]]].
    + split; [unfold in_range; cbn; vm_compute sh_combs; lia|]. split; [split; vm_compute; reflexivity|split; vm_compute; reflexivity].
    + split; [unfold in_range; cbn; vm_compute sh_combs; lia|]. split; [split; vm_compute; reflexivity|split; vm_compute; reflexivity].
  - vm_compute. reflexivity.
Qed.

Lemma offdiag_rule d i j : (forall x, In x d -> 0 <= x) -> Z.of_nat (List.length d) < two64 ->
  (1 <= i <= Z.of_nat (List.length d) -> 1 <= j <= Z.of_nat (List.length d) -> i <> j ->
   exists b ni nj, offdiag_contributes d i j = Ok b /\ nth_error d (Z.to_nat (i - 1)) = Some ni /\ nth_error d (Z.to_nat (j - 1)) = Some nj /\
     (b = true <-> 0 < ni /\ 0 < nj)) /\
  (i < 1 \/ Z.of_nat (List.length d) < i \/ j < 1 \/ Z.of_nat (List.length d) < j \/ i = j -> offdiag_contributes d i j = Throw).
Proof.
  intros Hd HL. set (n := Z.of_nat (List.length d)) in *. unfold offdiag_contributes. fold n. split.
  - intros Hi Hj Hne.
    replace ((1 <=? i) && (i <=? n) && (1 <=? j) && (j <=? n)) with true
      by (symmetry; rewrite !andb_true_iff, !Z.leb_le; lia).
    replace (i =? j) with false by (symmetry; apply Z.eqb_neq; auto). cbn [negb my_assert bind].
    assert (E : forall k, 1 <= k <= n -> exists nk, nth_error d (Z.to_nat (k - 1)) = Some nk /\ exists_block d (to_size (k - 1)) = Ok (0 <? nk)).
    { intros k Hk. destruct (nth_error d (Z.to_nat (k - 1))) as [nk|] eqn:E; [|apply nth_error_None in E; lia].
      exists nk. split; auto. unfold exists_block, to_size. rewrite Z.mod_small by (unfold two64 in *; lia).
      rewrite <- (Z2Nat.id (k - 1)) by lia. rewrite (rmax_nth _ _ _ E). reflexivity. }
    destruct (E i Hi) as (ni & E1 & E2). destruct (E j Hj) as (nj & E3 & E4). rewrite E2. cbn [bind].
    destruct (0 <? ni) eqn:G1.
    + rewrite E4. exists (0 <? nj), ni, nj. rewrite Z.ltb_lt in *. repeat split; auto; try (apply Z.ltb_lt); intuition.
    + exists false, ni, nj. rewrite Z.ltb_ge in G1. repeat split; auto; try discriminate; lia.
  - intros H. destruct ((1 <=? i) && (i <=? n) && (1 <=? j) && (j <=? n)) eqn:G; [|reflexivity].
    rewrite !andb_true_iff, !Z.leb_le in G. replace (i =? j) with true by (symmetry; apply Z.eqb_eq; lia). reflexivity.
Qed.

Lemma selection_case : exists sh, In sh shipped /\ sh_name sh = "QST" /\
  groups_of "QST" = Some [Charge; SpinMult; OrbL] /\ occurs_all [Charge; SpinMult; OrbL] [1; 2; 1] [0; 1; 0] [1; 2; 1] /\
  triangle (sh_sym sh) [1; 2; 1] [0; 1; 0] [1; 2; 1] = Ok true /\ triangle (sh_sym sh) [1; 2; 2] [0; 1; 0] [1; 2; 1] = Ok false.
Proof.
  exists (the_table "QST" 3). destruct (the_table_in "QST" 3) as (A & B & D); [vm_compute; reflexivity|].
  split; [auto|]. split; [auto|]. split; [reflexivity|]. split; [cbn; lia|]. split; vm_compute; reflexivity.
Qed.
