(** Remaining lemmas and concrete cases for Sectors_props. *)
From Coq Require Import List ZArith Lia Bool String Permutation Sorted.
From Verif Require Import Base Invar_model Invar_spec Invar_proofs Symmetry_model Symmetry_spec Symmetry_tables Symmetry_proofs
  Symmetry_factor Symmetry_dim Subspaces_model Subspaces_spec Subspaces_proofs Subspaces_tasks Subspaces_step Subspaces_chain
  Recalc_model Recalc_spec Recalc_proofs.
Import ListNotations.
Local Open Scope string_scope.
Local Open Scope Z_scope.

Lemma invar_order (a b : invar) :
  (invar_eqb a b = true <-> a = b) /\ invar_ltb a a = false /\ (a <> b -> invar_ltb a b = true \/ invar_ltb b a = true) /\
  (forall c, invar_ltb a b = true -> invar_ltb b c = true -> invar_ltb a c = true).
Proof. split; [apply invar_eqb_eq|]. split; [apply invar_ltb_irrefl|]. split; [apply invar_ltb_total|]. intros c. apply invar_ltb_trans. Qed.

Lemma shipped_duality sh I : In sh shipped -> admissible (ts (sh_sym sh)) I ->
  exists anc new, ancestors (sh_sym sh) (sh_combs sh) (sh_tab sh) I = Ok anc /\ new_subspaces (sh_sym sh) (sh_combs sh) (sh_tab sh) I = Ok new /\
    List.length anc = sh_combs sh /\ List.length new = sh_combs sh /\
    Forall (admissible (ts (sh_sym sh))) anc /\ Forall (admissible (ts (sh_sym sh))) new /\
    (forall i, (i < sh_combs sh)%nat -> exists A, nth_error anc i = Some A /\ ancestor (sh_sym sh) (sh_combs sh) (sh_tab sh) I i = Ok A) /\
    forall J, admissible (ts (sh_sym sh)) J -> exists ancJ, ancestors (sh_sym sh) (sh_combs sh) (sh_tab sh) J = Ok ancJ /\
      forall i, (i < sh_combs sh)%nat -> (nth_error new i = Some J <-> nth_error ancJ i = Some I).
Proof. intros Hsh. destruct (shipped_ok sh Hsh) as (L1 & L2 & A1 & A2). apply duality; auto. Qed.

Definition the_table (n : string) (ch : nat) : shipped_table :=
  match find (fun sh => String.eqb (sh_name sh) n && Nat.eqb (sh_channels sh) ch) shipped with
  | Some sh => sh | None => mk_shipped "" 0 sym_NONE {| tb_In := []; tb_QN := [] |} end.
Lemma the_table_in n ch : existsb (fun sh => String.eqb (sh_name sh) n && Nat.eqb (sh_channels sh) ch) shipped = true ->
  In (the_table n ch) shipped /\ sh_name (the_table n ch) = n /\ sh_channels (the_table n ch) = ch.
Proof.
  intros H. unfold the_table. destruct (find _ shipped) as [sh|] eqn:E.
  - apply find_some in E as [E1 E2]. apply andb_true_iff in E2 as [E2 E3]. apply String.eqb_eq in E2. apply Nat.eqb_eq in E3. auto.
  - apply existsb_exists in H as (x & Hx & Hp). rewrite (find_none _ _ E x Hx) in Hp. discriminate.
Qed.

Ltac adm_tac := repeat constructor; vm_compute; auto.
Ltac mult_tac := split; [adm_tac|]; cbn; intros k n x Hin Hg;
  repeat (destruct Hin as [Hin|Hin]; [injection Hin as <- <-; vm_compute in Hg; injection Hg as <-; vm_compute; congruence|]); contradiction.

Lemma qs_case : exists sh, In sh shipped /\ sh_name sh = "QS" /\ sh_channels sh = 1%nat /\ admissible (ts (sh_sym sh)) [0; 3] /\
  new_subspaces (sh_sym sh) (sh_combs sh) (sh_tab sh) [0; 3] = Ok [[-1; 3]; [0; 4]; [0; 2]; [1; 3]].
Proof.
  exists (the_table "QS" 1). destruct (the_table_in "QS" 1) as (A & B & C); [vm_compute; reflexivity|]. split; [auto|]. split; [auto|]. split; [auto|]. split; [adm_tac|vm_compute; reflexivity].
Qed.

Lemma qst_case : exists sh, In sh shipped /\ sh_name sh = "QST" /\ multiplet (sh_sym sh) [0; 2; 1] /\
  degeneracy (sh_sym sh) [0; 2; 1] = 6 /\ sh_combs sh = 64%nat.
Proof.
  exists (the_table "QST" 3). destruct (the_table_in "QST" 3) as (A & B & C); [vm_compute; reflexivity|].
  split; [auto|]. split; [auto|]. split; [mult_tac|]. split; vm_compute; reflexivity.
Qed.

Lemma qs_step_case : exists sh st, In sh shipped /\ sh_name sh = "QS" /\
  mk_structure (sh_sym sh) (sh_combs sh) (sh_tab sh) [([0; 1], 3); ([1; 2], 5)] = Ok st /\ List.length (task_list st) = 5%nat.
Proof.
  exists (the_table "QS" 1). destruct (the_table_in "QS" 1) as (A & B & C); [vm_compute; reflexivity|].
  eexists. split; [auto|]. split; [auto|]. split; [vm_compute; reflexivity|]. vm_compute; reflexivity.
Qed.

Lemma total_wraps : exists d, (forall x, In x d -> 0 <= x <= 1000000) /\ zsum d = 2 ^ 31 + 1 /\ dims_total d < 0.
Proof.
  exists (483649 :: repeat 1000000 2147). split; [|split; vm_compute; reflexivity].
  intros x [<-|Hx]; [lia|]. apply repeat_spec in Hx. lia.
Qed.

Lemma task_case : let s := [([0; 1], {| sd_dims := [2; 0]; sd_anc := [] |}); ([1; 2], {| sd_dims := [3; 4]; sd_anc := [] |});
                             ([2; 1], {| sd_dims := [0; 0]; sd_anc := [] |}); ([3; 1], {| sd_dims := [0; 2]; sd_anc := [] |})] in
  sane s /\ task_list s = [[1; 2]; [3; 1]; [0; 1]].
Proof.
  cbn zeta. split; [|vm_compute; reflexivity]. split.
  - cbn. repeat constructor; cbn; intuition congruence.
  - intros I d Hin. cbn in Hin. destruct Hin as [E|[E|[E|[E|[]]]]]; injection E as <- <-; cbn [sd_dims];
      (split; [intros x Hx; cbn in Hx; lia|vm_compute; reflexivity]).
Qed.

Lemma su2_rule a b c : su2_triangle_inequality a b c = true <->
  1 <= a /\ 1 <= b /\ 1 <= c /\ Z.abs ((b - 1) - (c - 1)) <= a - 1 <= (b - 1) + (c - 1).
Proof. rewrite su2_triangle_iff. lia. Qed.
Lemma su2_sym a b c : su2_triangle_inequality a b c = su2_triangle_inequality b a c /\
  su2_triangle_inequality a b c = su2_triangle_inequality a c b.
Proof. split; apply eq_iff_eq_true; rewrite !su2_triangle_iff; lia. Qed.

Lemma singlet_odd_witness : exists sh diag substruct cold, In sh shipped /\ sy_islr (sh_sym sh) = true /\
  (forall I e, In (I, e) diag -> multiplet (sh_sym sh) I) /\
  recalc_singlet Z Z {| mo_zero := fun _ _ => 0; mo_transform := fun a f u c v => a + f * u * c * v; mo_finite := fun _ => true |}
    (sh_sym sh) (sh_combs sh) (sh_tab sh) diag substruct cold 1 (-1) = Throw.
Proof.
  exists (the_table "QSLR" 2), [([0; 1; 1], {| eg_nrstored := 1; eg_blocks := repeat 1 16 |})], [([0; 1; 1], {| sd_dims := repeat 1 16; sd_anc := [] |})], [].
  destruct (the_table_in "QSLR" 2) as (A & B & C); [vm_compute; reflexivity|]. split; [auto|]. split; [vm_compute; reflexivity|]. split.
  - intros I e [E|[]]. injection E as <- <-. mult_tac.
  - vm_compute. reflexivity.
Qed.

(** Executable untruncated step, for the concrete case. *)
Definition full_step (st : structure) : sizes :=
  map (fun p => (fst p, zsum (sd_dims (snd p)))) (filter (fun p => negb (zsum (sd_dims (snd p)) =? 0)) st).
Lemma full_step_untruncated st : NoDup (map fst st) -> (forall J d, In (J, d) st -> dims_total (sd_dims d) = zsum (sd_dims d)) -> untruncated st (full_step st).
Proof.
  intros Hn Ht. split.
  - unfold full_step. rewrite map_map. cbn [fst]. apply NoDup_map_filter. auto.
  - intros I n. unfold full_step. rewrite in_map_iff. split.
    + intros ([J d] & E & Hin). apply filter_In in Hin as [Hin Hd]. cbn [fst snd] in *. injection E as -> <-. exists d. split; auto. split; auto.
      apply (task_list_spec st Hn). exists d. split; auto. rewrite (Ht _ _ Hin). apply negb_true_iff, Z.eqb_neq in Hd. auto.
    + intros (d & Hin & Hk & ->). exists (I, d). split; [reflexivity|]. apply filter_In. split; auto. cbn [snd].
      apply (task_list_spec st Hn) in Hk as (d' & Hin' & Hd'). rewrite (NoDup_keys_inj st I d d' Hn Hin Hin'). rewrite (Ht _ _ Hin') in Hd'.
      apply negb_true_iff, Z.eqb_neq. auto.
Qed.

Lemma grows_case : exists sh dp', In sh shipped /\ sh_name sh = "QS" /\ sh_channels sh = 1%nat /\
  grows (sh_sym sh) (sh_combs sh) (sh_tab sh) 2 [([0; 1], 1)] dp' /\ dp' <> [].
Proof.
  set (sh := the_table "QS" 1). destruct (the_table_in "QS" 1) as (A & B & C); [vm_compute; reflexivity|]. fold sh in A, B, C.
  exists sh. eexists. split; [auto|]. split; [auto|]. split; [auto|].
  assert (S : forall dp, NoDup (map fst dp) -> (forall J n, In (J, n) dp -> multiplet (sh_sym sh) J /\ 0 <= n <= 1000000) ->
     forall st, mk_structure (sh_sym sh) (sh_combs sh) (sh_tab sh) dp = Ok st -> untruncated st (full_step st)).
  { intros dp Hn Hd st E. destruct (structure_correct sh A dp Hn Hd) as (st' & E' & Hnd & H & _). rewrite E in E'. injection E' as <-.
    apply full_step_untruncated; auto. intros J d Hin. apply H in Hin. tauto. }
  split.
  - eapply grows_S.
    + intros I k [E|[]]. injection E as <- <-. lia.
    + vm_compute. reflexivity.
    + eapply (S [([0; 1], 1)]); [| |vm_compute; reflexivity].
      * repeat constructor. intros [].
      * intros I k [E|[]]. injection E as <- <-. split; [mult_tac|lia].
    + match goal with |- grows _ _ _ _ ?d _ => let v := eval vm_compute in d in change d with v end.
      match goal with |- grows _ _ _ _ ?d _ => pose (dp1 := d); change d with dp1 end.
      eapply (grows_S _ _ _ _ dp1).
      * intros I k Hin. cbn in Hin. repeat (destruct Hin as [E|Hin]; [injection E as <- <-; lia|]). contradiction.
      * vm_compute. reflexivity.
      * eapply (S dp1); [| |vm_compute; reflexivity].
        -- unfold dp1. repeat constructor; cbn; intuition congruence.
        -- intros I k Hin. cbn in Hin. repeat (destruct Hin as [E|Hin]; [injection E as <- <-; split; [mult_tac|lia]|]). contradiction.
      * match goal with |- grows _ _ _ _ ?d _ => let v := eval vm_compute in d in change d with v end. constructor.
  - discriminate.
Qed.

Lemma tasks_descending_correct sh dp tasks : In sh shipped -> NoDup tasks ->
  (forall J n, In (J, n) dp -> multiplet (sh_sym sh) J /\ 0 <= n <= 1000000) -> Forall (admissible (ts (sh_sym sh))) tasks ->
  exists l, tasks_descending (sh_sym sh) (sh_combs sh) (sh_tab sh) dp tasks = Ok l /\ Permutation tasks (map snd l) /\
    StronglySorted (fun p q => fst q < fst p \/ (fst p = fst q /\ invar_ltb (snd q) (snd p) = true)) l /\
    (forall n I, In (n, I) l -> exists anc d, ancestors (sh_sym sh) (sh_combs sh) (sh_tab sh) I = Ok anc /\
        mk_subdims (sh_sym sh) (sh_combs sh) (sh_tab sh) dp I anc = Ok d /\ n = zsum (sd_dims d)).
Proof.
  intros Hsh Hn Hdp Ht. unfold tasks_descending.
  set (g := fun I => (zsum (dims_p sh dp I), I)).
  assert (Hb : forall J, 0 <= zsum (dims_p sh dp J) < 2 ^ 31).
  { intros J. split; [apply zsum_nonneg; intros x Hx; apply (dims_p_bounds sh Hsh dp Hdp) in Hx; lia|].
    pose proof (zsum_bound (dims_p sh dp J) 1000000 ltac:(lia) (fun x Hx => proj2 (dims_p_bounds sh Hsh dp Hdp J x Hx))) as Hz.
    assert (E : List.length (dims_p sh dp J) = sh_combs sh).
    { unfold dims_p. rewrite map_length, combine_length. destruct (shipped_ok sh Hsh) as (L1 & L2 & _). lia. }
    rewrite E in Hz. pose proof (combs_small sh Hsh). change (2 ^ 31) with 2147483648. lia. }
  rewrite (mapM_ok _ g).
  2:{ intros I HI. rewrite Forall_forall in Ht. destruct (subdims_pure sh Hsh dp Hdp I (Ht _ HI)) as (anc & E1 & E2).
      rewrite E1. cbn [bind]. rewrite E2. cbn [bind sd_dims]. rewrite (dims_p_total sh Hsh dp Hdp).
      rewrite to_size_id; [reflexivity|]. pose proof (Hb I). unfold two64. change (2 ^ 31) with 2147483648 in *. change (2 ^ 64) with 18446744073709551616. lia. }
  cbn [bind]. eexists. split; [reflexivity|].
  assert (Hnd : NoDup (map g tasks)).
  { apply (NoDup_map_inv snd). rewrite map_map. cbn [snd g]. rewrite map_id. auto. }
  pose proof (sort_desc_perm (map g tasks)) as HP. split; [|split].
  - apply (Permutation_map snd) in HP. rewrite map_map in HP. cbn [snd g] in HP. rewrite map_id in HP. exact HP.
  - eapply ss_impl_in; [|apply sort_desc_sorted; exact Hnd]. intros [a I] [b J] _ _ H. unfold gtP, pair_gt in H. cbn [fst snd] in *.
    destruct (b <? a) eqn:E1; [apply Z.ltb_lt in E1; auto|]. destruct (a <? b) eqn:E2; [discriminate|]. apply Z.ltb_ge in E1, E2. right. split; [lia|auto].
  - intros n I Hin. eapply Permutation_in in Hin; [|symmetry; exact HP]. apply in_map_iff in Hin as (J & E & HJ). unfold g in E. injection E as <- ->.
    rewrite Forall_forall in Ht. destruct (subdims_pure sh Hsh dp Hdp I (Ht _ HJ)) as (anc & E1 & E2). eexists _, _. split; [exact E1|]. split; [exact E2|]. reflexivity.
Qed.
