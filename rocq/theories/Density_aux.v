(** A concrete case for Density_props: spinless fermions, three steps, one state kept per sector, eigenvectors (3,4)/5 and
    (-4,3)/5 wherever two blocks meet. *)
From Coq Require Import List ZArith Lia String.
From Verif Require Import Base Invar_model Invar_spec Invar_proofs Symmetry_model Symmetry_spec Symmetry_tables Symmetry_proofs
  Subspaces_model Subspaces_spec Subspaces_proofs Subspaces_step Sectors_aux Density_struct Density_model Density_spec Density_sums
  Density_proofs Density_chain Density_fdm Density_expect.
From mathcomp Require Import ssreflect ssrfun ssrbool eqtype ssrnat seq fintype bigop ssralg order ssrnum.
Import GRing.Theory Num.Theory.
Local Open Scope ring_scope.
Set Implicit Arguments.
Unset Strict Implicit.
Unset Printing Implicit Defensive.

Definition case_sh : shipped_table := the_table "SL" 1.
Definition key (z : Z) : invar := cons z nil.
(** Sectors of the three steps: quantum number and sizes of the two blocks. *)
Definition case_sectors (N : nat) : list (Z * (nat * nat)) :=
  match N with
  | 0%N => [:: (0%Z, (1, 0)%N); (1%Z, (1, 0)%N)]
  | 1%N => [:: ((-1)%Z, (1, 0)%N); (0%Z, (1, 1)%N); (1%Z, (0, 1)%N)]
  | _ => [:: ((-2)%Z, (1, 0)%N); ((-1)%Z, (1, 1)%N); (0%Z, (1, 1)%N); (1%Z, (0, 1)%N)]
  end.
Definition case_sa (N : nat) : backsubs :=
  List.map (fun p => (key (fst p), Backsub (Z.of_nat (fst (snd p)) :: Z.of_nat (snd (snd p)) :: nil) 1 (fst (snd p) + snd (snd p)))) (case_sectors N).

Lemma case_fun N z d d' : In (z, d) (case_sectors N) -> In (z, d') (case_sectors N) -> d = d'.
Proof.
  destruct N as [|[|N]]; cbn; intros H H';
    repeat (destruct H as [H|H]; [injection H as <- <-; repeat (destruct H' as [H'|H']; [discriminate H' || (injection H' as <-; reflexivity)|]); contradiction|]); contradiction.
Qed.
Lemma case_blocks N z d : In (z, d) (case_sectors N) -> d = (1, 0)%N \/ d = (1, 1)%N \/ d = (0, 1)%N.
Proof. destruct N as [|[|N]]; cbn; intros H; repeat (destruct H as [H|H]; [injection H as _ <-; auto|]); contradiction. Qed.

Section Case.
  Variable C : numClosedFieldType.
  Definition col (a b : C) : fmat C := Fmat 2 1 (fun i _ => if i == 0%N then a else b).
  Definition one_block : fmat C := Fmat 1 1 (fun _ _ => 1).
  Definition no_block : fmat C := Fmat 1 0 (fun _ _ => 0).
  Definition case_eig (d : nat * nat) : eig C :=
    match d with
    | (1, 1)%N => Eig 2 [:: col (3%:R / 5%:R) (- (4%:R / 5%:R)); col (4%:R / 5%:R) (3%:R / 5%:R)]
    | (1, 0)%N => Eig 1 [:: one_block; no_block]
    | _ => Eig 1 [:: no_block; one_block]
    end.
  Definition case_df (N : nat) : diaginfo C := List.map (fun p => (key (fst p), case_eig (snd p))) (case_sectors N).
  Definition case_last : list (invar * last_eig C) := List.map (fun p => (key (fst p), LastEig 1 1 (fun _ => 1))) (case_sectors 2).
  Definition case_store (N : nat) : thermosubs C :=
    List.map (fun p => (key (fst p), Thermosub 1 (fst (snd p) + snd (snd p)) (N == 2)%N (fun _ => 1))) (case_sectors N).
  Definition case_wn (N : nat) : C := match N with 0%N => 0 | 1%N => 3%:R / 4%:R | _ => 1 / 4%:R end.

  Lemma two_squares : (3%:R / 5%:R) * (3%:R / 5%:R) + (4%:R / 5%:R) * (4%:R / 5%:R) = 1 :> C.
  Proof. rewrite !mulf_div -!natrM -mulrDl -natrD. apply: divff. by rewrite pnatr_eq0. Qed.
  Lemma conj_frac a b : (a%:R / b%:R : C)^* = a%:R / b%:R.
  Proof. by rewrite fmorph_div !rmorph_nat. Qed.

  Lemma case_orth d : orthonormal_rows (case_eig d).
  Proof.
    have H1 : forall U, (U = [:: one_block; no_block] \/ U = [:: no_block; one_block]) -> orthonormal_rows (Eig 1 U).
    { move=> U HU [|a] [|b] // _ _. by case: HU => -> /=; rewrite !big_cons big_nil /= !big_ord_recl !big_ord0 ?addr0 ?add0r conjC1 mulr1. }
    case: d => [[|[|a]] [|[|b]]] /=; try (by apply: H1; left); try (by apply: H1; right).
    move=> [|[|a]] [|[|b]] // _ _ /=; rewrite !big_cons big_nil /= !big_ord_recl !big_ord0 /= !addr0 ?rmorphN ?conj_frac ?mulrNN ?mulNr ?mulrN.
    - exact: two_squares.
    - by rewrite (mulrC (4%:R / 5%:R)) addNr.
    - by rewrite (mulrC (4%:R / 5%:R)) addNr.
    - by rewrite addrC two_squares.
  Qed.

  Lemma case_step N : (0 < N < 3)%N -> regular_step case_sh (case_sa (N - 1)) (case_sa N) (case_df N).
  Proof.
    move=> HN. set infos := List.map (fun p => (key (fst p), (1, fst (snd p) + snd (snd p)))%N) (case_sectors N).
    have [st [E1 [E2 E3]]] : exists st, mk_structure (sh_sym case_sh) (sh_combs case_sh) (sh_tab case_sh) (sizes_of (case_sa (N - 1))) = Ok st /\
       case_sa N = backiter_subs infos st /\ (forall J, In J (List.map fst infos) <-> In J (task_list st)).
    { case: N HN @infos => [|[|[|N]]] // _ infos; eexists; (split; first by vm_compute; reflexivity); (split; first by vm_compute; reflexivity); move=> J; vm_compute; tauto. }
    exists st, infos. split=> //. split=> //. split.
    { rewrite /infos List.map_map /=. case: N HN {infos E1 E2 E3} => [|[|[|N]]] // _; repeat constructor; cbn; intuition discriminate. }
    split=> //. split; first by rewrite /case_df /infos !List.map_map.
    move=> J e b /in_map_iff [[z d] [[<- <-] Hin]] /in_map_iff [[z' d'] [[Ez <-] Hin']]. subst z'.
    have -> : d' = d.
    exact: (case_fun Hin' Hin).
    have Hd : d = (1, 0)%N \/ d = (1, 1)%N \/ d = (0, 1)%N.
    exact: (case_blocks Hin).
    split; first by case: Hd => [->|[->|->]].
    split; first by case: Hd => [->|[->|->]].
    split; first by move=> u; case: Hd => [->|[->|->]] /= [<-|[<-|[]]].
    exact: case_orth.
  Qed.

  Lemma case_multiplet z : multiplet (sh_sym case_sh) (key z).
  Proof.
    split; last by move=> k n x; vm_compute => -[].
    by vm_compute; repeat constructor.
  Qed.
  Lemma case_first_pass : first_pass case_sh 0 3 case_df case_sa.
  Proof.
    split; first by case: (the_table_in "SL" 1); [vm_compute; reflexivity|]. split=> //. split.
    { by repeat constructor; cbn; intuition discriminate. }
    split.
    { move=> J b /in_map_iff [[z d] [[<- _] _]]. exact: case_multiplet. }
    split; last exact: case_step.
    move=> N J b _ /in_map_iff [[z d] [[_ <-] _]] /=. lia.
  Qed.
  Lemma case_last_step : last_step (case_sa 2) (fun _ => true) case_last.
  Proof.
    split; first by repeat constructor; cbn; intuition discriminate.
    split.
    - move=> J l /in_map_iff [[z d] [[<- <-] Hin]]. split; first by move=> i; exact: ltr01. split=> //.
      exists (Backsub (Z.of_nat (fst d) :: Z.of_nat (snd d) :: nil) 1 (fst d + snd d)). split=> //. by apply/in_map_iff; exists (z, d).
    - exists (key 0), (LastEig 1 1 (fun _ => 1)). split=> //. cbn. by right; right; left.
  Qed.
  Lemma case_fdm_data : fdm_data 0 3 case_df case_sa case_store case_wn.
  Proof.
    split; first by move=> N _; rewrite /case_store /case_sa !List.map_map.
    split; [|split].
    - move=> N J x HN /in_map_iff [[z d] [[<- <-] Hin]] /=. split; first by move=> i; exact: ltr01. split=> //.
      move=> e _ /in_map_iff [[z' d'] [[Ez <-] Hin']]. subst z'.
      have -> : d' = d.
      exact: (case_fun Hin' Hin).
      have Hd : d = (1, 0)%N \/ d = (1, 1)%N \/ d = (0, 1)%N.
      exact: (case_blocks Hin).
      by case: Hd => [->|[->|->]].
    - move=> N HN. case: N HN => [|[|[|N]]] HN; last by [].
      + by split; first exact: Order.POrderTheory.lexx.
      + split; first by rewrite /= divr_ge0 ?ler0n.
        move=> /(_ (key 0) (Thermosub 1 2 false (fun _ => 1))) H. have : (2 <= 1)%N by apply: H; right; left. by [].
      + split; first by rewrite /= divr_ge0 ?ler0n ?ler01.
        move=> /(_ (key 0) (Thermosub 1 2 true (fun _ => 1))) H. have : (2 <= 0)%N by apply: H; right; right; left. by [].
    - by rewrite /= divr_gt0 ?ltr01 ?ltr0n.
  Qed.

  Lemma case_C20 : first_pass case_sh 0 3 case_df case_sa /\ last_step (case_sa 2) (fun _ => true) case_last /\
    exists J e, In (J, e) (case_df 1) /\ e_nrstored e = 2%N /\ exists b, In (J, b) (case_sa 1) /\ b_kept b = 1%N.
  Proof.
    split; first exact: case_first_pass. split; first exact: case_last_step.
    exists (key 0), (case_eig (1, 1)%N). split; first by right; left. split=> //. eexists. split; first by right; left. by [].
  Qed.
  Lemma case_C22 : first_pass case_sh 0 3 case_df case_sa /\ fdm_data 0 3 case_df case_sa case_store case_wn /\
    later_weight 3 case_wn 0 = 1 /\ later_weight 3 case_wn 1 = 1 / 4%:R /\ later_weight 3 case_wn 2 = 1 / 4%:R.
  Proof.
    split; first exact: case_first_pass. split; first exact: case_fdm_data. split; last split=> //.
    - rewrite /later_weight /= big_ltn // big_ltn // big_geq //= addr0 -mulrDl -(natrD _ 3 1). apply: divff. by rewrite pnatr_eq0.
    - by rewrite /later_weight /= big_ltn // big_geq //= addr0.
  Qed.
  Lemma case_C39 : carried case_sh (case_df 1) (fun J _ _ => if invar_eqb J (key 1) then 1 else 0) (key 0) 0 1 = - (12%:R / 25%:R).
  Proof.
    rewrite /carried. have -> : lookup (case_df 1) (key 0) = Some (case_eig (1, 1)%N) by [].
    have -> : ancestors (sh_sym case_sh) (sh_combs case_sh) (sh_tab case_sh) (key 0) = Ok [:: key 1; key 0] by vm_compute.
    rewrite /= !big_cons big_nil /= !big_ord_recl !big_ord0 /= !addr0 mulr0 mul0r addr0 mulr1 rmorphN conj_frac mulrN mulf_div -!natrM. by [].
  Qed.
End Case.
