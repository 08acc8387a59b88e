(** The statements about the shipped tables, from the checks that were evaluated. *)
From Coq Require Import List ZArith Reals Lia Bool String.
From Verif Require Import Base Invar_model Symmetry_model Coef_model Coef_spec Coef_sector Coef_sector_sound Coef_rows Coef_tables Coef_run_rows.
Import ListNotations.
Local Open Scope string_scope.
Local Open Scope list_scope.
Local Open Scope Z_scope.

Lemma rows_of : forall cs, In cs all_coef -> rows_irr cs = true /\ rows_ten cs = true /\ labels_kept cs = true /\ labels_lost cs = true.
Proof.
  intros cs H. pose proof rows_all as R. rewrite forallb_forall in R. specialize (R cs H). unfold check_rows in R. rewrite !andb_true_iff in R. tauto.
Qed.

Lemma new_site_rows : forall cs, In cs all_coef -> forall t, In t (cs_irr cs) ->
  NoDup (map fst (it_rows t)) /\
  forall Ip, sector cs Ip -> exists I1, sh_apply (it_shift t) Ip = Some I1 /\ List.length I1 = List.length Ip /\
    forall i k f, In (i, k, f) (it_rows t) -> family_index cs i /\ family_index cs k /\ same_states cs I1 i Ip k.
Proof. intros cs H. apply rows_irr_sound. apply rows_of. exact H. Qed.

Lemma operator_rows : forall cs, In cs all_coef -> cs_name cs <> "SPU1LR" -> forall t, In t (cs_ten cs) ->
  NoDup (map (fun r => fst (fst (fst r))) (tt_rows t)) /\
  forall I1, sector cs I1 -> exists Ip, sh_apply (tt_shift t) I1 = Some Ip /\ List.length Ip = List.length I1 /\
    forall i k s1 sp f, In (i, k, s1, sp, f) (tt_rows t) -> family_index cs i /\ family_index cs k /\
      exists A B, sh_apply s1 I1 = Some A /\ built_from cs I1 i = Some A /\ sh_apply sp I1 = Some B /\ built_from cs Ip k = Some B.
Proof. intros cs H. apply rows_ten_sound. apply rows_of. exact H. Qed.

Lemma operator_labels : forall cs, In cs all_coef -> forall t, In t (cs_ten cs) -> lost cs t = false -> forall I1, sector cs I1 ->
  spins_above cs 4 I1 -> table_used cs t I1.
Proof. intros cs H. apply labels_kept_sound. apply rows_of. exact H. Qed.

Definition short_shift (cs : coef_set) : bool :=
  negb (String.eqb (cs_name cs) "SPU1LR") ||
  forallb (fun t => negb (Nat.eqb (List.length (tt_shift t)) 0) && negb (Nat.eqb (List.length (tt_shift t)) (List.length (sy_sig (cs_sym cs))))) (cs_ten cs).
Lemma short_all : forallb short_shift all_coef = true.
Proof. vm_compute. reflexivity. Qed.
Lemma mapO_length : forall {A B} (f : A -> option B) l r, mapO f l = Some r -> List.length r = List.length l.
Proof. intros A B f l r H. apply mapO_Forall2 in H. symmetry. exact (Forall2_length _ _ _ H). Qed.

Lemma operators_lost : forall cs, In cs all_coef -> forall t, In t (cs_ten cs) -> lost cs t = true -> forall I1, sector cs I1 -> ~ table_used cs t I1.
Proof.
  intros cs H t Ht HL I1 S. destruct (string_dec (cs_name cs) "SPU1LR") as [E|N].
  - intros (Ip & A & L & _). pose proof short_all as R. rewrite forallb_forall in R. specialize (R cs H). unfold short_shift in R.
    rewrite E in R. change (String.eqb "SPU1LR" "SPU1LR") with true in R. cbn [negb orb] in R.
    rewrite forallb_forall in R. specialize (R t Ht). apply andb_true_iff in R. destruct R as [R1 R2]. apply negb_true_iff in R1, R2. apply Nat.eqb_neq in R1, R2.
    unfold sh_apply in A. destruct (tt_shift t) as [|s l]; [apply R1; reflexivity|]. apply mapO_length in A. congruence.
  - exact (labels_lost_sound cs (proj2 (proj2 (proj2 (rows_of cs H)))) N t Ht HL I1 S).
Qed.
