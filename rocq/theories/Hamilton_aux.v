(** A concrete case for Hamilton_props (charge and spin conservation, one channel, sector (0,2)) and the shipped table of the
    total-angular-momentum symmetry with the indices its code uses. *)
From Coq Require Import List ZArith Lia String.
From Verif Require Import Base Invar_model Invar_spec Invar_proofs Symmetry_model Symmetry_spec Symmetry_tables Symmetry_proofs
  Subspaces_model Subspaces_spec Subspaces_proofs Sectors_aux Density_model Recalc_model Hamilton_pos Hamilton_model Hamilton_spec Hamilton_step.
From mathcomp Require Import ssreflect ssrfun ssrbool eqtype ssrnat seq fintype bigop ssralg order ssrnum.
Import GRing.Theory Num.Theory.
Local Open Scope ring_scope.
Set Implicit Arguments.
Unset Strict Implicit.
Unset Printing Implicit Defensive.

Definition ham_sh : shipped_table := the_table "QS" 1.
Definition ham_J : invar := cons 0%Z (cons 2%Z nil).
Definition ham_A (q s : Z) : invar := cons q (cons s nil).

Section Case.
  Variable C : numClosedFieldType.
  (** Four ancestors with 1, 2, 1 and 1 states. *)
  Definition ham_prev : list (invar * (nat * list C)) :=
    cons (ham_A (-1) 2, (1%N, cons 7%:R nil)) (cons (ham_A 0 1, (2%N, cons 1 (cons 2%:R nil)))
      (cons (ham_A 0 3, (1%N, cons 3%:R (cons 4%:R nil))) (cons (ham_A 1 2, (1%N, cons 0 nil)) nil))).
  Definition ham_f : list ((invar * invar) * fmat C) :=
    cons ((ham_A 1 2, ham_A 0 1), Fmat 1 2 (fun _ b => b.+1%:R)) (cons ((ham_A (-1) 2, ham_A 0 3), Fmat 1 1 (fun _ _ => 'i)) nil).
  Definition ham_opch : opch_t C := cons (cons ham_f nil) nil.
  Definition ham_calls : list (call C) :=
    cons (COffdiag 1 2 0 0 (Some 2%:R)) (cons (COffdiag 4 3 0 0 (Some 3%:R)) (cons (CDiag 2 1 5%:R 1) (cons (CDiagOff 1 4 6%:R) nil))).

  Lemma ham_case : List.In ham_sh shipped /\ admissible (ts (sh_sym ham_sh)) ham_J /\ spectra C ham_prev /\
    (forall A x, List.In (A, x) ham_prev -> multiplet (sh_sym ham_sh) A) /\
    exists d anc, ancestors (sh_sym ham_sh) (sh_combs ham_sh) (sh_tab ham_sh) ham_J = Ok anc /\
      mk_subdims (sh_sym ham_sh) (sh_combs ham_sh) (sh_tab ham_sh) (List.map (fun p => (fst p, Z.of_nat (fst (snd p)))) ham_prev) ham_J anc =
        Ok {| sd_dims := d; sd_anc := anc |} /\ d = cons 1%Z (cons 2%Z (cons 1%Z (cons 1%Z nil))) /\
      (forall c, List.In c ham_calls -> acceptable C d anc ham_opch c) /\
      term C 1 2 anc ham_opch (COffdiag 1 2 0 0 (Some 2%:R)) 0 0 1 1 = 4%:R /\
      term C 1 2 anc ham_opch (COffdiag 4 3 0 0 (Some 3%:R)) 2 0 3 0 = - (3%:R * 'i).
  Proof.
    have Hin : List.In ham_sh shipped by apply (the_table_in "QS" 1); vm_compute.
    split; [exact Hin|]. split.
    { repeat constructor. }
    split.
    { split.
      - apply (NoDup_count_occ' (List.list_eq_dec Z.eq_dec)). by move=> x H; repeat (destruct H as [<-|H]; [by vm_compute|]).
      - move=> A n e H. rewrite /= in H. by repeat (destruct H as [H|H]; [injection H => <- <- _; rewrite /=; lia|]). }
    split.
    { move=> A x H. rewrite /= in H.
      have M : forall q m, (1 <= m)%Z -> multiplet (sh_sym ham_sh) (ham_A q m).
      { move=> q m Hq. split; [repeat constructor|]. move=> k n y Hk Hg. destruct Hk as [Hk|[]]. injection Hk => Ek En. subst k n.
        cbn in Hg. injection Hg => Ey. by subst y. }
      by repeat (destruct H as [H|H]; [injection H => _ <-; apply M; lia|]). }
    exists (cons 1%Z (cons 2%Z (cons 1%Z (cons 1%Z nil)))), (cons (ham_A 1 2) (cons (ham_A 0 1) (cons (ham_A 0 3) (cons (ham_A (-1) 2) nil)))).
    split; [by vm_compute|]. split; [by vm_compute|]. split; [done|]. split.
    { move=> c H. rewrite /ham_calls in H. cbn [List.In] in H.
      destruct H as [<-|[<-|[<-|[<-|[]]]]]; rewrite /acceptable /block_number /=.
      - do 3 (split; [lia|]). move=> _ _. split; [by eexists|]. by eexists; split; [reflexivity|].
      - do 3 (split; [lia|]). move=> _ _. split; [by eexists|]. by eexists; split; [reflexivity|].
      - lia.
      - split; [lia|]. split; [lia|]. done. }
    split.
    - rewrite /= /plus_adjoint /=. by rewrite divr1 conjC0 addr0 -natrM.
    - rewrite /= /plus_adjoint /=. rewrite divr1 add0r rmorphM rmorph_nat conjCi. by rewrite mulrN.
  Qed.
End Case.

(** ** The index slip of the total-angular-momentum symmetry *)
Definition qj_sh : shipped_table := the_table "QJ" 3.
Lemma qj_in : List.In qj_sh shipped.
Proof. by apply (the_table_in "QJ" 3); vm_compute. Qed.
Lemma qj_len : Logic.eq (List.length (tb_In (sh_tab qj_sh))) 64%N.
Proof. by vm_compute. Qed.
(** sym-QJ-impl.hpp:89 *)
Definition qj_f (ch : nat) : invar := match ch with O => cons 1%Z (cons 2%Z nil) | _ => cons 1%Z (cons 4%Z nil) end.

Section QJ.
  Variable C : numClosedFieldType.
  Variables (scale : C) (d : list Z) (anc : list invar) (opch : opch_t C) (J : invar).
  Hypothesis HJ : admissible (ts (sh_sym qj_sh)) J.
  Hypothesis Hanc : ancestors (sh_sym qj_sh) (sh_combs qj_sh) (sh_tab qj_sh) J = Ok anc.

  Lemma qj_anc : anc = List.map (fun x => combp (ts (sh_sym qj_sh)) x J) (tb_In (sh_tab qj_sh)).
  Proof.
    destruct (shipped_ok qj_sh qj_in) as (L1 & L2 & A1 & _).
    have H := ancestors_pure (sh_sym qj_sh) (sh_combs qj_sh) (sh_tab qj_sh) L1 L2 A1 J HJ. rewrite Hanc in H. by injection H.
  Qed.
  Lemma qj_last ch fnr factor (h : fmat C) : offdiag_QJ scale d anc opch (sh_sym qj_sh) qj_f 58 64 ch fnr factor h = UB.
  Proof.
    rewrite /offdiag_QJ. have -> : List.nth_error anc (Z.to_nat 64) = None.
    { apply List.nth_error_None. rewrite qj_anc List.map_length qj_len. by vm_compute. }
    by case: (List.nth_error anc (Z.to_nat 58)).
  Qed.
  Lemma qj_shape : exists q j, J = cons q (cons j nil).
  Proof.
    move: HJ. rewrite /admissible /=. move=> H. inversion H as [|a1 b1 l1 m1 Ha Hf]; subst. inversion Hf as [|a2 b2 l2 m2 Ha2 Hf2]; subst.
    inversion Hf2; subst. by exists b1, b2.
  Qed.
  Lemma qj_first fnr factor (h : fmat C) : offdiag_QJ scale d anc opch (sh_sym qj_sh) qj_f 1 2 0 fnr factor h = Ok h.
  Proof.
    have [q [j E]] := qj_shape. rewrite /offdiag_QJ qj_anc E.
    change (Z.to_nat 1) with 1%N. change (Z.to_nat 2) with 2%N.
    change (tb_In (sh_tab qj_sh)) with qj_In. change (sh_sym qj_sh) with sym_QJ. rewrite /qj_In. cbn [List.map List.nth_error].
    have -> : triangle sym_QJ (combp (ts sym_QJ) (cons 2%Z (cons (-1)%Z nil)) (cons q (cons j nil)))
      (combp (ts sym_QJ) (cons 2%Z (cons 1%Z nil)) (cons q (cons j nil))) (qj_f 0) = Ok false.
    { rewrite /triangle /tri_of. cbn -[Z.add Z.eqb]. rewrite /u1_equality. by have -> : (2 + q =? 2 + q + 1)%Z = false by apply Z.eqb_neq; lia. }
    done.
  Qed.
  Lemma qj_true : (2 <= List.nth 1 J 0)%Z -> exists A B, List.nth_error anc 0 = Some A /\ List.nth_error anc 1 = Some B /\
    triangle (sh_sym qj_sh) A B (qj_f 0) = Ok true.
  Proof.
    have [q [j E]] := qj_shape. rewrite qj_anc E => /= Hj. change (tb_In (sh_tab qj_sh)) with qj_In.
    change (sh_sym qj_sh) with sym_QJ. rewrite /qj_In. cbn [List.map List.nth_error]. do 2 eexists. do 2 (split; [reflexivity|]).
    rewrite /triangle /tri_of. cbn -[Z.add Z.eqb]. rewrite /u1_equality.
    have -> : (3 + q =? 2 + q + 1)%Z = true by apply Z.eqb_eq; lia. rewrite /su2_triangle_inequality.
    have -> : (Z.abs (0 + j - (-1 + j)) <=? 2 - 1)%Z = true by apply Z.leb_le; lia.
    have -> : (Z.abs (-1 + j - 2) <=? 0 + j - 1)%Z = true by apply Z.leb_le; lia.
    by have -> : (Z.abs (2 - (0 + j)) <=? -1 + j - 1)%Z = true by apply Z.leb_le; lia.
  Qed.
End QJ.
