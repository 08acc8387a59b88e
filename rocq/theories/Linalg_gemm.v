(** Proofs for C61: products through BLAS. *)
From Coq Require Import List ZArith Lia.
From Verif Require Import Base Invar_model Symmetry_model Subspaces_model Density_model Linalg_model Linalg_spec Cring.
From mathcomp Require Import ssreflect ssrfun ssrbool eqtype ssrnat seq div fintype bigop ssralg order ssrnum.
Import GRing.Theory Num.Theory.
Local Open Scope ring_scope.
Set Implicit Arguments.
Unset Strict Implicit.
Unset Printing Implicit Defensive.

Section Gemm.
  Variable C : numClosedFieldType.
  Variable imax : Z.
  Add Ring Cr : (field_ring C).

  Lemma blas_int_ok n : (Z.of_nat n <= imax)%Z -> blas_int imax n = Ok n.
  Proof. rewrite /blas_int => H. by have -> : (imax <? Z.of_nat n)%Z = false by apply Z.ltb_ge. Qed.

  Lemma idx_mod ld i j : (j < ld)%N -> ((i * ld + j) %% ld = j)%N.
  Proof. move=> H. by rewrite modnMDl modn_small. Qed.
  Lemma idx_div ld i j : (j < ld)%N -> ((i * ld + j) %/ ld = i)%N.
  Proof. move=> H. rewrite divnMDl ?divn_small ?addn0 //. exact: leq_ltn_trans H. Qed.

  Lemma v_set_become (c : view C) d f :
    laid_out c ->
    (forall i j, (i < v_rows c)%N -> (j < v_cols c)%N -> d (i * v_ld c + j)%N = f i j) ->
    (forall p, ~~ ((p %% v_ld c < v_cols c)%N && (p %/ v_ld c < v_rows c)%N) -> d p = v_data c p) ->
    (0 < v_ld c)%N ->
    elements_become c (v_set c d) f.
  Proof.
    move=> L Hin Hout L0. split => //. split.
    - move=> i j Hi Hj. rewrite /v_el /v_at /=. rewrite ltnNge leq_addr /= addKn. exact: Hin.
    - move=> p Hp /=. case E: (p < v_off c)%N => //.
      have Hle : (v_off c <= p)%N by rewrite leqNgt E.
      rewrite Hout; first by rewrite /v_data subnKC.
      apply/negP => /andP [H1 H2].
      apply: (Hp _ _ H2 H1). by rewrite /v_at -divn_eq subnKC.
  Qed.

  Lemma op_swap t (v : view C) i l : op_at t (v_data v) (v_ld v) i l = op_el t v l i.
  Proof.
    rewrite /op_at /op_el /v_el /v_at /v_data. by case: t; rewrite ?[(i + _)%N]addnC ?[(l + _)%N]addnC.
  Qed.

  Theorem gemm_correct alpha A tA B tB beta (c : view C) :
    laid_out A -> laid_out B -> laid_out c -> small imax A -> small imax B -> small imax c ->
    op_cols tA A = op_rows tB B -> v_rows c = op_rows tA A -> v_cols c = op_cols tB B ->
    exists c', gemm_rowmajor imax alpha A tA B tB beta c = Ok c' /\
      elements_become c c' (fun i j => alpha * (\sum_(l < op_cols tA A) op_el tA A i l * op_el tB B l j) + beta * v_el c i j).
  Proof.
    move=> LA LB LC [SA1 [SA2 SA3]] [SB1 [SB2 SB3]] [SC1 [SC2 SC3]] Hk Hm Hn.
    have Em : (if is_none tA then v_rows A else v_cols A) = op_rows tA A by case: (tA).
    have Ek : (if is_none tA then v_cols A else v_rows A) = op_cols tA A by case: (tA).
    have Ebk : (if is_none tB then v_rows B else v_cols B) = op_rows tB B by case: (tB).
    have En : (if is_none tB then v_cols B else v_rows B) = op_cols tB B by case: (tB).
    rewrite /gemm_rowmajor Em Ek Ebk En Hk eqxx /= Hm Hn !eqxx /=.
    case E0: ((op_rows tA A == 0%N) || (op_cols tB B == 0%N)).
      exists c. split => //. split => //. split => // i j Hi Hj. exfalso.
      rewrite -Hm -Hn in E0. by case/orP: E0 => /eqP E; [rewrite E in Hi | rewrite E in Hj].
    have [Pm Pn] : (0 < v_rows c)%N /\ (0 < v_cols c)%N.
      move/norP: E0 => [/eqP H1 /eqP H2]. split; rewrite lt0n; apply/eqP; congruence.
    have Lc : (0 < v_ld c)%N by apply: leq_trans Pn LC.
    case K0: (op_rows tB B == 0%N).
      eexists. split; first reflexivity. apply: v_set_become => //.
      - move=> i j Hi Hj. have Hj' : (j < v_ld c)%N by apply: leq_trans Hj LC.
        rewrite idx_mod // idx_div // -Hm -Hn Hi Hj /= /v_data -/(v_at c i j) -/(v_el c i j).
        rewrite (eqP K0) big_ord0 mulr0 add0r.
        case: eqP => [-> | _]; first by rewrite mul0r. by rewrite mulrC.
      - move=> p. rewrite -Hm -Hn. by move=> /negbTE ->.
    rewrite (blas_int_ok (n := op_rows tA A)); last by rewrite -Hm.
    rewrite /= (blas_int_ok (n := op_cols tB B)); last by rewrite -Hn.
    rewrite /= (blas_int_ok (n := op_rows tB B)); last by case: (tB).
    rewrite /= !blas_int_ok //= /xgemm.
    have -> : (v_ld B < maxn 1 (if is_none tB then op_cols tB B else op_rows tB B))%N = false.
      apply/negbTE. rewrite -leqNgt geq_max.
      have -> : (if is_none tB then op_cols tB B else op_rows tB B) = v_cols B by case: (tB).
      rewrite LB andbT. move: LB E0 K0 Hn Pn. rewrite /laid_out.
      case: (v_ld B) => // LB'. have Z0 : v_cols B = 0%N by apply/eqP; rewrite -leqn0.
      case: (tB) => /= E0 K0 Hn Pn.
      - by rewrite Hn Z0 in Pn.
      - by rewrite Z0 in K0.
      - by rewrite Z0 in K0.
    have -> : (v_ld A < maxn 1 (if is_none tA then op_rows tB B else op_rows tA A))%N = false.
      apply/negbTE. rewrite -leqNgt geq_max -Hk.
      have -> : (if is_none tA then op_cols tA A else op_rows tA A) = v_cols A by case: (tA).
      rewrite LA andbT. move: LA K0 Hm Pm Hk. rewrite /laid_out.
      case: (v_ld A) => // LA'. have Z0 : v_cols A = 0%N by apply/eqP; rewrite -leqn0.
      case: (tA) => /= K0 Hm Pm Hk.
      - by rewrite -Hk Z0 in K0.
      - by rewrite Hm Z0 in Pm.
      - by rewrite Hm Z0 in Pm.
    have -> : (v_ld c < maxn 1 (op_cols tB B))%N = false.
      apply/negbTE. by rewrite -leqNgt geq_max Lc -Hn.
    rewrite /=. eexists. split; first reflexivity. apply: v_set_become => //.
    - move=> i j Hi Hj. have Hj' : (j < v_ld c)%N by apply: leq_trans Hj LC.
      rewrite idx_mod // idx_div // -Hm -Hn Hi Hj /= /v_data -/(v_at c i j) -/(v_el c i j).
      have -> : \sum_(l < op_rows tB B) op_at tB (v_data B) (v_ld B) j l * op_at tA (v_data A) (v_ld A) l i =
                \sum_(l < op_rows tB B) op_el tA A i l * op_el tB B l j.
        apply: eq_bigr => l _. rewrite !op_swap mulrC. done.
      case: eqP => [-> | _] //. by rewrite mul0r addr0.
    - move=> p. rewrite -Hm -Hn. by move=> /negbTE ->.
  Qed.

  Lemma become_ext (c c' : view C) f g :
    (forall i j, (i < v_rows c)%N -> (j < v_cols c)%N -> f i j = g i j) -> elements_become c c' f -> elements_become c c' g.
  Proof. move=> E [? ? ? ? [H1 H2]]. split => //. split => // i j Hi Hj. by rewrite H1 // E. Qed.

  Lemma fin_true (v : view C) : (0 < v_rows v)%N -> (0 < v_cols v)%N -> finite_size v.
  Proof. by rewrite /finite_size !lt0n => -> ->. Qed.

  Lemma sum_empty (v : view C) : (v_rows v = 0 \/ v_cols v = 0)%N -> finite_size v = false.
  Proof. rewrite /finite_size. by case=> ->; rewrite ?andbF. Qed.

  Lemma not_fin (v : view C) : finite_size v = false -> (0 < v_rows v)%N -> v_cols v = 0%N.
  Proof. rewrite /finite_size lt0n. move=> H E. rewrite E /= in H. by apply/eqP; move/negbFE: H. Qed.

  (** M += f A B^+. *)
  Theorem product_correct (M A B : view C) f :
    laid_out A -> laid_out B -> laid_out M -> small imax A -> small imax B -> small imax M ->
    v_cols A = v_cols B -> v_rows M = v_rows A -> v_cols M = v_rows B ->
    exists M', product_Eigen imax M f A B = Ok M' /\
      elements_become M M' (fun i j => v_el M i j + f * \sum_(l < v_cols A) v_el A i l * (v_el B j l)^*).
  Proof.
    move=> LA LB LM SA SB SM Hk Hm Hn. rewrite /product_Eigen.
    case F: (finite_size A && finite_size B).
    - rewrite Hm Hk Hn !eqxx /=.
      have [M' [E H]] := @gemm_correct f A NoTrans B ConjTrans 1 M LA LB LM SA SB SM Hk Hm Hn.
      exists M'. split => //. apply: become_ext H => i j Hi Hj /=. by rewrite mul1r addrC Hk.
    - exists M. split => //. split => //. split => // i j Hi Hj.
      rewrite Hm in Hi. rewrite Hn in Hj.
      have PA : (0 < v_rows A)%N by apply: leq_ltn_trans Hi.
      have PB : (0 < v_rows B)%N by apply: leq_ltn_trans Hj.
      have Ek : v_cols A = 0%N.
        move/negbT/nandP: F => [] /negbTE F; have Z0 := not_fin F; [exact: Z0 | rewrite Hk; exact: Z0].
      rewrite Ek big_ord0. by rewrite mulr0 addr0.
  Qed.

  Lemma fresh_laid junk r k : laid_out (@fresh C junk r k).
  Proof. by rewrite /laid_out. Qed.

  (** M += f A O B^+. *)
  Theorem transform_correct junk (M A O B : view C) f :
    laid_out A -> laid_out O -> laid_out B -> laid_out M -> small imax A -> small imax O -> small imax B -> small imax M ->
    v_cols A = v_rows O -> v_cols O = v_cols B -> v_rows M = v_rows A -> v_cols M = v_rows B ->
    exists M', transform_Eigen imax junk M f A O B = Ok M' /\
      elements_become M M' (fun i j => v_el M i j + f * \sum_(b < v_cols O) (\sum_(a < v_rows O) v_el A i a * v_el O a b) * (v_el B j b)^*).
  Proof.
    move=> LA LO LB LM SA SO SB SM Hk Hl Hm Hn. rewrite /transform_Eigen.
    case F: (finite_size A && finite_size B).
    - rewrite Hm Hk Hl Hn !eqxx /=.
      have ST : small imax (fresh junk (v_rows A) (v_cols B)) by case: SA => ? [? ?]; case: SB => ? [? ?]; split.
      have [T [ET [T1 T2 T3 T4 [T5 T6]]]] := @gemm_correct 1 A NoTrans O NoTrans 0 (fresh junk (v_rows A) (v_cols B)) LA LO (fresh_laid _ _ _) SA SO ST Hk erefl (esym Hl).
      rewrite /gemm_nn ET /=. rewrite /= in T1 T2 T3 T4.
      have LT : laid_out T by rewrite /laid_out T2 T3.
      have ST' : small imax T by rewrite /small T1 T2 T3.
      have [M' [E H]] := @gemm_correct f T NoTrans B ConjTrans 1 M LT LB LM ST' SB SM T2 (etrans Hm (esym T1)) Hn.
      exists M'. split => //. apply: become_ext H => i j Hi Hj /=. rewrite mul1r addrC. congr (_ + f * _).
      rewrite T2. apply: eq_bigr => b _. congr (_ * _).
      rewrite Hm in Hi. rewrite T5 //=. rewrite mul1r mul0r addr0 Hk. done.
    - exists M. split => //. split => //. split => // i j Hi Hj.
      rewrite Hm in Hi. rewrite Hn in Hj.
      have PA : (0 < v_rows A)%N by apply: leq_ltn_trans Hi.
      have PB : (0 < v_rows B)%N by apply: leq_ltn_trans Hj.
      suff -> : \sum_(b < v_cols O) (\sum_(a < v_rows O) v_el A i a * v_el O a b) * (v_el B j b)^* = 0 by rewrite mulr0 addr0.
      move/negbT/nandP: F => [] /negbTE F; have Z0 := not_fin F.
      + apply: big1 => b _. rewrite -Hk Z0 // big_ord0 mul0r. done.
      + rewrite Hl Z0 // big_ord0. done.
  Qed.

  (** rotate and rotate_diagonal give what Density_model says. *)
  Theorem rotate_correct junk (M U O : view C) f :
    laid_out U -> laid_out O -> laid_out M -> small imax U -> small imax O -> small imax M ->
    v_rows U = v_rows O -> v_cols O = v_rows U -> v_rows M = v_cols U -> v_cols M = v_cols U ->
    exists M' R, rotate_blas imax junk M f U O = Ok M' /\ rotate (matrix_of M) f (matrix_of U) (matrix_of O) = Ok R /\
      elements_become M M' (f_el R).
  Proof.
    move=> LU LO LM SU SO SM Hk Hl Hm Hn. rewrite /rotate_blas /rotate /=.
    have FE : finite_size U = (0 < v_rows U)%N && (0 < v_cols U)%N by rewrite /finite_size !lt0n.
    rewrite -FE. case F: (finite_size U).
    - rewrite Hm -Hk Hl Hn !eqxx /=.
      have ST : small imax (fresh junk (v_cols U) (v_rows U)) by case: SU => ? [? ?]; split.
      have [T [ET [T1 T2 T3 T4 [T5 T6]]]] := @gemm_correct 1 U ConjTrans O NoTrans 0 (fresh junk (v_cols U) (v_rows U)) LU LO (fresh_laid _ _ _) SU SO ST Hk erefl (esym Hl).
      rewrite /gemm_hn ET /=. rewrite /= in T1 T2 T3 T4.
      have LT : laid_out T by rewrite /laid_out T2 T3.
      have ST' : small imax T by rewrite /small T1 T2 T3.
      have [M' [E H]] := @gemm_correct f T NoTrans U NoTrans 1 M LT LU LM ST' SU SM T2 (etrans Hm (esym T1)) Hn.
      exists M'. eexists. split; last split. exact: E. reflexivity.
      apply: become_ext H => i j Hi Hj /=. rewrite mul1r addrC. congr (_ + f * _).
      rewrite T2. apply: eq_bigr => b _. congr (_ * _).
      rewrite Hm in Hi. rewrite T5 //=. rewrite mul1r mul0r addr0. done.
    - exists M. eexists. by split.
  Qed.

  Theorem rotate_diagonal_correct (M U O : view C) f :
    laid_out U -> laid_out M -> small imax U -> small imax M ->
    v_rows U = v_rows O -> v_cols O = v_rows U -> v_rows M = v_cols U -> v_cols M = v_cols U ->
    exists M' R, rotate_diagonal_blas imax M f U O = Ok M' /\ rotate_diagonal (matrix_of M) f (matrix_of U) (matrix_of O) = Ok R /\
      elements_become M M' (f_el R).
  Proof.
    move=> LU LM SU SM Hk Hl Hm Hn. rewrite /rotate_diagonal_blas /rotate_diagonal /=.
    have FE : finite_size U = (0 < v_rows U)%N && (0 < v_cols U)%N by rewrite /finite_size !lt0n.
    rewrite -FE. case F: (finite_size U).
    - rewrite Hm -Hk Hl Hn !eqxx /=.
      set T := View _ _ _ _ _.
      have LT : laid_out T by rewrite /laid_out /T /=.
      have ST : small imax T by rewrite /T; case: SU => ? [? ?]; split => //=; rewrite -?Hk.
      have HkT : op_cols ConjTrans U = op_rows NoTrans T by rewrite /T /= -?Hk.
      have [M' [E H]] := @gemm_correct f U ConjTrans T NoTrans 1 M LU LT LM SU ST SM HkT Hm Hn.
      exists M'. eexists. split; last split. exact: E. reflexivity.
      apply: become_ext H => i j Hi Hj /=. rewrite mul1r addrC. congr (_ + f * _). rewrite Hk.
      apply: eq_bigr => b _. congr (_ * _).
      rewrite Hn in Hj. rewrite /T /v_el /v_at /= add0n idx_div // idx_mod //.
    - exists M. eexists. by split.
  Qed.

  (** Factors that do not fit together, or sizes BLAS cannot take, end with an exception. *)
  Theorem gemm_refuses alpha A tA B tB beta (c : view C) :
    op_cols tA A <> op_rows tB B \/
    ((0 < v_rows c)%N /\ (0 < v_cols c)%N /\ (0 < op_cols tA A)%N /\ v_rows c = op_rows tA A /\ v_cols c = op_cols tB B /\
     (~ small imax A \/ ~ small imax B \/ ~ small imax c)) ->
    gemm_rowmajor imax alpha A tA B tB beta c = Throw.
  Proof.
    have Em : (if is_none tA then v_rows A else v_cols A) = op_rows tA A by case: (tA).
    have Ek : (if is_none tA then v_cols A else v_rows A) = op_cols tA A by case: (tA).
    have Ebk : (if is_none tB then v_rows B else v_cols B) = op_rows tB B by case: (tB).
    have En : (if is_none tB then v_cols B else v_rows B) = op_cols tB B by case: (tB).
    rewrite /gemm_rowmajor Em Ek Ebk En. case: eqP => [Hk | //] [// | [Pm [Pn [Pk [Hm [Hn S]]]]]] /=.
    rewrite Hm Hn !eqxx /=. rewrite Hm in Pm. rewrite Hn in Pn. rewrite !eqn0Ngt Pm Pn Pk /=.
    have BI : forall n, (Z.of_nat n <= imax)%Z \/ blas_int imax n = Throw.
      move=> n. rewrite /blas_int. case E: (imax <? Z.of_nat n)%Z; [by right | left; exact/Z.ltb_ge].
    case: (BI (op_rows tA A)) => [B1 | -> //]. rewrite (blas_int_ok B1) /=.
    case: (BI (op_cols tB B)) => [B2 | -> //]. rewrite (blas_int_ok B2) /=.
    case: (BI (op_cols tA A)) => [B3 | -> //]. rewrite (blas_int_ok B3) /=.
    case: (BI (v_ld A)) => [B4 | -> //]. rewrite (blas_int_ok B4) /=.
    case: (BI (v_ld B)) => [B5 | -> //]. rewrite (blas_int_ok B5) /=.
    case: (BI (v_ld c)) => [B6 | -> //]. exfalso.
    have B3' : (Z.of_nat (op_rows tB B) <= imax)%Z by rewrite -Hk.
    case: S => [S | [S | S]]; apply: S; rewrite /small ?Hm ?Hn.
    - by case: (tA) B1 B3.
    - by case: (tB) B2 B3'.
    - by [].
  Qed.
End Gemm.
