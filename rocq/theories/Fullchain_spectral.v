(** Every Hermitian matrix has a complete set of orthonormal eigenvectors: a diagonaliser that always answers exists. *)
From Coq Require Import List ZArith Lia ClassicalEpsilon.
From Verif Require Import Base Density_model Linalg_model Linalg_spec Linalg_diag Fullchain_model Fullchain_spec.
From mathcomp Require Import ssreflect ssrfun ssrbool eqtype ssrnat seq path fintype tuple finfun bigop order ssralg ssrnum matrix mxalgebra poly polydiv mxpoly perm.
Import GRing.Theory Num.Theory.
Local Open Scope ring_scope.

Section Spectral.
Variable C : numClosedFieldType.
Definition ctr {m n} (A : 'M[C]_(m, n)) : 'M[C]_(n, m) := (map_mx conjC A)^T.
Lemma ctrE {m n} (A : 'M[C]_(m, n)) i j : ctr A i j = (A j i)^*.
Proof. by rewrite !mxE. Qed.
Lemma ctrM {m n p} (A : 'M[C]_(m, n)) (B : 'M_(n, p)) : ctr (A *m B) = ctr B *m ctr A.
Proof. apply/matrixP => i j. rewrite ctrE !mxE rmorph_sum. apply eq_bigr => k _. by rewrite !ctrE rmorphM mulrC. Qed.
Lemma ctrK {m n} (A : 'M[C]_(m, n)) : ctr (ctr A) = A.
Proof. apply/matrixP => i j. by rewrite !ctrE conjCK. Qed.

Lemma normed {n} (v : 'rV[C]_n) : v != 0 -> exists c : C, c != 0 /\ (c *: v) *m ctr (c *: v) = 1%:M.
Proof.
  move=> Hv. have Hn : (v *m ctr v) ord0 ord0 = \sum_j `|v ord0 j| ^+ 2. { rewrite mxE. apply eq_bigr => j _. by rewrite ctrE -normCK. }
  set q := (v *m ctr v) ord0 ord0 in Hn. have Hq : 0 < q.
  { rewrite Hn. case/rV0Pn: Hv => i Hi. rewrite (bigD1 i) //=. apply: ltr_paddr; [apply: sumr_ge0 => j _; exact: exprn_ge0|]. by rewrite exprn_gt0 // normr_gt0. }
  have Hs : 0 < sqrtC q by rewrite sqrtC_gt0. exists (sqrtC q)^-1. split; [by rewrite invr_eq0 Order.POrderTheory.gt_eqF|].
  apply/matrixP => i j. rewrite !ord1 -scalemxAl mxE. have -> : ctr ((sqrtC q)^-1 *: v) = (sqrtC q)^-1 *: ctr v.
  { apply/matrixP => a b. rewrite !ctrE !mxE rmorphM. congr (_ * _). apply: geC0_conj. by rewrite invr_ge0 Order.POrderTheory.ltW. }
  rewrite -scalemxAr mxE -/q mxE eqxx mulrA -expr2 exprVn sqrtCK mulVf //. by rewrite Order.POrderTheory.gt_eqF.
Qed.

Lemma eigenvector r (B : 'M[C]_r) : (0 < r)%N -> exists (a : C) (x : 'rV[C]_r), x != 0 /\ x *m B = a *: x.
Proof.
  move=> Hr. have : size (char_poly B) != 1%N by rewrite size_char_poly; case: r Hr B.
  case/closed_rootP => a Ha. rewrite -eigenvalue_root_char in Ha. case/eigenvalueP: Ha => x Hx Hn. by exists a, x.
Qed.

Lemma partial n (A : 'M[C]_n) : ctr A = A -> forall k, (k <= n)%N ->
  exists (U : 'M[C]_(k, n)) (w : 'rV[C]_k), U *m A = diag_mx w *m U /\ U *m ctr U = 1%:M.
Proof.
  move=> HA. elim=> [|k IH] Hk; [exists 0, 0; split; apply/matrixP => - []//|].
  case: (IH (ltnW Hk)) => U [w [HU HO]].
  set K := kermx (ctr U). have Hrk : (0 < \rank K)%N. { rewrite /K mxrank_ker subn_gt0. apply: leq_ltn_trans Hk. exact: rank_leq_col. }
  have HKU : row_base K *m ctr U = 0. { apply/eqP. rewrite -sub_kermx. by rewrite eq_row_base. }
  have Hreal : ctr (diag_mx w) = diag_mx w.
  { have E : diag_mx w = U *m A *m ctr U by rewrite HU -mulmxA HO mulmx1. by rewrite E !ctrM ctrK HA mulmxA. }
  have : (row_base K *m A <= row_base K)%MS.
  { rewrite eq_row_base /K sub_kermx. have -> : row_base K *m A *m ctr U = row_base K *m ctr (U *m A) by rewrite ctrM HA mulmxA.
    by rewrite HU ctrM mulmxA HKU mul0mx. }
  case/submxP => B HB. case: (eigenvector _ B Hrk) => a [x [Hx HxB]].
  have Hv : x *m row_base K != 0.
  { apply/negP => /eqP E. move/eqP: Hx. apply. apply: (row_free_inj (row_base_free K)). by rewrite E mul0mx. }
  case: (normed _ Hv) => c [Hc HN]. set v := c *: (x *m row_base K) in HN.
  have HvA : v *m A = a *: v. { rewrite /v -scalemxAl -mulmxA HB mulmxA HxB -scalemxAl !scalerA mulrC. done. }
  have HvU : v *m ctr U = 0. { by rewrite /v -scalemxAl -mulmxA HKU mulmx0 scaler0. }
  have HUv : U *m ctr v = 0. { by rewrite -[U]ctrK -ctrM HvU; apply/matrixP => i j; rewrite ctrE !mxE rmorph0. }
  exists (col_mx v U : 'M_(1 + k, n)), (row_mx (const_mx a : 'rV_1) w). split.
  - change (col_mx v U *m A = diag_mx (row_mx (const_mx a : 'rV_1) w) *m col_mx v U).
    rewrite mul_col_mx diag_mx_row mul_block_col !mul0mx add0r addr0 HvA HU. congr col_mx. apply/matrixP => i j. rewrite mul_diag_mx !mxE. by rewrite !ord1.
  - change (col_mx v U *m ctr (col_mx v U) = 1%:M :> 'M_(1 + k)).
    have -> : ctr (col_mx v U) = row_mx (ctr v) (ctr U) by rewrite /ctr map_col_mx tr_col_mx.
    rewrite mul_col_row HN HO HvU HUv. by rewrite -scalar_mx_block.
Qed.

Lemma herm_mx n m : ctr (\matrix_(i < n, j < n) hermitian (C := C) m i j) = \matrix_(i, j) hermitian m i j.
Proof.
  apply/matrixP => i j. rewrite ctrE !mxE /hermitian. case: (ltngtP (nat_of_ord j) (nat_of_ord i)) => H.
  - done.
  - by rewrite conjCK.
  - rewrite H. apply/CrealP. exact: Creal_Re.
Qed.

Theorem eigenpairs_exist n m : (0 < n)%N -> exists w U, lowest_eigenpairs (C := C) n (hermitian m) n w U.
Proof.
  move=> Hn. set A := \matrix_(i < n, j < n) hermitian (C := C) m i j. have HA : ctr A = A by exact: herm_mx.
  case: (partial n A HA n (leqnn n)) => U [w [HU HO]].
  have Hreal i : w ord0 i \is Num.real.
  { have E : diag_mx w = U *m A *m ctr U by rewrite HU -mulmxA HO mulmx1.
    have E2 : ctr (diag_mx w) = diag_mx w by rewrite E !ctrM ctrK HA mulmxA. apply/CrealP. have := f_equal (fun M : 'M_n => M i i) E2. by rewrite ctrE !mxE eqxx mulr1n. }
  have HO' : ctr U *m U = 1%:M by exact: mulmx1C.
  pose i0 := Ordinal Hn. pose leT := fun i j : 'I_n => w ord0 i <= w ord0 j. pose p := sort leT (enum 'I_n).
  have Hsize : size p = n by rewrite size_sort size_enum_ord.
  have Hsorted : sorted leT p.
  { apply: (sort_sorted_in (P := predT)); [|by apply/allP]. move=> i j _ _. rewrite /leT. exact: (real_leVge (Hreal i) (Hreal j)). }
  have Huniq : uniq p by rewrite sort_uniq enum_uniq.
  pose q r := nth i0 p r.
  pose ext (j : nat) := odflt i0 (insub j).
  have extE (j : 'I_n) : ext j = j by rewrite /ext valK.
  exists (fun r => w ord0 (q r)), (fun r j => U (q r) (ext j)). split.
  - move=> r Hr i Hi. have := f_equal (fun M : 'M_n => M (q r) (Ordinal Hi)) HU. rewrite mxE mul_diag_mx mxE => E.
    have -> : ext i = Ordinal Hi. { rewrite -[i]/(nat_of_ord (Ordinal Hi)). exact: extE. }
    rewrite -E. apply eq_bigr => j _. by rewrite extE !mxE.
  - move=> r s Hr Hs. rewrite /dot /delta. have := f_equal (fun M : 'M_n => M (q r) (q s)) HO. rewrite !mxE => E.
    transitivity ((q r == q s)%:R : C); [|by rewrite /q nth_uniq ?Hsize //; case: (r == s)].
    rewrite -E. apply eq_bigr => j _. by rewrite extE ctrE.
  - move=> r s Hrs Hs. apply: (sorted_leq_nth (leT := leT)) => //.
    + move=> i j k. rewrite /leT => H1 H2. exact: Order.POrderTheory.le_trans H1 H2.
    + move=> i. exact: Order.POrderTheory.lexx.
    + by rewrite inE Hsize (leq_ltn_trans Hrs).
    + by rewrite inE Hsize.
  - move=> x v _ [i [Hi Hv]] Horth. exfalso. apply Hv. pose V : 'rV[C]_n := \row_j v j.
    have HV : V *m ctr U = 0.
    { apply/matrixP => a k. rewrite !mxE. have Hk : k \in p by rewrite mem_sort mem_enum. have Hlt : (index k p < n)%N by have := Hk; rewrite -index_mem Hsize. have E := Horth _ Hlt.
      apply: etrans E. rewrite /dot. apply eq_bigr => j _. by rewrite ctrE !mxE extE /q nth_index. }
    have E0 : V = 0 by rewrite -[V]mulmx1 -HO' mulmxA HV mul0mx. have := f_equal (fun M : 'rV_n => M ord0 (Ordinal Hi)) E0. by rewrite !mxE.
Qed.

(** A diagonaliser that always answers and calculates all eigenpairs. *)
Definition full_answer (h : fmat C) (e : raw_eigen C) : Prop :=
  f_rows (r_vec e) = f_rows h /\ f_cols (r_vec e) = f_rows h /\ r_count e = f_rows h /\
  lowest_eigenpairs (f_rows h) (hermitian (f_el h)) (f_rows h) (r_val e) (f_el (r_vec e)).
Lemma answer (h : fmat C) : exists e, (0 < f_rows h)%N -> full_answer h e.
Proof.
  case: (posnP (f_rows h)) => [E|Hp]; [by exists (Raw 0%N (fun _ => 0) h)|].
  case: (eigenpairs_exist _ (f_el h) Hp) => w [U HU]. by exists (Raw (f_rows h) w (Fmat (f_rows h) (f_rows h) U)).
Qed.
Definition chosen (h : fmat C) : raw_eigen C := proj1_sig (constructive_indefinite_description _ (answer h)).
Lemma chosen_ok h : (0 < f_rows h)%N -> full_answer h (chosen h).
Proof. exact: (proj2_sig (constructive_indefinite_description _ (answer h))). Qed.
Definition ideal_dia (h : fmat C) : res (raw_eigen C) := if (0 < f_rows h)%N then Ok (chosen h) else Throw.
Lemma ideal_total h : (0 < f_rows h)%N -> exists e, ideal_dia h = Ok e.
Proof. rewrite /ideal_dia => ->. by eexists. Qed.
Lemma ideal_ok h e : ideal_dia h = Ok e -> (0 < f_rows h)%N /\ full_answer h e.
Proof. rewrite /ideal_dia. case: ifP => // Hp [<-]. split=> //. exact: chosen_ok. Qed.
Lemma ideal_diagonaliser : diagonaliser ideal_dia.
Proof. move=> h e /ideal_ok [Hp [Hr [Hc [Hn Hl]]]] Hsq _. rewrite Hn Hr Hc. split=> //. by rewrite leqnn Hp. Qed.
Lemma ideal_full h e : ideal_dia h = Ok e -> r_count e = f_rows h.
Proof. by move=> /ideal_ok [_ [_ [_ [-> _]]]]. Qed.
End Spectral.
