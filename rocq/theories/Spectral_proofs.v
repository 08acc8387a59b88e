(** Lemmas about the spectral-function algorithms. *)
From Coq Require Import List ZArith Lia Permutation Ring.
From Verif Require Import Cring Base Invar_model Density_model Density_sums Spectral_model Spectral_spec.
From mathcomp Require Import ssreflect ssrfun ssrbool eqtype ssrnat seq fintype bigop ssralg order ssrnum.
Import GRing.Theory Num.Theory.
Local Open Scope ring_scope.
Set Implicit Arguments.
Unset Strict Implicit.
Unset Printing Implicit Defensive.

(** *** Loops *)
Lemma in_irange a b x : In x (irange a b) <-> (a <= x)%coq_nat /\ (x < b)%coq_nat.
Proof. rewrite /irange -minusE in_seq. lia. Qed.
Lemma in_loop2 js is_ j i : In (j, i) (loop2 js is_) <-> In j js /\ In i is_.
Proof.
  rewrite /loop2 in_flat_map. split.
  - by move=> [x [Hx /in_map_iff [y [[<- <-] Hy]]]].
  - move=> [Hj Hi]. exists j; split=> //. by apply/in_map_iff; exists i.
Qed.
Lemma NoDup_app' {A} (l m : list A) : NoDup l -> NoDup m -> (forall x, In x l -> ~ In x m) -> NoDup (l ++ m).
Proof.
  elim: l => [//|x l IH] Hl Hm Hd /=. inversion Hl; subst. constructor.
  - move=> /in_app_iff [//|Hx]. exact: (Hd x (or_introl erefl) Hx).
  - apply: IH => // y Hy. apply: Hd. by right.
Qed.
Lemma loop2_NoDup js is_ : NoDup js -> NoDup is_ -> NoDup (loop2 js is_).
Proof.
  move=> Hj Hi. rewrite /loop2. elim: Hj => [|x l Hx Hl IH] /=; first by constructor.
  apply: NoDup_app' => //.
  - apply: FinFun.Injective_map_NoDup Hi => u v. by case.
  - move=> p /in_map_iff [u [<- _]] /in_flat_map [y [Hy /in_map_iff [v [Ep _]]]]. case: Ep => Ey _. by subst y.
Qed.
Lemma loop2_prod js is_ : loop2 js is_ = List.list_prod js is_.
Proof. by elim: js => [//|j js IH] /=; rewrite IH. Qed.
Lemma irange_NoDup a b : NoDup (irange a b).
Proof. exact: seq_NoDup. Qed.

(** The three loops of the complete-basis algorithms together. *)
Lemma three_loops nj ni kj ki : (kj <= nj)%N -> (ki <= ni)%N ->
  Permutation (loop2 (irange kj nj) (irange ki ni) ++ loop2 (irange 0 kj) (irange ki ni) ++ loop2 (irange kj nj) (irange 0 ki))
    (transitions nj ni kj ki).
Proof.
  move=> Hj Hi. apply: NoDup_Permutation.
  - apply: NoDup_app'; [|apply: NoDup_app'|].
    + apply: loop2_NoDup; exact: irange_NoDup.
    + apply: loop2_NoDup; exact: irange_NoDup.
    + apply: loop2_NoDup; exact: irange_NoDup.
    + move=> [j i] /in_loop2 [/in_irange H1 /in_irange H2] /in_loop2 [/in_irange H3 /in_irange H4]. lia.
    + move=> [j i] /in_loop2 [/in_irange H1 /in_irange H2] /in_app_iff [] /in_loop2 [/in_irange H3 /in_irange H4]; lia.
  - rewrite /transitions. apply: List.NoDup_filter. rewrite /all_pairs -loop2_prod. apply: loop2_NoDup; exact: seq_NoDup.
  - move=> [j i]. rewrite /transitions /all_pairs filter_In in_prod_iff !in_seq !in_app_iff !in_loop2 !in_irange /=.
    move: Hj Hi => /leP Hj /leP Hi. split.
    + move=> H. split; first lia. apply/negP => /andP [/ltP ? /ltP ?]. lia.
    + move=> [H1 /negP H2]. case: (leqP kj j) => /leP Hkj; case: (leqP ki i) => /leP Hki; [lia|lia|lia|].
      case: H2. by apply/andP; split; apply/ltP.
Qed.

(** *** Products *)
Section Products.
  Variable C : numClosedFieldType.
  Implicit Types (M A B r : fmat C).

  Lemma at_key_lookup {T} (m : list (invar * T)) J t : lookup m J = Some t -> at_key m J = Ok t.
  Proof. by rewrite /at_key => ->. Qed.
  Lemma el_ok M i j : (i < f_rows M)%N -> (j < f_cols M)%N -> el M i j = Ok (f_el M i j).
  Proof. by rewrite /el => -> ->. Qed.

  Lemma rho_times_op (k : nat) r B : f_rows r = k -> f_cols r = k -> (k <= f_rows B)%N ->
    exists M, prod_fit r B = Ok M /\ forall j i, (j < k)%N -> (i < f_cols B)%N -> el M j i = Ok (\sum_(l < k) f_el r j l * f_el B l i).
  Proof.
    move=> Hr Hc Hk. rewrite /prod_fit /prod_fit_left /prod_fit_right Hr Hc.
    case: (posnP k) => [E0|Hpos].
    { rewrite E0 /=. exists (empty_matrix C). split; first by case: ifP. by move=> j i; rewrite ltn0. }
    case: (posnP (f_cols B)) => [E0|HB].
    { exists (empty_matrix C). split; last by move=> j i _; rewrite E0 ltn0. rewrite !orbT. by case: ifP. }
    case: ifP => Hle /=.
    - have Ek : f_rows B = k by apply/eqP; rewrite eqn_leq Hle Hk.
      rewrite /submatrix Hr Hc Ek !leqnn /=. eexists. split; first by reflexivity. move=> j i Hj Hi. by rewrite el_ok.
    - rewrite /submatrix Hk leqnn /=. eexists. split; first by reflexivity. move=> j i Hj Hi. rewrite el_ok //= ?Hr ?Hc //.
  Qed.

  Lemma op_times_rho_left (k : nat) r B : f_rows r = k -> f_cols r = k -> (k <= f_cols B)%N ->
    exists M, prod_fit_left B r = Ok M /\ forall j i, (j < f_rows B)%N -> (i < k)%N -> el M j i = Ok (\sum_(l < k) f_el B j l * f_el r l i).
  Proof.
    move=> Hr Hc Hk. rewrite /prod_fit_left Hr Hc.
    case: (posnP k) => [E0|Hpos].
    { rewrite E0 ?orbT. exists (empty_matrix C). by []. }
    case: (posnP (f_rows B)) => [E0|HB].
    { exists (empty_matrix C). rewrite E0. by []. }
    rewrite /submatrix leqnn Hk /=. eexists. split; first by reflexivity. move=> j i Hj Hi. by rewrite el_ok //= Hc.
  Qed.
  Lemma op_times_rho (k : nat) r B : f_rows r = k -> f_cols r = k -> (k <= f_cols B)%N ->
    exists M, prod_fit B r = Ok M /\ forall j i, (j < f_rows B)%N -> (i < k)%N -> el M j i = Ok (\sum_(l < k) f_el B j l * f_el r l i).
  Proof. move=> Hr Hc Hk. rewrite /prod_fit Hr Hk. exact: op_times_rho_left. Qed.

  Lemma adj_times_rho (k : nat) r A : f_rows r = k -> f_cols r = k -> (k <= f_rows A)%N ->
    exists M, prod_adj_fit_left A r = Ok M /\ forall i j, (i < f_cols A)%N -> (j < k)%N -> el M i j = Ok (\sum_(l < k) (f_el A l i)^* * f_el r l j).
  Proof.
    move=> Hr Hc Hk. rewrite /prod_adj_fit_left Hr Hc.
    case: (posnP k) => [E0|Hpos].
    { rewrite E0 ?orbT. exists (empty_matrix C). by []. }
    case: (posnP (f_cols A)) => [E0|HB].
    { exists (empty_matrix C). rewrite E0. by []. }
    rewrite /submatrix Hk leqnn /=. eexists. split; first by reflexivity. move=> i j Hi Hj. by rewrite el_ok //= Hc.
  Qed.

  (** Sums against the density matrix of a shell. *)
  Lemma sum_shell_col (n k : nat) (rho : nat -> nat -> C) w (f : nat -> C) i : (k <= n)%N -> (i < k)%N ->
    \sum_(l < n) f l * shell_matrix k rho w l i = \sum_(l < k) f l * rho l i.
  Proof.
    move=> Hkn Hi. rewrite (big_ord_widen n (fun l => f l * rho l i) Hkn) [in RHS]big_mkcond /=. apply: eq_bigr => l _.
    rewrite /shell_matrix Hi andbT. case: (ltnP l k) => Hl //. by rewrite gtn_eqF ?mulr0 // (leq_trans Hi Hl).
  Qed.
  Lemma sum_shell_row (n k : nat) (rho : nat -> nat -> C) w (f : nat -> C) i : (k <= n)%N -> (i < k)%N ->
    \sum_(l < n) shell_matrix k rho w i l * f l = \sum_(l < k) rho i l * f l.
  Proof.
    move=> Hkn Hi. rewrite (big_ord_widen n (fun l => rho i l * f l) Hkn) [in RHS]big_mkcond /=. apply: eq_bigr => l _.
    rewrite /shell_matrix Hi /=. case: (ltnP l k) => Hl //. by rewrite ltn_eqF ?mul0r // (leq_trans Hi Hl).
  Qed.
  Lemma sum_shell_col_D (n k : nat) (rho : nat -> nat -> C) w (f : nat -> C) i : (k <= i)%N -> (i < n)%N ->
    \sum_(l < n) f l * shell_matrix k rho w l i = f i * w i.
  Proof.
    move=> Hki Hi. rewrite (bigD1 (Ordinal Hi)) //= big1 ?addr0.
    - rewrite /shell_matrix (ltnNge i k) Hki andbF eqxx. by [].
    - move=> l Hl. rewrite /shell_matrix (ltnNge i k) Hki andbF. case: eqP => [E|_]; last by rewrite mulr0.
      by case/negP: Hl; apply/eqP/val_inj.
  Qed.
  Lemma sum_shell_row_D (n k : nat) (rho : nat -> nat -> C) w (f : nat -> C) i : (k <= i)%N -> (i < n)%N ->
    \sum_(l < n) shell_matrix k rho w i l * f l = w i * f i.
  Proof.
    move=> Hki Hi. rewrite (bigD1 (Ordinal Hi)) //= big1 ?addr0.
    - rewrite /shell_matrix (ltnNge i k) Hki /= eqxx. by [].
    - move=> l Hl. rewrite /shell_matrix (ltnNge i k) Hki /=. case: eqP => [E|_]; last by rewrite mul0r.
      by case/negP: Hl; apply/eqP/val_inj.
  Qed.
End Products.

(** *** FDM *)
Section Fdm.
  Variables (C : numClosedFieldType) (gt : gf_type) (bz : C -> C) (a : args C) (rho : densmat C) (wnf : C) (ri rj : fmat C).
  Hypotheses (Hfit : fits a) (Hri : matrix_for rho (a_Ii a) (a_i a) ri) (Hrj : matrix_for rho (a_Ij a) (a_j a) rj).
  Let ki := refined (a_i a). Let kj := refined (a_j a).
  Let ni := s_all (a_i a). Let nj := s_all (a_j a).
  Definition weights (s : sector C) (l : nat) : C := wnf * bz (s_G s l).
  Definition G_peak (ji : nat * nat) : peak C :=
    greater (a_factor a) (s_G (a_j a)) (s_G (a_i a)) (s_all (a_i a)) (f_el (a_op1 a)) (f_el (a_op2 a)) (shell_matrix (refined (a_i a)) (f_el ri) (weights (a_i a))) ji.
  Definition L_peak (ji : nat * nat) : peak C :=
    lesser (statistics C gt) (a_factor a) (s_G (a_j a)) (s_G (a_i a)) (s_all (a_j a)) (f_el (a_op1 a)) (f_el (a_op2 a)) (shell_matrix (refined (a_j a)) (f_el rj) (weights (a_j a))) ji.

  Lemma ki_le : (ki <= ni)%N.
  Proof. rewrite /ki /refined. case: Hfit => H _. by case: ifP. Qed.
  Lemma kj_le : (kj <= nj)%N.
  Proof. rewrite /kj /refined. case: Hfit => _ [H _]. by case: ifP. Qed.
  Lemma range_in k n x : In x (irange k n) -> (k <= x)%N /\ (x < n)%N.
  Proof. by move=> /in_irange [/leP H1 /ltP H2]. Qed.
  Lemma lt_trans_leq x y z : (x < y)%N -> (y <= z)%N -> (x < z)%N.
  Proof. exact: leq_trans. Qed.

  Lemma el_op1 j i : (j < nj)%N -> (i < ni)%N -> el (a_op1 a) j i = Ok (f_el (a_op1 a) j i).
  Proof. case: Hfit => [_ [_ [H1 [H2 _]]]] Hj Hi. by rewrite el_ok ?H1 ?H2. Qed.
  Lemma el_op2 j i : (j < nj)%N -> (i < ni)%N -> el (a_op2 a) j i = Ok (f_el (a_op2 a) j i).
  Proof. case: Hfit => [_ [_ [_ [_ [H1 H2]]]]] Hj Hi. by rewrite el_ok ?H1 ?H2. Qed.

  Lemma rho_op2_ok : exists M, prod_fit rj (a_op2 a) = Ok M /\
    forall j i, (j < kj)%N -> (i < ni)%N -> el M j i = Ok (\sum_(l < kj) f_el rj j l * f_el (a_op2 a) l i).
  Proof.
    case: Hfit => [_ [Hp [_ [_ [H1 H2]]]]]. case: Hrj => [_ [Hc Hr]]. rewrite /kj /refined.
    have Hk : (f_rows rj <= f_rows (a_op2 a))%N by rewrite Hr H1; case: ifP.
    have [M [E HM]] := rho_times_op erefl Hc Hk. exists M. split=> // j i. case El: (s_last (a_j a)) => //= Hj Hi.
    rewrite Hr El in HM. by apply: HM => //; rewrite H2.
  Qed.
  Lemma op2_rho_ok : exists M, prod_fit (a_op2 a) ri = Ok M /\
    forall j i, (j < nj)%N -> (i < ki)%N -> el M j i = Ok (\sum_(l < ki) f_el (a_op2 a) j l * f_el ri l i).
  Proof.
    case: Hfit => [Hp [_ [_ [_ [H1 H2]]]]]. case: Hri => [_ [Hc Hr]]. rewrite /ki /refined.
    have Hk : (f_rows ri <= f_cols (a_op2 a))%N by rewrite Hr H2; case: ifP.
    have [M [E HM]] := op_times_rho erefl Hc Hk. exists M. split=> // j i. case El: (s_last (a_i a)) => //= Hj Hi.
    rewrite Hr El in HM. by apply: HM => //; rewrite H1.
  Qed.

  Lemma gt_exp_ok j i : (j < nj)%N -> (ki <= i)%N -> (i < ni)%N -> gt_exp_weight bz a wnf i j = Ok (G_peak (j, i)).
  Proof.
    move=> Hj Hk Hi. rewrite /gt_exp_weight el_op1 // el_op2 //= /G_peak /greater /add /=. congr (Ok (_, _ * _)).
    by rewrite sum_shell_col_D // /weights !mulrA.
  Qed.
  Lemma gt_rho_ok M j i : (forall j i, (j < nj)%N -> (i < ki)%N -> el M j i = Ok (\sum_(l < ki) f_el (a_op2 a) j l * f_el ri l i)) ->
    (j < nj)%N -> (i < ki)%N -> gt_rho_weight a M i j = Ok (G_peak (j, i)).
  Proof.
    move=> HM Hj Hi. rewrite /gt_rho_weight el_op1 //; last exact: (lt_trans_leq Hi ki_le). rewrite HM //= /G_peak /greater /add /=.
    by rewrite sum_shell_col //; exact: ki_le.
  Qed.
  Lemma ls_exp_ok j i : (kj <= j)%N -> (j < nj)%N -> (i < ni)%N -> ls_exp_weight gt bz a wnf i j = Ok (L_peak (j, i)).
  Proof.
    move=> Hk Hj Hi. rewrite /ls_exp_weight el_op1 // el_op2 //= /L_peak /lesser /add /=. congr (Ok (_, _ * _)).
    rewrite (@sum_shell_row_D C _ _ _ _ (fun l => f_el (a_op2 a) l i) j) // /weights. have -> : gf_sign C gt = statistics C gt by [].
    rewrite -!mulrA. rewrite [in RHS]mulrCA; congr (_ * _). rewrite mulrCA; congr (_ * _). by rewrite mulrA mulrC.
  Qed.
  Lemma ls_rho_ok M j i : (forall j i, (j < kj)%N -> (i < ni)%N -> el M j i = Ok (\sum_(l < kj) f_el rj j l * f_el (a_op2 a) l i)) ->
    (j < kj)%N -> (i < ni)%N -> ls_rho_weight gt a M i j = Ok (L_peak (j, i)).
  Proof.
    move=> HM Hj Hi. rewrite /ls_rho_weight el_op1 //; last exact: (lt_trans_leq Hj kj_le). rewrite HM //= /L_peak /lesser /add /=.
    rewrite (@sum_shell_row C _ _ _ _ (fun l => f_el (a_op2 a) l i) j kj_le) //. congr (Ok (_, _ * _)). by rewrite [RHS]mulrC.
  Qed.
  Lemma Dr_i x : In x (Drange (a_i a)) -> (ki <= x)%N /\ (x < ni)%N.
  Proof. exact: range_in. Qed.
  Lemma Dr_j x : In x (Drange (a_j a)) -> (kj <= x)%N /\ (x < nj)%N.
  Proof. exact: range_in. Qed.
  Lemma Kr_i x : In x (Krange (a_i a)) -> (x < ki)%N.
  Proof. by move=> /range_in []. Qed.
  Lemma Kr_j x : In x (Krange (a_j a)) -> (x < kj)%N.
  Proof. by move=> /range_in []. Qed.

  Definition fdm_pairs : list (nat * nat) :=
    loop2 (Drange (a_j a)) (Drange (a_i a)) ++ loop2 (Krange (a_j a)) (Drange (a_i a)) ++ loop2 (Drange (a_j a)) (Krange (a_i a)).
  Lemma fdm_pairs_transitions : Permutation fdm_pairs (transitions nj ni kj ki).
  Proof. apply: three_loops; [exact: kj_le|exact: ki_le]. Qed.

  Lemma FDMgt_list : calc_FDMgt bz a rho wnf = Ok (List.map G_peak fdm_pairs).
  Proof.
    rewrite /calc_FDMgt (at_key_lookup (proj1 Hri)) /=. have [M [-> HM]] := op2_rho_ok. rewrite /=.
    rewrite (mapM_ok _ G_peak); last first.
    { move=> [j i] /in_loop2 [/Dr_j [? ?] /Dr_i [? ?]]. exact: gt_exp_ok. }
    rewrite (mapM_ok _ G_peak) /=; last first.
    { move=> [j i] /in_loop2 [/Kr_j ? /Dr_i [? ?]]. apply: gt_exp_ok => //. by apply: leq_trans kj_le. }
    rewrite (mapM_ok _ G_peak) /=; last first.
    { move=> [j i] /in_loop2 [/Dr_j [? ?] /Kr_i ?]. exact: gt_rho_ok. }
    by rewrite /fdm_pairs !List.map_app.
  Qed.
  Lemma FDMls_list : calc_FDMls gt bz a rho wnf = Ok (List.map L_peak fdm_pairs).
  Proof.
    rewrite /calc_FDMls (at_key_lookup (proj1 Hrj)) /=. have [M [-> HM]] := rho_op2_ok. rewrite /=.
    rewrite (mapM_ok _ L_peak); last first.
    { move=> [j i] /in_loop2 [/Dr_j [? ?] /Dr_i [? ?]]. exact: ls_exp_ok. }
    rewrite (mapM_ok _ L_peak) /=; last first.
    { move=> [j i] /in_loop2 [/Kr_j ? /Dr_i [? ?]]. exact: ls_rho_ok. }
    rewrite (mapM_ok _ L_peak) /=; last first.
    { move=> [j i] /in_loop2 [/Dr_j [? ?] /Kr_i ?]. apply: ls_exp_ok => //. by apply: leq_trans ki_le. }
    by rewrite /fdm_pairs !List.map_app.
  Qed.
  Lemma Ok_inj {T} (x y : T) : Ok x = Ok y -> x = y.
  Proof. by case. Qed.
  Lemma gt_of_exp j i x y : el (a_op1 a) j i = Ok x -> el (a_op2 a) j i = Ok y ->
    gt_exp_weight bz a wnf i j = Ok (add (s_G (a_j a) j - s_G (a_i a) i, x^* * y * wnf * bz (s_G (a_i a) i)) (a_factor a)).
  Proof. by rewrite /gt_exp_weight => -> ->. Qed.
  Lemma ls_of_exp j i x y : el (a_op1 a) j i = Ok x -> el (a_op2 a) j i = Ok y ->
    ls_exp_weight gt bz a wnf i j = Ok (add (s_G (a_j a) j - s_G (a_i a) i, x^* * y * (- gf_sign C gt) * wnf * bz (s_G (a_j a) j)) (a_factor a)).
  Proof. by rewrite /ls_exp_weight => -> -> /=; rewrite !mulrA. Qed.
  Lemma FDM_list : calc_FDM gt bz a rho wnf = Ok (List.map G_peak fdm_pairs, List.map L_peak fdm_pairs).
  Proof.
    pose P ji := (G_peak ji, L_peak ji).
    rewrite /calc_FDM (at_key_lookup (proj1 Hrj)) (at_key_lookup (proj1 Hri)) /=.
    have [M [-> HM]] := rho_op2_ok. have [M' [-> HM']] := op2_rho_ok. rewrite /=.
    rewrite (mapM_ok _ P); last first.
    { move=> [j i] /in_loop2 [/Dr_j [? ?] /Dr_i [? ?]]. have G : gt_exp_weight bz a wnf i j = Ok (G_peak (j, i)) by exact: gt_exp_ok.
      have L : ls_exp_weight gt bz a wnf i j = Ok (L_peak (j, i)) by exact: ls_exp_ok.
      rewrite /fdm_exp_weight /=. move: G L. rewrite (@gt_of_exp j i _ _ (el_op1 _ _) (el_op2 _ _)) // (@ls_of_exp j i _ _ (el_op1 _ _) (el_op2 _ _)) //.
      move=> H1 H2. have G := Ok_inj H1. have L := Ok_inj H2. rewrite el_op1 // el_op2 //. by rewrite /= G L. }
    rewrite (mapM_ok _ P) /=; last first.
    { move=> [j i] /in_loop2 [/Kr_j ? /Dr_i [? ?]]. have Hj : (j < nj)%N by apply: leq_trans kj_le.
      have G : gt_exp_weight bz a wnf i j = Ok (G_peak (j, i)) by exact: gt_exp_ok.
      have L : ls_rho_weight gt a M i j = Ok (L_peak (j, i)) by exact: ls_rho_ok.
      rewrite /fdm_KD /=. move: G. rewrite (@gt_of_exp j i _ _ (el_op1 _ _) (el_op2 _ _)) // => H1. have G := Ok_inj H1. rewrite el_op1 // el_op2 // L. by rewrite /= G. }
    rewrite (mapM_ok _ P) /=; last first.
    { move=> [j i] /in_loop2 [/Dr_j [? ?] /Kr_i ?]. have Hi : (i < ni)%N by apply: leq_trans ki_le.
      have L : ls_exp_weight gt bz a wnf i j = Ok (L_peak (j, i)) by exact: ls_exp_ok.
      have G : gt_rho_weight a M' i j = Ok (G_peak (j, i)) by exact: gt_rho_ok.
      rewrite /fdm_DK /=. move: L. rewrite (@ls_of_exp j i _ _ (el_op1 _ _) (el_op2 _ _)) // => H1. have L := Ok_inj H1. rewrite G el_op1 // el_op2 //. by rewrite /= L. }
    by rewrite /fdm_pairs -!List.map_app !List.map_map.
  Qed.
End Fdm.

(** *** CFS, DM-NRG, FT *)
Section Others.
  Variables (C : numClosedFieldType) (gt : gf_type) (bz : C -> C) (a : args C) (rho : densmat C) (Z : C).
  Hypothesis Hfit : fits a.
  Notation s := (statistics C gt).
  Add Ring Cr : (field_ring C).

  Lemma kept_in (x : nat) (sc : sector C) : In x (kept sc) -> (x < s_post sc)%N.
  Proof. by move=> /range_in []. Qed.
  Lemma discarded_in (x : nat) (sc : sector C) : In x (discarded sc) -> (s_post sc <= x)%N /\ (x < s_all sc)%N.
  Proof. exact: range_in. Qed.

  (** The Lehmann peaks of a step that is not the last one: initial states are kept ones. *)
  Definition cfs_greater (ri : fmat C) : list (peak C) :=
    List.map (greater (a_factor a) (s_zero (a_j a)) (s_zero (a_i a)) (s_post (a_i a)) (f_el (a_op1 a)) (f_el (a_op2 a)) (f_el ri))
      (loop2 (discarded (a_j a)) (kept (a_i a))).
  Definition cfs_lesser (rj : fmat C) : list (peak C) :=
    List.map (lesser' s (a_factor a) (s_zero (a_j a)) (s_zero (a_i a)) (s_post (a_j a)) (f_el (a_op1 a)) (f_el (a_op2 a)) (f_el rj))
      (loop2 (kept (a_j a)) (discarded (a_i a))).
  Definition rescale (c : C) (p : peak C) : peak C := (fst p, c * snd p).

  Lemma CFSls_list ri : matrix_for rho (a_Ii a) (a_i a) ri -> s_last (a_i a) = false ->
    calc_CFSls gt bz a rho false Z = Ok (List.map (rescale (- s)) (cfs_greater ri)).
  Proof.
    move=> [Hl [Hc Hr]] El. rewrite El in Hr. rewrite /calc_CFSls (at_key_lookup Hl) /=.
    case: Hfit => [Hpi [Hpj [H1 [H2 [H3 H4]]]]].
    have Hk : (f_rows ri <= f_cols (a_op2 a))%N by rewrite Hr H4.
    have [M [-> HM]] := op_times_rho_left erefl Hc Hk. rewrite /= List.map_map. apply: mapM_ok => -[j i] /in_loop2 [/discarded_in [? ?] /kept_in Hi].
    rewrite /cfs_term3 el_op1 //; last exact: leq_trans Hpi. rewrite HM /= ?H3 ?Hr //. rewrite /rescale /add /greater /=. congr (Ok (_, _)).
    have -> : gf_sign C gt = s by []. cnorm C. ring.
  Qed.
  Lemma CFSgt_list rj : matrix_for rho (a_Ij a) (a_j a) rj -> s_last (a_j a) = false ->
    calc_CFSgt bz a rho false Z = Ok (List.map (rescale (- s)) (cfs_lesser rj)).
  Proof.
    move=> [Hl [Hc Hr]] El. rewrite El in Hr. rewrite /calc_CFSgt (at_key_lookup Hl) /=.
    case: Hfit => [Hpi [Hpj [H1 [H2 [H3 H4]]]]].
    have Hk : (f_rows rj <= f_rows (a_op1 a))%N by rewrite Hr H1.
    have [M [-> HM]] := adj_times_rho erefl Hc Hk. rewrite /= List.map_map. apply: mapM_ok => -[j i] /in_loop2 [/kept_in Hj /discarded_in [? ?]].
    rewrite /cfs_term2 HM ?H2 ?Hr //= el_op2 //; last exact: leq_trans Hpj. rewrite /rescale /add /lesser' /=. congr (Ok (_, _)).
    case: gt; rewrite /statistics; cnorm C; ring.
  Qed.
  Lemma CFS_list ri rj : matrix_for rho (a_Ii a) (a_i a) ri -> matrix_for rho (a_Ij a) (a_j a) rj ->
    s_last (a_i a) = false -> s_last (a_j a) = false ->
    calc_CFS gt bz a rho false Z = Ok (List.map (rescale (- s)) (cfs_lesser rj ++ cfs_greater ri)).
  Proof. move=> Hi Hj Ei Ej. by rewrite /calc_CFS (CFSgt_list Hj Ej) (CFSls_list Hi Ei) /= List.map_app. Qed.

  (** Last step: thermal Lehmann representation. *)
  Definition thermal (E : nat -> C) (n m : nat) : C := if n == m then bz (E n) / Z else 0.
  Definition th_greater (ji : nat * nat) : peak C :=
    greater (a_factor a) (s_zero (a_j a)) (s_zero (a_i a)) (s_post (a_i a)) (f_el (a_op1 a)) (f_el (a_op2 a)) (thermal (s_zero (a_i a))) ji.
  Definition th_lesser (ji : nat * nat) : peak C :=
    lesser s (a_factor a) (s_zero (a_j a)) (s_zero (a_i a)) (s_post (a_j a)) (f_el (a_op1 a)) (f_el (a_op2 a)) (thermal (s_zero (a_j a))) ji.
  Lemma thermal_shell E : thermal E = (fun n m => shell_matrix 0 (fun _ _ => 0) (fun n => bz (E n) / Z) n m) :> (nat -> nat -> C).
  Proof. by []. Qed.
  Lemma th_greater_w ji : (snd ji < s_post (a_i a))%N ->
    th_greater ji = (s_zero (a_j a) (fst ji) - s_zero (a_i a) (snd ji),
      a_factor a * ((f_el (a_op1 a) (fst ji) (snd ji))^* * (f_el (a_op2 a) (fst ji) (snd ji) * (bz (s_zero (a_i a) (snd ji)) / Z)))).
  Proof. move=> H. by rewrite /th_greater /greater thermal_shell sum_shell_col_D. Qed.
  Lemma th_lesser_w ji : (fst ji < s_post (a_j a))%N ->
    th_lesser ji = (s_zero (a_j a) (fst ji) - s_zero (a_i a) (snd ji),
      a_factor a * (- s * ((f_el (a_op1 a) (fst ji) (snd ji))^* * (bz (s_zero (a_j a) (fst ji)) / Z * f_el (a_op2 a) (fst ji) (snd ji))))).
  Proof. move=> H. by rewrite /th_lesser /lesser thermal_shell (@sum_shell_row_D C _ _ _ _ (fun l => f_el (a_op2 a) l (snd ji)) (fst ji)). Qed.
  Notation KK := (loop2 (kept (a_j a)) (kept (a_i a))).
  Lemma kk_bounds j i : In (j, i) KK -> [/\ (j < s_post (a_j a))%N, (i < s_post (a_i a))%N, (j < s_all (a_j a))%N & (i < s_all (a_i a))%N].
  Proof.
    case: Hfit => [Hpi [Hpj _]]. move=> /in_loop2 [/kept_in Hj /kept_in Hi]. split=> //; [exact: leq_trans Hpj|exact: leq_trans Hpi].
  Qed.
  Lemma CFSgt_last : calc_CFSgt bz a rho true Z = Ok (List.map th_greater KK).
  Proof.
    rewrite /calc_CFSgt. apply: mapM_ok => -[j i] /kk_bounds [Hj Hi Hj' Hi']. rewrite /cfs_gt_term1 el_op1 // el_op2 //= th_greater_w //.
    rewrite /add /=. congr (Ok (_, _)). cnorm C. ring.
  Qed.
  Lemma CFSls_last : calc_CFSls gt bz a rho true Z = Ok (List.map th_lesser KK).
  Proof.
    rewrite /calc_CFSls. apply: mapM_ok => -[j i] /kk_bounds [Hj Hi Hj' Hi']. rewrite /cfs_ls_term1 el_op1 // el_op2 //= th_lesser_w //.
    rewrite /add /=. congr (Ok (_, _)). have -> : gf_sign C gt = s by []. cnorm C. ring.
  Qed.
  Lemma CFS_last : calc_CFS gt bz a rho true Z = Ok (List.map th_greater KK ++ List.map th_lesser KK).
  Proof. by rewrite /calc_CFS CFSgt_last CFSls_last. Qed.
  (** FT: one peak for both parts. *)
  Definition join (p q : peak C) : peak C := (fst p, snd p + snd q).
  Lemma FT_list : calc_FT gt bz a Z = Ok (List.map (fun ji => join (th_greater ji) (th_lesser ji)) KK).
  Proof.
    rewrite /calc_FT. apply: mapM_ok => -[j i] /kk_bounds [Hj Hi Hj' Hi']. rewrite /ft_term el_op1 // el_op2 //= th_lesser_w // th_greater_w // /join.
    rewrite /add /=. congr (Ok (_, _)). have -> : gf_sign C gt = s by []. cnorm C. ring.
  Qed.

  (** DM-NRG: the two parts computed with the transposed density matrices. *)
  Definition transpose (M : nat -> nat -> C) (i j : nat) : C := M j i.
  Definition dm_peak (ri rj : nat -> nat -> C) (ji : nat * nat) : peak C :=
    join (greater (a_factor a) (s_zero (a_j a)) (s_zero (a_i a)) (s_post (a_i a)) (f_el (a_op1 a)) (f_el (a_op2 a)) ri ji)
      (lesser' s (a_factor a) (s_zero (a_j a)) (s_zero (a_i a)) (s_post (a_j a)) (f_el (a_op1 a)) (f_el (a_op2 a)) rj ji).
  Definition accepted (guard : C -> bool) : list (nat * nat) :=
    List.filter (fun ji => ~~ guard (s_zero (a_j a) (fst ji) - s_zero (a_i a) (snd ji))) KK.
  Definition covers (J : invar) (sc : sector C) (r : fmat C) : Prop :=
    lookup rho J = Some r /\ (s_post sc <= f_rows r)%N /\ (s_post sc <= f_cols r)%N.
  Lemma flat_filter {T} (g : nat * nat -> bool) (h : nat * nat -> T) l :
    List.flat_map (fun o => match o with Some p => cons p nil | None => nil end) (List.map (fun x => if g x then None else Some (h x)) l) =
    List.map h (List.filter (fun x => ~~ g x) l).
  Proof. elim: l => [//|x l IH] /=. by case: (g x); rewrite /= IH. Qed.
  Lemma DMNRG_list guard ri rj : covers (a_Ii a) (a_i a) ri -> covers (a_Ij a) (a_j a) rj ->
    calc_DMNRG gt a rho guard = Ok (List.map (dm_peak (transpose (f_el ri)) (transpose (f_el rj))) (accepted guard)).
  Proof.
    move=> [Li [Ri Ci]] [Lj [Rj Cj]]. rewrite /calc_DMNRG (at_key_lookup Li) (at_key_lookup Lj) /=.
    case: (posnP (s_post (a_i a))) => [E0|Hpi0].
    { rewrite /accepted /kept E0 /irange /= /loop2. by elim: (List.seq _ _). }
    case: (posnP (s_post (a_j a))) => [E0|Hpj0].
    { by rewrite /accepted /kept E0. }
    case: Hfit => [Hpi [Hpj [H1 [H2 [H3 H4]]]]]. rewrite /submatrix H1 H2 H3 H4 Hpi Hpj Ri Ci Rj Cj /=.
    rewrite (mapM_ok _ (fun ji => if guard (s_zero (a_j a) (fst ji) - s_zero (a_i a) (snd ji)) then None
      else Some (dm_peak (transpose (f_el ri)) (transpose (f_el rj)) ji))) /=; first by rewrite flat_filter.
    move=> [j i] /kk_bounds [Hj Hi Hj' Hi']. rewrite /dmnrg_term /=. case: ifP => // _.
    rewrite !el_ok //= /dm_peak /join /add /greater /lesser' /transpose /=. congr (Ok (Some (_, _))).
    have -> : gf_sign C gt = s by [].
    have -> : \sum_(k < s_post (a_j a)) f_el rj j k * (f_el (a_op1 a) k i)^* = \sum_(k < s_post (a_j a)) (f_el (a_op1 a) k i)^* * f_el rj j k
      by apply: eq_bigr => k _; rewrite mulrC.
    set X := \sum_(k < s_post (a_i a)) _. set Y := \sum_(k < s_post (a_j a)) _. cnorm C. ring.
  Qed.
  Lemma DMNRG_symmetric guard ri rj : covers (a_Ii a) (a_i a) ri -> covers (a_Ij a) (a_j a) rj ->
    symmetric_on (s_post (a_i a)) (f_el ri) -> symmetric_on (s_post (a_j a)) (f_el rj) ->
    calc_DMNRG gt a rho guard = Ok (List.map (dm_peak (f_el ri) (f_el rj)) (accepted guard)).
  Proof.
    move=> Hi Hj Si Sj. rewrite (DMNRG_list guard Hi Hj). congr (Ok _). apply: List.map_ext_in => -[j i] /filter_In [/kk_bounds [Lj Li _ _] _].
    rewrite /dm_peak /greater /lesser' /transpose /=. congr (join (_, _ * (_ * _)) (_, _ * (_ * (_ * _)))); apply: eq_bigr => k _; congr (_ * _).
    - by apply: Si.
    - by apply: Sj.
  Qed.
End Others.
