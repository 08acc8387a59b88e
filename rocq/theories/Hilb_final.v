(** The Hilbert-transform tool: final lemmas. *)
From Coq Require Import List Reals Lra Psatz Lia Sorted.
From Coquelicot Require Import Coquelicot.
From Verif Require Import Base Hilb_model Hilb_spec Hilb_proofs.
Import ListNotations.
Local Open Scope R_scope.

Section Final.
  Variables (integr : (R -> R) -> R -> R -> R) (rhor rhoi : R -> R) (B x y lim : R).
  Hypothesis (Hi : exact_integration integr) (Hy : y <> 0) (HB : 0 <= B) (Hp : piecewise rhor rhoi (- B) B).
  Notation D w := (sqr y + sqr (x - w)).
  Notation al_re := (fun w : R => x - w).
  Notation be_re := (fun _ : R => y).
  Notation al_im := (fun _ : R => - y).
  Notation be_im := (fun w : R => x - w).

  Lemma Re_integrand w : Re (integrand rhor rhoi (x, y) w) = g0 rhor rhoi x y al_re be_re w.
  Proof.
    pose proof (D_pos x y Hy w) as HD. unfold g0, integrand, Cdiv, Cminus, Cplus, Copp, Cinv, Cmult, RtoC, Re, sqr in *. cbn [fst snd].
    field. replace (y ^ 2) with (y * y) by ring. replace (y * y + (x - w) ^ 2) with (y * y + (x - w) * (x - w)) by ring. lra || (split; nra).
  Qed.
  Lemma Im_integrand w : Im (integrand rhor rhoi (x, y) w) = g0 rhor rhoi x y al_im be_im w.
  Proof.
    pose proof (D_pos x y Hy w) as HD. unfold g0, integrand, Cdiv, Cminus, Cplus, Copp, Cinv, Cmult, RtoC, Im, sqr in *. cbn [fst snd].
    field. replace (y ^ 2) with (y * y) by ring. replace (y * y + (x - w) ^ 2) with (y * y + (x - w) * (x - w)) by ring. lra || (split; nra).
  Qed.
  Lemma transform_eq : transform rhor rhoi B (x, y)
    = (RInt (g0 rhor rhoi x y al_re be_re) (- B) B, RInt (g0 rhor rhoi x y al_im be_im) (- B) B).
  Proof. unfold transform. apply (f_equal2 (@pair R R)); apply RInt_ext; intros w _; [apply Re_integrand | apply Im_integrand]. Qed.

  Lemma cont_y w : continuous be_re w. Proof. apply continuous_const. Qed.
  Lemma cont_my w : continuous al_im w. Proof. apply continuous_const. Qed.

  Lemma subtracted (al be : R -> R) (q1 q2 : R) : (forall w, continuous al w) -> (forall w, continuous be w) ->
    is_RInt (fun w => al w / D w) (- B) B q1 -> is_RInt (fun w => be w / D w) (- B) B q2 ->
    RInt (g1 rhor rhoi x y al be) (- B) B + (rhor x * q1 + rhoi x * q2) = RInt (g0 rhor rhoi x y al be) (- B) B.
  Proof.
    intros Ha Hb H1 H2. symmetry. apply is_RInt_unique.
    assert (X : is_RInt (g1 rhor rhoi x y al be) (- B) B (RInt (g1 rhor rhoi x y al be) (- B) B)).
    { apply (RInt_correct (g1 rhor rhoi x y al be)), pwc_ex, g1_pwc; assumption. }
    assert (S := is_RInt_plus _ _ _ _ _ _ X (is_RInt_plus _ _ _ _ _ _ (is_RInt_scal _ _ _ (rhor x) _ H1) (is_RInt_scal _ _ _ (rhoi x) _ H2))).
    eapply is_RInt_ext; [|exact S]. intros w _. unfold plus, scal, mult, g0, g1; cbn. unfold mult; cbn.
    pose proof (D_pos x y Hy w). field. lra.
  Qed.

  Lemma Hd_re : RInt (g1 rhor rhoi x y al_re be_re) (- B) B + red rhor rhoi B x y = RInt (g0 rhor rhoi x y al_re be_re) (- B) B.
  Proof.
    destruct (integral_kernel B x y Hy) as [K1 K2]; [assumption..|].
    etransitivity; [|apply (subtracted al_re be_re (reQ x y B) (- imQ x y B)); [apply cont_xw | apply cont_y | exact K1 |]]; [unfold red; ring|].
    eapply is_RInt_ext; [|apply (is_RInt_opp (V := R_NormedModule)), K2]. intros w _. unfold opp; cbn. field. pose proof (D_pos x y Hy w). lra.
  Qed.
  Lemma Hd_im : RInt (g1 rhor rhoi x y al_im be_im) (- B) B + imd rhor rhoi B x y = RInt (g0 rhor rhoi x y al_im be_im) (- B) B.
  Proof.
    destruct (integral_kernel B x y Hy) as [K1 K2]; [assumption..|].
    etransitivity; [|apply (subtracted al_im be_im (imQ x y B) (reQ x y B)); [apply cont_my | apply cont_xw | exact K2 | exact K1]]. unfold imd; ring.
  Qed.

  Theorem direct : lim <= Rabs y -> hilbert_transform integr rhor rhoi B x y lim = transform rhor rhoi B (x, y).
  Proof.
    intros Hl. rewrite transform_eq. unfold hilbert_transform, calc. destruct (Rlt_dec (Rabs y) lim); [lra|].
    apply (f_equal2 (@pair R R)).
    - apply (calcB_ok integr rhor rhoi B x y Hi Hy al_re be_re (cont_xw x) cont_y Hp).
    - apply (calcB_ok integr rhor rhoi B x y Hi Hy al_im be_im cont_my (cont_xw x) Hp).
  Qed.

  Theorem outside : Rabs y < lim -> B < Rabs x -> rhor x = 0 -> rhoi x = 0 ->
    hilbert_transform integr rhor rhoi B x y lim = transform rhor rhoi B (x, y).
  Proof.
    intros Hl Hx Hr Hri. rewrite transform_eq. unfold hilbert_transform, calc. destruct (Rlt_dec (Rabs y) lim); [|lra].
    assert (C : B < x \/ x < - B) by (unfold Rabs in Hx; destruct (Rcase_abs x); lra).
    destruct C as [C | C]; apply (f_equal2 (@pair R R)).
    - apply (calcA_above integr rhor rhoi B x y Hi Hy HB al_re be_re (cont_xw x) cont_y Hp (red rhor rhoi B x y)); assumption.
    - apply (calcA_above integr rhor rhoi B x y Hi Hy HB al_im be_im cont_my (cont_xw x) Hp (imd rhor rhoi B x y)); assumption.
    - apply (calcA_below integr rhor rhoi B x y Hi Hy HB al_re be_re (cont_xw x) cont_y Hp (red rhor rhoi B x y)); assumption.
    - apply (calcA_below integr rhor rhoi B x y Hi Hy HB al_im be_im cont_my (cont_xw x) Hp (imd rhor rhoi B x y)); assumption.
  Qed.

  Lemma quotient_bound (L u v p q : R) : 0 <= L -> v <> 0 -> Rabs p <= L * Rabs u -> Rabs q <= L * Rabs u ->
    Rabs ((p * u + q * v) / (sqr v + sqr u)) <= 3 / 2 * L /\ Rabs ((p * - v + q * u) / (sqr v + sqr u)) <= 3 / 2 * L.
  Proof.
    intros HL Hv Hpp Hqq. unfold sqr.
    assert (Hs : 0 < v * v + u * u). { pose proof (Rsqr_pos_lt v Hv) as S1. pose proof (Rle_0_sqr u) as S2. unfold Rsqr in *. lra. }
    assert (N : forall n, Rabs n <= L * Rabs u * (Rabs u + Rabs v) -> Rabs (n / (v * v + u * u)) <= 3 / 2 * L).
    { intros n Hn. unfold Rdiv at 1. rewrite Rabs_mult, (Rabs_pos_eq (/ _)) by (left; apply Rinv_0_lt_compat, Hs).
      apply (Rmult_le_reg_r (v * v + u * u)); [exact Hs|]. rewrite Rmult_assoc, Rinv_l, Rmult_1_r by lra.
      eapply Rle_trans; [exact Hn|]. replace (v * v + u * u) with (Rabs v * Rabs v + Rabs u * Rabs u).
      2:{ rewrite <- !Rabs_mult, !Rabs_pos_eq; [reflexivity | apply Rle_0_sqr..]. }
      pose proof (Rabs_pos u). pose proof (Rabs_pos v). set (a := Rabs u) in *. set (b := Rabs v) in *.
      assert (0 <= (a - b) * (a - b)) by apply Rle_0_sqr.
      assert (a * (a + b) <= 3 / 2 * (b * b + a * a)) by (assert (0 <= b * b) by apply Rle_0_sqr; lra).
      rewrite Rmult_assoc. replace (3 / 2 * L * (b * b + a * a)) with (L * (3 / 2 * (b * b + a * a))) by ring.
      apply Rmult_le_compat_l; assumption. }
    pose proof (Rabs_pos u). pose proof (Rabs_pos v).
    split; apply N; (eapply Rle_trans; [apply Rabs_triang|]); rewrite !Rabs_mult, ?Rabs_Ropp.
    - assert (Rabs p * Rabs u <= L * Rabs u * Rabs u) by (apply Rmult_le_compat_r; assumption).
      assert (Rabs q * Rabs v <= L * Rabs u * Rabs v) by (apply Rmult_le_compat_r; assumption). lra.
    - assert (Rabs p * Rabs v <= L * Rabs u * Rabs v) by (apply Rmult_le_compat_r; assumption).
      assert (Rabs q * Rabs u <= L * Rabs u * Rabs u) by (apply Rmult_le_compat_r; assumption). lra.
  Qed.

  Theorem inside L : Rabs y < lim -> - B < x < B -> 0 <= L ->
    (forall w, Rabs (w - x) <= Rabs y * exp (- (368 / 10)) -> - B <= w <= B ->
       Rabs (rhor w - rhor x) <= L * Rabs (w - x) /\ Rabs (rhoi w - rhoi x) <= L * Rabs (w - x)) ->
    let g := hilbert_transform integr rhor rhoi B x y lim in
    let h := transform rhor rhoi B (x, y) in
    Rabs (fst g - Re h) <= 3 * L * Rabs y * exp (- (368 / 10)) /\ Rabs (snd g - Im h) <= 3 * L * Rabs y * exp (- (368 / 10)).
  Proof.
    intros Hl Hx HL Hlip g h. subst g h. rewrite transform_eq. unfold hilbert_transform, calc, Re, Im. cbn [fst snd].
    destruct (Rlt_dec (Rabs y) lim); [|lra].
    assert (Q : forall w, Rabs (w - x) <= Rabs y * exp ln1016 -> - B <= w <= B ->
              Rabs (g1 rhor rhoi x y al_re be_re w) <= 3 / 2 * L /\ Rabs (g1 rhor rhoi x y al_im be_im w) <= 3 / 2 * L).
    { intros w H1 H2. destruct (Hlip w H1 H2) as [H3 H4]. rewrite Rabs_minus_sym in H3, H4. rewrite (Rabs_minus_sym w x) in H3, H4.
      rewrite (Rabs_minus_sym (rhor x)) in H3. rewrite (Rabs_minus_sym (rhoi x)) in H4.
      exact (quotient_bound L (x - w) y _ _ HL Hy H3 H4). }
    replace (3 * L * Rabs y * exp (- (368 / 10))) with (2 * (Rabs y * exp ln1016) * (3 / 2 * L)) by (unfold ln1016; field).
    split.
    - apply (calcA_inside integr rhor rhoi B x y Hi Hy al_re be_re (cont_xw x) cont_y Hp (red rhor rhoi B x y) Hd_re); [exact Hx|].
      intros w H1 H2. apply (Q w H1 H2).
    - apply (calcA_inside integr rhor rhoi B x y Hi Hy al_im be_im cont_my (cont_xw x) Hp (imd rhor rhoi B x y) Hd_im); [exact Hx|].
      intros w H1 H2. apply (Q w H1 H2).
  Qed.
End Final.

Theorem edge integr rhor rhoi B x y lim : y <> 0 -> Rabs y < lim -> x = B \/ x = - B -> rhor x = 0 -> rhoi x = 0 ->
  hilbert_transform integr rhor rhoi B x y lim = (0, 0).
Proof.
  intros Hy Hl Hx Hr Hri. unfold hilbert_transform, calc. destruct (Rlt_dec (Rabs y) lim); [|lra].
  f_equal; (etransitivity; [apply (calcA_edge integr rhor rhoi B x y (fun w => x - w) (fun _ => y)); exact Hx |]) ||
    (etransitivity; [apply (calcA_edge integr rhor rhoi B x y (fun _ => - y) (fun w => x - w)); exact Hx |]);
    unfold red, imd; rewrite Hr, Hri; ring.
Qed.

(** the integral of a non-negative function that is at least m on [c, d] *)
Lemma RInt_pos_lower f a b c d m : pwc f a b -> (forall w, a < w < b -> 0 <= f w) -> a <= c -> c < d -> d <= b -> 0 < m ->
  (forall w, c < w < d -> m <= f w) -> 0 < RInt f a b.
Proof.
  intros P Hf H1 H2 H3 Hm Hcd.
  assert (X1 : ex_RInt f a c) by (apply pwc_ex, (pwc_sub _ _ _ P); lra).
  assert (X2 : ex_RInt f c d) by (apply pwc_ex, (pwc_sub _ _ _ P); lra).
  assert (X3 : ex_RInt f d b) by (apply pwc_ex, (pwc_sub _ _ _ P); lra).
  assert (X12 : ex_RInt f a d) by (apply pwc_ex, (pwc_sub _ _ _ P); lra).
  assert (C1 := RInt_Chasles f _ _ _ X1 X2). assert (C2 := RInt_Chasles f _ _ _ X12 X3).
  change (RInt f a c + RInt f c d = RInt f a d) in C1. change (RInt f a d + RInt f d b = RInt f a b) in C2.
  assert (0 <= RInt f a c) by (apply RInt_ge_0; [lra | exact X1 | intros w Hw; apply Hf; lra]).
  assert (0 <= RInt f d b) by (apply RInt_ge_0; [lra | exact X3 | intros w Hw; apply Hf; lra]).
  assert (L : RInt (fun _ => m) c d <= RInt f c d).
  { apply RInt_le; [lra | apply ex_RInt_const | exact X2 | exact Hcd]. }
  rewrite RInt_const in L. change (scal (d - c) m) with ((d - c) * m) in L.
  assert (0 < (d - c) * m) by (apply Rmult_lt_0_compat; lra). lra.
Qed.

Section Sign.
  Variables (rho : R -> R) (B y m c d : R).
  Hypotheses (Hy : y <> 0) (HB : 0 < B) (Hp : piecewise rho (fun _ => 0) (- B) B) (Hpos : forall w, 0 <= rho w)
    (H1 : - B <= c) (H2 : c < d) (H3 : d <= B) (Hm : 0 < m) (Hcd : forall w, c < w < d -> m <= rho w).

  Lemma D_le x w : Rabs x <= B -> - B <= w <= B -> 0 < sqr y + sqr (x - w) <= sqr y + 4 * sqr B.
  Proof.
    intros Hx Hw. split; [apply D_pos, Hy|]. unfold sqr. apply Rabs_le_between in Hx. 
    assert (-(2 * B) <= x - w <= 2 * B) by lra. nra.
  Qed.

  (** at the upper edge the exact real part is positive, at the lower edge negative *)
  Lemma edge_upper : 0 < Re (transform rho (fun _ => 0) B (B, y)).
  Proof.
    rewrite transform_eq by exact Hy. unfold Re; cbn [fst].
    set (d' := (c + d) / 2). set (m' := m * ((d - c) / 2) / (sqr y + 4 * sqr B)).
    assert (Hs : 0 < sqr y + 4 * sqr B).
    { pose proof (Rsqr_pos_lt y Hy) as S1. pose proof (Rle_0_sqr B) as S2. unfold Rsqr, sqr in *. lra. }
    assert (HBB : Rabs B <= B) by (rewrite Rabs_pos_eq; lra).
    apply (RInt_pos_lower _ (- B) B c d' m').
    - apply g0_pwc; [exact Hy | apply cont_xw | intros w; apply continuous_const | exact Hp].
    - intros w Hw. unfold g0. destruct (D_le B w HBB ltac:(lra)) as [D1 _].
      replace (rho w * (B - w) + 0 * y) with (rho w * (B - w)) by ring.
      apply Rmult_le_pos; [apply Rmult_le_pos; [apply Hpos | lra] | left; apply Rinv_0_lt_compat, D1].
    - lra.
    - unfold d'; lra.
    - unfold d'; lra.
    - unfold m'. apply Rdiv_lt_0_compat; [apply Rmult_lt_0_compat; lra | exact Hs].
    - unfold d', m', g0. intros w Hw. destruct (D_le B w HBB ltac:(lra)) as [D1 D2].
      replace (rho w * (B - w) + 0 * y) with (rho w * (B - w)) by ring.
      apply Rmult_le_compat.
      + apply Rmult_le_pos; lra.
      + left; apply Rinv_0_lt_compat, Hs.
      + apply Rmult_le_compat; [lra | lra | apply Hcd; lra | lra].
      + apply Rinv_le_contravar; assumption.
  Qed.
  Lemma edge_lower : Re (transform rho (fun _ => 0) B (- B, y)) < 0.
  Proof.
    rewrite transform_eq by exact Hy. unfold Re; cbn [fst].
    set (c' := (c + d) / 2). set (m' := m * ((d - c) / 2) / (sqr y + 4 * sqr B)).
    assert (Hs : 0 < sqr y + 4 * sqr B).
    { pose proof (Rsqr_pos_lt y Hy) as S1. pose proof (Rle_0_sqr B) as S2. unfold Rsqr, sqr in *. lra. }
    assert (HBB : Rabs (- B) <= B) by (rewrite Rabs_Ropp, Rabs_pos_eq; lra).
    set (f := g0 rho (fun _ => 0) (- B) y (fun w => - B - w) (fun _ => y)).
    assert (P : pwc f (- B) B) by (apply g0_pwc; [exact Hy | apply cont_xw | intros w; apply continuous_const | exact Hp]).
    cut (0 < RInt (fun w => g0 rho (fun _ => 0) (- B) y (fun w => B + w) (fun _ => y) w) (- B) B).
    { intros H. assert (E : RInt (fun w => g0 rho (fun _ => 0) (- B) y (fun w => B + w) (fun _ => y) w) (- B) B = opp (RInt f (- B) B)).
      { rewrite <- (RInt_opp f) by (apply pwc_ex, P). apply RInt_ext. intros w _. unfold f, g0, opp; cbn. field.
        pose proof (D_pos (- B) y Hy w). lra. }
      rewrite E in H. change (0 < - RInt f (- B) B) in H. lra. }
    apply (RInt_pos_lower _ (- B) B c' d m').
    - apply g0_pwc; [exact Hy | | intros w; apply continuous_const | exact Hp].
      intros w. apply (continuous_plus (fun _ => B) (fun w => w)); [apply continuous_const | apply continuous_id].
    - intros w Hw. unfold g0. destruct (D_le (- B) w HBB ltac:(lra)) as [D1 _].
      replace (rho w * (B + w) + 0 * y) with (rho w * (B + w)) by ring.
      apply Rmult_le_pos; [apply Rmult_le_pos; [apply Hpos | lra] | left; apply Rinv_0_lt_compat, D1].
    - unfold c'; lra.
    - unfold c'; lra.
    - lra.
    - unfold m'. apply Rdiv_lt_0_compat; [apply Rmult_lt_0_compat; lra | exact Hs].
    - unfold c', m', g0. intros w Hw. destruct (D_le (- B) w HBB ltac:(lra)) as [D1 D2].
      replace (rho w * (B + w) + 0 * y) with (rho w * (B + w)) by ring.
      apply Rmult_le_compat.
      + apply Rmult_le_pos; lra.
      + left; apply Rinv_0_lt_compat, Hs.
      + apply Rmult_le_compat; [lra | lra | apply Hcd; lra | lra].
      + apply Rinv_le_contravar; assumption.
  Qed.
End Sign.

Theorem spectral_nonneg rho B x y : 0 < y -> 0 <= B -> piecewise rho (fun _ => 0) (- B) B -> (forall w, 0 <= rho w) ->
  Im (transform rho (fun _ => 0) B (x, y)) <= 0.
Proof.
  intros Hy HB Hp Hpos. assert (Hy0 : y <> 0) by lra. rewrite transform_eq by exact Hy0. unfold Im; cbn [snd].
  set (f := g0 rho (fun _ => 0) x y (fun _ => - y) (fun w => x - w)).
  assert (P : pwc f (- B) B) by (apply g0_pwc; [exact Hy0 | intros w; apply continuous_const | apply cont_xw | exact Hp]).
  assert (N : 0 <= RInt (fun w => opp (f w)) (- B) B).
  { apply RInt_ge_0; [lra | apply (ex_RInt_opp (V := R_NormedModule)), pwc_ex, P |].
    intros w _. unfold f, g0, opp; cbn. pose proof (D_pos x y Hy0 w) as HD.
    replace (- ((rho w * - y + 0 * (x - w)) / (sqr y + sqr (x - w)))) with (rho w * y / (sqr y + sqr (x - w))) by (field; lra).
    apply Rmult_le_pos; [apply Rmult_le_pos; [apply Hpos | lra] | left; apply Rinv_0_lt_compat, HD]. }
  rewrite (RInt_opp f) in N by (apply pwc_ex, P). change (0 <= - RInt f (- B) B) in N. lra.
Qed.

(** ** Tables *)
Lemma piece_zero r i a b : a <= b -> (forall w, a < w < b -> r w = 0 /\ i w = 0) -> piecewise r i a b.
Proof.
  intros Hab H. apply (piece _ _ _ _ (fun _ => 0) (fun _ => 0)); [exact Hab | |exact H].
  intros w _. split; apply continuous_const.
Qed.

Lemma piecewise_table a b B r i : a <= b -> - B <= a -> b <= B -> (forall w, a <= w <= b -> continuous r w /\ continuous i w) ->
  piecewise (interpolator r a b) (interpolator i a b) (- B) B.
Proof.
  intros Hab Ha Hb Hc.
  apply (join _ _ _ a); [|apply (join _ _ _ b)].
  - apply piece_zero; [lra|]. intros w Hw. unfold interpolator. destruct (Rle_dec a w); [lra|]. auto.
  - apply (piece _ _ _ _ r i); [lra | exact Hc |]. intros w Hw. unfold interpolator.
    destruct (Rle_dec a w); [|lra]. destruct (Rle_dec w b); [|lra]. auto.
  - apply piece_zero; [lra|]. intros w Hw. unfold interpolator. destruct (Rle_dec w b); [lra|]. destruct (Rle_dec a w); auto.
Qed.

Lemma sorted_last (X : list R) x0 : StronglySorted Rle (x0 :: X) -> x0 <= last (x0 :: X) 0.
Proof.
  intros H. apply StronglySorted_inv in H as [_ H]. destruct X as [|u X]; [cbn; lra|].
  assert (In (last (u :: X) 0) (u :: X)) as Hin.
  { clear. revert u. induction X as [|v X IH]; intros u; [left; reflexivity|]. right. apply (IH v). }
  rewrite Forall_forall in H. apply (H _ Hin).
Qed.

Theorem table integr X splr spli x y lim : exact_integration integr -> y <> 0 -> X <> [] -> StronglySorted Rle X ->
  (forall w, hd 0 X <= w <= last X 0 -> continuous splr w /\ continuous spli w) ->
  let B := Rmax (Rabs (hd 0 X)) (Rabs (last X 0)) in
  lim <= Rabs y \/ B < Rabs x ->
  hilbert_table integr X splr spli x y lim
  = Ok (transform (zero_outside (hd 0 X) (last X 0) splr) (zero_outside (hd 0 X) (last X 0) spli) B (x, y)).
Proof.
  intros Hi Hy Hne Hs Hc B Hcase. destruct X as [|x0 X]; [congruence|].
  unfold hilbert_table, bandwidth. cbn [bind hd]. fold B.
  assert (Hl := sorted_last _ _ Hs). cbn [hd] in *.
  assert (B1 : Rabs x0 <= B) by apply Rmax_l. assert (B2 : Rabs (last (x0 :: X) 0) <= B) by apply Rmax_r.
  apply Rabs_le_between in B1. apply Rabs_le_between in B2.
  assert (P := piecewise_table x0 (last (x0 :: X) 0) B splr spli Hl (proj1 B1) (proj2 B2) Hc).
  assert (HB : 0 <= B) by lra.
  f_equal. destruct (Rle_dec lim (Rabs y)) as [D | D].
  - apply direct; assumption.
  - destruct Hcase as [|Hx]; [contradiction|].
    assert (Z : forall f, interpolator f x0 (last (x0 :: X) 0) x = 0).
    { intros f. unfold interpolator. destruct (Rle_dec x0 x); [|reflexivity]. destruct (Rle_dec x (last (x0 :: X) 0)); [|reflexivity].
      exfalso. assert (Rabs x <= B) by (apply Rabs_le; lra). lra. }
    apply outside; [exact Hi | exact Hy | exact HB | exact P | lra | exact Hx | apply Z | apply Z].
Qed.

(** ** The semicircular density of states *)
Lemma Bethe_pos scale w : 0 < scale -> 0 <= Bethe scale w.
Proof.
  intros Hs. unfold Bethe. destruct (Rlt_dec _ _); [|lra]. pose proof PI_RGT_0.
  apply Rmult_le_pos; [apply Rmult_le_pos; [|lra] | apply sqrt_pos]. apply Rlt_le, Rdiv_lt_0_compat; lra.
Qed.
Lemma Bethe_piecewise scale : 0 < scale -> piecewise (Bethe scale) (fun _ => 0) (- (1 / scale)) (1 / scale).
Proof.
  intros Hs. assert (Hb : 0 < 1 / scale) by (apply Rdiv_lt_0_compat; lra).
  apply (piece _ _ _ _ (fun w => 2 / PI * scale * sqrt (1 - sqr (w * scale))) (fun _ => 0)); [lra | |].
  - intros w _. split; [|apply continuous_const].
    apply (continuous_mult (fun _ => 2 / PI * scale) (fun w => sqrt (1 - sqr (w * scale)))); [apply continuous_const|].
    apply (continuous_comp (fun w => 1 - sqr (w * scale)) sqrt); [|apply continuous_sqrt].
    apply (continuous_minus (fun _ => 1) (fun w => sqr (w * scale))); [apply continuous_const|]. unfold sqr.
    apply (continuous_mult (fun w => w * scale) (fun w => w * scale));
      apply (continuous_mult (fun w => w) (fun _ => scale)); try apply continuous_const; apply continuous_id.
  - intros w Hw. split; [|reflexivity]. unfold Bethe. destruct (Rlt_dec _ _) as [|N]; [reflexivity|].
    exfalso. apply N. assert (E : 1 / scale * scale = 1) by (field; lra).
    assert (w * scale < 1 / scale * scale) by (apply Rmult_lt_compat_r; lra).
    assert (- (1 / scale) * scale < w * scale) by (apply Rmult_lt_compat_r; lra).
    apply Rabs_lt_between. lra.
Qed.
Lemma Bethe_outside scale w : 0 < scale -> 1 / scale <= Rabs w -> Bethe scale w = 0.
Proof.
  intros Hs Hw. unfold Bethe. destruct (Rlt_dec _ _) as [H|]; [|reflexivity]. exfalso.
  rewrite Rabs_mult, (Rabs_pos_eq scale) in H by lra.
  assert (1 / scale * scale <= Rabs w * scale) by (apply Rmult_le_compat_r; lra).
  replace (1 / scale * scale) with 1 in * by (field; lra). lra.
Qed.

(** ** Self-energy files *)
Theorem do_line_spec h G l1 x l2 y :
  (1 / 1000000 < Rabs (l1 - l2) -> do_line h G l1 x l2 y = Throw)
  /\ (Rabs (l1 - l2) <= 1 / 1000000 ->
      let v := h (l1 - x) (Rmax (- y) (1 / 100000000)) in
      do_line h G l1 x l2 y = Ok ((l1, if G then fst v else - (1 / PI) * fst v), (l2, if G then snd v else - (1 / PI) * snd v))).
Proof.
  unfold do_line. split; intros H; destruct (Rlt_dec _ _); try lra; [reflexivity|].
  assert (E : - Rmin y (- (1 / 100000000)) = Rmax (- y) (1 / 100000000)).
  { unfold Rmin, Rmax. destruct (Rle_dec y _), (Rle_dec (- y) _); lra. }
  cbv zeta. rewrite E. pose proof PI_RGT_0. destruct G; [reflexivity|].
  set (v := h _ _). replace (fst v / - PI) with (- (1 / PI) * fst v) by (field; lra).
  replace (snd v / - PI) with (- (1 / PI) * snd v) by (field; lra). reflexivity.
Qed.

Theorem do_hilb_spec h G : forall Fr Fi out ok, do_hilb h G Fr Fi = (out, ok) ->
  (length out <= Nat.min (length Fr) (length Fi))%nat
  /\ (forall k, (k < length out)%nat -> forall dr di dout,
        let '(l1, x) := nth k Fr dr in let '(l2, y) := nth k Fi di in
        let v := h (l1 - x) (Rmax (- y) (1 / 100000000)) in
        Rabs (l1 - l2) <= 1 / 1000000
        /\ nth k out dout = ((l1, if G then fst v else - (1 / PI) * fst v), (l2, if G then snd v else - (1 / PI) * snd v)))
  /\ (ok = true -> length out = Nat.min (length Fr) (length Fi))
  /\ (ok = false -> (length out < Nat.min (length Fr) (length Fi))%nat
        /\ forall dr di, 1 / 1000000 < Rabs (fst (nth (length out) Fr dr) - fst (nth (length out) Fi di))).
Proof.
  induction Fr as [|[l1 x] Fr IH]; intros [|[l2 y] Fi] out ok E; cbn [do_hilb] in E;
    try (injection E as <- <-; cbn; repeat split; intros; try lia; congruence).
  destruct (do_line_spec h G l1 x l2 y) as [S1 S2].
  destruct (Rlt_dec (1 / 1000000) (Rabs (l1 - l2))) as [L | N].
  - rewrite (S1 L) in E. injection E as <- <-. cbn [length].
    split; [lia|]. split; [intros k Hk; lia|]. split; [discriminate|]. intros _. split; [cbn; lia|]. intros dr di. exact L.
  - assert (Hle : Rabs (l1 - l2) <= 1 / 1000000) by lra. rewrite (S2 Hle) in E.
    destruct (do_hilb h G Fr Fi) as [out1 ok1] eqn:E1. injection E as <- <-.
    destruct (IH _ _ _ E1) as (A1 & A2 & A3 & A4). cbn [length]. split; [cbn; lia|]. split; [|split].
    + intros [|k] Hk dr di dout; cbn [nth].
      * split; [exact Hle | reflexivity].
      * apply A2. lia.
    + intros Hok. rewrite (A3 Hok). reflexivity.
    + intros Hok. destruct (A4 Hok) as [A5 A6]. split; [cbn; lia | exact A6].
Qed.

Theorem do_hilb_nonneg integr rho B Fr Fi out ok : exact_integration integr -> 0 <= B -> piecewise rho (fun _ => 0) (- B) B ->
  (forall w, 0 <= rho w) -> do_hilb (hilbert integr rho B 0 0) false Fr Fi = (out, ok) ->
  forall k dr di dout, (k < length out)%nat -> snd (nth k Fi di) <= - (1 / 1000) ->
  let '(label, re, im) := (fst (nth k Fr dr), snd (nth k Fr dr), snd (nth k Fi di)) in
  let h := transform rho (fun _ => 0) B (label - re, - im) in
  snd (fst (nth k out dout)) = - (1 / PI) * Re h /\ snd (snd (nth k out dout)) = - (1 / PI) * Im h /\ 0 <= - (1 / PI) * Im h.
Proof.
  intros Hi HB Hp Hpos E k dr di dout Hk Him. destruct (do_hilb_spec _ _ _ _ _ _ E) as (_ & S & _).
  specialize (S k Hk dr di dout). destruct (nth k Fr dr) as [l1 x], (nth k Fi di) as [l2 y]. cbn [fst snd] in *.
  destruct S as [_ ->]. cbn [fst snd]. rewrite Rmax_left by lra. unfold hilbert. rewrite !Rplus_0_r.
  rewrite direct; [| exact Hi | lra | exact Hp | rewrite Rabs_pos_eq; lra].
  repeat split. pose proof (spectral_nonneg rho B (l1 - x) (- y)) as N.
  assert (0 < 1 / PI) by (apply Rdiv_lt_0_compat; [lra | apply PI_RGT_0]).
  specialize (N ltac:(lra) HB Hp Hpos). nra.
Qed.

Lemma shifted integr rho B shiftx shifty x y : exact_integration integr -> piecewise rho (fun _ => 0) (- B) B ->
  1 / 1000 <= Rabs (y + shifty) ->
  hilbert integr rho B shiftx shifty x y = transform rho (fun _ => 0) B (x + shiftx, y + shifty).
Proof.
  intros HI HP Hy. unfold hilbert. apply direct; try assumption.
  intros E. rewrite E, Rabs_R0 in Hy. lra.
Qed.
