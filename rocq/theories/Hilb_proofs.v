(** Proofs about the Hilbert-transform tool. *)
From Coq Require Import List Reals Lra Psatz.
From Coquelicot Require Import Coquelicot.
From Verif Require Import Base Hilb_model Hilb_spec.
Import ListNotations.
Local Open Scope R_scope.

Inductive pwc (f : R -> R) : R -> R -> Prop :=
| pwc1 a b g : a <= b -> (forall w, a <= w <= b -> continuous g w) -> (forall w, a < w < b -> f w = g w) -> pwc f a b
| pwc2 a b c : pwc f a b -> pwc f b c -> pwc f a c.

Lemma pwc_le f a b : pwc f a b -> a <= b.
Proof. induction 1; lra. Qed.

Lemma pwc_ex f a b : pwc f a b -> ex_RInt f a b.
Proof.
  induction 1 as [a b g Hab Hc He | a b c _ IH1 _ IH2].
  - apply (ex_RInt_ext g).
    + intros w. rewrite Rmin_left, Rmax_right by lra. intros Hw. symmetry. auto.
    + apply (ex_RInt_continuous (V := R_CompleteNormedModule)). intros w. rewrite Rmin_left, Rmax_right by lra. auto.
  - eapply ex_RInt_Chasles; eauto.
Qed.

Lemma pwc_sub f a b : pwc f a b -> forall c d, a <= c -> c <= d -> d <= b -> pwc f c d.
Proof.
  induction 1 as [a b g Hab Hc He | a b c H1 IH1 H2 IH2]; intros c' d' Ha Hcd Hb.
  - apply (pwc1 _ _ _ g); auto; intros w Hw; [apply Hc | apply He]; lra.
  - pose proof (pwc_le _ _ _ H1); pose proof (pwc_le _ _ _ H2).
    destruct (Rle_dec d' b); [apply IH1; lra|]. destruct (Rle_dec b c'); [apply IH2; lra|].
    apply (pwc2 _ _ b); [apply IH1 | apply IH2]; lra.
Qed.

Lemma piecewise_pwc r i a b al be ga : piecewise r i a b ->
  (forall w, continuous al w) -> (forall w, continuous be w) -> (forall w, continuous ga w) ->
  pwc (fun w => al w * r w + be w * i w + ga w) a b.
Proof.
  intros H Ha Hb Hg. induction H as [a b gr gi Hab Hc He | a b c _ IH1 _ IH2].
  - apply (pwc1 _ _ _ (fun w => al w * gr w + be w * gi w + ga w)); [exact Hab | |].
    + intros w Hw. destruct (Hc w Hw) as [C1 C2].
      apply (continuous_plus (fun w => al w * gr w + be w * gi w) ga); [|apply Hg].
      apply (continuous_plus (fun w => al w * gr w) (fun w => be w * gi w)).
      * apply (continuous_mult al gr); auto.
      * apply (continuous_mult be gi); auto.
    + intros w Hw. destruct (He w Hw) as [-> ->]. reflexivity.
  - eapply pwc2; eauto.
Qed.

Lemma pwc_ext f g a b : (forall w, f w = g w) -> pwc f a b -> pwc g a b.
Proof.
  intros E H. induction H as [a b h Hab Hc He | a b c _ IH1 _ IH2]; [|eapply pwc2; eauto].
  apply (pwc1 _ _ _ h); auto. intros w Hw. rewrite <- E. auto.
Qed.

(** ** Substitutions *)
Section Sub.
  Variables (F : R -> R) (x Y : R).
  Hypothesis (HY : 0 < Y).

  Lemma exp_ln_div u : 0 < u -> Y * exp (ln (u / Y)) = u.
  Proof. intros Hu. rewrite exp_ln; [field; lra | apply Rdiv_lt_0_compat; lra]. Qed.

  Lemma ln_div_le u v : 0 < u -> u <= v -> ln (u / Y) <= ln (v / Y).
  Proof.
    intros Hu Huv. assert (0 < u / Y) by (apply Rdiv_lt_0_compat; lra).
    assert (0 < / Y) by (apply Rinv_0_lt_compat; lra).
    apply Rcomplements.ln_le; [assumption|]. unfold Rdiv. apply Rmult_le_compat_r; lra.
  Qed.

  Lemma exp_le a b : a <= b -> exp a <= exp b.
  Proof. intros [H | ->]; [apply Rlt_le, exp_increasing, H | lra]. Qed.

  Lemma sub_p a b : pwc F a b -> x < a ->
    is_RInt (fun r => Y * F (Y * exp r + x) * exp r) (ln ((a - x) / Y)) (ln ((b - x) / Y)) (RInt F a b).
  Proof.
    induction 1 as [a b g Hab Hc He | a b c H1 IH1 H2 IH2]; intros Hx.
    - assert (Hl : ln ((a - x) / Y) <= ln ((b - x) / Y)) by (apply ln_div_le; lra).
      assert (Ga : Y * exp (ln ((a - x) / Y)) + x = a) by (rewrite exp_ln_div; lra).
      assert (Gb : Y * exp (ln ((b - x) / Y)) + x = b) by (rewrite exp_ln_div; lra).
      rewrite (RInt_ext F g).
      2:{ intros w. rewrite Rmin_left, Rmax_right by lra. auto. }
      pose proof (is_RInt_comp g (fun r => Y * exp r + x) (fun r => Y * exp r) (ln ((a - x) / Y)) (ln ((b - x) / Y))) as H.
      cbv beta in H. rewrite Ga, Gb in H.
      eapply is_RInt_ext; [|apply H].
      + intros r. rewrite Rmin_left, Rmax_right by lra. intros Hr. rewrite He.
        * cbn. unfold mult; cbn. ring.
        * rewrite <- Ga, <- Gb. split; apply Rplus_lt_compat_r, Rmult_lt_compat_l; try lra; apply exp_increasing; lra.
      + intros r. rewrite Rmin_left, Rmax_right by lra. intros Hr. apply Hc.
        rewrite <- Ga, <- Gb. split; apply Rplus_le_compat_r, Rmult_le_compat_l; try lra; apply exp_le; lra.
      + intros r _. split.
        * auto_derive; [trivial | ring].
        * apply (continuous_mult (fun _ => Y) exp); [apply continuous_const | apply continuous_exp].
    - pose proof (pwc_le _ _ _ H1). pose proof (pwc_le _ _ _ H2).
      rewrite <- (RInt_Chasles F a b c) by (apply pwc_ex; assumption).
      apply (is_RInt_Chasles (V := R_NormedModule)) with (ln ((b - x) / Y)); [apply IH1; lra | apply IH2; lra].
  Qed.

  Lemma sub_m a b : pwc F a b -> b < x ->
    is_RInt (fun r => Y * F (Y * - exp r + x) * exp r) (ln ((x - b) / Y)) (ln ((x - a) / Y)) (RInt F a b).
  Proof.
    induction 1 as [a b g Hab Hc He | a b c H1 IH1 H2 IH2]; intros Hx.
    - assert (Hl : ln ((x - b) / Y) <= ln ((x - a) / Y)) by (apply ln_div_le; lra).
      assert (Ga : Y * - exp (ln ((x - a) / Y)) + x = a).
      { pose proof (exp_ln_div (x - a)). lra. }
      assert (Gb : Y * - exp (ln ((x - b) / Y)) + x = b).
      { pose proof (exp_ln_div (x - b)). lra. }
      rewrite (RInt_ext F g).
      2:{ intros w. rewrite Rmin_left, Rmax_right by lra. auto. }
      pose proof (is_RInt_comp g (fun r => Y * - exp r + x) (fun r => Y * - exp r) (ln ((x - b) / Y)) (ln ((x - a) / Y))) as H.
      cbv beta in H. rewrite Ga, Gb in H.
      assert (Hm : forall r, ln ((x - b) / Y) <= r <= ln ((x - a) / Y) -> a <= Y * - exp r + x <= b).
      { intros r Hr. rewrite <- Ga, <- Gb.
        assert (exp (ln ((x - b) / Y)) <= exp r) by (apply exp_le; lra).
        assert (exp r <= exp (ln ((x - a) / Y))) by (apply exp_le; lra).
        split; apply Rplus_le_compat_r, Rmult_le_compat_l; lra. }
      assert (Hm' : forall r, ln ((x - b) / Y) < r < ln ((x - a) / Y) -> a < Y * - exp r + x < b).
      { intros r Hr. rewrite <- Ga, <- Gb.
        assert (exp (ln ((x - b) / Y)) < exp r) by (apply exp_increasing; lra).
        assert (exp r < exp (ln ((x - a) / Y))) by (apply exp_increasing; lra).
        split; apply Rplus_lt_compat_r, Rmult_lt_compat_l; lra. }
      replace (RInt g a b) with (opp (RInt g b a)).
      2:{ apply (opp_RInt_swap (V := R_CompleteNormedModule)). apply (ex_RInt_continuous (V := R_CompleteNormedModule)).
          intros w. rewrite Rmin_right, Rmax_left by lra. auto. }
      eapply is_RInt_ext; [|apply (is_RInt_opp (V := R_NormedModule)), H].
      + intros r. rewrite Rmin_left, Rmax_right by lra. intros Hr. rewrite (He _ (Hm' _ Hr)).
        cbn. unfold mult; cbn. ring.
      + intros r. rewrite Rmin_left, Rmax_right by lra. intros Hr. apply Hc, Hm, Hr.
      + intros r _. split.
        * auto_derive; [trivial | ring].
        * apply (continuous_mult (fun _ => Y) (fun r => - exp r)); [apply continuous_const|].
          apply (continuous_opp exp), continuous_exp.
    - pose proof (pwc_le _ _ _ H1). pose proof (pwc_le _ _ _ H2).
      rewrite <- (RInt_Chasles F a b c) by (apply pwc_ex; assumption).
      assert (E : plus (RInt F a b) (RInt F b c) = plus (RInt F b c) (RInt F a b)) by apply plus_comm.
      rewrite E. apply (is_RInt_Chasles (V := R_NormedModule)) with (ln ((x - b) / Y)); [apply IH2; lra | apply IH1; lra].
  Qed.
End Sub.

(** ** The integrands *)
Section Transform.
  Variables (integr : (R -> R) -> R -> R -> R) (rhor rhoi : R -> R) (B x y lim : R).
  Hypothesis (Hi : exact_integration integr) (Hy : y <> 0) (HB : 0 <= B).

  Notation D w := (sqr y + sqr (x - w)).
  Lemma D_pos w : 0 < D w.
  Proof. unfold sqr. assert (0 < y * y) by exact (Rsqr_pos_lt y Hy). pose proof (Rle_0_sqr (x - w)) as H1. unfold Rsqr in H1. lra. Qed.

  Lemma cont_over f w : (forall v, continuous f v) -> continuous (fun v => f v / D v) w.
  Proof.
    intros Hf. unfold Rdiv. apply (continuous_mult f (fun v => / D v)); [apply Hf|].
    apply (continuous_comp (fun v => D v) Rinv).
    - apply (continuous_plus (fun _ => sqr y) (fun v => sqr (x - v))); [apply continuous_const|].
      unfold sqr. apply (continuous_mult (fun v => x - v) (fun v => x - v));
        apply (continuous_minus (fun _ => x) (fun v => v)); try apply continuous_const; apply continuous_id.
    - apply continuous_Rinv. pose proof (D_pos w). lra.
  Qed.
  Lemma cont_xw w : continuous (fun v => x - v) w.
  Proof. apply (continuous_minus (fun _ => x) (fun v => v)); [apply continuous_const | apply continuous_id]. Qed.
  Lemma cont_c (c w : R) : continuous (fun _ => c) w.
  Proof. apply continuous_const. Qed.

  (** The kernel: (p (x - w) + q y) / D *)
  Lemma integral_kernel : is_RInt (fun w => (x - w) / D w) (- B) B (reQ x y B)
    /\ is_RInt (fun w => - y / D w) (- B) B (imQ x y B).
  Proof.
    split.
    - replace (reQ x y B) with (minus (- ln (D B) / 2) (- ln (D (- B)) / 2)).
      2:{ cbn. unfold minus, plus, opp; cbn. unfold reQ.
          replace (sqr (B - x) + sqr y) with (D B) by (unfold sqr; ring).
          replace (sqr (B + x) + sqr y) with (D (- B)) by (unfold sqr; ring). field. }
      apply (is_RInt_derive (fun w => - ln (D w) / 2) (fun w => (x - w) / D w)).
      + intros w _. pose proof (D_pos w) as HD. unfold sqr in *. auto_derive; [lra|]. field. lra.
      + intros w _. apply cont_over, cont_xw.
    - replace (imQ x y B) with (minus (atan ((x - B) / y)) (atan ((x - - B) / y))).
      2:{ cbn. unfold minus, plus, opp; cbn. unfold imQ. replace (- B + x) with (x - B) by ring. replace (B + x) with (x - - B) by ring. ring. }
      apply (is_RInt_derive (fun w => atan ((x - w) / y)) (fun w => - y / D w)).
      + intros w _. pose proof (D_pos w) as HD. unfold sqr in *. auto_derive; [exact Logic.I|].
        unfold Rsqr. field. split; [|lra]. nra.
      + intros w _. apply cont_over, cont_c.
  Qed.

  Section Part.
    (** f0 and f1 are ((rho w - rho x) * a + (rhoi w - rhoi x) * b) / D with continuous a, b *)
    Variables (al be : R -> R).
    Hypotheses (Ha : forall w, continuous al w) (Hb : forall w, continuous be w).
    Definition g0 w := (rhor w * al w + rhoi w * be w) / D w.
    Definition g1 w := ((rhor w - rhor x) * al w + (rhoi w - rhoi x) * be w) / D w.
    Definition g3p r := Rabs y * g1 (Rabs y * exp r + x) * exp r.
    Definition g3m r := Rabs y * g1 (Rabs y * - exp r + x) * exp r.

    Lemma g0_pwc a b : piecewise rhor rhoi a b -> pwc g0 a b.
    Proof.
      intros H. apply (pwc_ext (fun w => al w / D w * rhor w + be w / D w * rhoi w + 0)).
      - intros w. unfold g0. field. pose proof (D_pos w). lra.
      - apply piecewise_pwc; [exact H | intros w; apply cont_over, Ha | intros w; apply cont_over, Hb | intros w; apply cont_c].
    Qed.
    Lemma g1_pwc a b : piecewise rhor rhoi a b -> pwc g1 a b.
    Proof.
      intros H. apply (pwc_ext (fun w => al w / D w * rhor w + be w / D w * rhoi w + - (rhor x * al w + rhoi x * be w) / D w)).
      - intros w. unfold g1. field. pose proof (D_pos w). lra.
      - apply piecewise_pwc; [exact H | intros w; apply cont_over, Ha | intros w; apply cont_over, Hb |].
        intros w. apply (cont_over (fun w => - (rhor x * al w + rhoi x * be w))). intros v.
        apply (continuous_opp (fun v => rhor x * al v + rhoi x * be v)).
        apply (continuous_plus (fun v => rhor x * al v) (fun v => rhoi x * be v));
          [apply (continuous_mult (fun _ => rhor x) al) | apply (continuous_mult (fun _ => rhoi x) be)]; auto; apply continuous_const.
    Qed.

    Hypothesis (Hp : piecewise rhor rhoi (- B) B).

    Lemma calcB_ok : calcB integr B g0 = RInt g0 (- B) B.
    Proof. apply Hi, pwc_ex, g0_pwc, Hp. Qed.

    Variable (d : R).
    Hypothesis (Hd : RInt g1 (- B) B + d = RInt g0 (- B) B).

    Notation Y := (Rabs y).
    Lemma Y_pos : 0 < Y.
    Proof. apply Rabs_pos_lt, Hy. Qed.

    Lemma int_p a b : - B <= a -> a <= b -> b <= B -> x < a -> integr g3p (ln ((a - x) / Y)) (ln ((b - x) / Y)) = RInt g1 a b.
    Proof.
      intros H1 H2 H3 H4.
      assert (S := sub_p g1 x Y Y_pos a b (pwc_sub _ _ _ (g1_pwc _ _ Hp) a b H1 H2 H3) H4).
      rewrite Hi; [|eexists; exact S]. exact (is_RInt_unique _ _ _ _ S).
    Qed.
    Lemma int_m a b : - B <= a -> a <= b -> b <= B -> b < x -> integr g3m (ln ((x - b) / Y)) (ln ((x - a) / Y)) = RInt g1 a b.
    Proof.
      intros H1 H2 H3 H4.
      assert (S := sub_m g1 x Y Y_pos a b (pwc_sub _ _ _ (g1_pwc _ _ Hp) a b H1 H2 H3) H4).
      rewrite Hi; [|eexists; exact S]. exact (is_RInt_unique _ _ _ _ S).
    Qed.

    Lemma div_sign u : (0 < u -> 0 < u / Y) /\ (u < 0 -> u / Y < 0).
    Proof.
      pose proof Y_pos as HY. split; intros Hu.
      - apply Rdiv_lt_0_compat; lra.
      - assert (0 < - u / Y) by (apply Rdiv_lt_0_compat; lra). unfold Rdiv in *. nra.
    Qed.

    Lemma opp_div_Y u : - (u / Y) = - u / Y.
    Proof. unfold Rdiv. ring. Qed.

    Lemma ln_lt_iff u v : 0 < u -> 0 < v -> ln (u / Y) < ln (v / Y) <-> u < v.
    Proof.
      intros Hu Hv. pose proof Y_pos as HY. split; intros H.
      - destruct (Rlt_dec u v) as [|N]; [assumption|].
        pose proof (ln_div_le Y HY v u Hv). lra.
      - apply ln_increasing; [apply Rdiv_lt_0_compat; lra|]. unfold Rdiv. apply Rmult_lt_compat_r; [apply Rinv_0_lt_compat|]; lra.
    Qed.

    (** outside of the band *)
    Lemma calcA_above : B < x -> rhor x = 0 -> rhoi x = 0 -> calcA integr B x y g3p g3m d = RInt g0 (- B) B.
    Proof.
      intros Hx Hr Hri. unfold calcA.
      assert (W1 : 0 < (x - B) / Y) by (apply div_sign; lra). assert (W2 : 0 < (B + x) / Y) by (apply div_sign; lra).
      destruct (Rlt_dec ((x - B) / Y) 0); [lra|]. destruct (Rlt_dec 0 ((x - B) / Y)); [|lra].
      destruct (Rlt_dec 0 ((B + x) / Y)); [|lra].
      destruct (Rlt_dec 1 (-1)); [lra|].
      assert (E : RInt g0 (- B) B = RInt g1 (- B) B).
      { apply RInt_ext. intros w _. unfold g0, g1. rewrite Hr, Hri, !Rminus_0_r. reflexivity. }
      rewrite E. destruct (Rlt_dec (ln ((x - B) / Y)) (ln ((B + x) / Y))) as [L | N].
      - replace (B + x) with (x - - B) by ring. rewrite int_m; lra.
      - assert (B = 0) as EB. { destruct (Rlt_dec 0 B); [|lra]. exfalso. apply N, ln_lt_iff; lra. }
        rewrite EB, Ropp_0, RInt_point. cbn. unfold zero; cbn. ring.
    Qed.
    Lemma calcA_below : x < - B -> rhor x = 0 -> rhoi x = 0 -> calcA integr B x y g3p g3m d = RInt g0 (- B) B.
    Proof.
      intros Hx Hr Hri. unfold calcA.
      assert (W1 : (x - B) / Y < 0) by (apply div_sign; lra). assert (W2 : (B + x) / Y < 0) by (apply div_sign; lra).
      destruct (Rlt_dec ((x - B) / Y) 0); [|lra]. destruct (Rlt_dec 0 ((B + x) / Y)); [lra|].
      destruct (Rlt_dec ((B + x) / Y) 0); [|lra].
      destruct (Rlt_dec 1 (-1)); [lra|].
      assert (E : RInt g0 (- B) B = RInt g1 (- B) B).
      { apply RInt_ext. intros w _. unfold g0, g1. rewrite Hr, Hri, !Rminus_0_r. reflexivity. }
      rewrite E, !opp_div_Y. replace (- (x - B)) with (B - x) by ring. replace (- (B + x)) with (- B - x) by ring.
      destruct (Rlt_dec (ln ((- B - x) / Y)) (ln ((B - x) / Y))) as [L | N].
      - rewrite int_p; lra.
      - assert (B = 0) as EB. { destruct (Rlt_dec 0 B); [|lra]. exfalso. apply N, ln_lt_iff; lra. }
        rewrite EB, Ropp_0, RInt_point. cbn. unfold zero; cbn. ring.
    Qed.

    (** on the band edges the integrals are left out *)
    Lemma calcA_edge : x = B \/ x = - B -> calcA integr B x y g3p g3m d = d.
    Proof.
      intros Hx. unfold calcA.
      assert (Z : 0 / Y = 0) by (unfold Rdiv; ring).
      destruct Hx as [E | E].
      - replace (x - B) with 0 by lra. rewrite Z. destruct (Rlt_dec 0 0); [lra|].
        destruct (Rlt_dec 1 (-1)); [lra|]. lra.
      - replace (B + x) with 0 by lra. rewrite Z. destruct (Rlt_dec 0 0); [lra|].
        destruct (Rlt_dec ((x - B) / Y) 0), (Rlt_dec 0 ((x - B) / Y)); destruct (Rlt_dec 1 (-1)); lra.
    Qed.

    (** inside the band *)
    Let delta := Y * exp ln1016.
    Lemma delta_pos : 0 < delta.
    Proof. apply Rmult_lt_0_compat; [apply Y_pos | apply exp_pos]. Qed.
    Lemma ln_delta : ln (delta / Y) = ln1016.
    Proof. unfold delta. replace (Y * exp ln1016 / Y) with (exp ln1016) by (field; pose proof Y_pos; lra). apply ln_exp. Qed.

    Lemma calcA_inside M : - B < x < B -> (forall w, Rabs (w - x) <= delta -> - B <= w <= B -> Rabs (g1 w) <= M) ->
      Rabs (calcA integr B x y g3p g3m d - RInt g0 (- B) B) <= 2 * delta * M.
    Proof.
      intros Hx HM. pose proof delta_pos as Hdl. pose proof ln_delta as Hln. clearbody delta. unfold calcA.
      assert (W1 : (x - B) / Y < 0) by (apply div_sign; lra). assert (W2 : 0 < (B + x) / Y) by (apply div_sign; lra).
      destruct (Rlt_dec ((x - B) / Y) 0); [|lra]. destruct (Rlt_dec 0 ((B + x) / Y)); [|lra].
      rewrite !opp_div_Y. replace (- (x - B)) with (B - x) by ring. replace (B + x) with (x - - B) by ring.
      set (m := Rmax (x - delta) (- B)). set (M' := Rmin (x + delta) B).
      assert (Hm1 : - B <= m) by apply Rmax_r. assert (Hm2 : x - delta <= m) by apply Rmax_l.
      assert (Hm3 : m < x) by (apply Rmax_lub_lt; lra).
      assert (HM1 : M' <= B) by apply Rmin_r. assert (HM2 : M' <= x + delta) by apply Rmin_l.
      assert (HM3 : x < M') by (apply Rmin_glb_lt; lra).
      assert (R1 : (if Rlt_dec ln1016 (ln ((B - x) / Y)) then integr g3p ln1016 (ln ((B - x) / Y)) else 0) = RInt g1 M' B).
      { rewrite <- Hln. match goal with |- context [Rlt_dec ?u ?v] => destruct (Rlt_dec u v) as [L | N] end.
        - rewrite ln_lt_iff in L by lra. assert (E : M' = x + delta) by (apply Rmin_left; lra).
          rewrite E. replace delta with (x + delta - x) at 1 by ring. apply int_p; lra.
        - assert (B - x <= delta). { destruct (Rle_dec (B - x) delta); [assumption|]. exfalso; apply N, ln_lt_iff; lra. }
          assert (E : M' = B) by (apply Rmin_right; lra). rewrite E, RInt_point. reflexivity. }
      assert (R2 : (if Rlt_dec ln1016 (ln ((x - - B) / Y)) then integr g3m ln1016 (ln ((x - - B) / Y)) else 0) = RInt g1 (- B) m).
      { rewrite <- Hln. match goal with |- context [Rlt_dec ?u ?v] => destruct (Rlt_dec u v) as [L | N] end.
        - rewrite ln_lt_iff in L by lra. assert (E : m = x - delta) by (apply Rmax_left; lra).
          rewrite E. replace delta with (x - (x - delta)) at 1 by ring. apply int_m; lra.
        - assert (x - - B <= delta). { destruct (Rle_dec (x - - B) delta); [assumption|]. exfalso; apply N, ln_lt_iff; lra. }
          assert (E : m = - B) by (apply Rmax_right; lra). rewrite E, RInt_point. reflexivity. }
      rewrite R1, R2, <- Hd.
      assert (P := g1_pwc _ _ Hp).
      assert (X1 : ex_RInt g1 (- B) m) by (apply pwc_ex, (pwc_sub _ _ _ P); lra).
      assert (X2 : ex_RInt g1 m M') by (apply pwc_ex, (pwc_sub _ _ _ P); lra).
      assert (X3 : ex_RInt g1 M' B) by (apply pwc_ex, (pwc_sub _ _ _ P); lra).
      assert (X12 : ex_RInt g1 (- B) M') by (apply pwc_ex, (pwc_sub _ _ _ P); lra).
      assert (C1 := RInt_Chasles g1 _ _ _ X1 X2). assert (C2 := RInt_Chasles g1 _ _ _ X12 X3).
      change (RInt g1 (- B) m + RInt g1 m M' = RInt g1 (- B) M') in C1. change (RInt g1 (- B) M' + RInt g1 M' B = RInt g1 (- B) B) in C2.
      replace (RInt g1 M' B + RInt g1 (- B) m + d - (RInt g1 (- B) B + d)) with (- RInt g1 m M') by lra.
      rewrite Rabs_Ropp.
      assert (N : norm (RInt g1 m M') <= (M' - m) * M).
      { apply (norm_RInt_le_const g1 m M'); [lra | | apply (RInt_correct g1), X2].
        intros w Hw. apply HM; [apply Rabs_le; lra | lra]. }
      change (norm (RInt g1 m M')) with (Rabs (RInt g1 m M')) in N.
      assert (0 <= M). { eapply Rle_trans; [apply Rabs_pos | apply (HM x)]; [rewrite Rminus_eq_0, Rabs_R0; lra | lra]. }
      nra.
    Qed.
  End Part.
End Transform.
