(** With short steps the file of the tool adapt is completed. *)
From Coq Require Import List ZArith Reals Lra Lia Bool FunctionalExtensionality.
From Verif Require Import Base Interp_model Interp_spec Interp_proofs Adapt_model Adapt_spec Adapt_proofs Adapt_lip Adapt_run Adapt_main Adapt_aux Adapt_done.
Import List ListNotations.
Local Open Scope R_scope.

Lemma abs_le a b : Rabs a <= b -> - b <= a <= b.
Proof. intros H. pose proof (Rle_abs a). pose proof (Rle_abs (- a)) as N. rewrite Rabs_Ropp in N. lra. Qed.
Section Grow.
  Variables (F Q : R -> R -> R) (L q X : R).
  Hypothesis HL : 0 < L.
  Hypothesis Hq : 0 <= q.
  Hypothesis HF : forall x y, F x y = L * y - Q x y.
  Hypothesis HQ : forall x y, 1 <= x <= X -> 0 <= Q x y <= q.
  Let K := L + q.
  Lemma F_abs x y : 1 <= x <= X -> Rabs (F x y) <= K * (1 + Rabs y).
  Proof.
    intros Hx. rewrite HF. specialize (HQ x y Hx). pose proof (Rabs_pos y). unfold Rminus. eapply Rle_trans; [apply Rabs_triang |]. rewrite Rabs_Ropp, Rabs_mult, (Rabs_right L), (Rabs_right (Q x y)) by lra. unfold K. nra.
  Qed.
  Lemma F_low x y y' e : 1 <= x <= X -> Rabs (y' - y) <= e -> F x y' <= L * (y + e).
  Proof. intros Hx He. rewrite HF. specialize (HQ x y' Hx). pose proof (Rle_abs (y' - y)). assert (L * y' <= L * (y + e)) by (apply Rmult_le_compat_l; lra). lra. Qed.
  Lemma stage x y y' s d u : 1 <= x <= X -> 0 <= d -> Rabs (y' - y) <= s -> 1 + Rabs y <= u -> Rabs (d * F x y') <= d * (K * (u + s)).
  Proof.
    intros Hx Hd Hs Hu. rewrite Rabs_mult, (Rabs_right d) by lra. apply Rmult_le_compat_l; [assumption |]. eapply Rle_trans; [apply F_abs; assumption |]. apply Rmult_le_compat_l; [unfold K; lra |]. pose proof (Rabs_triang_inv y' y). lra.
  Qed.
  Lemma rk_grow x y d : 1 <= x -> x + d <= X -> 0 <= d -> d * K <= 1 ->
    Rabs (rk4 F x y d) <= 2 * d * K * (1 + Rabs y) /\ (d <> 0 -> rk4 F x y d / d - y * L <= 2 * L * (d * K * (1 + Rabs y))).
  Proof.
    intros Hx HX Hd Hk. set (u := 1 + Rabs y). assert (Hu : 1 <= u) by (unfold u; pose proof (Rabs_pos y); lra). assert (HK : 0 < K) by (unfold K; lra).
    set (z := d * K * u). assert (Hz : 0 <= z <= u) by (unfold z; assert (0 <= d * K) by (apply Rmult_le_pos; lra); split; [apply Rmult_le_pos; lra | rewrite <- (Rmult_1_l u) at 2; apply Rmult_le_compat_r; lra]).
    unfold rk4. set (k1 := F x y). set (y2 := y + d / 2 * k1). set (k2 := F (x + d / 2) y2). set (y3 := y + d / 2 * k2). set (k3 := F (x + d / 2) y3). set (y4 := y + d * k3). set (k4 := F (x + d) y4).
    assert (U : forall s, 0 <= s <= u -> d * (K * (u + s)) <= 2 * z). { intros s Hs. unfold z. replace (2 * (d * K * u)) with (d * K * (u + u)) by ring. rewrite <- Rmult_assoc. apply Rmult_le_compat_l; [apply Rmult_le_pos; lra | lra]. }
    assert (E0 : Rabs (y - y) <= 0) by (rewrite Rminus_diag_eq, Rabs_R0; lra).
    assert (S1 : Rabs (d * k1) <= z). { eapply Rle_trans; [apply (stage x y y 0 d u); try assumption; unfold u; lra |]. unfold z. right. ring. }
    assert (D2 : Rabs (y2 - y) <= z / 2) by (replace (y2 - y) with (d * k1 / 2) by (unfold y2; field); unfold Rdiv; rewrite Rabs_mult, (Rabs_right (/ 2)) by lra; lra).
    assert (S2 : Rabs (d * k2) <= 2 * z) by (eapply Rle_trans; [apply (stage (x + d / 2) y y2 (z / 2) d u); try assumption; unfold u; lra | apply U; lra]).
    assert (D3 : Rabs (y3 - y) <= z) by (replace (y3 - y) with (d * k2 / 2) by (unfold y3; field); unfold Rdiv; rewrite Rabs_mult, (Rabs_right (/ 2)) by lra; lra).
    assert (S3 : Rabs (d * k3) <= 2 * z) by (eapply Rle_trans; [apply (stage (x + d / 2) y y3 z d u); try assumption; unfold u; lra | apply U; lra]).
    assert (D4 : Rabs (y4 - y) <= 2 * z) by (replace (y4 - y) with (d * k3) by (unfold y4; ring); assumption).
    assert (S4 : Rabs (d * k4) <= 3 * z). { eapply Rle_trans; [apply (stage (x + d) y y4 (2 * z) d u); try assumption; unfold u; lra |]. apply Rle_trans with (d * (K * (3 * u))); [apply Rmult_le_compat_l; [assumption |]; apply Rmult_le_compat_l; lra | right; unfold z; ring]. }
    split.
    - replace (d * (k1 + 2 * k2 + 2 * k3 + k4) / 6) with ((d * k1 + 2 * (d * k2) + 2 * (d * k3) + d * k4) / 6) by field. replace (2 * d * K * u) with (2 * z) by (unfold z; ring).
      apply Rabs_le. apply abs_le in S1. apply abs_le in S2. apply abs_le in S3. apply abs_le in S4. lra.
    - intros Hn. replace (d * (k1 + 2 * k2 + 2 * k3 + k4) / 6 / d) with ((k1 + 2 * k2 + 2 * k3 + k4) / 6) by (field; assumption).
      pose proof (F_low x y y 0 ltac:(lra) E0) as L1. pose proof (F_low (x + d / 2) y y2 _ ltac:(lra) D2) as L2. pose proof (F_low (x + d / 2) y y3 _ ltac:(lra) D3) as L3. pose proof (F_low (x + d) y y4 _ ltac:(lra) D4) as L4. fold k1 in L1. fold k2 in L2. fold k3 in L3. fold k4 in L4.
      fold u. fold z. assert (0 <= L * z) by (apply Rmult_le_pos; lra). rewrite Rmult_plus_distr_l in L1, L2, L3, L4. lra.
  Qed.
End Grow.

(** ** The equation for f *)
Section Complete.
  Variables (Lambda b : R) (v : table) (gp : option R) (gf : R -> R) (xmax M : R).
  Hypothesis HL : 1 < Lambda.
  Hypothesis Hb : 0 < b.
  Hypothesis Hv : increasing v.
  Hypothesis Hl : (2 <= length v)%nat.
  Hypothesis Hpos : forall p, In p v -> 0 < snd p.
  Hypothesis Hgf : exists B Lg, 0 <= B /\ 0 <= Lg /\ (forall x, Rabs (gf x) <= B) /\ (forall x x', Rabs (gf x - gf x') <= Lg * Rabs (x - x')).
  Hypothesis Hg2 : gf 2 = 1.
  Hypothesis Hdec : forall x, 1 <= x -> grid Lambda gp gf (x + 1) <= grid Lambda gp gf x.
  Let w := density b v.
  Let F := slope_f Lambda (fval w) (Fval w) (grid Lambda gp gf).
  Let Q x y := (Fval w (grid Lambda gp gf x) - Fval w (grid Lambda gp gf (x + 1))) / (Rpower Lambda (2 - x) * fval w (y * Rpower Lambda (2 - x))).
  Lemma Q_bound X : exists q, 0 <= q /\ forall x y, 1 <= x <= X -> 0 <= Q x y <= q.
  Proof.
    assert (wi : increasing w) by now apply density_inc. assert (wl : (2 <= length w)%nat) by (pose proof (density_len b v); unfold w; lia). assert (wp : forall p, In p w -> 0 < snd p) by (apply density_pos; assumption).
    destruct (table_bounds w wp) as (r0 & r1 & P0 & P1 & Pb). destruct Hgf as (B & Lg & HB & HLg & Hgb & Hgl). destruct (grid_lip Lambda HL gp gf B Lg HB HLg Hgb Hgl Hg2) as (Le & HLe & Hel).
    assert (Hr01 : forall x, r0 <= fval w x <= r1) by (intros x; now apply fval_between).
    assert (HSL : forall x x', Rabs (Fval w x - Fval w x') <= r1 * Rabs (x - x')). { intros x x'. apply Fval_lip; try assumption. intros p Hin. pose proof (Pb p Hin). pose proof (wp p Hin). lra. }
    pose proof (g0pos Lambda r0 P0 X) as Hg0. set (g0 := Rpower Lambda (2 - X) * r0) in *. exists (r1 * Le / g0). assert (Hi : 0 < / g0) by now apply Rinv_0_lt_compat. split; [apply Rmult_le_pos; [apply Rmult_le_pos; lra | lra] |].
    intros x y Hx. pose proof (J_bound (fval w) (Fval w) (grid Lambda gp gf) r0 r1 Le P0 Hr01 HSL Hel x (proj1 Hx)) as JB. pose proof (G_low Lambda HL (fval w) r0 r1 P0 Hr01 X x y (proj2 Hx)) as GL. cbv beta in JB, GL. fold g0 in GL. unfold Q.
    set (J := Fval w (grid Lambda gp gf x) - Fval w (grid Lambda gp gf (x + 1))) in *. set (G := Rpower Lambda (2 - x) * fval w (y * Rpower Lambda (2 - x))) in *.
    assert (HJ : 0 <= J). { unfold J. pose proof (Fval_mono w _ _ wi wl (fun p Hp => Rlt_le _ _ (wp p Hp)) (Hdec x (proj1 Hx))). lra. }
    apply abs_le in JB. assert (HG : 0 < / G <= / g0) by (split; [apply Rinv_0_lt_compat; lra | apply Rinv_le_contravar; lra]). unfold Rdiv. split; [apply Rmult_le_pos; lra |]. apply Rmult_le_compat; lra.
  Qed.
  Lemma complete_at q P h vg fuel o r : 0 <= q -> (forall x y, 1 <= x <= xmax + p_step P + / 10 ^ 10 -> 0 <= Q x y <= q) -> p_Lambda P = Lambda -> p_bandrescale P = b -> gap P = gp -> p_xmax P = xmax -> p_max_abs P = M -> 1 < xmax ->
    usable P v h -> h * (ln Lambda + q) <= 1 -> h * (2 * ln Lambda * ((ln Lambda + q) * ((1 + Rmax M 1) * exp (2 * (ln Lambda + q) * (p_step P + / 10 ^ 10))))) <= / 10 ^ 5 ->
    (p_adapt P = true -> (2 <= length vg)%nat /\ increasing vg) -> (if p_adapt P then fval vg else fun _ => 1) = gf -> enough P (p_dx_fine P) -> enough P (p_dx_fast P) ->
    ok P w vg o -> calc_f P fuel o = Some r -> exists l, r = Ok l.
  Proof.
    intros Hq HQ EL Eb Eg Ex EM Hx1 U_ Hh1 Hh2 Hvg Egf E1 E2 Ko. pose proof U_ as (_ & _ & _ & _ & Hfine & Hfast & Hst0 & Hm).
    set (L := ln Lambda) in *. assert (HLn : 0 < L) by now apply lnpos. set (K := L + q) in *. assert (HK : 0 < K) by (unfold K; lra). set (M' := Rmax M 1) in *. assert (HM : 1 <= M') by apply Rmax_r. set (e10 := / 10 ^ 10) in *. set (U := (1 + M') * exp (2 * K * (p_step P + e10))) in *. assert (HU : 0 < U) by (apply Rmult_lt_0_compat; [lra | apply exp_pos]).
    assert (H10 : 0 < e10 <= 1) by (unfold e10; assert (1 < 10 ^ 10) by (apply Rlt_pow_R1; [lra | lia]); split; [apply Rinv_0_lt_compat; lra | rewrite <- Rinv_1; apply Rinv_le_contravar; lra]). assert (H5 : 0 < / 10 ^ 5) by (apply Rinv_0_lt_compat, pow_lt; lra).
    assert (Cm : computes P w vg (rhs_F P) F). { assert (Hb' : 0 < p_bandrescale P) by lra. pose proof (computes_F P v Hv Hl Hpos Hb' vg Hvg) as C. rewrite Egf, EL, Eb, Eg in C. exact C. }
    assert (wi : increasing w) by now apply density_inc. assert (wl : (2 <= length w)%nat) by (pose proof (density_len b v); unfold w; lia).
    unfold calc_f. destruct (rho_ok P w vg wl wi 1 o Ko) as (o1 & -> & K1). destruct lines as [r' |] eqn:E; [| discriminate]. intros [= <-].
    pose proof (lines_done P w vg wl Hvg (rhs_F P) F Cm Hm true true h Hfast Hst0 E2
      (fun x0 y0 xf x y => x0 <= x /\ 1 + Rabs y <= (1 + Rabs y0) * exp (2 * K * (x - x0))) (fun x y => Rabs y <= M' /\ x <= xmax) 1) as D.
    destruct (fun a b c => D a b c fuel (p_dx_fine P) 1 {| s_x := 1; s_y := 1 / p_Lambda P; s_err := 0; s_o := o1 |} r' Hfine E1 K1) as (l & s' & ->); [| | | | cbn; lra | cbn; lra | exact E | cbn [bind]; eauto].
    - intros x0 y0 t _ _ _. rewrite Rminus_diag_eq, Rmult_0_r, exp_0 by reflexivity. lra.
    - fold e10. intros x0 y0 t [Hy Hx] S0 Ht x y d [Hxx Hu] Hd Hxd. assert (Hyp := Rabs_pos y0). pose proof (Rabs_pos y) as Hya.
      assert (Hdk : d * K <= 1) by (apply Rle_trans with (h * K); [apply Rmult_le_compat_r; lra | assumption]).
      destruct (rk_grow F Q L q (xmax + p_step P + e10) HLn Hq (fun _ _ => eq_refl) HQ x y d ltac:(lra) ltac:(lra) (proj1 Hd) Hdk) as [G1 G2]. fold K in G1, G2.
      assert (HuU : 1 + Rabs y <= U). { eapply Rle_trans; [exact Hu |]. unfold U. apply Rmult_le_compat; [lra | apply Rlt_le, exp_pos | lra |]. destruct (Rle_lt_or_eq_dec (2 * K * (x - x0)) (2 * K * (p_step P + e10))) as [Lt | ->]; [apply Rmult_le_compat_l; lra | now apply Rlt_le, exp_increasing | lra]. }
      split.
      + intros _ Nz. rewrite EL. fold L. eapply Rle_trans; [apply (G2 Nz) |]. eapply Rle_trans; [| exact Hh2]. replace (2 * L * (d * K * (1 + Rabs y))) with (2 * L * K * (d * (1 + Rabs y))) by ring. replace (h * (2 * L * (K * U))) with (2 * L * K * (h * U)) by ring.
        apply Rmult_le_compat_l; [apply Rmult_le_pos; lra |]. apply Rmult_le_compat; lra.
      + split; [lra |]. assert (Hdp : 0 <= 2 * K * d) by (apply Rmult_le_pos; lra). apply Rle_trans with ((1 + Rabs y) * (1 + 2 * K * d)).
        * pose proof (Rabs_triang y (rk4 F x y d)). replace ((1 + Rabs y) * (1 + 2 * K * d)) with (1 + Rabs y + 2 * d * K * (1 + Rabs y)) by ring. lra.
        * replace (2 * K * (x + d - x0)) with (2 * K * (x - x0) + 2 * K * d) by ring. rewrite exp_plus, <- Rmult_assoc. apply Rmult_le_compat; [lra | lra | assumption |]. destruct (Rle_lt_or_eq_dec 0 _ Hdp) as [Lt | <-]; [apply Rlt_le, exp_ineq1; lra | rewrite exp_0; lra].
    - intros x0 y0 t x y [Hxx _] S0 Hx Hgo. rewrite Ex in Hx. specialize (Hgo eq_refl). rewrite EM in Hgo. split; [split; [eapply Rle_trans; [exact Hgo | apply Rmax_l] | lra] | lra].
    - cbn [s_x s_y]. rewrite EL. split; [| lra]. rewrite Rabs_right; [| apply Rle_ge, Rmult_le_pos; [lra | apply Rlt_le, Rinv_0_lt_compat; lra]]. apply Rle_trans with 1; [| assumption]. unfold Rdiv. rewrite Rmult_1_l, <- Rinv_1. apply Rinv_le_contravar; lra.
  Qed.
  Lemma complete : exists K C, 0 < K /\ 0 < C /\ forall P h vg fuel o r, p_Lambda P = Lambda -> p_bandrescale P = b -> gap P = gp -> p_xmax P = xmax -> p_max_abs P = M -> 1 < xmax -> p_step P <= 1 ->
    usable P v h -> h * K <= 1 -> h * C * exp (K * (p_step P + / 10 ^ 10)) <= / 10 ^ 5 -> (p_adapt P = true -> (2 <= length vg)%nat /\ increasing vg) -> (if p_adapt P then fval vg else fun _ => 1) = gf -> enough P (p_dx_fine P) -> enough P (p_dx_fast P) ->
    ok P w vg o -> calc_f P fuel o = Some r -> exists l, r = Ok l.
  Proof.
    destruct (Q_bound (xmax + 3)) as (q & Hq & HQ). pose proof (lnpos Lambda HL) as HLn. set (L := ln Lambda) in *. pose proof (Rmax_r M 1) as HM.
    exists (2 * (L + q)), (2 * L * ((L + q) * (1 + Rmax M 1))). split; [lra |]. split; [apply Rmult_lt_0_compat; [lra | apply Rmult_lt_0_compat; lra] |].
    assert (H10 : / 10 ^ 10 <= 1) by (assert (1 < 10 ^ 10) by (apply Rlt_pow_R1; [lra | lia]); rewrite <- Rinv_1; apply Rinv_le_contravar; lra).
    intros P h vg fuel o r EL Eb Eg Ex EM Hx1 Hst U_ Hh1 Hh2 Hvg Egf E1 E2 Ko. assert (Hh : 0 <= h) by (destruct U_ as (_ & _ & _ & _ & U1 & _); lra). apply (complete_at q P h vg fuel o r); try assumption.
    - intros x y Hx. apply HQ. lra.
    - fold L. assert (0 <= h * (L + q)) by (apply Rmult_le_pos; lra). lra.
    - fold L. eapply Rle_trans; [| exact Hh2]. right. ring.
  Qed.
End Complete.

(** ** The whole program *)
Lemma gf_ok vg : increasing vg -> (2 <= length vg)%nat -> exists B Lg, 0 <= B /\ 0 <= Lg /\ (forall x, Rabs (fval vg x) <= B) /\ (forall x x', Rabs (fval vg x - fval vg x') <= Lg * Rabs (x - x')).
Proof.
  intros Gi Gl. destruct (fval_lip vg) as (Lg & L1 & L2). set (Bm := fold_right (fun p m => Rmax (Rabs (snd p)) m) 0 vg). exists (Rmax 0 Bm), Lg. split; [apply Rmax_l |]. split; [assumption |]. split; [| assumption].
  intros x. eapply Rle_trans; [| apply Rmax_r]. assert (A : forall p, In p vg -> - Bm <= snd p <= Bm).
  { unfold Bm. clear. intros p. induction vg as [| q t IH]; [contradiction |]. cbn [fold_right In]. intros [<- | Hin]; [| specialize (IH Hin)]; pose proof (Rmax_l (Rabs (snd q)) (fold_right (fun p m => Rmax (Rabs (snd p)) m) 0 t)); pose proof (Rmax_r (Rabs (snd q)) (fold_right (fun p m => Rmax (Rabs (snd p)) m) 0 t)); [| lra]. pose proof (Rle_abs (snd q)). pose proof (Rle_abs (- snd q)) as N. rewrite Rabs_Ropp in N. lra. }
  pose proof (fval_between vg (- Bm) Bm x Gi Gl A). apply Rabs_le. lra.
Qed.
Lemma grid_dec Lambda gp : 1 < Lambda -> match gp with Some bo => bo <= 1 | None => True end -> forall x, 1 <= x -> grid Lambda gp (fun _ => 1) (x + 1) <= grid Lambda gp (fun _ => 1) x.
Proof.
  intros HL Hg x Hx. assert (E : (if Rle_dec (x + 1) 2 then 1 else 1 * Rpower Lambda (2 - (x + 1))) <= (if Rle_dec x 2 then 1 else 1 * Rpower Lambda (2 - x))).
  { rewrite !Rmult_1_l. pose proof (P_decr Lambda HL) as D. pose proof (P_two Lambda HL) as E2. cbv beta in D, E2. destruct (Rle_dec (x + 1) 2), (Rle_dec x 2); try lra; [pose proof (D 2 (x + 1) ltac:(lra)); lra | apply D; lra]. }
  unfold grid. destruct gp as [bo |]; [| exact E]. apply Rplus_le_compat_l, Rmult_le_compat_l; [lra | exact E].
Qed.
Lemma set_facts P : set_parameters P = Ok tt -> 1 < p_Lambda P /\ 1 < p_xmax P /\ p_step P <= 1.
Proof.
  unfold set_parameters. destruct (Rltb 1 (p_Lambda P)) eqn:C1; [| discriminate]. destruct (Rltb 1 (p_xmax P)) eqn:C2; [| discriminate]. destruct (Rltb 1 (p_xfine P)); [| discriminate]. cbn [negb]. unfold Rleb. destruct (Rle_dec (p_step P) 1); [| discriminate]. intros _. apply Rltb_spec in C1. apply Rltb_spec in C2. auto.
Qed.
Lemma completes_fixed Lambda b v gp xmax M : 1 < Lambda -> 0 < b -> increasing v -> (2 <= length v)%nat -> (forall p, In p v -> 0 < snd p) -> match gp with Some bo => bo <= 1 | None => True end ->
  exists K C, 0 < K /\ 0 < C /\ forall P h loaded fuel, p_Lambda P = Lambda -> p_bandrescale P = b -> gap_of P = gp -> p_xmax P = xmax -> p_max_abs P = M -> p_adapt P = false -> set_parameters P = Ok tt ->
    usable P v h -> 0 < p_step P -> h * K <= 1 -> h * C * exp (K * (p_step P + / 10 ^ 10)) <= / 10 ^ 5 -> enough_steps P (p_dx_fine P) -> enough_steps P (p_dx_fast P) ->
    (1 <= fuel)%nat -> xmax + / 10 ^ 10 <= 1 + INR fuel * p_step P -> exists l, run P loaded fuel v = Some (Ok (None, l)).
Proof.
  intros HL Hb Hv Hl Hp Hgp.
  destruct (complete Lambda b v gp (fun _ => 1) xmax M HL Hb Hv Hl Hp) as (K & C & HK & HC & H).
  { exists 1, 0. split; [lra |]. split; [lra |]. split; intros; [rewrite Rabs_R1; lra | rewrite Rminus_diag_eq, Rabs_R0 by reflexivity; lra]. }
  { reflexivity. } { now apply grid_dec. }
  exists K, C. split; [assumption |]. split; [assumption |]. intros P h loaded fuel EL Eb Eg Ex EM Ha Hs U Hst Hh1 Hh2 E1 E2 Hf1 Hf2. destruct (set_facts P Hs) as (_ & Hx & Hs1).
  assert (N : run P loaded fuel v <> None) by (apply (ends P v h loaded fuel U); [congruence | assumption | rewrite Ex; assumption | assumption]). revert N. unfold run. destruct (load_base P v Hv Hl ltac:(lra)) as (o & -> & Kb). rewrite Hs. cbn [bind]. rewrite Ha.
  destruct (calc_f P fuel o) as [r |] eqn:E; [| congruence]. intros _. assert (Ko : ok P (density b v) [] o) by (destruct Kb as (A & B & D); rewrite Eb in *; split; [exact A | split; [exact B | split; [exact D | congruence]]]).
  destruct (H P h [] fuel o r EL Eb Eg Ex EM ltac:(lra) Hs1 U Hh1 Hh2 ltac:(congruence) ltac:(now rewrite Ha) E1 E2 Ko E) as (l & ->). cbn [bind]. eauto.
Qed.
Lemma completes_loaded Lambda b v gp vg gf xmax M : 1 < Lambda -> 0 < b -> increasing v -> (2 <= length v)%nat -> (forall p, In p v -> 0 < snd p) -> increasing vg -> (2 <= length vg)%nat -> nth_error vg 0 = Some (2, 1) -> (forall x, linear_interpolant vg x (gf x)) ->
  (forall x, 1 <= x -> grid Lambda gp gf (x + 1) <= grid Lambda gp gf x) ->
  exists K C, 0 < K /\ 0 < C /\ forall P h fuel, p_Lambda P = Lambda -> p_bandrescale P = b -> gap_of P = gp -> p_xmax P = xmax -> p_max_abs P = M -> p_adapt P = true -> set_parameters P = Ok tt ->
    usable P v h -> 0 < p_step P -> h * K <= 1 -> h * C * exp (K * (p_step P + / 10 ^ 10)) <= / 10 ^ 5 -> enough_steps P (p_dx_fine P) -> enough_steps P (p_dx_fast P) ->
    (1 <= fuel)%nat -> xmax + / 10 ^ 10 <= 1 + INR fuel * p_step P -> exists l, run P (Some vg) fuel v = Some (Ok (Some vg, l)).
Proof.
  intros HL Hb Hv Hl Hp Gi Gl G0 Hg Hdec. assert (Q : forall x, gf x = fval vg x) by (intros; now apply interpolant_unique). assert (Q' : gf = fval vg) by now apply functional_extensionality.
  destruct (complete Lambda b v gp gf xmax M HL Hb Hv Hl Hp) as (K & C & HK & HC & H).
  { rewrite Q'. now apply gf_ok. }
  { destruct (Hg 2) as (G1 & _). exact (G1 (2, 1) G0 (Rle_refl 2)). }
  { assumption. }
  exists K, C. split; [assumption |]. split; [assumption |]. intros P h fuel EL Eb Eg Ex EM Ha Hs U Hst Hh1 Hh2 E1 E2 Hf1 Hf2. destruct (set_facts P Hs) as (_ & Hx & Hs1).
  assert (N : run P (Some vg) fuel v <> None) by (apply (ends P v h (Some vg) fuel U); [auto | assumption | rewrite Ex; assumption | assumption]). revert N. unfold run. destruct (load_base P v Hv Hl ltac:(lra)) as (o & -> & Kb). rewrite Hs. cbn [bind]. rewrite Ha.
  destruct (construct_ok vg Gl true) as (sg & -> & Gg).
  destruct (calc_f P fuel (set_g o sg)) as [r |] eqn:E; [| congruence]. intros _. assert (Ko : ok P (density b v) vg (set_g o sg)) by (rewrite <- Eb; now apply base_g).
  destruct (H P h vg fuel _ r EL Eb Eg Ex EM ltac:(lra) Hs1 U Hh1 Hh2 ltac:(auto) ltac:(now rewrite Ha) E1 E2 Ko E) as (l & ->). cbn [bind]. eauto.
Qed.
