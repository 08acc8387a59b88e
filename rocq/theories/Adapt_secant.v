(** The secant method of the tool adapt and its first value. *)
From Coq Require Import List ZArith Reals Lra Lia Bool FunctionalExtensionality.
From Verif Require Import Base Interp_model Interp_spec Interp_proofs Adapt_model Adapt_spec Adapt_proofs Adapt_run Adapt_main Adapt_aux.
Import List ListNotations.
Local Open Scope R_scope.

(** ** The integral *)
Lemma ab_zero b : forall l x s, increasing (x :: l) -> b <= fst x -> ab_loop b x l s = s.
Proof.
  induction l as [| q l IH]; intros x s Hi Hb; [reflexivity |]. cbn [ab_loop]. replace (Rltb (fst x) b) with false by (symmetry; apply Rltb_nspec; lra). cbn [andb]. rewrite Rmult_0_l, Rplus_0_r. apply IH; [now apply inc_tail in Hi |]. pose proof (Hi 0%nat x q eq_refl eq_refl). lra.
Qed.
Lemma ab_ok b : forall l x s k p q, increasing (x :: l) -> nth_error (x :: l) k = Some p -> nth_error (x :: l) (S k) = Some q -> fst p < b <= fst q ->
  ab_loop b x l s = s + Sval (x :: l) k + (b - fst p) * ((snd q + snd p) / 2).
Proof.
  induction l as [| c l IH]; intros x s k p q Hi Hp Hq Hb; [destruct k; discriminate |]. destruct k as [| k].
  - cbn in Hp, Hq. injection Hp as <-. injection Hq as <-. cbn [ab_loop]. replace (Rltb (fst x) b) with true by (symmetry; apply Rltb_spec; lra). cbn [andb].
    assert (E : (if Rleb (fst c) b then fst c - fst x else if Rltb b (fst c) then b - fst x else 0) = b - fst x) by (unfold Rleb, Rltb; destruct (Rle_dec (fst c) b), (Rlt_dec b (fst c)); lra). rewrite E, ab_zero; [unfold Sval; cbn [rsum]; ring | now apply inc_tail in Hi | lra].
  - assert (Hi' : increasing (c :: l)) by now apply inc_tail in Hi. assert (Hc : fst c < b).
    { destruct k as [| k]; [cbn in Hp; injection Hp as <-; lra |]. cbn [nth_error] in Hp. assert (In p l) by (eapply nth_error_In; exact Hp). pose proof (inc_head c l p Hi' H). lra. }
    cbn [ab_loop]. pose proof (Hi 0%nat x c eq_refl eq_refl) as Hx. replace (Rltb (fst x) b) with true by (symmetry; apply Rltb_spec; lra). replace (Rleb (fst c) b) with true by (symmetry; unfold Rleb; destruct Rle_dec; [reflexivity | lra]). cbn [andb].
    rewrite (IH c _ k p q Hi' Hp Hq Hb), Sval_cons. ring.
Qed.
Lemma first_A v k p q : increasing v -> (2 <= length v)%nat -> nth_error v k = Some p -> nth_error v (S k) = Some q -> fst p < 1 <= fst q ->
  integrate_ab v 1 = Fval v (fst p) - Fval v (fst (nth 0 v (0, 0))) + (1 - fst p) * ((snd q + snd p) / 2).
Proof.
  intros Hi Hl Hp Hq Hb. unfold integrate_ab. rewrite sort_id by assumption. destruct v as [| x l]; [destruct k; discriminate |]. rewrite (ab_ok 1 l x 0 k p q Hi Hp Hq Hb). rewrite Fval_first by assumption.
  assert (Hk : (k < length (x :: l))%nat) by (apply nth_error_Some; congruence). pose proof (Fval_node (x :: l) Hl (inc_nth _ Hi) k Hk) as E. cbv beta in E. rewrite (nth_error_nth (x :: l) k (0, 0) Hp : nth k (x :: l) (0,0) = p) in E. rewrite E. ring.
Qed.

(** ** The search *)
Section S_.
  Variables (P : params) (v : table) (h : R).
  Hypothesis U : usable P v h.
  Let w := density (p_bandrescale P) v.
  Let H1 : increasing v. Proof. apply U. Qed.
  Let H2 : (2 <= length v)%nat. Proof. apply U. Qed.
  Let H3 : forall p, In p v -> 0 < snd p. Proof. apply U. Qed.
  Let H4 : 0 < p_bandrescale P. Proof. apply U. Qed.
  Let H5 : 0 <= p_dx_fine P <= h. Proof. apply U. Qed.
  Let H6 : 0 <= p_dx_fast P <= h. Proof. apply U. Qed.
  Let H7 : 0 <= p_step P. Proof. apply U. Qed.
  Let H8 : (1 <= p_max_subdiv P)%Z. Proof. apply U. Qed.
  Let sh := attempt_g P h (fval w).
  Lemma shoot_sh A fuel o ratio vecg o' : base_ok P v o -> shoot_g P A fuel o = Some (Ok (ratio, vecg, o')) -> base_ok P v o' /\ exists rows, vecg = (2, 1) :: rows /\ sh A ratio rows.
  Proof.
    intros K E. apply (shoot_ok P v h H1 H2 H3 H4 H5 H6 H7 H8) in E; [| assumption]. destruct E as [E | [E | (ra & ve & o2 & [= -> -> ->] & K2 & (rows & x & y & -> & O_ & La & Az & Er))]]; try discriminate. split; [assumption |]. exists rows. split; [reflexivity |]. split; [assumption |]. split; [exact O_ |]. exists x, y. split; assumption.
  Qed.
  Lemma conv_false r : converged P r = false -> p_secant_eps P <= Rabs (r - 1).
  Proof. unfold converged. apply Rltb_nspec. Qed.
  Lemma secant_sh fuel : forall more xa ra xb rb o vecg A o', base_ok P v o -> secant P fuel more xa (ra - 1) xb (rb - 1) o = Some (Ok (vecg, A, o')) ->
    exists rows, vecg = (2, 1) :: rows /\ secant_search sh (p_secant_eps P) (S more) (xa, ra) (xb, rb) A rows.
  Proof.
    induction more as [| more IH]; intros xa ra xb rb o vecg A o' K; cbn [secant]; unfold quotient at 1, rdiv at 1; (destruct (Req_EM_T (rb - 1 - (ra - 1)) 0) as [Z | Z]; [discriminate |]); set (xn := xb - (xb - xa) / (rb - 1 - (ra - 1)) * (rb - 1));
      (assert (En : xn = fst (xb, rb) - (fst (xb, rb) - fst (xa, ra)) / (snd (xb, rb) - snd (xa, ra)) * (snd (xb, rb) - 1)) by (unfold xn; cbn [fst snd]; replace (rb - 1 - (ra - 1)) with (rb - ra) by ring; reflexivity)); (assert (Hne : snd (xa, ra) <> snd (xb, rb)) by (cbn [snd]; intros ->; lra));
      (destruct (shoot_g P xn fuel o) as [[[[ratio vec] o2] | |] |] eqn:E; try discriminate; apply shoot_sh in E; [| assumption]; destruct E as (K2 & rows & -> & Sh); destruct (converged P ratio) eqn:C).
    - intros [= <- <- <-]. exists rows. split; [reflexivity |]. eapply ss_last; [exact Hne | exact En | exact Sh | now apply converged_spec].
    - discriminate.
    - intros [= <- <- <-]. exists rows. split; [reflexivity |]. eapply ss_last; [exact Hne | exact En | exact Sh | now apply converged_spec].
    - intros E. apply IH in E; [| assumption]. destruct E as (rows' & -> & Sr). exists rows'. split; [reflexivity |]. eapply ss_more; [exact Hne | exact En | exact Sh | now apply conv_false | exact Sr].
  Qed.
  Lemma calc_g_sh intA fuel o vecg A o' : base_ok P v o -> calc_g P intA fuel o = Some (Ok (vecg, A, o')) ->
    exists rows, vecg = (2, 1) :: rows /\ search sh (p_secant_eps P) (p_factor0 P) (S (Z.to_nat (p_max_iter P - 1))) intA A rows.
  Proof.
    intros K. unfold calc_g. destruct (shoot_g P intA fuel o) as [[[[ratio1 vec1] o1] | |] |] eqn:E1; try discriminate. apply shoot_sh in E1; [| assumption]. destruct E1 as (K1 & rows1 & -> & S1). destruct (converged P ratio1) eqn:C1.
    { intros [= <- <- <-]. exists rows1. split; [reflexivity |]. exists ratio1, rows1. split; [assumption |]. left. split; [now apply converged_spec | auto]. }
    set (A2 := if Rltb 1 ratio1 then intA * p_factor0 P else intA / p_factor0 P). assert (HA2 : 1 < ratio1 /\ A2 = intA * p_factor0 P \/ ratio1 <= 1 /\ A2 = intA / p_factor0 P) by (unfold A2; destruct (Rltb 1 ratio1) eqn:C; [left; apply Rltb_spec in C | right; apply Rltb_nspec in C]; auto).
    destruct (shoot_g P A2 fuel o1) as [[[[ratio2 vec2] o2] | |] |] eqn:E2; try discriminate. apply shoot_sh in E2; [| assumption]. destruct E2 as (K2 & rows2 & -> & S2). destruct (converged P ratio2) eqn:C2.
    { intros [= <- <- <-]. exists rows2. split; [reflexivity |]. exists ratio1, rows1. split; [assumption |]. right. split; [now apply conv_false |]. exists A2, ratio2, rows2. split; [assumption |]. split; [assumption |]. left. split; [now apply converged_spec | auto]. }
    intros E. apply secant_sh in E; [| assumption]. destruct E as (rows & -> & Sr). exists rows. split; [reflexivity |]. exists ratio1, rows1. split; [assumption |]. right. split; [now apply conv_false |]. exists A2, ratio2, rows2. split; [assumption |]. split; [assumption |]. right. split; [now apply conv_false | exact Sr].
  Qed.
  Lemma run_sh fuel gtab l : p_adapt P = true -> run P None fuel v = Some (Ok (gtab, l)) ->
    exists A rows, gtab = Some ((2, 1) :: rows) /\ search sh (p_secant_eps P) (p_factor0 P) (S (Z.to_nat (p_max_iter P - 1))) (integrate_ab w 1) A rows.
  Proof.
    intros Ha. unfold run. destruct (load_base P v H1 H2 H4) as (o & -> & K). destruct (set_ok P) as [-> | ->]; cbn [bind]; [| discriminate]. rewrite Ha. fold w. destruct (calc_g P (integrate_ab w 1) fuel o) as [[[[vg A] o'] | |] |] eqn:EG; try discriminate. apply calc_g_sh in EG; [| assumption]. destruct EG as (rows & -> & Sr).
    destruct construct as [s | |]; try discriminate. destruct calc_f as [[lf | |] |]; cbn [bind]; try discriminate. intros [= <- <-]. exists A, rows. split; [reflexivity | exact Sr].
  Qed.
End S_.
Lemma secant_run P v h r S fuel gtab l k p q x0 : usable P v h -> density_of P v r S -> p_adapt P = true ->
  nth_error (density (p_bandrescale P) v) 0 = Some x0 -> nth_error (density (p_bandrescale P) v) k = Some p -> nth_error (density (p_bandrescale P) v) (Datatypes.S k) = Some q -> fst p < 1 <= fst q ->
  run P None fuel v = Some (Ok (gtab, l)) ->
  exists A rows, gtab = Some ((2, 1) :: rows) /\
    search (attempt_g P h r) (p_secant_eps P) (p_factor0 P) (Datatypes.S (Z.to_nat (p_max_iter P - 1))) (S (fst p) - S (fst x0) + (1 - fst p) * ((snd q + snd p) / 2)) A rows.
Proof.
  intros U D Ha H0 Hp Hq Hb E. pose proof (density_eq P v h r S U D) as Er. pose proof U as (U1 & U2 & U3 & U4 & _). apply (run_sh P v h U) in E; [| assumption]. destruct E as (A & rows & -> & Sr). exists A, rows. split; [reflexivity |].
  assert (wi : increasing (density (p_bandrescale P) v)) by now apply density_inc. assert (wl : (2 <= length (density (p_bandrescale P) v))%nat) by (pose proof (density_len (p_bandrescale P) v); lia).
  rewrite (first_A _ k p q wi wl Hp Hq Hb), (nth_error_nth _ _ (0, 0) H0) in Sr. rewrite (anti_unique r (Fval (density (p_bandrescale P) v)) S) in Sr; [| intros; rewrite <- Er; apply Fval_deriv | apply D]. rewrite Er in Sr. exact Sr.
Qed.
