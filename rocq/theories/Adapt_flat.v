(** Runs of the tool adapt that are completed. *)
From Coq Require Import List ZArith Reals Lra Lia Bool FunctionalExtensionality.
From Verif Require Import Base Interp_model Interp_spec Interp_proofs Adapt_model Adapt_spec Adapt_proofs Adapt_lip Adapt_run Adapt_main Adapt_aux Adapt_done Adapt_full Adapt_secant.
Import List ListNotations.
Local Open Scope R_scope.

(** ** Every attempt of the search is completed *)
Lemma shoot_done P v h A fuel o r : usable P v h -> A <> 0 -> enough P (p_dx_fine P) -> enough P (p_dx_fast P) -> base_ok P v o -> shoot_g P A fuel o = Some r ->
  exists ratio vecg o', r = Ok (ratio, vecg, o') /\ base_ok P v o' /\ shot P v h A ratio vecg.
Proof.
  intros U HA E1 E2 K E. pose proof U as (H1 & H2 & H3 & H4 & H5 & H6 & H7 & H8). pose proof (shoot_ok P v h H1 H2 H3 H4 H5 H6 H7 H8 A fuel o r K E) as [-> | [-> | Hok]]; [| | exact Hok]; exfalso; revert E; unfold shoot_g.
  all: apply (base_ok0 P v h H5 H6) in K; pose proof (computes_G P v H1 H2 H3 H4 A) as Cm; set (w := density (p_bandrescale P) v) in *; match type of K with ok ?X _ _ _ => set (P0 := X) in * end.
  all: assert (wi : increasing w) by (now apply density_inc); assert (wl : (2 <= length w)%nat) by (pose proof (density_len (p_bandrescale P) v); unfold w; lia); assert (wp : forall p, In p w -> 0 < snd p) by (apply density_pos; assumption); assert (Hg : p_adapt P0 = true -> (2 <= @length (R * R) [])%nat /\ increasing []) by discriminate.
  all: destruct (rho_ok P0 w [] wl wi 1 o K) as (o1 & -> & K1); destruct lines as [r' |] eqn:E; [| discriminate]; rewrite <- lines_P0 in E; fold P0 in E.
  all: set (s0 := {| s_x := 2; s_y := 1; s_err := 0; s_o := o1 |}) in *; destruct (fun a b c => lines_done P0 w [] wl Hg (rhs_G P A) _ Cm H8 false false h H6 H7 E2 (fun x0 _ _ x _ => x0 <= x) (fun _ _ => True) 2 a b c fuel (p_dx_fine P) 2 s0 r' H5 E1 K1) as (l & s' & ->);
    [intros; lra | intros; split; [discriminate | lra] | intros; split; [exact Logic.I | lra] | exact Logic.I | cbn; lra | cbn; assert (0 < / 10 ^ 10) by (apply Rinv_0_lt_compat, pow_lt; lra); lra | exact E |].
  all: apply (lines_ok P0 w [] wl Hg (rhs_G P A) _ Cm H8 false false h H6 H7 fuel (p_dx_fine P) 2 s0 _ H5 K1 ltac:(cbn; lra)) in E; destruct E as [(E & _) | (l' & s2 & [= <- <-] & K2 & _)]; [discriminate |]; cbn [bind]; destruct (rho_ok P0 w [] wl wi 0 (s_o s') K2) as (o3 & -> & _); cbn [bind]; pose proof (rho_pos P0 w [] wl wi Hg wp 0) as Rp; unfold quotient, rdiv; destruct (Req_EM_T (fval w 0) 0); [lra |]; cbn [bind]; destruct (Req_EM_T (A / fval w 0) 0) as [Z | Z]; [| cbn [bind]; discriminate].
  all: apply (Rmult_eq_compat_r (fval w 0)) in Z; unfold Rdiv in Z; rewrite Rmult_assoc, Rinv_l, Rmult_0_l, Rmult_1_r in Z by lra; contradiction.
Qed.

(** ** The flat band *)
Lemma p10 n : 0 < / 10 ^ n.
Proof. apply Rinv_0_lt_compat, pow_lt. lra. Qed.
Lemma flat0_usable a : usable (flat0_params a) flat0 (/ 10 ^ 8).
Proof.
  pose proof (p10 8). pose proof (p10 3). split; [intros [| [| i]] p q; cbn; intros Hp Hq; try discriminate; injection Hp as <-; injection Hq as <-; cbn; lra |]. split; [cbn; lia |]. split; [intros p [<- | [<- | []]]; cbn; lra |]. cbn [p_bandrescale p_dx_fine p_dx_fast p_step p_max_subdiv flat0_params]. repeat split; try lra; lia.
Qed.
Lemma flat0_density : density 1 flat0 = flat0.
Proof. unfold density, flat0, extended. cbn [fst snd]. pose proof (p10 99). destruct Rlt_dec as [H1 | _]; [exfalso; lra |]. cbn [map fst snd]. unfold Rdiv. rewrite Rinv_1, !Rmult_1_r. reflexivity. Qed.
Lemma flat0_val x : fval flat0 x = 1 / 2.
Proof. pose proof (flat0_usable true) as (H1 & H2 & _). assert (1 / 2 <= fval flat0 x <= 1 / 2); [| lra]. apply fval_between; try assumption. intros p [<- | [<- | []]]; cbn; lra. Qed.
Lemma flat0_of a : density_of (flat0_params a) flat0 (fun _ => 1 / 2) (fun x => x / 2).
Proof.
  split; [| intros x; replace (1 / 2) with (1 * / 2) by field; apply derivable_pt_lim_scal_right, derivable_pt_lim_id].
  intros x. change (p_bandrescale (flat0_params a)) with 1. rewrite flat0_density. unfold flat0. split; [| split].
  - intros p [= <-] _. reflexivity.
  - intros p [= <-] _. reflexivity.
  - intros [| [| i]] p q; cbn; intros Hp Hq _; try discriminate; injection Hp as <-; injection Hq as <-; cbn; unfold Rdiv; ring.
Qed.
Lemma flat0_enough a : enough (flat0_params a) (/ 10 ^ 8).
Proof.
  exists (Z.to_nat 300000), 7%nat. cbn [p_max_subdiv p_step flat0_params]. change (Z.to_nat 1) with 1%nat. split; [rewrite Nat2Z.inj_add, Z2Nat.id by lia; lia |]. rewrite INR_IZR_INZ, Z2Nat.id by lia. lra.
Qed.
Lemma flat0_accepted a : set_parameters (flat0_params a) = Ok tt.
Proof.
  assert (T : powerRZ 2 (-52) < / 10 ^ 8 * powerRZ (1 / 2) 1).
  { apply Rlt_trans with (/ 2 ^ 40); [| unfold powerRZ; change (Pos.to_nat 1) with 1%nat; lra]. unfold powerRZ. apply Rinv_lt_contravar; [apply Rmult_lt_0_compat; apply pow_lt; lra |]. apply Rlt_pow; [lra |]. change (Pos.to_nat 52) with 52%nat. lia. }
  unfold set_parameters. cbn [p_Lambda p_xmax p_xfine p_step p_dx_fine p_max_subdiv p_max_abs flat0_params]. apply Rltb_spec in T. rewrite T. unfold Rltb, Rleb.
  repeat (match goal with |- context [Rlt_dec ?a ?b] => destruct (Rlt_dec a b); [| lra] end). destruct (Rle_dec (/ 10 ^ 3) 1); [reflexivity | lra].
Qed.
Lemma ln2 : 0 < ln 2 < 1.
Proof. split; [apply lnpos; lra |]. apply exp_lt_inv. rewrite exp_ln by lra. pose proof (exp_ineq1 1 ltac:(lra)). lra. Qed.
Lemma exp_small : exp (2 * (ln 2 + 1) * (/ 10 ^ 3 + / 10 ^ 10)) <= 2.
Proof.
  pose proof ln2. set (t := 2 * (ln 2 + 1) * (/ 10 ^ 3 + / 10 ^ 10)). assert (Ht : 0 < t < 1 / 2) by (unfold t; split; nra). pose proof (exp_ineq1 (- t) ltac:(lra)) as E. rewrite exp_Ropp in E. pose proof (exp_pos t) as Ep.
  apply (Rmult_lt_compat_r (exp t)) in E; [| assumption]. rewrite Rinv_l in E by lra. nra.
Qed.
Lemma flat0_Q x y : 1 <= x <= 3 / 2 + / 10 ^ 3 + / 10 ^ 10 ->
  0 <= (Fval (density 1 flat0) (grid 2 None (fun _ => 1) x) - Fval (density 1 flat0) (grid 2 None (fun _ => 1) (x + 1))) / (Rpower 2 (2 - x) * fval (density 1 flat0) (y * Rpower 2 (2 - x))) <= 1.
Proof.
  intros Hx. assert (Hx2 : x <= 2) by lra. rewrite flat0_density, flat0_val. rewrite (anti_unique (fun _ => 1 / 2) (Fval flat0) (fun x => x / 2)); [| intros z; rewrite <- (flat0_val z); apply Fval_deriv | apply (flat0_of true)].
  assert (P1 : 1 <= Rpower 2 (2 - x)). { pose proof (P_decr 2 ltac:(lra) x 2 Hx2) as D. pose proof (P_two 2 ltac:(lra)) as T. cbv beta in D, T. lra. }
  unfold grid. destruct (Rle_dec x 2); [| lra]. set (e := if Rle_dec (x + 1) 2 then 1 else 1 * Rpower 2 (2 - (x + 1))).
  assert (He : 0 <= e <= 1). { unfold e. destruct (Rle_dec (x + 1) 2) as [H | H]; [lra |]. rewrite Rmult_1_l. pose proof (P_decr 2 ltac:(lra) 2 (x + 1) ltac:(lra)) as D. pose proof (P_two 2 ltac:(lra)) as T. pose proof (P_pos 2 (x + 1)). cbv beta in *. lra. }
  replace ((1 / 2 - e / 2) / (Rpower 2 (2 - x) * (1 / 2))) with ((1 - e) * / Rpower 2 (2 - x)) by (field; lra). assert (Hi : 0 < / Rpower 2 (2 - x) <= 1) by (split; [apply Rinv_0_lt_compat; lra | rewrite <- Rinv_1; apply Rinv_le_contravar; lra]). split; [apply Rmult_le_pos; lra |]. nra.
Qed.
(** calc_f is completed with the grid g = 1. *)
Lemma flat0_f a vg fuel o r : (a = true -> (2 <= length vg)%nat /\ increasing vg) -> (if a then fval vg else fun _ => 1) = (fun _ => 1) -> ok (flat0_params a) (density 1 flat0) vg o -> calc_f (flat0_params a) fuel o = Some r -> exists l, r = Ok l.
Proof.
  intros Hg Hv K E. pose proof (flat0_usable a) as U. pose proof U as (H1 & H2 & H3 & _). pose proof ln2 as L2. pose proof exp_small as Es.
  apply (complete_at 2 1 flat0 None (fun _ => 1) (3 / 2) 100 ltac:(lra) ltac:(lra) H1 H2 H3 1 (flat0_params a) (/ 10 ^ 8) vg fuel o r); try reflexivity; try assumption; try apply flat0_enough.
  - lra.
  - intros x y Hx. apply flat0_Q. exact Hx.
  - lra.
  - lra.
  - cbn [p_step flat0_params]. set (e := exp _) in *. assert (E0 : 0 < e) by apply exp_pos. rewrite Rmax_left by lra. assert (B1 : ln 2 * (ln 2 + 1) <= 2) by nra. assert (B2 : 0 <= ln 2 * (ln 2 + 1)) by nra.
    replace (2 * ln 2 * ((ln 2 + 1) * ((1 + 100) * e))) with (202 * (ln 2 * (ln 2 + 1)) * e) by ring. assert (B3 : ln 2 * (ln 2 + 1) * e <= 4) by nra. apply Rle_trans with (/ 10 ^ 8 * 808); [apply Rmult_le_compat_l; [apply Rlt_le, p10 | lra] | lra].
Qed.
Lemma flat0_fuel : (1 <= 501)%nat /\ 3 / 2 + / 10 ^ 10 <= 1 + INR 501 * / 10 ^ 3.
Proof. split; [lia |]. rewrite INR_IZR_INZ. change (Z.of_nat 501) with 501%Z. lra. Qed.
Lemma flat0_fixed loaded : exists l, run (flat0_params false) loaded 501 flat0 = Some (Ok (None, l)).
Proof.
  pose proof (flat0_usable false) as U. pose proof U as (H1 & H2 & _ & H4 & _). destruct flat0_fuel as [F1 F2].
  assert (N : run (flat0_params false) loaded 501 flat0 <> None) by (apply (ends _ _ _ _ _ U); [discriminate | exact F1 | exact F2 | apply p10]). revert N. unfold run. destruct (load_base (flat0_params false) flat0 H1 H2 H4) as (o & -> & Kb). rewrite flat0_accepted. cbn [bind p_adapt flat0_params].
  destruct (calc_f (flat0_params false) 501 o) as [r |] eqn:E; [| intros N; exfalso; now apply N]. intros _. apply (flat0_f false []) in E; [destruct E as (l & ->); cbn [bind]; eauto | discriminate | reflexivity |]. destruct Kb as (A & B & D). split; [exact A | split; [exact B | split; [exact D | discriminate]]].
Qed.
Lemma last_in {A} (l : list A) d : l <> [] -> In (last l d) l.
Proof. intros H. destruct (exists_last H) as (l' & a & ->). rewrite last_last. apply in_or_app. right. now left. Qed.
(** The equation for g with A = 1/2 has the constant solution 1. *)
Lemma rk4_rest x d : rk4 (slope_g 2 (1 / 2) (fun _ => 1 / 2)) x 1 d = 0.
Proof.
  unfold rk4. assert (Z : forall t, slope_g 2 (1 / 2) (fun _ => 1 / 2) t 1 = 0) by (intros; unfold slope_g; field). rewrite (Z x). replace (1 + d / 2 * 0) with 1 by ring. rewrite Z. replace (1 + d / 2 * 0) with 1 by ring. rewrite Z. replace (1 + d * 0) with 1 by ring. rewrite Z. field.
Qed.
Lemma walk_rest h acc n p q : walk (slope_g 2 (1 / 2) (fun _ => 1 / 2)) h acc n p q -> snd p = 1 -> snd q = 1.
Proof. induction 1 as [p | n x y d q Hd Ha W IH]; intros E; [assumption |]. cbn in E. subst y. apply IH. cbn. rewrite rk4_rest. lra. Qed.
Lemma output_rest h acc st xe g t p l : output (slope_g 2 (1 / 2) (fun _ => 1 / 2)) h acc st xe g t p l -> snd p = 1 -> forall q, In q l -> snd q = 1.
Proof.
  induction 1 as [n t p x y W | n t p x y l W Hn Rg Hx Hg O_ IH]; intros E q; (assert (Ey : snd (x, y) = 1) by (eapply walk_rest; eassumption)).
  - intros [<- | []]. exact Ey.
  - intros [<- | Hq]; [exact Ey | now apply IH].
Qed.
Lemma flat0_A : integrate_ab (density 1 flat0) 1 = 1 / 2.
Proof.
  rewrite flat0_density. pose proof (flat0_usable true) as (H1 & H2 & _). rewrite (first_A flat0 0 (0, 1 / 2) (1, 1 / 2) H1 H2 eq_refl eq_refl) by (cbn; lra). cbn [fst snd]. change (fst (nth 0 flat0 (0, 0))) with 0. field.
Qed.
Lemma flat0_adaptive : exists gtab l, run (flat0_params true) None 501 flat0 = Some (Ok (gtab, l)).
Proof.
  set (P := flat0_params true). pose proof (flat0_usable true) as U. fold P in U. pose proof U as (H1 & H2 & H3 & H4 & H5 & H6 & H7 & H8). destruct flat0_fuel as [F1 F2]. assert (Hst : / 10 ^ 10 < p_step P) by (cbn; lra).
  assert (N : run P None 501 flat0 <> None) by (apply (ends _ _ _ _ _ U); [intros _; exact Hst | exact F1 | exact F2 | apply p10]). revert N. unfold run. destruct (load_base P flat0 H1 H2 H4) as (o & -> & Kb). pose proof (flat0_accepted true : set_parameters P = Ok tt) as Hacc. rewrite Hacc. cbn [bind]. change (p_adapt P) with true. cbn iota. change (p_bandrescale P) with 1 in *. rewrite flat0_A.
  assert (Ns : shoot_g P (1 / 2) 501 o <> None) by (apply (shoot_end P flat0 _ H1 H2 H3 H4 H5 H6 H7 H8); [exact Kb | exact F1 |]; change (p_xmax P) with (3 / 2); change (p_step P) with (/ 10 ^ 3); lra).
  unfold calc_g. destruct (shoot_g P (1 / 2) 501 o) as [r |] eqn:E; [| congruence]. clear Ns. destruct (shoot_done P flat0 _ (1 / 2) 501 o r U ltac:(lra) (flat0_enough true) (flat0_enough true) Kb E) as (ratio & vecg & o' & -> & K' & Sh).
  pose proof (shot_inc P flat0 _ H2 _ _ _ Hst Sh) as [Gi Gl]. destruct Sh as (rows & x & y & -> & O_ & La & _ & Er). change (p_bandrescale P) with 1 in *. rewrite flat0_density in *.
  assert (Ef : fval flat0 = fun _ => 1 / 2) by (apply functional_extensionality; exact flat0_val). rewrite Ef in O_, Er. pose proof (output_rest _ _ _ _ _ _ _ _ O_ eq_refl) as Rest.
  assert (Ey : y = 1). { assert (In (x, y) rows) by (rewrite <- La; destruct rows as [| p rows]; [inversion O_ | apply last_in; discriminate]). now apply (Rest (x, y)). }
  assert (Er' : ratio = 1) by (rewrite Er, Ey; field). assert (Cv : converged P ratio = true) by (unfold converged; apply Rltb_spec; rewrite Er', Rminus_diag_eq, Rabs_R0 by reflexivity; apply p10). rewrite Cv.
  destruct (construct_ok ((2, 1) :: rows) Gl true) as (sg & -> & Gg). destruct (calc_f P 501 (set_g o' sg)) as [r |] eqn:Ec; [| congruence]. intros _.
  destruct (flat0_f true ((2, 1) :: rows) 501 (set_g o' sg) r) as (l & ->); [auto | | | exact Ec | cbn [bind]; eauto].
  - apply functional_extensionality. intros t. assert (1 <= fval ((2, 1) :: rows) t <= 1); [| lra]. apply fval_between; try assumption. intros p [<- | Hp]; [cbn; lra | rewrite (Rest p Hp); lra].
  - rewrite flat0_density. pose proof (base_g P flat0 o' sg _ K' Gg) as B. change (p_bandrescale P) with 1 in B. rewrite flat0_density in B. exact B.
Qed.
