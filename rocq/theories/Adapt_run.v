(** The files written by the solver of the discretisation equation. *)
From Coq Require Import List ZArith Reals Lra Lia Bool.
From Coquelicot Require Import Coquelicot.
From Verif Require Import Base Interp_model Interp_spec Interp_proofs Adapt_model Adapt_spec Adapt_proofs Adapt_ode Adapt_lip.
Import List ListNotations.
Local Open Scope R_scope.

(** ** The relations do not depend on the representation of the functions *)
Section Ext.
  Variables (F : R -> R -> R) (h : R).
  Lemma walk_ext (acc acc' : R -> R -> R -> Prop) n p q : (forall x y d, acc x y d <-> acc' x y d) -> walk F h acc n p q -> walk F h acc' n p q.
  Proof. intros H. induction 1; [constructor |]. eapply walk_step; [eassumption | now apply H | assumption]. Qed.
  Lemma output_ext (acc acc' : R -> R -> R -> Prop) st xe (g g' : R -> Prop) t p l : (forall x y d, acc x y d <-> acc' x y d) -> (forall y, g y <-> g' y) -> output F h acc st xe g t p l -> output F h acc' st xe g' t p l.
  Proof.
    intros H G. induction 1.
    - eapply out_last; [eapply walk_ext; eassumption | assumption | assumption |]. rewrite <- G. assumption.
    - eapply out_more; try eassumption; [eapply walk_ext; eassumption | now apply G].
  Qed.
  Lemma failure_ext (sh sa sa' : R -> R -> R -> Prop) st xe (g g' : R -> Prop) t p : (forall x y d, sa x y d <-> sa' x y d) -> (forall y, g y <-> g' y) -> failure F h sh sa st xe g t p -> failure F h sh sa' st xe g' t p.
  Proof.
    intros H G. assert (A : forall x y d, sh x y d /\ sa x y d <-> sh x y d /\ sa' x y d) by (intros; rewrite H; reflexivity). induction 1.
    - eapply fail_refused; [eapply (walk_ext _ _ _ _ _ A); eassumption | eassumption | eassumption | eassumption |]. rewrite <- H. assumption.
    - eapply fail_long; [eapply (walk_ext _ _ _ _ _ A); eassumption | assumption].
    - eapply fail_later; try eassumption; [eapply (walk_ext _ _ _ _ _ A); eassumption | now apply G].
  Qed.
End Ext.
Lemma slope_f_ext L r r' R_ R' e e' : (forall x, r x = r' x) -> (forall a b, R_ a - R_ b = R' a - R' b) -> (forall x, e x = e' x) -> forall x y, slope_f L r R_ e x y = slope_f L r' R' e' x y.
Proof. intros H1 H2 H3 x y. unfold slope_f. now rewrite H1, H2, !H3. Qed.
Lemma slope_g_ext L A r r' : (forall x, r x = r' x) -> forall x y, slope_g L A r x y = slope_g L A r' x y.
Proof. intros H x y. unfold slope_g. now rewrite H. Qed.
Lemma grid_ext L gap g g' : (forall x, g x = g' x) -> forall x, grid L gap g x = grid L gap g' x.
Proof. intros H x. unfold grid. now rewrite H. Qed.
Lemma anti_unique f A B : (forall x, derivable_pt_lim A x (f x)) -> (forall x, derivable_pt_lim B x (f x)) -> forall a b, A a - A b = B a - B b.
Proof.
  intros HA HB a b. assert (D : forall x, derivable_pt_lim (A - B)%F x 0) by (intros x; replace 0 with (f x - f x) by ring; apply derivable_pt_lim_minus; auto).
  assert (pr : derivable (A - B)%F) by (intros x; exists 0; apply D). assert (C : constant (A - B)%F).
  { apply (null_derivative_1 (A - B)%F pr). intros x. apply (derive_pt_eq_0 _ _ _ _ (D x)). }
  pose proof (C a b) as E. unfold minus_fct in E. lra.
Qed.

Definition gap (P : params) : option R := if p_hardgap P then Some (p_boundary P) else None.

Section Run.
  Variables (P : params) (v : table) (h : R).
  Hypothesis Hv : increasing v.
  Hypothesis Hl : (2 <= length v)%nat.
  Hypothesis Hpos : forall p, In p v -> 0 < snd p.
  Hypothesis Hb : 0 < p_bandrescale P.
  Hypothesis Hfine : 0 <= p_dx_fine P <= h.
  Hypothesis Hfast : 0 <= p_dx_fast P <= h.
  Hypothesis Hst : 0 <= p_step P.
  Hypothesis Hm : (1 <= p_max_subdiv P)%Z.
  Let w := density (p_bandrescale P) v.
  Let wl : (2 <= length w)%nat := w_len P v Hl.
  Let wi : increasing w := w_inc P v Hv Hb.
  Let wp : forall p, In p w -> 0 < snd p := density_pos (p_bandrescale P) v Hb Hpos.
  Definition base_ok (o : objs) : Prop := good w (o_rho o) /\ good_int w (o_int1 o) /\ good_int w (o_int2 o).

  (** calc_f *)
  Section F_.
    Variable vg : table.
    Hypothesis Hg : p_adapt P = true -> (2 <= length vg)%nat /\ increasing vg.
    Let gf : R -> R := if p_adapt P then fval vg else fun _ => 1.
    Let F := slope_f (p_Lambda P) (fval w) (Fval w) (grid (p_Lambda P) (gap P) gf).
    Lemma computes_F : computes P w vg (rhs_F P) F.
    Proof. apply rhs_F_ok; assumption. Qed.
    Lemma calc_f_ok fuel o r : ok P w vg o -> calc_f P fuel o = Some r ->
      r = Throw /\ failure F h (careful F h (p_allowed P) (Z.to_nat (p_max_subdiv P))) (decreasing F (p_Lambda P)) (p_step P) (p_xmax P) (fun y => Rabs y <= p_max_abs P) 1 (1, 1 / p_Lambda P) \/
      exists rows, r = Ok ((1, 1 / p_Lambda P) :: rows) /\ output F h (acceptable F (p_Lambda P) h (p_allowed P) (Z.to_nat (p_max_subdiv P))) (p_step P) (p_xmax P) (fun y => Rabs y <= p_max_abs P) 1 (1, 1 / p_Lambda P) rows.
    Proof.
      intros K. unfold calc_f. destruct (rho_ok P w vg wl wi 1 o K) as (o1 & -> & K1). destruct lines as [r' |] eqn:E; [| discriminate].
      eapply (lines_ok P w vg wl Hg (rhs_F P) F computes_F Hm true true h Hfast Hst fuel _ _ _ _ Hfine) in E; [| exact K1 | cbn; lra]. assert (G : forall y, go P true y <-> Rabs y <= p_max_abs P) by (intros y; unfold go; intuition). assert (Sa : forall x y d, sane P F true x y d <-> decreasing F (p_Lambda P) x y d) by (intros; unfold sane; intuition).
      destruct E as [(-> & Fl) | (l & s' & -> & _ & O_ & _)]; intros [= <-]; [left; split; [reflexivity |]; eapply failure_ext; [exact Sa | exact G | exact Fl] | right]. exists l. split; [reflexivity |]. eapply output_ext; [| exact G | exact O_]. intros x y d. unfold acc, acceptable. rewrite Sa. reflexivity.
    Qed.
    Lemma calc_f_end fuel o : ok P w vg o -> (1 <= fuel)%nat -> p_xmax P + / 10 ^ 10 <= 1 + INR fuel * p_step P -> calc_f P fuel o <> None.
    Proof.
      intros K H1 H2. unfold calc_f. destruct (rho_ok P w vg wl wi 1 o K) as (o1 & -> & K1).
      pose proof (lines_end P w vg wl Hg (rhs_F P) F computes_F Hm true true h Hfast Hst fuel (p_dx_fine P) 1 {| s_x := 1; s_y := 1 / p_Lambda P; s_err := 0; s_o := o1 |} Hfine K1 ltac:(cbn; lra) H1 H2) as N. destruct lines; [discriminate | congruence].
    Qed.
    Lemma calc_f_endless fuel o : ok P w vg o -> p_step P = 0 -> 1 < p_xmax P -> Rabs (1 / p_Lambda P) <= p_max_abs P -> calc_f P fuel o = None.
    Proof.
      intros K H0 Hx Hy. unfold calc_f. destruct (rho_ok P w vg wl wi 1 o K) as (o1 & -> & K1).
      pose proof (lines_endless P w vg wl Hg (rhs_F P) F computes_F Hm true true (proj1 Hfast) H0 fuel (p_dx_fine P) {| s_x := 1; s_y := 1 / p_Lambda P; s_err := 0; s_o := o1 |} (proj1 Hfine) K1 Hx (fun _ => Hy)) as N. cbn [s_x] in N. now rewrite N.
    Qed.
  End F_.

  (** calc_g.  Before it is computed g does not occur. *)
  Let P0 := {| p_Lambda := p_Lambda P; p_adapt := false; p_hardgap := p_hardgap P; p_boundary := p_boundary P; p_bandrescale := p_bandrescale P; p_xmax := p_xmax P; p_xfine := p_xfine P;
    p_step := p_step P; p_dx_fine := p_dx_fine P; p_dx_fast := p_dx_fast P; p_allowed := p_allowed P; p_max_subdiv := p_max_subdiv P; p_max_abs := p_max_abs P; p_secant_eps := p_secant_eps P; p_factor0 := p_factor0 P; p_max_iter := p_max_iter P |}.
  Lemma Hg0 : p_adapt P0 = true -> (2 <= @length (R * R) [])%nat /\ increasing [].
  Proof. discriminate. Qed.
  Lemma base_ok0 o : base_ok o <-> ok P0 w [] o.
  Proof. unfold base_ok, ok. cbn. intuition discriminate. Qed.
  Lemma computes_G A : computes P0 w [] (rhs_G P A) (slope_g (p_Lambda P) A (fval w)).
  Proof. apply (rhs_G_ok P0 w [] wl wi Hg0). exact wp. Qed.
  Lemma attempt_P0 f x y left : forall dx err o, attempt P0 f x y left dx err o = attempt P f x y left dx err o.
  Proof.
    induction left as [| left IH]; intros; cbn [attempt]; [reflexivity |]. destruct rk_step as [[dy o1] | |]; cbn [bind]; try reflexivity. destruct (flag (o_rho o1)); [apply IH |]. destruct heun_step as [[d2 o2] | |]; cbn [bind]; try reflexivity. destruct (flag (o_rho o2)); [apply IH |]. change (p_allowed P0) with (p_allowed P). destruct Rltb; [apply IH | reflexivity].
  Qed.
  Lemma timestep_P0 f c d s : timestep P0 f c d s = timestep P f c d s.
  Proof. unfold timestep. rewrite attempt_P0. reflexivity. Qed.
  Lemma int_P0 f c dx xf more : forall s, int_with_to P0 f c dx xf more s = int_with_to P f c dx xf more s.
  Proof. induction more as [| more IH]; intros s; cbn [int_with_to]; rewrite timestep_P0; [reflexivity |]. destruct timestep; cbn [bind]; try reflexivity. destruct Rltb; [apply IH | reflexivity]. Qed.
  Lemma lines_P0 f c b fuel : forall dx t s, lines P0 f c b fuel dx t s = lines P f c b fuel dx t s.
  Proof. induction fuel as [| fuel IH]; intros; [reflexivity |]. cbn [lines]. rewrite int_P0. change (p_step P0) with (p_step P). destruct int_with_to; try reflexivity. change (p_xfine P0) with (p_xfine P). change (p_xmax P0) with (p_xmax P). change (p_max_abs P0) with (p_max_abs P). change (p_dx_fast P0) with (p_dx_fast P). now rewrite IH. Qed.
  Definition shot (A ratio : R) (vecg : table) : Prop := exists rows x y, vecg = (2, 1) :: rows /\ output (slope_g (p_Lambda P) A (fval w)) h (careful (slope_g (p_Lambda P) A (fval w)) h (p_allowed P) (Z.to_nat (p_max_subdiv P))) (p_step P) (p_xmax P) (fun _ => True) 2 (2, 1) rows /\
    last rows (0, 0) = (x, y) /\ A <> 0 /\ ratio = y / (A / fval w 0).
  Lemma shoot_ok A fuel o r : base_ok o -> shoot_g P A fuel o = Some r -> r = Throw \/ r = UB \/ exists ratio vecg o', r = Ok (ratio, vecg, o') /\ base_ok o' /\ shot A ratio vecg.
  Proof.
    intros K0. apply base_ok0 in K0. unfold shoot_g. destruct (rho_ok P0 w [] wl wi 1 o K0) as (o1 & -> & K1). destruct lines as [r' |] eqn:E; [| discriminate]. rewrite <- lines_P0 in E.
    eapply (lines_ok P0 w [] wl Hg0 (rhs_G P A) _ (computes_G A) Hm false false h Hfast Hst fuel _ _ _ _ Hfine) in E; [| exact K1 | cbn; lra]. destruct E as [(-> & _) | (l & s' & -> & K' & O_ & La)]; cbn [bind]; [intros [= <-]; now left |].
    destruct (rho_ok P0 w [] wl wi 0 (s_o s') K') as (o2 & -> & K2). cbn [bind]. unfold quotient, rdiv. pose proof (rho_pos P0 w [] wl wi Hg0 wp 0) as Rp. destruct (Req_EM_T (fval w 0) 0); [lra |]. cbn [bind]. destruct (Req_EM_T (A / fval w 0) 0) as [Z | Z]; cbn [bind]; intros [= <-]; [now right; left | right; right].
    exists (s_y s' / (A / fval w 0)), ((2, 1) :: l), o2. split; [reflexivity |]. split; [now apply base_ok0 |]. exists l, (s_x s'), (s_y s'). split; [reflexivity |]. split; [eapply output_ext; [| | exact O_]; [intros x y d; unfold acc, sane, short; cbn; intuition discriminate | intros y; unfold go; cbn; intuition discriminate] |]. split; [assumption |]. split; [| reflexivity]. intros ->. apply Z. unfold Rdiv. ring.
  Qed.
  Lemma shoot_end A fuel o : base_ok o -> (1 <= fuel)%nat -> p_xmax P + / 10 ^ 10 <= 2 + INR fuel * p_step P -> shoot_g P A fuel o <> None.
  Proof.
    intros K0 H1 H2. apply base_ok0 in K0. unfold shoot_g. destruct (rho_ok P0 w [] wl wi 1 o K0) as (o1 & -> & K1). pose proof (lines_end P0 w [] wl Hg0 (rhs_G P A) _ (computes_G A) Hm false false h Hfast Hst fuel (p_dx_fine P) 2 {| s_x := 2; s_y := 1; s_err := 0; s_o := o1 |} Hfine K1 ltac:(cbn; lra) H1 H2) as N. rewrite lines_P0 in N. destruct lines; [discriminate | congruence].
  Qed.
  Definition solution_g (A : R) (vecg : table) : Prop := exists ratio, shot A ratio vecg /\ Rabs (ratio - 1) < p_secant_eps P.
  Lemma converged_spec r : converged P r = true -> Rabs (r - 1) < p_secant_eps P.
  Proof. unfold converged. apply Rltb_spec. Qed.
  Lemma secant_ok fuel more : forall x0 y0 x1 y1 o vecg A o', base_ok o -> secant P fuel more x0 y0 x1 y1 o = Some (Ok (vecg, A, o')) -> base_ok o' /\ solution_g A vecg.
  Proof.
    induction more as [| more IH]; intros x0 y0 x1 y1 o vecg A o' K; cbn [secant]; (destruct quotient as [q | |]; [| discriminate | discriminate]; destruct (shoot_g P (x1 - q * y1) fuel o) as [r |] eqn:E; [| discriminate]; apply shoot_ok in E; [| assumption]; destruct E as [-> | [-> | (ratio & vec & o2 & -> & K2 & S2)]]; try discriminate);
      (destruct (converged P ratio) eqn:C; [intros [= <- <- <-]; split; [assumption | exists ratio; split; [assumption | now apply converged_spec]] |]); [discriminate | apply IH; assumption].
  Qed.
  Lemma secant_end fuel more : (1 <= fuel)%nat -> p_xmax P + / 10 ^ 10 <= 2 + INR fuel * p_step P -> forall x0 y0 x1 y1 o, base_ok o -> secant P fuel more x0 y0 x1 y1 o <> None.
  Proof.
    intros H1 H2. induction more as [| more IH]; intros x0 y0 x1 y1 o K; cbn [secant]; (destruct quotient as [q | |]; [| discriminate | discriminate]; pose proof (shoot_end (x1 - q * y1) fuel o K H1 H2) as N; destruct (shoot_g P (x1 - q * y1) fuel o) as [r |] eqn:E; [| congruence]; apply shoot_ok in E; [| assumption]; destruct E as [-> | [-> | (ratio & vec & o2 & -> & K2 & S2)]]; try discriminate);
      (destruct (converged P ratio) eqn:C; [discriminate |]); [discriminate | apply IH; assumption].
  Qed.
  Lemma calc_g_ok intA fuel o vecg A o' : base_ok o -> calc_g P intA fuel o = Some (Ok (vecg, A, o')) -> base_ok o' /\ solution_g A vecg.
  Proof.
    intros K. unfold calc_g. destruct (shoot_g P intA fuel o) as [r |] eqn:E; [| discriminate]. apply shoot_ok in E; [| assumption]. destruct E as [-> | [-> | (ratio & vec & o2 & -> & K2 & S2)]]; try discriminate.
    destruct (converged P ratio) eqn:C; [intros [= <- <- <-]; split; [assumption | exists ratio; split; [assumption | now apply converged_spec]] |].
    set (A1 := if Rltb 1 ratio then intA * p_factor0 P else intA / p_factor0 P). destruct (shoot_g P A1 fuel o2) as [r |] eqn:E; [| discriminate]. apply shoot_ok in E; [| assumption]. destruct E as [-> | [-> | (ratio2 & vec2 & o3 & -> & K3 & S3)]]; try discriminate.
    destruct (converged P ratio2) eqn:C2; [intros [= <- <- <-]; split; [assumption | exists ratio2; split; [assumption | now apply converged_spec]] |]. apply secant_ok. assumption.
  Qed.
  Lemma calc_g_end intA fuel o : base_ok o -> (1 <= fuel)%nat -> p_xmax P + / 10 ^ 10 <= 2 + INR fuel * p_step P -> calc_g P intA fuel o <> None.
  Proof.
    intros K H1 H2. unfold calc_g. pose proof (shoot_end intA fuel o K H1 H2) as N. destruct (shoot_g P intA fuel o) as [r |] eqn:E; [| congruence]. apply shoot_ok in E; [| assumption]. destruct E as [-> | [-> | (ratio & vec & o2 & -> & K2 & S2)]]; try discriminate.
    destruct (converged P ratio) eqn:C; [discriminate |].
    set (A1 := if Rltb 1 ratio then intA * p_factor0 P else intA / p_factor0 P). pose proof (shoot_end A1 fuel o2 K2 H1 H2) as N2. destruct (shoot_g P A1 fuel o2) as [r |] eqn:E; [| congruence]. apply shoot_ok in E; [| assumption]. destruct E as [-> | [-> | (ratio2 & vec2 & o3 & -> & K3 & S3)]]; try discriminate.
    destruct (converged P ratio2) eqn:C2; [discriminate |]. now apply secant_end.
  Qed.

  (** The table g can be interpolated. *)
  Lemma output_inc F acc g t p l : / 10 ^ 10 < p_step P -> fst p <= t -> output F h acc (p_step P) (p_xmax P) g t p l -> increasing (p :: l) /\ (2 <= length (p :: l))%nat.
  Proof.
    intros Hs Hp O_. revert Hp. induction O_ as [n t p x y W Hz Rg N | n t p x y l W Hz Rg N1 N2 O_ IH]; intros Hp.
    - split; [| cbn; lia]. apply inc_cons; [cbn [fst]; lra |]. intros [| i] a b; cbn; [discriminate | destruct i; discriminate].
    - destruct (IH ltac:(cbn [fst]; lra)) as [I1 I2]. split; [| cbn [length] in *; lia]. apply inc_cons; [cbn [fst]; lra | assumption].
  Qed.
  Lemma shot_inc A ratio vecg : / 10 ^ 10 < p_step P -> shot A ratio vecg -> increasing vecg /\ (2 <= length vecg)%nat.
  Proof. intros Hs (rows & x & y & -> & O_ & _). eapply output_inc; [assumption | | exact O_]. cbn. lra. Qed.

  (** ** The whole program *)
  Let Ff (gf : R -> R) : R -> R -> R := slope_f (p_Lambda P) (fval w) (Fval w) (grid (p_Lambda P) (gap P) gf).
  Let failed (gf : R -> R) : Prop := set_parameters P = Throw \/ failure (Ff gf) h (careful (Ff gf) h (p_allowed P) (Z.to_nat (p_max_subdiv P))) (decreasing (Ff gf) (p_Lambda P)) (p_step P) (p_xmax P) (fun y => Rabs y <= p_max_abs P) 1 (1, 1 / p_Lambda P).
  Lemma load_base : exists o, load_init_rho P v = Ok (w, o) /\ base_ok o.
  Proof. destruct (load_ok P v Hv Hl Hb) as (o & E & A & B & C). exists o. split; [exact E |]. split; [exact A | split; [exact B | exact C]]. Qed.
  Lemma set_ok : set_parameters P = Ok tt \/ set_parameters P = Throw.
  Proof. unfold set_parameters. repeat (match goal with |- context [if ?c then _ else _] => destruct c; [now right |] end). now left. Qed.
  Lemma run_fixed loaded fuel r : p_adapt P = false -> run P loaded fuel v = Some r ->
    r = Throw /\ failed (fun _ => 1) \/ exists rows, r = Ok (None, (1, 1 / p_Lambda P) :: rows) /\
      output (Ff (fun _ => 1)) h (acceptable (Ff (fun _ => 1)) (p_Lambda P) h (p_allowed P) (Z.to_nat (p_max_subdiv P))) (p_step P) (p_xmax P) (fun y => Rabs y <= p_max_abs P) 1 (1, 1 / p_Lambda P) rows.
  Proof.
    intros Ha. unfold run. destruct load_base as (o & -> & K). destruct set_ok as [Esp | Esp]; rewrite Esp; cbn [bind]; [| intros [= <-]; left; split; [reflexivity | now left]]. rewrite Ha. destruct (calc_f P fuel o) as [r' |] eqn:E; [| discriminate].
    apply (calc_f_ok [] ltac:(congruence)) in E; [| destruct K as (A & B & C); split; [exact A | split; [exact B | split; [exact C | congruence]]]]. destruct E as [(-> & Fl) | (rows & -> & O_)]; intros [= <-]; [rewrite Ha in Fl; left; split; [reflexivity | right; exact Fl] | right]. exists rows. split; [reflexivity |]. rewrite Ha in O_. exact O_.
  Qed.
  Lemma base_g o s vg : base_ok o -> good vg s -> ok P w vg (set_g o s).
  Proof. intros (A & B & C) G. split; [exact A | split; [exact B | split; [exact C | intros _; exact G]]]. Qed.
  Lemma run_loaded vg fuel r : p_adapt P = true -> (2 <= length vg)%nat -> increasing vg -> run P (Some vg) fuel v = Some r ->
    r = Throw /\ failed (fval vg) \/ exists rows, r = Ok (Some vg, (1, 1 / p_Lambda P) :: rows) /\
      output (Ff (fval vg)) h (acceptable (Ff (fval vg)) (p_Lambda P) h (p_allowed P) (Z.to_nat (p_max_subdiv P))) (p_step P) (p_xmax P) (fun y => Rabs y <= p_max_abs P) 1 (1, 1 / p_Lambda P) rows.
  Proof.
    intros Ha Hgl Hgi. unfold run. destruct load_base as (o & -> & K). destruct set_ok as [Esp | Esp]; rewrite Esp; cbn [bind]; [| intros [= <-]; left; split; [reflexivity | now left]]. rewrite Ha. destruct (construct_ok vg Hgl true) as (s & -> & G). destruct (calc_f P fuel (set_g o s)) as [r' |] eqn:E; [| discriminate].
    apply (calc_f_ok vg ltac:(auto)) in E; [| now apply base_g]. destruct E as [(-> & Fl) | (rows & -> & O_)]; intros [= <-]; [rewrite Ha in Fl; left; split; [reflexivity | right; exact Fl] | right]. exists rows. split; [reflexivity |]. rewrite Ha in O_. exact O_.
  Qed.
  Lemma run_adaptive fuel gtab l : p_adapt P = true -> / 10 ^ 10 < p_step P -> run P None fuel v = Some (Ok (gtab, l)) ->
    exists A vg rows, gtab = Some vg /\ solution_g A vg /\ l = (1, 1 / p_Lambda P) :: rows /\
      output (Ff (fval vg)) h (acceptable (Ff (fval vg)) (p_Lambda P) h (p_allowed P) (Z.to_nat (p_max_subdiv P))) (p_step P) (p_xmax P) (fun y => Rabs y <= p_max_abs P) 1 (1, 1 / p_Lambda P) rows.
  Proof.
    intros Ha Hs. unfold run. destruct load_base as (o & -> & K). destruct set_ok as [-> | ->]; cbn [bind]; [| discriminate]. rewrite Ha. destruct (calc_g P (integrate_ab w 1) fuel o) as [[[[vg A] o'] | |] |] eqn:EG; try discriminate. apply calc_g_ok in EG; [| assumption]. destruct EG as [K' (ratio & S_ & C_)]. destruct (shot_inc A ratio vg Hs S_) as [Hgi Hgl].
    destruct (construct_ok vg Hgl true) as (s & -> & G). destruct (calc_f P fuel (set_g o' s)) as [r' |] eqn:E; [| discriminate]. apply (calc_f_ok vg ltac:(auto)) in E; [| now apply base_g]. destruct E as [(-> & _) | (rows & -> & O_)]; [discriminate |]; intros [= <- <-]. exists A, vg, rows. split; [reflexivity |]. split; [exists ratio; auto |]. split; [reflexivity |]. rewrite Ha in O_. exact O_.
  Qed.
  Lemma run_ends loaded fuel : 0 < p_step P -> (p_adapt P = true -> match loaded with Some vg => (2 <= length vg)%nat /\ increasing vg | None => / 10 ^ 10 < p_step P end) -> (1 <= fuel)%nat -> p_xmax P + / 10 ^ 10 <= 1 + INR fuel * p_step P -> run P loaded fuel v <> None.
  Proof.
    intros H0 Hld H1 H2. unfold run. destruct load_base as (o & -> & K). destruct set_ok as [-> | ->]; cbn [bind]; [| discriminate]. destruct (p_adapt P) eqn:Ha.
    - destruct loaded as [vg |].
      + destruct (Hld eq_refl) as [Hgl Hgi]. destruct (construct_ok vg Hgl true) as (s & -> & G). assert (N : calc_f P fuel (set_g o s) <> None) by (apply (calc_f_end vg); auto; now apply base_g). destruct calc_f; [discriminate | congruence].
      + pose proof (calc_g_end (integrate_ab w 1) fuel o K H1 ltac:(lra)) as N. destruct (calc_g P (integrate_ab w 1) fuel o) as [[[[vg A] o'] | |] |] eqn:EG; try discriminate; [| congruence]. apply calc_g_ok in EG; [| assumption]. destruct EG as [K' (ratio & S_ & C_)]. destruct (shot_inc A ratio vg (Hld eq_refl) S_) as [Hgi Hgl].
        destruct (construct_ok vg Hgl true) as (s & -> & G). assert (N' : calc_f P fuel (set_g o' s) <> None) by (apply (calc_f_end vg); auto; now apply base_g). destruct calc_f; [discriminate | congruence].
    - assert (N : calc_f P fuel o <> None) by (apply (calc_f_end []); auto; [congruence |]; destruct K as (A & B & C); split; [exact A | split; [exact B | split; [exact C | congruence]]]). destruct calc_f; [discriminate | congruence].
  Qed.
  Lemma run_endless loaded fuel : p_adapt P = false -> set_parameters P = Ok tt -> p_step P = 0 -> Rabs (1 / p_Lambda P) <= p_max_abs P -> run P loaded fuel v = None.
  Proof.
    intros Ha Hp H0 Hy. unfold run. destruct load_base as (o & -> & K). rewrite Hp. cbn [bind]. rewrite Ha. assert (Hx : 1 < p_xmax P).
    { unfold set_parameters in Hp. destruct (negb (Rltb 1 (p_Lambda P))); [discriminate |]. destruct (Rltb 1 (p_xmax P)) eqn:C; [now apply Rltb_spec in C | discriminate]. }
    rewrite (calc_f_endless []); auto; [congruence |]. destruct K as (A & B & C). split; [exact A | split; [exact B | split; [exact C | congruence]]].
  Qed.
End Run.
