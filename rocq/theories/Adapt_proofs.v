(** The solver of the discretisation equation computes Runge-Kutta steps of the equation. *)
From Coq Require Import List ZArith Reals Lra Lia Bool.
From Verif Require Import Base Interp_model Interp_spec Interp_proofs Adapt_model Adapt_spec.
Import ListNotations.
Local Open Scope R_scope.

Lemma bind_ok {A B} (r : res A) (f : A -> res B) b : bind r f = Ok b -> exists a, r = Ok a /\ f a = Ok b.
Proof. destruct r; cbn [bind]; intros H; try discriminate. eauto. Qed.

(** ** The right-hand sides *)
Section Objects.
  Variables (P : params) (v vg : table).
  Hypothesis Hn : (2 <= length v)%nat.
  Hypothesis Hinc : increasing v.
  Hypothesis Hg : p_adapt P = true -> (2 <= length vg)%nat /\ increasing vg.
  Hypothesis Hpos : forall p, In p v -> 0 < snd p.
  Definition ok (o : objs) : Prop := good v (o_rho o) /\ good_int v (o_int1 o) /\ good_int v (o_int2 o) /\ (p_adapt P = true -> good vg (o_g o)).
  Let gf : R -> R := if p_adapt P then fval vg else fun _ => 1.
  Let gap : option R := if p_hardgap P then Some (p_boundary P) else None.
  Lemma rho_ok x o : ok o -> exists o', rho x o = Ok (fval v x, o') /\ ok o'.
  Proof. intros (A & B & C & D). destruct (call_ok v Hn (inc_nth v Hinc) x (o_rho o) A) as (s & E & G). unfold rho, value. rewrite E. cbn [bind]. eexists. split; [reflexivity |]. repeat split; cbn; try apply G; try apply B; try apply C; try apply D; auto. Qed.
  Lemma int1_ok x o : ok o -> exists o', intrho1 x o = Ok (Fval v x, o') /\ ok o'.
  Proof. intros (A & B & C & D). destruct (call_int_ok v Hn (inc_nth v Hinc) x (o_int1 o) B) as (s & E & G). unfold intrho1, value. rewrite E. cbn [bind]. eexists. split; [reflexivity |]. unfold ok. cbn. auto. Qed.
  Lemma int2_ok x o : ok o -> exists o', intrho2 x o = Ok (Fval v x, o') /\ ok o'.
  Proof. intros (A & B & C & D). destruct (call_int_ok v Hn (inc_nth v Hinc) x (o_int2 o) C) as (s & E & G). unfold intrho2, value. rewrite E. cbn [bind]. eexists. split; [reflexivity |]. unfold ok. cbn. auto. Qed.
  Lemma eps_ok x o : ok o -> exists o', eps P x o = Ok (grid (p_Lambda P) gap gf x, o') /\ ok o'.
  Proof.
    intros K. pose proof K as (A & B & C & D). unfold eps, gf.
    assert (E : exists o', (if p_adapt P then g x o else Ok (1, o)) = Ok (gf x, o') /\ ok o').
    { unfold gf. destruct (p_adapt P) eqn:EA; [| exists o; auto]. destruct (Hg eq_refl) as [H1 H2]. destruct (call_ok vg H1 (inc_nth vg H2) x (o_g o) (D eq_refl)) as (s & E & G). unfold g, value. rewrite E. cbn [bind]. eexists. split; [reflexivity |]. unfold ok. cbn. rewrite EA. auto. }
    destruct E as (o' & -> & K'). cbn [bind]. exists o'. split; [| assumption]. f_equal. f_equal. unfold grid, gap, power, Rleb, rescale, gf. destruct (Rle_dec x 2), (p_hardgap P); try reflexivity; ring.
  Qed.
  Lemma rho_pos x : 0 < fval v x.
  Proof.
    pose proof (inc_nth v Hinc) as Hx. assert (Q : forall i, (i < length v)%nat -> 0 < snd (nth i v (0, 0))) by (intros; apply Hpos, nth_In; auto).
    destruct (Rle_lt_dec x (fst (nth 0 v (0, 0)))); [rewrite fval_low by auto; apply Q; lia|]. destruct (Rle_lt_dec (fst (nth (length v - 1) v (0, 0))) x); [rewrite fval_high by auto; apply Q; lia|].
    destruct (locate v Hn x) as (k & Hk & E); [lra|lra|]. rewrite (fval_seg v Hn Hx k) by (auto; lra). pose proof (Q k ltac:(lia)) as P0. pose proof (Q (S k) Hk) as P1. pose proof (Hx k Hk) as W. unfold slope.
    set (a := snd (nth k v (0, 0))) in *. set (b := snd (nth (S k) v (0, 0))) in *. set (u := fst (nth k v (0, 0))) in *. set (w := fst (nth (S k) v (0, 0))) in *.
    apply (Rmult_lt_reg_r (w - u)); [lra |]. replace ((a + (b - a) / (w - u) * (x - u)) * (w - u)) with (a * (w - x) + b * (x - u)) by (field; lra). rewrite Rmult_0_l.
    destruct (Rle_lt_or_eq_dec u x ltac:(lra)) as [H | H]; [assert (0 < b * (x - u)) by (apply Rmult_lt_0_compat; lra); assert (0 <= a * (w - x)) by (apply Rmult_le_pos; lra); lra |]. subst x. assert (0 < a * (w - u)) by (apply Rmult_lt_0_compat; lra). lra.
  Qed.
  Definition computes (f : rhs) (F : R -> R -> R) : Prop := forall x y o, ok o -> exists o', f x y o = Ok (F x y, o') /\ ok o'.
  Lemma rhs_F_ok : computes (rhs_F P) (slope_f (p_Lambda P) (fval v) (Fval v) (grid (p_Lambda P) gap gf)).
  Proof.
    intros x y o K. unfold rhs_F. destruct (eps_ok x o K) as (o1 & -> & K1). cbn [bind]. destruct (int2_ok (grid (p_Lambda P) gap gf x) o1 K1) as (o2 & -> & K2). cbn [bind]. destruct (eps_ok (x + 1) o2 K2) as (o3 & -> & K3). cbn [bind]. destruct (int1_ok (grid (p_Lambda P) gap gf (x + 1)) o3 K3) as (o4 & -> & K4). cbn [bind].
    destruct (rho_ok (y * power P (2 - x)) o4 K4) as (o5 & -> & K5). cbn [bind]. exists o5. split; [| assumption]. f_equal. f_equal. unfold slope_f, logL, power. destruct Req_EM_T as [Z | Z]; [| reflexivity].
    exfalso. apply Rmult_integral in Z. pose proof (exp_pos ((2 - x) * ln (p_Lambda P))) as E1. pose proof (rho_pos (y * Rpower (p_Lambda P) (2 - x))) as E2. unfold power in Z. unfold Rpower in *. destruct Z; lra.
  Qed.
  Lemma rhs_G_ok A : computes (rhs_G P A) (slope_g (p_Lambda P) A (fval v)).
  Proof.
    intros x y o K. unfold rhs_G. destruct (rho_ok (y * power P (2 - x)) o K) as (o1 & -> & K1). cbn [bind]. unfold quotient, rdiv. pose proof (rho_pos (y * power P (2 - x))) as E2. destruct Req_EM_T; [lra |]. cbn [bind]. exists o1. split; [reflexivity | assumption].
  Qed.
  Lemma ok_flag o b : ok o -> ok (set_rho o (set_flag (o_rho o) b)).
  Proof. intros (A & B & C & D). unfold ok, good in *. cbn in *. auto. Qed.

  (** ** One step *)
  Variables (f : rhs) (F : R -> R -> R).
  Hypothesis Hf : computes f F.
  Lemma rk_ok x y dx o : ok o -> exists o', rk_step f x y dx o = Ok (rk4 F x y dx, o') /\ ok o'.
  Proof.
    intros K. unfold rk_step. destruct (Hf x y o K) as (o1 & -> & K1). cbn [bind]. destruct (Hf (x + dx / 2) (y + dx * F x y / 2) o1 K1) as (o2 & -> & K2). cbn [bind].
    destruct (Hf (x + dx / 2) (y + dx * F (x + dx / 2) (y + dx * F x y / 2) / 2) o2 K2) as (o3 & -> & K3). cbn [bind].
    destruct (Hf (x + dx) (y + dx * F (x + dx / 2) (y + dx * F (x + dx / 2) (y + dx * F x y / 2) / 2)) o3 K3) as (o4 & -> & K4). cbn [bind]. exists o4. split; [| assumption]. f_equal. f_equal. unfold rk4.
    assert (E : forall a, dx / 2 * a = dx * a / 2) by (intros; field). rewrite !E. field.
  Qed.
  Lemma heun_ok x y dx o : ok o -> exists o', heun_step f x y dx o = Ok (heun F x y dx, o') /\ ok o'.
  Proof.
    intros K. unfold heun_step. destruct (Hf x y o K) as (o1 & -> & K1). cbn [bind]. destruct (Hf (x + dx) (y + dx * F x y) o1 K1) as (o2 & -> & K2). cbn [bind]. exists o2. split; [| assumption]. f_equal. f_equal. unfold heun. field.
  Qed.
  Definition deviation (x y d : R) : R := Rabs (heun F x y d - rk4 F x y d).
  Lemma Rltb_spec a b : Rltb a b = true <-> a < b.
  Proof. unfold Rltb. destruct Rlt_dec; split; intros; auto; discriminate. Qed.
  Lemma Rltb_nspec a b : Rltb a b = false <-> b <= a.
  Proof. unfold Rltb. destruct Rlt_dec; split; intros; try discriminate; auto; lra. Qed.
  Lemma half_pow dx k : dx / 2 / 2 ^ k = dx / 2 ^ S k.
  Proof. rewrite <- tech_pow_Rmult. field. apply pow_nonzero. lra. Qed.
  (** With at least one subdivision allowed no step fails. *)
  Lemma attempt_ok x y : (1 <= p_max_subdiv P)%Z -> forall left dx err o, ok o ->
    exists k err' o', attempt P f x y left dx err o = Ok (dx / 2 ^ k, rk4 F x y (dx / 2 ^ k), err', o') /\ ok o' /\ (k <= left)%nat /\
      (deviation x y (dx / 2 ^ k) <= p_allowed P \/ k = left) /\ err <= err' /\ deviation x y (dx / 2 ^ k) <= err'.
  Proof.
    intros Hm. induction left as [| left IH]; intros dx err o K; cbn [attempt]; set (o0 := set_rho o (set_flag (o_rho o) false)); assert (K0 : ok o0) by now apply ok_flag.
    - destruct (rk_ok x y dx o0 K0) as (o1 & -> & K1). cbn [bind]. assert (E1 : dx / 2 ^ 0 = dx) by (cbn; field).
      assert (G : exists k err' o', (let* (dy_heun, o2) := heun_step f x y dx o1 in
        if Rltb (p_allowed P) (Rabs (dy_heun - rk4 F x y dx)) then Ok (dx, rk4 F x y dx, Rmax err (Rabs (dy_heun - rk4 F x y dx)), o2)
        else if (2 * p_max_subdiv P <? 1)%Z then Throw else Ok (dx, rk4 F x y dx, Rmax err (Rabs (dy_heun - rk4 F x y dx)), o2)) = Ok (dx / 2 ^ k, rk4 F x y (dx / 2 ^ k), err', o') /\ ok o' /\ (k <= 0)%nat /\
      (deviation x y (dx / 2 ^ k) <= p_allowed P \/ k = 0%nat) /\ err <= err' /\ deviation x y (dx / 2 ^ k) <= err').
      { destruct (heun_ok x y dx o1 K1) as (o2 & -> & K2). cbn [bind]. exists 0%nat, (Rmax err (deviation x y dx)), o2. rewrite E1. replace (2 * p_max_subdiv P <? 1)%Z with false by (symmetry; apply Z.ltb_ge; lia). split; [destruct Rltb; reflexivity |]. split; [assumption |]. split; [lia |]. split; [now right |]. split; [apply Rmax_l | apply Rmax_r]. }
      destruct G as (k & err' & o' & G & G'). exists k, err', o'. split; [| exact G']. rewrite <- G. destruct (flag (o_rho o1)); (destruct (heun_step f x y dx o1) as [[dy2 o2] | |]; cbn [bind]; try reflexivity; destruct (flag (o_rho o2)); reflexivity).
    - destruct (rk_ok x y dx o0 K0) as (o1 & -> & K1). cbn [bind]. assert (E1 : dx / 2 ^ 0 = dx) by (cbn; field).
      assert (R : forall e o', ok o' -> err <= e -> exists k err' o'', attempt P f x y left (dx / 2) e o' = Ok (dx / 2 ^ k, rk4 F x y (dx / 2 ^ k), err', o'') /\ ok o'' /\ (k <= S left)%nat /\ (deviation x y (dx / 2 ^ k) <= p_allowed P \/ k = S left) /\ err <= err' /\ deviation x y (dx / 2 ^ k) <= err').
      { intros e o' K' He. destruct (IH (dx / 2) e o' K') as (k & err' & o'' & E & A & B & C & D1 & D2). rewrite half_pow in *. exists (S k), err', o''. split; [exact E |]. split; [assumption |]. split; [lia |]. split; [destruct C; [now left | right; lia] |]. split; [lra | assumption]. }
      destruct (flag (o_rho o1)) eqn:F1; [apply R; [assumption | lra] |].
      destruct (heun_ok x y dx o1 K1) as (o2 & -> & K2). cbn [bind]. fold (deviation x y dx). destruct (flag (o_rho o2)) eqn:F2; [apply R; [assumption | apply Rmax_l] |].
      destruct (Rltb (p_allowed P) (deviation x y dx)) eqn:C; [apply R; [assumption | apply Rmax_l] |]. apply Rltb_nspec in C. replace (2 * p_max_subdiv P <? 1)%Z with false by (symmetry; apply Z.ltb_ge; lia).
      exists 0%nat, (Rmax err (deviation x y dx)), o2. rewrite E1. split; [reflexivity |]. split; [assumption |]. split; [lia |]. split; [now left |]. split; [apply Rmax_l | apply Rmax_r].
  Qed.
  (** Without subdivisions only inaccurate steps are accepted. *)
  Lemma attempt_zero x y dx err o : p_max_subdiv P = 0%Z -> ok o ->
    (deviation x y dx <= p_allowed P -> attempt P f x y 0 dx err o = Throw) /\
    (p_allowed P < deviation x y dx -> exists err' o', attempt P f x y 0 dx err o = Ok (dx, rk4 F x y dx, err', o') /\ ok o').
  Proof.
    intros Hm K. cbn [attempt]. set (o0 := set_rho o (set_flag (o_rho o) false)). assert (K0 : ok o0) by now apply ok_flag. destruct (rk_ok x y dx o0 K0) as (o1 & -> & K1). cbn [bind]. destruct (heun_ok x y dx o1 K1) as (o2 & -> & K2). cbn [bind]. rewrite Hm. fold (deviation x y dx). split; intros H.
    - apply Rltb_nspec in H. rewrite H. now destruct (flag (o_rho o1)), (flag (o_rho o2)).
    - apply Rltb_spec in H. rewrite H. destruct (flag (o_rho o1)), (flag (o_rho o2)); eauto.
  Qed.
  Definition step_of (s : state) (try_dx d : R) : Prop := exists k, (k <= Z.to_nat (p_max_subdiv P))%nat /\ d = try_dx / 2 ^ k /\ (deviation (s_x s) (s_y s) d <= p_allowed P \/ k = Z.to_nat (p_max_subdiv P)).
  Lemma timestep_ok c try_dx s : (1 <= p_max_subdiv P)%Z -> ok (s_o s) ->
    exists d, step_of s try_dx d /\
      (timestep P f c try_dx s = Throw /\ c = true /\ d <> 0 /\ / 10 ^ 5 < rk4 F (s_x s) (s_y s) d / d - s_y s * ln (p_Lambda P) \/
       exists s', timestep P f c try_dx s = Ok s' /\ s_x s' = s_x s + d /\ s_y s' = s_y s + rk4 F (s_x s) (s_y s) d /\ ok (s_o s') /\ s_err s <= s_err s' /\ deviation (s_x s) (s_y s) d <= s_err s' /\
         (c = true -> d <> 0 -> rk4 F (s_x s) (s_y s) d / d - s_y s * ln (p_Lambda P) <= / 10 ^ 5)).
  Proof.
    intros Hm K. destruct (attempt_ok (s_x s) (s_y s) Hm (Z.to_nat (p_max_subdiv P)) try_dx (s_err s) (s_o s) K) as (k & err' & o' & E & K' & Hk & Ha & He & Hd). exists (try_dx / 2 ^ k). split; [exists k; auto |].
    unfold timestep. rewrite E. cbn [bind]. set (d := try_dx / 2 ^ k) in *. unfold rdiv, logL. destruct c; cbn [andb].
    - destruct (Req_EM_T d 0) as [Z | Z]; [right; eexists; split; [reflexivity |]; cbn [s_x s_y s_err s_o]; split; [reflexivity |]; split; [reflexivity |]; split; [exact K' |]; split; [exact He |]; split; [exact Hd |]; intros; contradiction |].
      destruct (Rltb (/ 10 ^ 5) (rk4 F (s_x s) (s_y s) d / d - s_y s * ln (p_Lambda P))) eqn:C; [apply Rltb_spec in C; left; auto |]. apply Rltb_nspec in C. right. eexists. split; [reflexivity |]. cbn [s_x s_y s_err s_o]. split; [reflexivity |]; split; [reflexivity |]; split; [exact K' |]; split; [exact He |]; split; [exact Hd |]. auto.
    - right. eexists. split; [reflexivity |]. cbn [s_x s_y s_err s_o]. split; [reflexivity |]; split; [reflexivity |]; split; [exact K' |]; split; [exact He |]; split; [exact Hd |]. discriminate.
  Qed.

  (** ** Up to the next line *)
  Lemma walk_trans h acc n m p q t : walk F h acc n p q -> walk F h acc m q t -> walk F h acc (n + m) p t.
  Proof. induction 1; intros W; [assumption |]. cbn [plus]. eapply walk_step; [eassumption | assumption | auto]. Qed.
  Lemma d_range st try_dx d dx : step_of st try_dx d -> 0 <= try_dx <= dx -> 0 <= d <= try_dx.
  Proof.
    intros (k & _ & -> & _) H. assert (Q : 1 <= 2 ^ k) by (apply pow_R1_Rle; lra). split; [apply Rmult_le_pos; [lra | apply Rlt_le, Rinv_0_lt_compat; lra] |].
    apply (Rmult_le_reg_r (2 ^ k)); [lra |]. unfold Rdiv. rewrite Rmult_assoc, Rinv_l by lra. nra.
  Qed.
  Definition short (h : R) : R -> R -> R -> Prop := careful F h (p_allowed P) (Z.to_nat (p_max_subdiv P)).
  Definition sane (c : bool) (x y d : R) : Prop := c = true -> decreasing F (p_Lambda P) x y d.
  Definition acc (c : bool) (h : R) (x y d : R) : Prop := short h x y d /\ sane c x y d.
  Lemma d_short st try_dx d h : step_of st try_dx d -> 0 <= try_dx <= h -> short h (s_x st) (s_y st) d.
  Proof. intros (k & _ & E & [D | ->]) H; [now left | right]. rewrite E. apply Rmult_le_compat_r; [apply Rlt_le, Rinv_0_lt_compat, pow_lt; lra | lra]. Qed.
  Hypothesis Hm : (1 <= p_max_subdiv P)%Z.
  Lemma int_ok c h dx xf : 0 <= dx <= h -> forall more s, ok (s_o s) -> s_x s <= xf ->
    int_with_to P f c dx xf more s = Throw /\
      ((exists n x y d, walk F h (acc c h) n (s_x s, s_y s) (x, y) /\ x <= xf /\ 0 <= d <= h /\ short h x y d /\ ~ sane c x y d) \/ exists q, walk F h (acc c h) (S more) (s_x s, s_y s) q) \/
    exists s' n, int_with_to P f c dx xf more s = Ok s' /\ ok (s_o s') /\ walk F h (acc c h) n (s_x s, s_y s) (s_x s', s_y s') /\ (n <= more)%nat /\ xf - / 10 ^ 10 <= s_x s' <= xf.
  Proof.
    intros Hdx. induction more as [| more IH]; intros s K Hx; cbn [int_with_to]; set (try_dx := if Rltb (s_x s + dx) xf then dx else xf - s_x s);
      (assert (Ht : 0 <= try_dx <= dx /\ try_dx <= xf - s_x s) by (unfold try_dx; destruct (Rltb (s_x s + dx) xf) eqn:C; [apply Rltb_spec in C | apply Rltb_nspec in C]; lra));
      destruct (timestep_ok c try_dx s Hm K) as (d & Hd & T); pose proof (d_range s try_dx d dx Hd (proj1 Ht)) as Hr; pose proof (d_short s try_dx d h Hd ltac:(lra)) as Hs;
      (destruct T as [(E & Ec & Ed & Eq) | (s' & E & E1 & E2 & K' & _ & _ & Hsane)]; rewrite E; cbn [bind];
        [left; split; [reflexivity |]; left; exists 0%nat, (s_x s), (s_y s), d; split; [apply walk_here |]; split; [assumption |]; split; [lra |]; split; [assumption |]; intros N; specialize (N Ec Ed); lra |]);
      (assert (A : acc c h (s_x s) (s_y s) d) by (split; [assumption |]; intros Ec Ed; now apply Hsane)).
    - left. split; [reflexivity |]. right. eexists. eapply walk_step; [| exact A | apply walk_here]. lra.
    - assert (W : walk F h (acc c h) 1 (s_x s, s_y s) (s_x s', s_y s')) by (rewrite E1, E2; eapply walk_step; [| exact A | apply walk_here]; lra). assert (Hx' : s_x s' <= xf) by lra.
      destruct (Rltb max_diff_x (Rabs (s_x s' - xf))) eqn:C.
      + destruct (IH s' K' Hx') as [(T & [(n & x & y & d2 & W2 & R2) | (q & W2)]) | (s2 & n & T & K2 & W2 & N2 & R2)].
        * left. split; [exact T |]. left. exists (1 + n)%nat, x, y, d2. split; [eapply walk_trans; eassumption | assumption].
        * left. split; [exact T |]. right. exists q. exact (walk_trans _ _ 1 _ _ _ _ W W2).
        * right. exists s2, (1 + n)%nat. split; [exact T |]. split; [assumption |]. split; [eapply walk_trans; eassumption |]. split; [lia | assumption].
      + right. exists s', 1%nat. split; [reflexivity |]. split; [assumption |]. split; [assumption |]. split; [lia |]. apply Rltb_nspec in C. unfold max_diff_x in C. rewrite Rabs_left1 in C by lra. lra.
  Qed.
  Lemma max_cnt_Z : Z.of_nat max_cnt = 1000000%Z.
  Proof. unfold max_cnt. apply Z2Nat.id. lia. Qed.

  (** ** The file *)
  Definition go (bound : bool) (y : R) : Prop := bound = true -> Rabs y <= p_max_abs P.
  Lemma go_spec bound s : (Rltb (s_x s) (p_xmax P) && (negb bound || Rleb (Rabs (s_y s)) (p_max_abs P)) = true <-> s_x s < p_xmax P /\ go bound (s_y s)).
  Proof.
    rewrite andb_true_iff, Rltb_spec, orb_true_iff, negb_true_iff. unfold go, Rleb. destruct bound, (Rle_dec (Rabs (s_y s)) (p_max_abs P)); split; intros (A & B); split; auto; try (now right); try (now left); try discriminate.
    destruct B; discriminate.
  Qed.
  Lemma lines_ok c bound h : 0 <= p_dx_fast P <= h -> 0 <= p_step P -> forall fuel dx t s r, 0 <= dx <= h -> ok (s_o s) -> s_x s <= t ->
    lines P f c bound fuel dx t s = Some r ->
    r = Throw /\ failure F h (short h) (sane c) (p_step P) (p_xmax P) (go bound) t (s_x s, s_y s) \/
    exists l s', r = Ok (l, s') /\ ok (s_o s') /\ output F h (acc c h) (p_step P) (p_xmax P) (go bound) t (s_x s, s_y s) l /\ last l (0, 0) = (s_x s', s_y s').
  Proof.
    intros Hfast Hst. induction fuel as [| fuel IH]; intros dx t s r Hdx K Hx; cbn [lines]; [discriminate |].
    destruct (int_ok c h dx (t + p_step P) Hdx max_cnt s K ltac:(lra)) as [(-> & Fl) | (s' & n & -> & K' & W & Hn' & Rg)].
    { intros [= <-]. left. split; [reflexivity |]. destruct Fl as [(n & x & y & d & W & Hxx & Hd & S1 & S2) | (q & W)]; [eapply fail_refused; eassumption | eapply fail_long; [exact W |]]. rewrite Nat2Z.inj_succ, max_cnt_Z. lia. }
    set (dx' := if Rltb (p_xfine P) (s_x s') then p_dx_fast P else dx). assert (Hdx' : 0 <= dx' <= h) by (unfold dx'; destruct Rltb; lra). assert (Hnz : (Z.of_nat n <= 1000000)%Z) by (rewrite <- max_cnt_Z; now apply inj_le).
    destruct (Rltb (s_x s') (p_xmax P) && (negb bound || Rleb (Rabs (s_y s')) (p_max_abs P))) eqn:C.
    - apply go_spec in C. destruct (lines P f c bound fuel dx' (t + p_step P) s') as [r' |] eqn:E; [| discriminate]. destruct (IH dx' _ s' r' Hdx' K' (proj2 Rg) E) as [(-> & Fl) | (l & s2 & -> & K2 & O2 & L2)]; intros [= <-].
      + left. split; [reflexivity |]. eapply fail_later; [exact W | exact Rg | apply C | apply C | exact Fl].
      + right. exists ((s_x s', s_y s') :: l), s2. split; [reflexivity |]. split; [assumption |]. split; [eapply out_more; try eassumption; apply C |]. destruct l; [inversion O2 | exact L2].
    - intros [= <-]. right. exists [(s_x s', s_y s')], s'. split; [reflexivity |]. split; [assumption |]. split; [| reflexivity]. eapply out_last; try eassumption. intros N. apply go_spec in N. congruence.
  Qed.
  Lemma lines_end c bound h : 0 <= p_dx_fast P <= h -> 0 <= p_step P -> forall fuel dx t s, 0 <= dx <= h -> ok (s_o s) -> s_x s <= t ->
    (1 <= fuel)%nat -> p_xmax P + / 10 ^ 10 <= t + INR fuel * p_step P -> lines P f c bound fuel dx t s <> None.
  Proof.
    intros Hfast Hst. induction fuel as [| fuel IH]; intros dx t s Hdx K Hx Hf1 Hf2; [lia |]. cbn [lines].
    destruct (int_ok c h dx (t + p_step P) Hdx max_cnt s K ltac:(lra)) as [(-> & _) | (s' & n & -> & K' & W & _ & Rg)]; [discriminate |]. set (dx' := if Rltb (p_xfine P) (s_x s') then p_dx_fast P else dx). assert (Hdx' : 0 <= dx' <= h) by (unfold dx'; destruct Rltb; lra).
    destruct (Rltb (s_x s') (p_xmax P) && (negb bound || Rleb (Rabs (s_y s')) (p_max_abs P))) eqn:C; [| discriminate]. apply go_spec in C. destruct fuel as [| fuel].
    - exfalso. cbn [INR] in Hf2. lra.
    - assert (N : lines P f c bound (S fuel) dx' (t + p_step P) s' <> None) by (apply IH; try assumption; try lia; [lra |]; rewrite (S_INR (S fuel)) in Hf2; lra).
      destruct (lines P f c bound (S fuel) dx' (t + p_step P) s') as [[[l s2] | |] |]; congruence.
  Qed.
  (** With an output step of zero the loop does not end. *)
  Lemma rk4_zero x y : rk4 F x y 0 = 0.
  Proof. unfold rk4. field. Qed.
  Lemma max_cnt_S : exists m, max_cnt = S m.
  Proof. exists (Z.to_nat 999999). unfold max_cnt. replace 1000000%Z with (Z.succ 999999) by reflexivity. apply Z2Nat.inj_succ. lia. Qed.
  Lemma lines_endless c bound : 0 <= p_dx_fast P -> p_step P = 0 -> forall fuel dx s, 0 <= dx -> ok (s_o s) -> s_x s < p_xmax P -> go bound (s_y s) -> lines P f c bound fuel dx (s_x s) s = None.
  Proof.
    intros Hfast H0. induction fuel as [| fuel IH]; intros dx s Hdx K Hx Hy; [reflexivity |]. cbn [lines]. rewrite H0, Rplus_0_r. destruct max_cnt_S as (m & ->). cbn [int_with_to]. replace (Rltb (s_x s + dx) (s_x s)) with false by (symmetry; apply Rltb_nspec; lra). rewrite Rminus_diag_eq by reflexivity.
    destruct (timestep_ok c 0 s Hm K) as (d & (k & _ & Ed & _) & T). assert (d = 0) by (rewrite Ed; unfold Rdiv; ring). clear Ed. subst d. destruct T as [(_ & _ & N & _) | (s' & -> & E1 & E2 & K' & _)]; [congruence |]. cbn [bind]. rewrite Rplus_0_r in E1. rewrite rk4_zero, Rplus_0_r in E2.
    rewrite E1, Rminus_diag_eq, Rabs_R0 by reflexivity. replace (Rltb max_diff_x 0) with false by (symmetry; apply Rltb_nspec; unfold max_diff_x; apply Rlt_le, Rinv_0_lt_compat, pow_lt; lra).
    rewrite <- E1. replace (Rltb (s_x s') (p_xmax P) && (negb bound || Rleb (Rabs (s_y s')) (p_max_abs P))) with true by (symmetry; apply go_spec; rewrite E1, E2; auto).
    rewrite IH; [reflexivity | destruct Rltb; assumption | assumption | lra | now rewrite E2].
  Qed.
End Objects.

(** ** Preparation of the density *)
Lemma inc_tail p v : increasing (p :: v) -> increasing v.
Proof. intros H i a b Ha Hb. apply (H (S i) a b); assumption. Qed.
Lemma inc_cons p q v : fst p < fst q -> increasing (q :: v) -> increasing (p :: q :: v).
Proof. intros H I_ [| i] a b Ha Hb; cbn in Ha, Hb; [injection Ha as <-; injection Hb as <-; assumption |]. apply (I_ i a b); assumption. Qed.
Lemma inc_head p v q : increasing (p :: v) -> In q v -> fst p < fst q.
Proof.
  revert p. induction v as [| a v IH]; intros p H; [contradiction |]. assert (A : fst p < fst a) by (apply (H 0%nat p a); reflexivity). intros [<- | Hq]; [assumption |]. apply inc_tail in H. specialize (IH a H Hq). lra.
Qed.
Lemma pair_lt p q : fst p < fst q -> pair_leb p q = true.
Proof. intros H. unfold pair_leb. apply Rltb_spec in H. now rewrite H. Qed.
Lemma pair_gt p q : fst q < fst p -> pair_leb p q = false.
Proof. intros H. unfold pair_leb. replace (Rltb (fst p) (fst q)) with false by (symmetry; apply Rltb_nspec; lra). apply Rltb_spec in H. now rewrite H. Qed.
Lemma insert_head p v : increasing (p :: v) -> insert p v = p :: v.
Proof. intros H. destruct v as [| q v]; [reflexivity |]. cbn [insert]. rewrite pair_lt; [reflexivity |]. apply (H 0%nat); reflexivity. Qed.
Lemma sort_id v : increasing v -> sort v = v.
Proof. induction v as [| p v IH]; intros H; [reflexivity |]. cbn [sort]. rewrite IH by now apply inc_tail in H. now apply insert_head. Qed.
Lemma sort_snoc q v : increasing v -> (forall p, In p v -> fst q < fst p) -> sort (v ++ [q]) = q :: v.
Proof.
  induction v as [| p v IH]; intros H Hq; [reflexivity |]. cbn [app sort]. rewrite IH; [| now apply inc_tail in H | intros; apply Hq; now right]. cbn [insert]. rewrite pair_gt by (apply Hq; now left). now rewrite insert_head.
Qed.
Lemma add_zero_ok v : increasing v -> (1 <= length v)%nat -> add_zero_point v = Ok (extended v).
Proof.
  destruct v as [| p v]; cbn [length]; intros H Hl; [lia |]. unfold add_zero_point, front, at_, extended. cbn [nth_error bind]. unfold Rltb, small. destruct (Rlt_dec (/ 10 ^ 99) (fst p)) as [C | C].
  - rewrite sort_snoc; [reflexivity | assumption |]. intros q [<- | Hq]; cbn [fst]; [assumption |]. pose proof (inc_head p v q H Hq). lra.
  - now rewrite sort_id.
Qed.
Lemma extended_inc v : increasing v -> increasing (extended v).
Proof. destruct v as [| p v]; intros H; [assumption |]. cbn [extended]. destruct Rlt_dec; [| assumption]. apply inc_cons; assumption. Qed.
Lemma extended_len v : (length v <= length (extended v))%nat.
Proof. destruct v as [| p v]; cbn [extended]; [lia |]. destruct Rlt_dec; cbn [length]; lia. Qed.
Lemma density_inc b v : 0 < b -> increasing v -> increasing (density b v).
Proof.
  intros Hb H i p q Hp Hq. unfold density in *. rewrite nth_error_map in Hp, Hq. destruct (nth_error (extended v) i) as [p' |] eqn:E1; [| discriminate]. destruct (nth_error (extended v) (S i)) as [q' |] eqn:E2; [| discriminate]. injection Hp as <-. injection Hq as <-. cbn [fst]. apply Rmult_lt_compat_r; [now apply Rinv_0_lt_compat |]. apply (extended_inc v H i); assumption.
Qed.
Lemma density_len b v : (length v <= length (density b v))%nat.
Proof. unfold density. rewrite map_length. apply extended_len. Qed.
Lemma density_pos b v : 0 < b -> (forall p, In p v -> 0 < snd p) -> forall p, In p (density b v) -> 0 < snd p.
Proof.
  intros Hb H p Hp. unfold density in Hp. apply in_map_iff in Hp as (q & <- & Hq). cbn [snd]. apply Rmult_lt_0_compat; [| assumption]. destruct v as [| a v]; cbn [extended] in Hq; [contradiction |]. destruct Rlt_dec; [| now apply H]. destruct Hq as [<- | Hq]; [cbn [snd]; apply H; now left | now apply H].
Qed.
Section Load.
  Variables (P : params) (v vg : table).
  Hypothesis Hv : increasing v.
  Hypothesis Hl : (2 <= length v)%nat.
  Hypothesis Hb : 0 < p_bandrescale P.
  Let w := density (p_bandrescale P) v.
  Lemma w_len : (2 <= length w)%nat.
  Proof. unfold w. pose proof (density_len (p_bandrescale P) v). lia. Qed.
  Lemma w_inc : increasing w.
  Proof. now apply density_inc. Qed.
  Lemma load_ok : exists o, load_init_rho P v = Ok (w, o) /\ good w (o_rho o) /\ good_int w (o_int1 o) /\ good_int w (o_int2 o).
  Proof.
    unfold load_init_rho. rewrite add_zero_ok by (auto; lia). cbn [bind]. unfold rescaled, quotient, rdiv. destruct Req_EM_T; [lra |]. cbn [bind].
    replace (map (fun p : R * R => (fst p * (1 / p_bandrescale P), snd p * p_bandrescale P)) (extended v)) with w by (unfold w, density; apply map_ext; intros; f_equal; unfold Rdiv; ring).
    pose proof w_len as L. pose proof w_inc as Inc. pose proof (inc_nth w Inc) as Hx. destruct (construct_ok w L true) as (s & -> & G). cbn [bind]. unfold value. destruct (call_ok w L Hx 0 s G) as (s1 & -> & G1). cbn [bind]. destruct (call_ok w L Hx 1 s1 G1) as (s2 & -> & G2). cbn [bind]. destruct (cumulative_ok w Inc L) as (c & -> & GC). cbn [bind]. eexists. split; [reflexivity |]. cbn. auto.
  Qed.
End Load.
