(** With short steps the solver of the discretisation equation does not fail. *)
From Coq Require Import List ZArith Reals Lra Lia Bool.
From Verif Require Import Base Interp_model Interp_spec Interp_proofs Adapt_model Adapt_spec Adapt_proofs.
Import ListNotations.
Local Open Scope R_scope.

(** ** The number of steps of a line *)
Section Count.
  Variables (P : params) (v vg : table).
  Hypothesis Hn : (2 <= length v)%nat.
  Hypothesis Hg : p_adapt P = true -> (2 <= length vg)%nat /\ increasing vg.
  Variables (f : rhs) (F : R -> R -> R).
  Hypothesis Hf : computes P v vg f F.
  Hypothesis Hm : (1 <= p_max_subdiv P)%Z.
  Variables (c : bool) (h : R).
  Let n := Z.to_nat (p_max_subdiv P).
  (** One step that is not refused. *)
  Lemma step_done (I_ : R -> R -> Prop) xf try_dx s : (forall x y d, I_ x y -> 0 <= d <= h -> x + d <= xf -> sane P F c x y d /\ I_ (x + d) (y + rk4 F x y d)) ->
    ok P v vg (s_o s) -> I_ (s_x s) (s_y s) -> 0 <= try_dx <= h -> s_x s + try_dx <= xf ->
    exists s' k, timestep P f c try_dx s = Ok s' /\ ok P v vg (s_o s') /\ I_ (s_x s') (s_y s') /\ (k <= n)%nat /\ s_x s' = s_x s + try_dx / 2 ^ k.
  Proof.
    intros Hi K Hs Ht Hx. destruct (timestep_ok P v vg Hn Hg f F Hf c try_dx s Hm K) as (d & Hd & T). pose proof (d_range P F s try_dx d h Hd Ht) as Hr. destruct (Hi (s_x s) (s_y s) d Hs ltac:(lra) ltac:(lra)) as [Sa Hs']. destruct Hd as (k & Hk & Ed & _).
    destruct T as [(_ & -> & Nz & Q) | (s' & -> & E1 & E2 & K' & _)].
    - exfalso. specialize (Sa eq_refl Nz). lra.
    - exists s', k. split; [reflexivity |]. split; [assumption |]. split; [now rewrite E1, E2 |]. split; [exact Hk |]. now rewrite E1, Ed.
  Qed.
  Lemma pow2_le k : (k <= n)%nat -> 0 < / 2 ^ n <= / 2 ^ k /\ / 2 ^ k <= 1.
  Proof.
    intros Hk. assert (H1 : 1 <= 2 ^ k) by (apply pow_R1_Rle; lra). assert (H2 : 2 ^ k <= 2 ^ n) by (apply Rle_pow; [lra | assumption]). split; [split; [apply Rinv_0_lt_compat; lra | apply Rinv_le_contravar; lra] |]. rewrite <- Rinv_1. apply Rinv_le_contravar; lra.
  Qed.
  Variables (dx xf : R).
  Hypothesis Hdx : 0 <= dx <= h.
  Variable I_ : R -> R -> Prop.
  Hypothesis Hi : forall x y d, I_ x y -> 0 <= d <= h -> x + d <= xf -> sane P F c x y d /\ I_ (x + d) (y + rk4 F x y d).
  Let q := 1 - / 2 ^ n.
  Lemma q_range : 0 <= q < 1.
  Proof. destruct (pow2_le n (le_n n)). unfold q. lra. Qed.
  Let fine (r : res state) : Prop := exists s', r = Ok s' /\ ok P v vg (s_o s') /\ I_ (s_x s') (s_y s') /\ xf - / 10 ^ 10 <= s_x s' <= xf.
  Lemma test s' : s_x s' <= xf -> Rltb max_diff_x (Rabs (s_x s' - xf)) = false -> xf - / 10 ^ 10 <= s_x s'.
  Proof. intros H C. apply Rltb_nspec in C. unfold max_diff_x in C. rewrite Rabs_minus_sym, Rabs_right in C by lra. lra. Qed.
  Lemma int_near : forall b more s, (b + 1 <= more)%nat -> ok P v vg (s_o s) -> I_ (s_x s) (s_y s) -> s_x s <= xf -> xf - s_x s <= dx -> (xf - s_x s) * q ^ b <= / 10 ^ 10 ->
    fine (int_with_to P f c dx xf more s).
  Proof.
    induction b as [| b IH]; intros more s Hm' K Hs Hx Hd Hq; (destruct more as [| more]; [lia |]); cbn [int_with_to]; replace (Rltb (s_x s + dx) xf) with false by (symmetry; apply Rltb_nspec; lra);
      destruct (step_done I_ xf (xf - s_x s) s Hi K Hs ltac:(lra) ltac:(lra)) as (s' & k & -> & K' & Hs' & Hk & Ex); cbn [bind]; destruct (pow2_le k Hk) as [[Q0 Q1] Q2]; pose proof q_range as Qr;
      (assert (E : xf - s_x s' = (xf - s_x s) * (1 - / 2 ^ k)) by (rewrite Ex; unfold Rdiv; ring)); (assert (G : 0 <= xf - s_x s' <= (xf - s_x s) * q) by (rewrite E; split; [apply Rmult_le_pos; lra | apply Rmult_le_compat_l; unfold q; lra]));
      destruct (Rltb max_diff_x (Rabs (s_x s' - xf))) eqn:C; try (exists s'; split; [reflexivity |]; split; [assumption |]; split; [assumption |]; split; [apply test; [lra | assumption] | lra]).
    - exfalso. apply Rltb_spec in C. unfold max_diff_x in C. rewrite Rabs_minus_sym, Rabs_right in C by lra. cbn [pow] in Hq. nra.
    - apply IH; try assumption; try lia; try lra; [nra |]. eapply Rle_trans; [| exact Hq]. cbn [pow]. rewrite <- Rmult_assoc. apply Rmult_le_compat_r; [apply pow_le; lra | lra].
  Qed.
  Lemma int_far b : dx * q ^ b <= / 10 ^ 10 -> forall a more s, (a + b + 1 <= more)%nat -> ok P v vg (s_o s) -> I_ (s_x s) (s_y s) -> s_x s <= xf -> xf - s_x s <= dx + INR a * (dx / 2 ^ n) ->
    fine (int_with_to P f c dx xf more s).
  Proof.
    intros Hb. pose proof q_range as Qr. assert (N : forall s, s_x s <= xf -> xf - s_x s <= dx -> (xf - s_x s) * q ^ b <= / 10 ^ 10) by (intros; eapply Rle_trans; [| exact Hb]; apply Rmult_le_compat_r; [apply pow_le; lra | lra]).
    induction a as [| a IH]; intros more s Hm' K Hs Hx Hd.
    - cbn [INR] in Hd. apply (int_near b); try assumption; try lia; [lra | apply N; lra].
    - destruct (Rle_lt_dec (xf - s_x s) dx) as [Hc | Hc]; [apply (int_near b); try assumption; try lia; now apply N |]. destruct more as [| more]; [lia |]. cbn [int_with_to]. replace (Rltb (s_x s + dx) xf) with true by (symmetry; apply Rltb_spec; lra).
      destruct (step_done I_ xf dx s Hi K Hs Hdx ltac:(lra)) as (s' & k & -> & K' & Hs' & Hk & Ex). cbn [bind]. destruct (pow2_le k Hk) as [[Q0 Q1] Q2].
      assert (G1 : dx / 2 ^ n <= dx / 2 ^ k <= dx). { unfold Rdiv. split; [apply Rmult_le_compat_l; lra |]. rewrite <- (Rmult_1_r dx) at 2. apply Rmult_le_compat_l; lra. }
      assert (Hx' : s_x s' <= xf) by lra. destruct (Rltb max_diff_x (Rabs (s_x s' - xf))) eqn:C.
      + apply IH; try assumption; try lia. rewrite S_INR in Hd. lra.
      + exists s'. split; [reflexivity |]. split; [assumption |]. split; [assumption |]. split; [now apply test | lra].
  Qed.
End Count.

(** ** All lines *)
Section Lines.
  Variables (P : params) (v vg : table).
  Hypothesis Hn : (2 <= length v)%nat.
  Hypothesis Hg : p_adapt P = true -> (2 <= length vg)%nat /\ increasing vg.
  Variables (f : rhs) (F : R -> R -> R).
  Hypothesis Hf : computes P v vg f F.
  Hypothesis Hm : (1 <= p_max_subdiv P)%Z.
  Variables (c bound : bool) (h : R).
  Hypothesis Hfast : 0 <= p_dx_fast P <= h.
  Hypothesis Hst : 0 <= p_step P.
  Let n := Z.to_nat (p_max_subdiv P).
  Definition enough (dx : R) : Prop := exists a b, (Z.of_nat (a + b) < 1000000)%Z /\ p_step P + / 10 ^ 10 <= dx + INR a * (dx / 2 ^ n) /\ dx * (1 - / 2 ^ n) ^ b <= / 10 ^ 10.
  Hypothesis Efast : enough (p_dx_fast P).
  (** The invariant of the line up to xf that begins at (x0, y0). *)
  Variable I_ : R -> R -> R -> R -> R -> Prop.
  Variables (good_start : R -> R -> Prop) (start : R).
  Hypothesis Hs0 : forall x0 y0 t, good_start x0 y0 -> start <= x0 -> t - / 10 ^ 10 <= x0 <= t -> I_ x0 y0 (t + p_step P) x0 y0.
  Hypothesis Hi : forall x0 y0 t, good_start x0 y0 -> start <= x0 -> t - / 10 ^ 10 <= x0 <= t -> forall x y d, I_ x0 y0 (t + p_step P) x y -> 0 <= d <= h -> x + d <= t + p_step P -> sane P F c x y d /\ I_ x0 y0 (t + p_step P) (x + d) (y + rk4 F x y d).
  Hypothesis He : forall x0 y0 t x y, I_ x0 y0 (t + p_step P) x y -> start <= x0 -> x < p_xmax P -> go P bound y -> good_start x y /\ start <= x.
  Lemma lines_done : forall fuel dx t s r, 0 <= dx <= h -> enough dx -> ok P v vg (s_o s) -> good_start (s_x s) (s_y s) -> start <= s_x s -> t - / 10 ^ 10 <= s_x s <= t ->
    lines P f c bound fuel dx t s = Some r -> exists l s', r = Ok (l, s').
  Proof.
    induction fuel as [| fuel IH]; intros dx t s r Hdx (a & b & Hab & Ha & Hb) K Gs S0 Ht; cbn [lines]; [discriminate |].
    destruct (int_far P v vg Hn Hg f F Hf Hm c h dx (t + p_step P) Hdx (I_ (s_x s) (s_y s) (t + p_step P)) (Hi _ _ _ Gs S0 Ht) b Hb a max_cnt s) as (s' & -> & K' & Hs' & Rg); try assumption; [| now apply Hs0 | lra | unfold n in Ha; lra |].
    { apply Nat2Z.inj_le. rewrite (max_cnt_Z P v vg Hn Hg), Nat2Z.inj_add. lia. }
    set (dx' := if Rltb (p_xfine P) (s_x s') then p_dx_fast P else dx). assert (Hdx' : 0 <= dx' <= h) by (unfold dx'; destruct Rltb; lra). assert (En : enough dx') by (unfold dx'; destruct Rltb; [assumption | exists a, b; auto]).
    destruct (Rltb (s_x s') (p_xmax P) && (negb bound || Rleb (Rabs (s_y s')) (p_max_abs P))) eqn:C; [| intros [= <-]; eauto]. apply go_spec in C. destruct (He _ _ _ _ _ Hs' S0 (proj1 C) (proj2 C)) as [G' S'].
    destruct (lines P f c bound fuel dx' (t + p_step P) s') as [r' |] eqn:E; [| discriminate]. destruct (IH dx' _ s' r' Hdx' En K' G' S' Rg E) as (l & s2 & ->). intros [= <-]. eauto.
  Qed.
End Lines.
