(** Proofs about the Kramers-Kronig tool. *)
From Coq Require Import List Reals Lra Psatz Lia Sorted Permutation.
From Coquelicot Require Import Coquelicot.
From Verif Require Import Base Kk_model Kk_spec.
Import ListNotations.
Local Open Scope R_scope.

Section Calc.
  Variables (integr : (R -> R) -> R -> R -> R) (f df g : R -> R) (X Z : R).
  Hypotheses (Hi : exact_quadrature integr) (HZ : - X <= Z <= X) (HX : 0 < X)
    (Hg : forall x, - X <= x <= X -> f x = g x /\ continuous g x) (Hd : is_derive g Z (df Z)).

  Definition q (x : R) : R := if Req_EM_T x Z then df Z else (g x - g Z) / (x - Z).

  Lemma q_cont_Z : continuous q Z.
  Proof.
    apply continuity_pt_filterlim. apply is_derive_Reals in Hd. intros eps Heps.
    destruct (Hd eps Heps) as [delta Hdel]. exists delta. split; [apply cond_pos|].
    intros x [_ Hx]. unfold q. destruct (Req_EM_T Z Z) as [_|]; [|congruence].
    unfold R_met, R_dist, dist in *; cbn in *. destruct (Req_EM_T x Z) as [E | N].
    - rewrite Rminus_eq_0, Rabs_R0. exact Heps.
    - specialize (Hdel (x - Z) ltac:(lra) Hx). replace (Z + (x - Z)) with x in Hdel by ring. exact Hdel.
  Qed.

  Lemma q_cont x : - X <= x <= X -> continuous q x.
  Proof.
    intros Hx. destruct (Req_dec x Z) as [-> | N]; [exact q_cont_Z|].
    apply (continuous_ext_loc q (fun x => (g x - g Z) / (x - Z))).
    - assert (Hp : 0 < Rabs (x - Z)) by (apply Rabs_pos_lt; lra).
      exists (mkposreal _ Hp). intros y Hy. unfold q. destruct (Req_EM_T y Z) as [-> |]; [|reflexivity].
      exfalso. unfold ball in Hy; cbn in Hy. unfold AbsRing_ball, abs, minus, plus, opp in Hy; cbn in Hy.
      rewrite Rabs_minus_sym in Hy. unfold Rminus in Hy. lra.
    - unfold Rdiv. apply (continuous_mult (fun x => g x - g Z) (fun x => / (x - Z))).
      + apply (continuous_minus g (fun _ => g Z)); [apply Hg, Hx | apply continuous_const].
      + apply (continuous_comp (fun x => x - Z) Rinv).
        * apply (continuous_minus (fun x => x) (fun _ => Z)); [apply continuous_id | apply continuous_const].
        * apply continuous_Rinv. lra.
  Qed.

  Lemma q_ex a b : - X <= a <= X -> - X <= b <= X -> ex_RInt q a b.
  Proof.
    intros Ha Hb. apply (ex_RInt_continuous (V := R_CompleteNormedModule)). intros x Hx. apply q_cont.
    unfold Rmin, Rmax in Hx. destruct (Rle_dec a b); lra.
  Qed.

  Lemma fXZ_eq x : 0 <= x <= X -> fXZ f df Z x = q x + q (- x).
  Proof.
    intros Hx. unfold fXZ, q.
    destruct (Hg x ltac:(lra)) as [-> _]. destruct (Hg (- x) ltac:(lra)) as [-> _]. destruct (Hg Z HZ) as [-> _].
    f_equal; [destruct (Req_EM_T x Z) as [-> |] | destruct (Req_EM_T (- x) Z) as [-> |]]; reflexivity.
  Qed.

  Lemma integral_eq : integr (fXZ f df Z) 0 X = RInt q (- X) X.
  Proof.
    assert (E1 : ex_RInt q 0 X) by (apply q_ex; lra).
    assert (E2 : ex_RInt q (- X) 0) by (apply q_ex; lra).
    assert (E3 : ex_RInt q (Ropp 0) (- X)) by (apply q_ex; lra).
    assert (E4 : is_RInt (fun x => q (- x)) 0 X (RInt q (- X) 0)).
    { assert (S := is_RInt_comp_opp q 0 X _ (RInt_correct q _ _ E3)).
      apply (is_RInt_opp (V := R_NormedModule)) in S.
      replace (RInt q (- X) 0) with (opp (RInt q (Ropp 0) (- X))).
      2:{ rewrite Ropp_0. apply (opp_RInt_swap (V := R_CompleteNormedModule)). rewrite Ropp_0 in E3. exact E3. }
      eapply is_RInt_ext; [|exact S]. intros x _. apply (opp_opp (q (- x))). }
    assert (S := is_RInt_plus _ _ _ _ _ _ (RInt_correct q _ _ E1) E4).
    assert (S' : is_RInt (fXZ f df Z) 0 X (plus (RInt q 0 X) (RInt q (- X) 0))).
    { eapply is_RInt_ext; [|exact S]. intros x Hx. rewrite Rmin_left, Rmax_right in Hx by lra.
      symmetry. apply fXZ_eq. lra. }
    rewrite Hi by (eexists; exact S'). rewrite (is_RInt_unique _ _ _ _ S').
    rewrite plus_comm. apply (RInt_Chasles q); assumption.
  Qed.

  Lemma log_left eps : 0 < eps -> - X <= Z - eps ->
    is_RInt (fun x => / (x - Z)) (- X) (Z - eps) (ln eps - ln (X + Z)).
  Proof.
    intros He Hl.
    replace (ln eps - ln (X + Z)) with (minus (ln (Z - (Z - eps))) (ln (Z - - X))).
    2:{ unfold minus, plus, opp; cbn. replace (Z - (Z - eps)) with eps by ring. replace (Z - - X) with (X + Z) by ring. reflexivity. }
    apply (is_RInt_derive (fun x => ln (Z - x)) (fun x => / (x - Z))).
    - intros x Hx. rewrite Rmin_left, Rmax_right in Hx by lra. auto_derive; [lra|]. field. lra.
    - intros x Hx. rewrite Rmin_left, Rmax_right in Hx by lra.
      apply (continuous_comp (fun x => x - Z) Rinv).
      + apply (continuous_minus (fun x => x) (fun _ => Z)); [apply continuous_id | apply continuous_const].
      + apply continuous_Rinv. lra.
  Qed.
  Lemma log_right eps : 0 < eps -> Z + eps <= X ->
    is_RInt (fun x => / (x - Z)) (Z + eps) X (ln (X - Z) - ln eps).
  Proof.
    intros He Hl.
    replace (ln (X - Z) - ln eps) with (minus (ln (X - Z)) (ln ((Z + eps) - Z))).
    2:{ unfold minus, plus, opp; cbn. replace (Z + eps - Z) with eps by ring. reflexivity. }
    apply (is_RInt_derive (fun x => ln (x - Z)) (fun x => / (x - Z))).
    - intros x Hx. rewrite Rmin_left, Rmax_right in Hx by lra. auto_derive; [lra|]. field. lra.
    - intros x Hx. rewrite Rmin_left, Rmax_right in Hx by lra.
      apply (continuous_comp (fun x => x - Z) Rinv).
      + apply (continuous_minus (fun x => x) (fun _ => Z)); [apply continuous_id | apply continuous_const].
      + apply continuous_Rinv. lra.
  Qed.

  Lemma part_eq a b v : - X <= a -> a <= b -> b <= X -> (b < Z \/ Z < a) -> is_RInt (fun x => / (x - Z)) a b v ->
    RInt (fun x => f x / (x - Z)) a b = RInt q a b + g Z * v.
  Proof.
    intros Ha Hab Hb Hz Hv. apply is_RInt_unique.
    assert (E : ex_RInt q a b) by (apply q_ex; lra).
    assert (S := is_RInt_plus _ _ _ _ _ _ (RInt_correct q _ _ E) (is_RInt_scal _ _ _ (g Z) _ Hv)).
    eapply is_RInt_ext; [|exact S]. intros x Hx. rewrite Rmin_left, Rmax_right in Hx by lra.
    unfold plus, scal, mult; cbn. unfold mult; cbn. unfold q. destruct (Req_EM_T x Z); [lra|].
    destruct (Hg x ltac:(lra)) as [-> _]. field. lra.
  Qed.

  Lemma punctured_eq eps : 0 < eps -> - X < Z - eps -> Z + eps < X ->
    punctured f X Z eps = RInt q (- X) X - RInt q (Z - eps) (Z + eps) + g Z * (ln (X - Z) - ln (X + Z)).
  Proof.
    intros He H1 H2. unfold punctured.
    rewrite (part_eq (- X) (Z - eps) _ ltac:(lra) ltac:(lra) ltac:(lra) ltac:(left; lra) (log_left eps He ltac:(lra))).
    rewrite (part_eq (Z + eps) X _ ltac:(lra) ltac:(lra) ltac:(lra) ltac:(right; lra) (log_right eps He ltac:(lra))).
    assert (C1 := RInt_Chasles q (- X) (Z - eps) (Z + eps) (q_ex (- X) (Z - eps) ltac:(lra) ltac:(lra)) (q_ex (Z - eps) (Z + eps) ltac:(lra) ltac:(lra))).
    assert (C2 := RInt_Chasles q (- X) (Z + eps) X (q_ex (- X) (Z + eps) ltac:(lra) ltac:(lra)) (q_ex (Z + eps) X ltac:(lra) ltac:(lra))).
    change (RInt q (- X) (Z - eps) + RInt q (Z - eps) (Z + eps) = RInt q (- X) (Z + eps)) in C1.
    change (RInt q (- X) (Z + eps) + RInt q (Z + eps) X = RInt q (- X) X) in C2. lra.
  Qed.

  Lemma q_bounded : exists delta, 0 < delta /\ forall x, Rabs (x - Z) < delta -> Rabs (q x) <= Rabs (df Z) + 1.
  Proof.
    pose proof q_cont_Z as C. apply continuity_pt_filterlim in C. destruct (C 1 ltac:(lra)) as (delta & Hdel & H).
    exists delta. split; [exact Hdel|]. intros x Hx.
    assert (EZ : q Z = df Z) by (unfold q; destruct (Req_EM_T Z Z); congruence).
    destruct (Req_dec x Z) as [-> | N]; [rewrite EZ; lra|].
    specialize (H x). unfold D_x, no_cond, R_met, R_dist, dist in H; cbn in H. unfold R_dist in H. rewrite EZ in H.
    specialize (H (conj (conj Logic.I (not_eq_sym N)) Hx)).
    pose proof (Rabs_triang (q x - df Z) (df Z)) as T. replace (q x - df Z + df Z) with (q x) in T by ring. lra.
  Qed.

  Lemma pv_limit : - X < Z < X -> principal_value f X Z (RInt q (- X) X + g Z * (ln (X - Z) - ln (X + Z))).
  Proof.
    intros HZ' tol Htol. destruct q_bounded as (delta & Hdel & HM). set (M := Rabs (df Z) + 1) in *.
    assert (0 < M) by (unfold M; pose proof (Rabs_pos (df Z)); lra).
    assert (Hq : 0 < tol / (4 * M)) by (apply Rdiv_lt_0_compat; lra).
    exists (Rmin (Rmin delta (tol / (4 * M))) (Rmin (Z + X) (X - Z))). split; [repeat apply Rmin_glb_lt; lra|].
    intros eps [He1 He2].
    assert (L1 : eps < Rmin delta (tol / (4 * M))) by (eapply Rlt_le_trans; [exact He2 | apply Rmin_l]).
    assert (L2 : eps < Rmin (Z + X) (X - Z)) by (eapply Rlt_le_trans; [exact He2 | apply Rmin_r]).
    assert (eps < delta) by (eapply Rlt_le_trans; [exact L1 | apply Rmin_l]).
    assert (L3 : eps < tol / (4 * M)) by (eapply Rlt_le_trans; [exact L1 | apply Rmin_r]).
    assert (eps < Z + X) by (eapply Rlt_le_trans; [exact L2 | apply Rmin_l]).
    assert (eps < X - Z) by (eapply Rlt_le_trans; [exact L2 | apply Rmin_r]).
    rewrite punctured_eq by lra.
    match goal with |- Rabs ?t < _ => replace t with (- RInt q (Z - eps) (Z + eps)) by ring end. rewrite Rabs_Ropp.
    assert (N : norm (RInt q (Z - eps) (Z + eps)) <= ((Z + eps) - (Z - eps)) * M).
    { apply (norm_RInt_le_const q (Z - eps) (Z + eps)); [lra | | apply (RInt_correct q), q_ex; lra].
      intros x Hx. apply HM. apply Rabs_lt_between. lra. }
    change (norm (RInt q (Z - eps) (Z + eps))) with (Rabs (RInt q (Z - eps) (Z + eps))) in N.
    assert (eps * (4 * M) < tol).
    { apply (Rmult_lt_reg_r (/ (4 * M))); [apply Rinv_0_lt_compat; lra|]. rewrite Rmult_assoc, Rinv_r, Rmult_1_r by lra. exact L3. }
    lra.
  Qed.

  Lemma correction_eq : - X < Z < X -> exists a, gsl_atanh (Z / X) = Some a /\ - f Z * 2 * a = g Z * (ln (X - Z) - ln (X + Z)).
  Proof.
    intros HZ'. unfold gsl_atanh.
    assert (Hlt : Rabs (Z / X) < 1).
    { unfold Rdiv. rewrite Rabs_mult, (Rabs_pos_eq (/ X)) by (left; apply Rinv_0_lt_compat, HX).
      apply (Rmult_lt_reg_r X); [exact HX|]. rewrite Rmult_assoc, Rinv_l, Rmult_1_r, Rmult_1_l by lra. apply Rabs_lt_between. lra. }
    destruct (Rlt_dec (Rabs (Z / X)) 1); [|contradiction]. eexists. split; [reflexivity|].
    replace ((1 + Z / X) / (1 - Z / X)) with ((X + Z) / (X - Z)) by (field; lra).
    rewrite ln_div by lra. destruct (Hg Z HZ) as [-> _]. field.
  Qed.

  Lemma calc_pv : - X < Z < X -> exists v, calc integr f df X Z = Some v /\ principal_value f X Z (PI * v).
  Proof.
    intros HZ'. unfold calc. destruct (Req_EM_T (Rabs Z) X) as [E |].
    { exfalso. assert (Rabs Z < X) by (apply Rabs_lt_between; lra). lra. }
    destruct (correction_eq HZ') as (a & -> & Ea). eexists. split; [reflexivity|].
    rewrite integral_eq, Ea.
    replace (PI * _) with (RInt q (- X) X + g Z * (ln (X - Z) - ln (X + Z))); [apply pv_limit, HZ'|].
    field. apply PI_neq0.
  Qed.

  Lemma calc_edge : Rabs Z = X -> calc integr f df X Z = Some (RInt (fun x => (f x - f Z) / (x - Z)) (- X) X / PI).
  Proof.
    intros HZ'. unfold calc. destruct (Req_EM_T (Rabs Z) X) as [_|]; [|contradiction].
    rewrite integral_eq, Rplus_0_r. do 2 f_equal. apply RInt_ext. intros x Hx.
    rewrite Rmin_left, Rmax_right in Hx by lra. unfold q. destruct (Req_EM_T x Z) as [-> |].
    - exfalso. assert (Rabs Z < X) by (apply Rabs_lt_between; lra). lra.
    - destruct (Hg x ltac:(lra)) as [-> _]. destruct (Hg Z HZ) as [-> _]. reflexivity.
  Qed.
End Calc.

Theorem calc_principal_value integr f df X Z : exact_quadrature integr -> - X < Z < X -> smooth_at f X Z (df Z) ->
  exists v, calc integr f df X Z = Some v /\ principal_value f X Z (PI * v).
Proof. intros Hi HZ (g & Hg & Hd). apply (calc_pv integr f df g X Z); auto; lra. Qed.

Theorem calc_ends integr f df X Z : exact_quadrature integr -> 0 < X -> Rabs Z = X -> smooth_at f X Z (df Z) ->
  calc integr f df X Z = Some (RInt (fun x => (f x - f Z) / (x - Z)) (- X) X / PI).
Proof. intros Hi HX HZ (g & Hg & Hd). apply (calc_edge integr f df g X Z); auto. apply Rabs_le_between. lra. Qed.

Theorem principal_value_unique f X Z u v : principal_value f X Z u -> principal_value f X Z v -> u = v.
Proof.
  intros Hu Hv. destruct (Req_dec u v) as [|N]; [assumption|]. exfalso.
  set (t := Rabs (u - v)). assert (0 < t) by (apply Rabs_pos_lt; lra).
  destruct (Hu (t / 2) ltac:(lra)) as (e1 & He1 & H1). destruct (Hv (t / 2) ltac:(lra)) as (e2 & He2 & H2).
  set (e := Rmin e1 e2 / 2). assert (0 < Rmin e1 e2) by (apply Rmin_glb_lt; lra).
  pose proof (Rmin_l e1 e2). pose proof (Rmin_r e1 e2).
  specialize (H1 e ltac:(unfold e; lra)). specialize (H2 e ltac:(unfold e; lra)).
  set (p := punctured f X Z e) in *.
  pose proof (Rabs_triang (u - p) (p - v)) as T. replace (u - p + (p - v)) with (u - v) in T by ring.
  rewrite (Rabs_minus_sym u p) in T. fold t in T. lra.
Qed.

Theorem calc_nan integr f df X Z : 0 < X -> X < Rabs Z -> calc integr f df X Z = None.
Proof.
  intros HX HZ. unfold calc. destruct (Req_EM_T (Rabs Z) X); [lra|]. unfold gsl_atanh.
  destruct (Rlt_dec (Rabs (Z / X)) 1) as [L|]; [|reflexivity]. exfalso.
  unfold Rdiv in L. rewrite Rabs_mult, (Rabs_pos_eq (/ X)) in L by (left; apply Rinv_0_lt_compat, HX).
  apply (Rmult_lt_compat_r X) in L; [|exact HX]. rewrite Rmult_assoc, Rinv_l in L by lra. lra.
Qed.
