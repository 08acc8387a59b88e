From Coq Require Import List ZArith Reals Lia Lra Psatz.
From Verif Require Import Base Invar_model Thermo_model Thermo_spec.
Import ListNotations.
Local Open Scope R_scope.

(** *** Sums *)
Lemma fold_acc {A} (f : A -> R) l a : fold_left (fun acc x => acc + f x) l a = a + rsum f l.
Proof. revert a. induction l as [|x l IH]; intros a; cbn; [lra|]. rewrite IH. lra. Qed.
Lemma acc_rsum {A} (f : A -> R) l : accumulate f l = rsum f l.
Proof. unfold accumulate. rewrite fold_acc. lra. Qed.
Lemma rsum_ext {A} (f g : A -> R) l : (forall x, In x l -> f x = g x) -> rsum f l = rsum g l.
Proof. induction l as [|x l IH]; intros H; cbn; auto. rewrite H, IH; auto with datatypes. Qed.
Lemma rsum_app {A} (f : A -> R) l1 l2 : rsum f (l1 ++ l2) = rsum f l1 + rsum f l2.
Proof. induction l1 as [|x l IH]; cbn; [lra|]. rewrite IH. lra. Qed.
Lemma rsum_map {A B} (f : B -> R) (g : A -> B) l : rsum f (map g l) = rsum (fun x => f (g x)) l.
Proof. induction l as [|x l IH]; cbn; auto. rewrite IH. auto. Qed.
Lemma rsum_flat_map {A B} (f : B -> R) (g : A -> list B) l : rsum f (flat_map g l) = rsum (fun x => rsum f (g x)) l.
Proof. induction l as [|x l IH]; cbn; auto. rewrite rsum_app, IH. auto. Qed.
Lemma rsum_scal {A} (f : A -> R) c l : rsum (fun x => c * f x) l = c * rsum f l.
Proof. induction l as [|x l IH]; cbn; [lra|]. rewrite IH. lra. Qed.
Lemma rsum_scal_r {A} (f : A -> R) c l : rsum (fun x => f x * c) l = rsum f l * c.
Proof. induction l as [|x l IH]; cbn; [lra|]. rewrite IH. lra. Qed.
Lemma rsum_plus {A} (f g : A -> R) l : rsum (fun x => f x + g x) l = rsum f l + rsum g l.
Proof. induction l as [|x l IH]; cbn; [lra|]. rewrite IH. lra. Qed.
Lemma rsum_ge0 {A} (f : A -> R) l : (forall x, In x l -> 0 <= f x) -> 0 <= rsum f l.
Proof. induction l as [|x l IH]; intros H; cbn; [lra|]. specialize (IH (fun y Hy => H y (or_intror Hy))). specialize (H x (or_introl eq_refl)). lra. Qed.
Lemma rsum_gt0 {A} (f : A -> R) l : (forall x, In x l -> 0 <= f x) -> (exists x, In x l /\ 0 < f x) -> 0 < rsum f l.
Proof.
  induction l as [|x l IH]; intros H [y [Hy Hp]]; [destruct Hy|]. cbn. destruct Hy as [->|Hy].
  - pose proof (rsum_ge0 f l (fun z Hz => H z (or_intror Hz))). lra.
  - pose proof (IH (fun z Hz => H z (or_intror Hz)) (ex_intro _ y (conj Hy Hp))). specialize (H x (or_introl eq_refl)). lra.
Qed.
Lemma rsum_elem {A} (f : A -> R) l x : (forall y, In y l -> 0 <= f y) -> In x l -> f x <= rsum f l.
Proof.
  induction l as [|y m IH]; intros Hp Hx; [destruct Hx|]. cbn. destruct Hx as [->|Hx].
  - pose proof (rsum_ge0 f m (fun z Hz => Hp z (or_intror Hz))). lra.
  - pose proof (IH (fun z Hz => Hp z (or_intror Hz)) Hx). pose proof (Hp y (or_introl eq_refl)). lra.
Qed.
Lemma rsum_le {A} (f g : A -> R) l : (forall x, In x l -> f x <= g x) -> rsum f l <= rsum g l.
Proof. induction l as [|x l IH]; intros H; cbn; [lra|]. specialize (IH (fun y Hy => H y (or_intror Hy))). specialize (H x (or_introl eq_refl)). lra. Qed.
Lemma rsum_zero {A} (l : list A) : rsum (fun _ => 0) l = 0.
Proof. induction l as [|x l IH]; cbn; [auto|]. rewrite IH. lra. Qed.

(** Variance of weights with total at most one. *)
Lemma variance_ge0 {A} (w e : A -> R) l : (forall x, In x l -> 0 <= w x) -> rsum w l <= 1 ->
  0 <= rsum (fun x => e x ^ 2 * w x) l - rsum (fun x => e x * w x) l * rsum (fun x => e x * w x) l.
Proof.
  intros Hw H1. set (E := rsum (fun x => e x * w x) l).
  assert (H : 0 <= rsum (fun x => w x * (e x - E) ^ 2) l).
  { apply rsum_ge0. intros x Hx. specialize (Hw x Hx). apply Rmult_le_pos; [auto|apply pow2_ge_0]. }
  replace (rsum (fun x => w x * (e x - E) ^ 2) l) with (rsum (fun x => e x ^ 2 * w x) l - 2 * E * E + E * E * rsum w l) in H.
  2:{ unfold E at 2. rewrite (rsum_ext (fun x => w x * (e x - E) ^ 2) (fun x => e x ^ 2 * w x + (- 2 * E) * (e x * w x) + (E * E) * w x)) by (intros; ring).
      rewrite !rsum_plus, !rsum_scal. ring. }
  assert (0 <= E * E) by nra. nra.
Qed.

(** *** Gibbs ensembles *)
Lemma ln_le_sub1 x : 0 < x -> ln x <= x - 1.
Proof. intros H. pose proof (exp_ineq1_le (ln x)). rewrite exp_ln in H0 by auto. lra. Qed.
Section Gibbs.
  Variables (T : R) (l : list level).
  Hypothesis HT : T <> 0.
  Hypothesis Hc : forall x, In x l -> 1 <= count x.
  Hypothesis Hne : l <> [].

  Lemma partition_pos : 0 < partition T l.
  Proof.
    unfold partition. apply rsum_gt0.
    - intros x Hx. pose proof (Hc x Hx). pose proof (exp_pos (- energy x / T)). nra.
    - destruct l as [|x l']; [congruence|]. exists x. split; [left; auto|]. specialize (Hc x (or_introl eq_refl)). pose proof (exp_pos (- energy x / T)). nra.
  Qed.
  Lemma prob_pos x : 0 < prob T l x.
  Proof. unfold prob. apply Rdiv_lt_0_compat; [apply exp_pos|apply partition_pos]. Qed.
  Lemma prob_sum : rsum (fun x => count x * prob T l x) l = 1.
  Proof.
    unfold prob. rewrite (rsum_ext _ (fun x => count x * exp (- energy x / T) * / partition T l)) by (intros; unfold Rdiv; ring).
    rewrite rsum_scal_r. fold (partition T l). apply Rinv_r. pose proof partition_pos. lra.
  Qed.
  Lemma prob_le1 x : In x l -> prob T l x <= 1.
  Proof.
    intros Hx. pose proof (prob_pos x) as Hp. pose proof (Hc x Hx) as Hcx.
    assert (H : count x * prob T l x <= rsum (fun x => count x * prob T l x) l).
    { apply (rsum_elem (fun x => count x * prob T l x)); auto. intros y Hy. pose proof (Hc y Hy). pose proof (prob_pos y). nra. }
    rewrite prob_sum in H. nra.
  Qed.
  Lemma ln_prob x : ln (prob T l x) = - energy x / T - ln (partition T l).
  Proof. unfold prob, Rdiv at 1. rewrite ln_mult, ln_exp, ln_Rinv; auto using exp_pos, partition_pos, Rinv_0_lt_compat; lra. Qed.

  Lemma entropy_thermo : entropy T l = (average T l (fun e => e) - free_energy T l) / T.
  Proof.
    unfold entropy, average, free_energy.
    rewrite (rsum_ext _ (fun x => (- / T) * (count x * prob T l x * energy x) + (- ln (partition T l)) * (count x * prob T l x))).
    2:{ intros x _. rewrite ln_prob. field. auto. }
    rewrite rsum_plus, !rsum_scal, prob_sum. field. auto.
  Qed.
  Lemma entropy_ge0 : 0 <= entropy T l.
  Proof.
    unfold entropy. assert (rsum (fun x => count x * (prob T l x * ln (prob T l x))) l <= rsum (fun _ => 0) l).
    { apply rsum_le. intros x Hx. pose proof (Hc x Hx). pose proof (prob_pos x). pose proof (prob_le1 x Hx).
      assert (ln (prob T l x) <= 0) by (pose proof (ln_le_sub1 (prob T l x)); lra). assert (prob T l x * ln (prob T l x) <= 0) by nra. nra. }
    rewrite rsum_zero in H. lra.
  Qed.
  Lemma number_pos : 0 < number l.
  Proof.
    unfold number. apply rsum_gt0; [intros x Hx; specialize (Hc x Hx); lra|].
    destruct l as [|x l']; [congruence|]. exists x. split; [left; auto|]. specialize (Hc x (or_introl eq_refl)). lra.
  Qed.
  Lemma entropy_le : entropy T l <= ln (number l).
  Proof.
    pose proof number_pos as Hn. pose proof prob_sum as Hs.
    assert (H : entropy T l - ln (number l) = rsum (fun x => count x * (prob T l x * ln (/ (prob T l x * number l)))) l).
    { unfold entropy. rewrite (rsum_ext (fun x => count x * (prob T l x * ln (/ (prob T l x * number l))))
        (fun x => (-1) * (count x * (prob T l x * ln (prob T l x))) + (- ln (number l)) * (count x * prob T l x))).
      - rewrite rsum_plus, !rsum_scal, Hs. ring.
      - intros x _. pose proof (prob_pos x). rewrite ln_Rinv by nra. rewrite ln_mult by auto. ring. }
    assert (H2 : rsum (fun x => count x * (prob T l x * ln (/ (prob T l x * number l)))) l <= rsum (fun x => / number l * count x + (-1) * (count x * prob T l x)) l).
    { apply rsum_le. intros x Hx. pose proof (Hc x Hx). pose proof (prob_pos x) as Hp.
      assert (Hpn : 0 < prob T l x * number l) by nra.
      pose proof (ln_le_sub1 _ (Rinv_0_lt_compat _ Hpn)) as Hl.
      replace (/ number l * count x + -1 * (count x * prob T l x)) with (count x * (prob T l x * (/ (prob T l x * number l) - 1))) by (field; split; lra).
      apply Rmult_le_compat_l; [lra|]. apply Rmult_le_compat_l; lra. }
    rewrite rsum_plus, !rsum_scal, Hs in H2. fold (number l) in H2. rewrite Rinv_l in H2 by lra. lra.
  Qed.
  Lemma heat_capacity_ge0 : 0 <= heat_capacity T l.
  Proof.
    unfold heat_capacity, average. apply Rmult_le_pos.
    - pose proof (variance_ge0 (fun x => count x * prob T l x) energy l) as H.
      rewrite prob_sum in H. specialize (H (fun x Hx => Rmult_le_pos _ _ (Rle_trans _ _ _ Rle_0_1 (Hc x Hx)) (Rlt_le _ _ (prob_pos x))) (Rle_refl 1)).
      rewrite (rsum_ext (fun x => count x * prob T l x * energy x ^ 2) (fun x => energy x ^ 2 * (count x * prob T l x))) by (intros; ring).
      rewrite (rsum_ext (fun x => count x * prob T l x * energy x) (fun x => energy x * (count x * prob T l x))) by (intros; ring). lra.
    - apply Rlt_le, Rinv_0_lt_compat. nra.
  Qed.
End Gibbs.

(** Shifting all energies. *)
Lemma partition_shift T c l : partition T (shifted c l) = exp (- c / T) * partition T l.
Proof.
  unfold partition, shifted. rewrite rsum_map, <- rsum_scal. apply rsum_ext. intros x _.
  change (energy (count x, energy x + c)) with (energy x + c). change (count (count x, energy x + c)) with (count x).
  replace (- (energy x + c) / T) with (- c / T + - energy x / T) by (unfold Rdiv; ring). rewrite exp_plus. ring.
Qed.
Lemma prob_shift T c l x : partition T l <> 0 -> prob T (shifted c l) (count x, energy x + c) = prob T l x.
Proof.
  intros H. unfold prob. rewrite partition_shift. change (energy (count x, energy x + c)) with (energy x + c). replace (- (energy x + c) / T) with (- c / T + - energy x / T) by (unfold Rdiv; ring).
  rewrite exp_plus. field. split; auto. pose proof (exp_pos (- c / T)). lra.
Qed.
Lemma shift_laws T c l : T <> 0 -> (forall x, In x l -> 1 <= count x) -> l <> [] ->
  entropy T (shifted c l) = entropy T l /\ heat_capacity T (shifted c l) = heat_capacity T l /\
  free_energy T (shifted c l) = free_energy T l + c /\ average T (shifted c l) (fun e => e) = average T l (fun e => e) + c.
Proof.
  intros HT Hc Hne. pose proof (partition_pos T l Hc Hne) as HZ. pose proof (prob_sum T l Hc Hne) as Hs.
  assert (Hav : forall f, average T (shifted c l) f = rsum (fun x => count x * prob T l x * f (energy x + c)) l).
  { intros f. unfold average, shifted at 2. rewrite rsum_map. apply rsum_ext. intros x _. change (energy (count x, energy x + c)) with (energy x + c). change (count (count x, energy x + c)) with (count x). rewrite prob_shift by lra. auto. }
  assert (H1 : average T (shifted c l) (fun e => e) = average T l (fun e => e) + c).
  { rewrite Hav. unfold average. rewrite (rsum_ext _ (fun x => count x * prob T l x * energy x + c * (count x * prob T l x))) by (intros; ring).
    rewrite rsum_plus, rsum_scal, Hs. ring. }
  split; [|split; [|split]]; auto.
  - unfold entropy. f_equal. unfold shifted at 3. rewrite rsum_map. apply rsum_ext. intros x _. change (count (count x, energy x + c)) with (count x). rewrite prob_shift by lra. auto.
  - unfold heat_capacity. rewrite H1, Hav. unfold average.
    rewrite (rsum_ext (fun x => count x * prob T l x * (energy x + c) ^ 2) (fun x => count x * prob T l x * energy x ^ 2 + (2 * c) * (count x * prob T l x * energy x) + c ^ 2 * (count x * prob T l x))) by (intros; ring).
    rewrite !rsum_plus, !rsum_scal, Hs. f_equal. ring.
  - unfold free_energy. rewrite partition_shift, ln_mult, ln_exp; auto using exp_pos. field. auto.
Qed.

(** *** calculate_TD *)
Lemma step_count mult factor diag : (forall J v, In (J, v) diag -> (1 <= mult J)%Z) -> forall x, In x (step_levels mult factor diag) -> 1 <= count x.
Proof.
  intros H x Hx. apply in_flat_map in Hx as [[J v] [Hin Hx]]. apply in_map_iff in Hx as [y [<- _]]. cbn. apply IZR_le. eapply H; eauto.
Qed.
Lemma trace_levels mult diag factor fnc : trace mult diag factor fnc = rsum (fun x => count x * exp (- energy x / 1) * fnc (energy x)) (step_levels mult factor diag).
Proof.
  unfold trace, step_levels. rewrite acc_rsum, rsum_flat_map. apply rsum_ext. intros [J v] _. cbn [fst snd]. rewrite acc_rsum, <- rsum_scal, rsum_map.
  apply rsum_ext. intros x _. cbn. replace (- (factor * x) / 1) with (- factor * x) by field. ring.
Qed.
Lemma td_levels mult diag factor : (forall J v, In (J, v) diag -> (1 <= mult J)%Z) -> (exists J v, In (J, v) diag /\ v <> []) ->
  let l := step_levels mult factor diag in let r := calculate_TD mult diag factor in
  l <> [] /\ (forall x, In x l -> 1 <= count x) /\
  td_Z r = partition 1 l /\ td_E r = average 1 l (fun e => e) /\ td_E2 r = average 1 l (fun e => e ^ 2) /\ td_F r = free_energy 1 l /\
  td_C r = heat_capacity 1 l /\ td_S r = entropy 1 l.
Proof.
  intros Hm [J0 [v0 [Hin0 Hv0]]]. cbn zeta. set (l := step_levels mult factor diag).
  assert (Hc : forall x, In x l -> 1 <= count x) by (apply step_count; auto).
  assert (Hne : l <> []).
  { destruct v0 as [|y v0]; [congruence|]. intros E. assert (Hx : In (IZR (mult J0), factor * y) l).
    { apply in_flat_map. exists (J0, y :: v0). split; auto. left. auto. }
    rewrite E in Hx. destruct Hx. }
  pose proof (partition_pos 1 l Hc Hne) as HZ.
  assert (EZ : trace mult diag factor (fun _ => 1) = partition 1 l).
  { rewrite trace_levels. unfold partition. apply rsum_ext. intros; ring. }
  assert (EA : forall f, trace mult diag factor f / partition 1 l = average 1 l f).
  { intros f. rewrite trace_levels. unfold average, Rdiv. rewrite <- rsum_scal_r. apply rsum_ext. intros x _. unfold prob. unfold Rdiv. ring. }
  split; [auto|]. split; [auto|]. unfold calculate_TD. cbn [td_Z td_E td_E2 td_F td_C td_S]. rewrite EZ, !EA.
  split; [auto|]. split; [auto|]. split; [auto|]. split; [unfold free_energy; ring|]. split.
  - unfold heat_capacity. field.
  - rewrite entropy_thermo by (auto; lra). unfold free_energy. field.
Qed.

(** *** The full chain *)
Section Chain.
  Variables (mult : invar -> Z) (combs : nat) (T : R) (Nbegin Nend : nat) (store : nat -> shell) (GS : R) (E0 : nat -> R).
  Hypothesis HT : 0 < T.
  Hypothesis Hst : completed mult combs Nend store Nbegin GS E0.

  Notation LN := (shell_levels mult combs Nend store).
  Notation L := (chain_levels mult combs Nend store Nbegin).

  Lemma over_levels N f : (Nbegin <= N < Nend)%nat ->
    over_states f (store N) = rsum (fun p => rsum (f (fst p) (snd p)) (let first := if Nat.eqb N (Nend - 1) then 0%nat else st_kept (snd p) in seq first (st_dim (snd p) - first))) (store N).
  Proof.
    intros HN. unfold over_states. rewrite acc_rsum. apply rsum_ext. intros [J ds] Hin. rewrite acc_rsum. cbn [fst snd]. unfold all_states.
    destruct Hst as (_ & _ & H & _). destruct (H N J ds HN Hin) as (_ & _ & _ & -> & _). auto.
  Qed.
  Lemma combs_pos k : 1 <= INR combs ^ k.
  Proof. apply pow_R1_Rle. destruct Hst as (H & _). apply (le_INR 1) in H. cbn in H. lra. Qed.
  Lemma count_ge1 N x : (Nbegin <= N < Nend)%nat -> In x (LN N) -> 1 <= count x.
  Proof.
    intros HN Hx. apply in_flat_map in Hx as [[J ds] [Hin Hx]]. apply in_map_iff in Hx as [i [<- _]]. cbn [count fst].
    destruct Hst as (_ & _ & H & _). destruct (H N J ds HN Hin) as (Hm & _). apply IZR_le in Hm. pose proof (combs_pos (Nend - 1 - N)). nra.
  Qed.
  Lemma Nall_range N : In N (Nall Nbegin Nend) <-> (Nbegin <= N < Nend)%nat.
  Proof. unfold Nall. rewrite in_seq. destruct Hst as (_ & H & _). lia. Qed.
  Lemma chain_count x : In x L -> 1 <= count x.
  Proof. intros Hx. apply in_flat_map in Hx as [N [HN Hx]]. apply (count_ge1 N); auto. apply Nall_range; auto. Qed.
  Lemma last_nonempty : LN (Nend - 1) <> [].
  Proof.
    destruct Hst as (_ & _ & _ & J & ds & Hin & Hd). intros E.
    unfold shell_levels in E. rewrite Nat.eqb_refl in E. cbn zeta in E. apply in_split in Hin as (l1 & l2 & Es). rewrite Es, flat_map_app in E.
    apply app_eq_nil in E as [_ E]. cbn [flat_map] in E. apply app_eq_nil in E as [E _]. cbn [snd] in E. rewrite Nat.sub_0_r in E. destruct (st_dim ds); [lia|]. discriminate.
  Qed.
  Lemma chain_nonempty : L <> [].
  Proof.
    intros E. destruct (LN (Nend - 1)) as [|x l] eqn:El; [apply last_nonempty; auto|].
    assert (Hx : In x L). { apply in_flat_map. exists (Nend - 1)%nat. split; [|rewrite El; left; auto]. apply Nall_range. destruct Hst as (_ & H & _). lia. }
    rewrite E in Hx. destruct Hx.
  Qed.
  Lemma Zpos : 0 < partition T L.
  Proof. apply partition_pos. apply chain_count. apply chain_nonempty. Qed.
  Lemma Z_shells : partition T L = rsum (fun N => partition T (LN N)) (Nall Nbegin Nend).
  Proof. unfold partition at 1, chain_levels. rewrite rsum_flat_map. auto. Qed.

  (** State energies: abs_T is the energy of the level; abs_G and abs_zero differ by constants of the shell. *)
  Lemma weigh N (g : R -> R) (k : R) (f : invar -> stored -> nat -> R) : (Nbegin <= N < Nend)%nat ->
    (forall J ds i, In (J, ds) (store N) -> f J ds i = k * (IZR (mult J) * INR combs ^ (Nend - 1 - N)) * g (abs_T ds i)) ->
    over_states f (store N) = k * rsum (fun x => count x * g (energy x)) (LN N).
  Proof.
    intros HN Hf. rewrite over_levels by auto. unfold shell_levels. rewrite rsum_flat_map, <- rsum_scal. apply rsum_ext. intros [J ds] Hin. cbn [fst snd].
    rewrite rsum_map, <- rsum_scal. apply rsum_ext. intros i _. cbn [count energy fst snd]. rewrite (Hf J ds i Hin). unfold abs_T, abs_zero, rel. ring.
  Qed.
  Lemma cpow_ne N : INR combs ^ (Nend - 1 - N) <> 0.
  Proof. pose proof (combs_pos (Nend - 1 - N)). lra. Qed.

  Lemma ZnDG_levels N : (Nbegin <= N < Nend)%nat -> ZnDG mult T store N * INR combs ^ (Nend - N - 1) = exp (GS / T) * partition T (LN N).
  Proof.
    intros HN. replace (Nend - N - 1)%nat with (Nend - 1 - N)%nat by lia. unfold ZnDG.
    rewrite (weigh N (fun e => exp (- e / T)) (exp (GS / T) / INR combs ^ (Nend - 1 - N))); auto.
    - unfold partition. field. apply cpow_ne.
    - intros J ds i Hin. destruct Hst as (_ & _ & H & _). destruct (H N J ds HN Hin) as (_ & _ & EG & _). unfold abs_G. rewrite EG.
      replace (- (abs_T ds i - GS) / T) with (GS / T + - abs_T ds i / T) by (unfold Rdiv; ring). rewrite exp_plus. field. apply cpow_ne.
  Qed.
  Lemma ZnDN_levels N : (Nbegin <= N < Nend)%nat -> ZnDN mult T store N = exp (E0 N / T) / INR combs ^ (Nend - 1 - N) * partition T (LN N).
  Proof.
    intros HN. unfold ZnDN. rewrite (weigh N (fun e => exp (- e / T)) (exp (E0 N / T) / INR combs ^ (Nend - 1 - N))); auto.
    intros J ds i Hin. destruct Hst as (_ & _ & H & _). destruct (H N J ds HN Hin) as (_ & ET & _).
    replace (- abs_zero ds i / T) with (E0 N / T + - abs_T ds i / T) by (unfold abs_T; rewrite ET; unfold Rdiv; ring). rewrite exp_plus. field. apply cpow_ne.
  Qed.
  Lemma ZZG_levels : ZZG mult combs T Nbegin Nend store = exp (GS / T) * partition T L.
  Proof.
    unfold ZZG. rewrite acc_rsum, Z_shells, <- rsum_scal. apply rsum_ext. intros N HN. apply ZnDG_levels. apply Nall_range; auto.
  Qed.
  Lemma ZZG_pos : 0 < ZZG mult combs T Nbegin Nend store.
  Proof. rewrite ZZG_levels. pose proof Zpos. pose proof (exp_pos (GS / T)). nra. Qed.
  Lemma wn_levels N : (Nbegin <= N < Nend)%nat -> wn mult combs T Nbegin Nend store N = partition T (LN N) / partition T L.
  Proof.
    intros HN. pose proof Zpos. pose proof ZZG_pos. pose proof (exp_pos (GS / T)).
    unfold wn, wnfactor. replace (INR combs ^ (Nend - N - 1) / ZZG mult combs T Nbegin Nend store * ZnDG mult T store N)
      with (ZnDG mult T store N * INR combs ^ (Nend - N - 1) / ZZG mult combs T Nbegin Nend store) by (field; lra).
    rewrite ZnDG_levels, ZZG_levels by auto. field. split; lra.
  Qed.
  Lemma wn_sum : rsum (wn mult combs T Nbegin Nend store) (Nall Nbegin Nend) = 1.
  Proof.
    rewrite (rsum_ext _ (fun N => partition T (LN N) * / partition T L)) by (intros N HN; apply wn_levels; apply Nall_range; auto).
    rewrite rsum_scal_r, <- Z_shells. apply Rinv_r. pose proof Zpos. lra.
  Qed.
  Lemma shellZ_ge0 N : (Nbegin <= N < Nend)%nat -> 0 <= partition T (LN N).
  Proof. intros HN. apply rsum_ge0. intros x Hx. pose proof (count_ge1 N x HN Hx). pose proof (exp_pos (- energy x / T)). nra. Qed.
  Lemma shellZ_pos N : (Nbegin <= N < Nend)%nat -> LN N <> [] -> 0 < partition T (LN N).
  Proof. intros HN Hn. apply partition_pos; auto. intros x. apply count_ge1; auto. Qed.
  Lemma wn_ge0 N : (Nbegin <= N < Nend)%nat -> 0 <= wn mult combs T Nbegin Nend store N.
  Proof. intros HN. rewrite wn_levels by auto. pose proof Zpos. apply Rmult_le_pos; [apply shellZ_ge0; auto|]. apply Rlt_le, Rinv_0_lt_compat; auto. Qed.
  Lemma wn_pos_iff N : (Nbegin <= N < Nend)%nat -> (0 < wn mult combs T Nbegin Nend store N <-> LN N <> []).
  Proof.
    intros HN. rewrite wn_levels by auto. pose proof Zpos. split.
    - intros H0 E. rewrite E in H0. cbn in H0. unfold Rdiv in H0. rewrite Rmult_0_l in H0. lra.
    - intros Hn. apply Rdiv_lt_0_compat; auto. apply shellZ_pos; auto.
  Qed.
  Lemma reads : reads_ok Nbegin Nend store = true.
  Proof.
    apply forallb_forall. intros N HN. apply Nall_range in HN. apply forallb_forall. intros [J ds] Hin. cbn [snd]. apply forallb_forall.
    intros i Hi. unfold all_states in Hi. apply in_seq in Hi. destruct Hst as (_ & _ & H & _). destruct (H N J ds HN Hin) as (_ & _ & _ & _ & Hd). apply Nat.ltb_lt. lia.
  Qed.
  Lemma calc_ZnD_ok near : (forall x, near x x = true) ->
    calc_ZnD mult combs T Nbegin Nend store near = Ok (ZnDG mult T store, ZnDN mult T store, ZZG mult combs T Nbegin Nend store, wn mult combs T Nbegin Nend store).
  Proof.
    intros Hn. unfold calc_ZnD. rewrite reads. destruct (Req_EM_T _ 0) as [E|_]; [pose proof ZZG_pos; lra|].
    rewrite acc_rsum, wn_sum, Hn. auto.
  Qed.

  (** Weights of the individual states. *)
  Lemma state_weight_levels N J ds i : (Nbegin <= N < Nend)%nat -> In (J, ds) (store N) -> LN N <> [] ->
    state_weight mult combs T Nbegin Nend store N J ds i = IZR (mult J) * INR combs ^ (Nend - 1 - N) * (exp (- abs_T ds i / T) / partition T L).
  Proof.
    intros HN Hin Hne. unfold state_weight. rewrite wn_levels, ZnDN_levels by auto.
    destruct Hst as (_ & _ & H & _). destruct (H N J ds HN Hin) as (_ & ET & _).
    replace (- abs_zero ds i / T) with (E0 N / T + - abs_T ds i / T) by (unfold abs_T; rewrite ET; unfold Rdiv; ring). rewrite exp_plus.
    pose proof (shellZ_pos N HN Hne). pose proof Zpos. pose proof (cpow_ne N). pose proof (exp_pos (E0 N / T)). field. repeat split; lra || auto.
  Qed.
  Lemma shell_moment N f : (Nbegin <= N < Nend)%nat ->
    over_states (fun J ds i => f (abs_T ds i) * state_weight mult combs T Nbegin Nend store N J ds i) (store N)
    = rsum (fun x => f (energy x) * (count x * (exp (- energy x / T) / partition T L))) (LN N).
  Proof.
    intros HN. destruct (LN N) as [|x0 l0] eqn:E.
    - rewrite over_levels by auto. cbn [rsum fold_right].
      transitivity (rsum (fun _ : invar * stored => 0) (store N)); [|apply rsum_zero]. apply rsum_ext. intros [J ds] Hin. cbn zeta. cbn [fst snd].
      assert (Es : (let first := if Nat.eqb N (Nend - 1) then 0%nat else st_kept ds in seq first (st_dim ds - first)) = []).
      { unfold shell_levels in E. apply in_split in Hin as (l1 & l2 & Es). rewrite Es, flat_map_app in E. apply app_eq_nil in E as [_ E].
        cbn [flat_map] in E. apply app_eq_nil in E as [E _]. apply map_eq_nil in E. exact E. }
      cbn zeta in Es. rewrite Es. auto.
    - rewrite <- E. assert (Hne : LN N <> []) by congruence.
      rewrite (weigh N (fun e => f e * (exp (- e / T) / partition T L)) 1); auto.
      + rewrite Rmult_1_l. apply rsum_ext. intros; ring.
      + intros J ds i Hin. rewrite state_weight_levels by auto. ring.
  Qed.
  Lemma weights_of_shell N : (Nbegin <= N < Nend)%nat ->
    over_states (state_weight mult combs T Nbegin Nend store N) (store N) = wn mult combs T Nbegin Nend store N.
  Proof.
    intros HN. transitivity (over_states (fun J ds i => (fun _ => 1) (abs_T ds i) * state_weight mult combs T Nbegin Nend store N J ds i) (store N)).
    { unfold over_states. rewrite !acc_rsum. apply rsum_ext. intros p _. rewrite !acc_rsum. apply rsum_ext. intros; ring. }
    rewrite (shell_moment N (fun _ => 1)) by auto. rewrite wn_levels by auto. unfold partition at 2.
    unfold Rdiv. rewrite <- rsum_scal_r. apply rsum_ext. intros; ring.
  Qed.

  Notation r := (fdm_thermodynamics mult combs T Nbegin Nend store GS).
  Definition included : list level := flat_map (fun N => if Rlt_dec cut (wn mult combs T Nbegin Nend store N) then LN N else []) (Nall Nbegin Nend).
  Lemma moment_levels p : fdm_moment mult combs T Nbegin Nend store p = rsum (fun x => energy x ^ p * (count x * prob T L x)) included.
  Proof.
    unfold fdm_moment, included. rewrite acc_rsum, rsum_flat_map. apply rsum_ext. intros N HN. apply Nall_range in HN.
    destruct (Rlt_dec _ _); [|auto]. apply (shell_moment N (fun e => e ^ p)); auto.
  Qed.
  Lemma included_in x : In x included -> In x L.
  Proof.
    intros Hx. apply in_flat_map in Hx as [N [HN Hx]]. apply in_flat_map. exists N. split; auto. destruct (Rlt_dec _ _); [auto|destruct Hx].
  Qed.
  Lemma included_weight : rsum (fun x => count x * prob T L x) included <= 1.
  Proof.
    rewrite <- (prob_sum T L chain_count chain_nonempty). unfold included. unfold chain_levels at 3. rewrite !rsum_flat_map. apply rsum_le. intros N HN. destruct (Rlt_dec _ _); [lra|].
    apply rsum_ge0. intros x Hx. assert (1 <= count x) by (apply (count_ge1 N); auto; apply Nall_range; auto).
    pose proof (prob_pos T L chain_count chain_nonempty x). nra.
  Qed.

  Lemma fdm_C_ge0 : 0 <= fdm_C r.
  Proof.
    unfold fdm_thermodynamics. cbn [fdm_C]. apply Rmult_le_pos; [|apply Rlt_le, Rinv_0_lt_compat; nra].
    rewrite !moment_levels.
    rewrite (rsum_ext (fun x => energy x ^ 1 * (count x * prob T L x)) (fun x => energy x * (count x * prob T L x))) by (intros; ring).
    apply variance_ge0; [|apply included_weight]. intros x Hx. apply included_in in Hx. pose proof (chain_count x Hx).
    pose proof (prob_pos T L chain_count chain_nonempty x). nra.
  Qed.
  Lemma fdm_Z_F : fdm_Z r = partition T L /\ fdm_F r = free_energy T L /\ fdm_S r = (fdm_E r - fdm_F r) / T.
  Proof.
    unfold fdm_thermodynamics. cbn [fdm_Z fdm_F fdm_S fdm_E]. rewrite ZZG_levels. pose proof Zpos. split; [|split]; auto.
    - rewrite Rmult_comm, <- Rmult_assoc, <- exp_plus. replace (- GS / T + GS / T) with 0 by (field; lra). rewrite exp_0. ring.
    - rewrite ln_mult, ln_exp by auto using exp_pos. unfold free_energy. field. lra.
  Qed.
  Definition above_cut : Prop := forall N, (Nbegin <= N < Nend)%nat -> LN N = [] \/ cut < wn mult combs T Nbegin Nend store N.
  Lemma included_all : above_cut -> included = L.
  Proof.
    intros H. unfold included, chain_levels. rewrite !flat_map_concat_map. f_equal. apply map_ext_in. intros N HN. apply Nall_range in HN.
    destruct (Rlt_dec _ _); auto. destruct (H N HN); [auto|contradiction].
  Qed.
  Lemma fdm_gibbs : above_cut -> fdm_E r = average T L (fun e => e) /\ fdm_C r = heat_capacity T L /\ fdm_S r = entropy T L.
  Proof.
    intros H. assert (EE : fdm_E r = average T L (fun e => e)).
    { unfold fdm_thermodynamics. cbn [fdm_E]. rewrite moment_levels, included_all by auto. apply rsum_ext. intros; ring. }
    split; [auto|]. split.
    - unfold heat_capacity. rewrite <- EE. unfold fdm_thermodynamics. cbn [fdm_C fdm_E]. f_equal.
      rewrite (moment_levels 2), included_all by auto.
      rewrite (rsum_ext (fun x => energy x ^ 2 * (count x * prob T L x)) (fun x => count x * prob T L x * energy x ^ 2)) by (intros; ring).
      unfold average. ring.
    - destruct fdm_Z_F as (_ & EF & ->). rewrite EE, EF. symmetry. apply entropy_thermo; [lra| |]. apply chain_count. apply chain_nonempty.
  Qed.
End Chain.

(** *** Moving all energies *)
Lemma move_levels mult combs Nend store c N : shell_levels mult combs Nend (move_store c store) N = shifted c (shell_levels mult combs Nend store N).
Proof.
  unfold shell_levels, shifted, move_store. rewrite !flat_map_concat_map, concat_map, !map_map. f_equal. apply map_ext. intros [J ds]. cbn.
  rewrite map_map. apply map_ext. intros i. unfold count, energy. cbn. f_equal. ring.
Qed.
Lemma move_chain mult combs Nend store c Nbegin : chain_levels mult combs Nend (move_store c store) Nbegin = shifted c (chain_levels mult combs Nend store Nbegin).
Proof.
  unfold chain_levels. rewrite (flat_map_concat_map _ (seq _ _)), (flat_map_concat_map (shell_levels mult combs Nend store)).
  unfold shifted at 1. rewrite concat_map, map_map. f_equal. apply map_ext. intros N. apply move_levels.
Qed.
Lemma move_completed mult combs Nend store Nbegin GS E0 c : completed mult combs Nend store Nbegin GS E0 ->
  completed mult combs Nend (move_store c store) Nbegin (GS + c) (fun N => E0 N + c).
Proof.
  intros (Hc & Hn & H & J & ds & Hin & Hd). split; [auto|]. split; [auto|]. split.
  - intros N J' ds' HN Hin'. apply in_map_iff in Hin' as [[J1 ds1] [E Hin1]]. injection E as <- <-. destruct (H N J1 ds1 HN Hin1) as (H1 & H2 & H3 & H4 & H5).
    cbn. rewrite H2, H3. auto.
  - exists J, (move_energy c ds). split; [|exact Hd]. apply in_map_iff. exists (J, ds). auto.
Qed.
Lemma negligible_cut mult combs T Nbegin Nend store GS E0 : 0 < T -> completed mult combs Nend store Nbegin GS E0 ->
  no_negligible_shell T mult combs Nbegin Nend store -> above_cut mult combs T Nbegin Nend store.
Proof.
  intros HT Hst H N HN. destruct (H N HN) as [E|E]; [auto|right]. rewrite (wn_levels mult combs T Nbegin Nend store GS E0); auto.
Qed.
Lemma move_negligible c mult combs T Nbegin Nend store : T <> 0 -> partition T (chain_levels mult combs Nend store Nbegin) <> 0 ->
  no_negligible_shell T mult combs Nbegin Nend store -> no_negligible_shell T mult combs Nbegin Nend (move_store c store).
Proof.
  intros HT HZ H N HN. rewrite move_levels, move_chain, !partition_shift. destruct (H N HN) as [E|E].
  - left. rewrite E. auto.
  - right. eapply Rlt_le_trans; [exact E|]. right. field. split; [auto|]. pose proof (exp_pos (- c / T)). lra.
Qed.

Section ChainThms.
  Variables (mult : invar -> Z) (combs : nat) (T : R) (Nbegin Nend : nat) (store : nat -> shell) (GS : R) (E0 : nat -> R).
  Hypothesis HT : 0 < T.
  Hypothesis Hst : completed mult combs Nend store Nbegin GS E0.
  Notation L := (chain_levels mult combs Nend store Nbegin).
  Notation LN := (shell_levels mult combs Nend store).

  Theorem shell_weights near : (forall x, near x x = true) ->
    exists zg zn ZZ w, calc_ZnD mult combs T Nbegin Nend store near = Ok (zg, zn, ZZ, w) /\
      (forall N, (Nbegin <= N < Nend)%nat -> 0 <= w N) /\ rsum w (seq Nbegin (Nend - Nbegin)) = 1 /\
      (forall N, (Nbegin <= N < Nend)%nat -> (0 < w N <-> LN N <> [])) /\
      (forall N, (Nbegin <= N < Nend)%nat -> w N = partition T (LN N) / partition T L).
  Proof.
    intros Hn. do 4 eexists. split; [apply (calc_ZnD_ok mult combs T Nbegin Nend store GS E0); auto|]. split; [|split; [|split]].
    - intros N HN. apply (wn_ge0 mult combs T Nbegin Nend store GS E0); auto.
    - apply (wn_sum mult combs T Nbegin Nend store GS E0); auto.
    - intros N HN. apply (wn_pos_iff mult combs T Nbegin Nend store GS E0); auto.
    - intros N HN. apply (wn_levels mult combs T Nbegin Nend store GS E0); auto.
  Qed.

  Lemma all_states_levels N J ds i : (Nbegin <= N < Nend)%nat -> In (J, ds) (store N) -> In i (all_states ds) ->
    In (IZR (mult J) * INR combs ^ (Nend - 1 - N), abs_T ds i) (LN N).
  Proof.
    intros HN Hin Hi. apply in_flat_map. exists (J, ds). split; auto. cbn [fst snd]. apply in_map_iff. exists i. split; [reflexivity|].
    destruct Hst as (_ & _ & H & _). destruct (H N J ds HN Hin) as (_ & _ & _ & El & _). unfold all_states in Hi. rewrite El in Hi. exact Hi.
  Qed.
  Theorem state_weights N : (Nbegin <= N < Nend)%nat ->
    over_states (state_weight mult combs T Nbegin Nend store N) (store N) = wn mult combs T Nbegin Nend store N /\
    forall J ds i, In (J, ds) (store N) -> In i (all_states ds) -> exists x, In x L /\ energy x = abs_T ds i /\
      count x = IZR (mult J) * INR combs ^ (Nend - 1 - N) /\ state_weight mult combs T Nbegin Nend store N J ds i = count x * prob T L x.
  Proof.
    intros HN. split; [apply (weights_of_shell mult combs T Nbegin Nend store GS E0); auto|].
    intros J ds i Hin Hi. pose proof (all_states_levels N J ds i HN Hin Hi) as Hx. eexists. split; [|split; [|split]].
    - apply in_flat_map. exists N. split; [|exact Hx]. apply in_seq. lia.
    - reflexivity.
    - reflexivity.
    - apply (state_weight_levels mult combs T Nbegin Nend store GS E0); auto. intros E. rewrite E in Hx. destruct Hx.
  Qed.

  Theorem fdm_laws : let r := fdm_thermodynamics mult combs T Nbegin Nend store GS in
    fdm_Z r = partition T L /\ fdm_F r = free_energy T L /\ fdm_S r = (fdm_E r - fdm_F r) / T /\ 0 <= fdm_C r /\
    (no_negligible_shell T mult combs Nbegin Nend store ->
       fdm_E r = average T L (fun e => e) /\ fdm_C r = heat_capacity T L /\ fdm_S r = entropy T L /\ 0 <= fdm_S r <= ln (number L)).
  Proof.
    cbn zeta. destruct (fdm_Z_F mult combs T Nbegin Nend store GS E0 HT Hst) as (H1 & H2 & H3). split; [auto|]. split; [auto|]. split; [auto|].
    split; [apply (fdm_C_ge0 mult combs T Nbegin Nend store GS E0); auto|]. intros Hn.
    destruct (fdm_gibbs mult combs T Nbegin Nend store GS E0 HT Hst (negligible_cut _ _ _ _ _ _ _ _ HT Hst Hn)) as (H4 & H5 & H6).
    split; [auto|]. split; [auto|]. split; [auto|]. rewrite H6.
    assert (Hc := chain_count mult combs Nbegin Nend store GS E0 Hst). assert (Hne := chain_nonempty mult combs Nbegin Nend store GS E0 Hst).
    split; [apply entropy_ge0|apply entropy_le]; auto.
  Qed.

  Theorem fdm_move c : no_negligible_shell T mult combs Nbegin Nend store ->
    let r := fdm_thermodynamics mult combs T Nbegin Nend store GS in
    let r' := fdm_thermodynamics mult combs T Nbegin Nend (move_store c store) (GS + c) in
    fdm_S r' = fdm_S r /\ fdm_C r' = fdm_C r /\ fdm_F r' = fdm_F r + c /\ fdm_E r' = fdm_E r + c.
  Proof.
    intros Hn. cbn zeta.
    pose proof (move_completed _ _ _ _ _ _ _ c Hst) as Hst'.
    assert (Hc := chain_count mult combs Nbegin Nend store GS E0 Hst). assert (Hne := chain_nonempty mult combs Nbegin Nend store GS E0 Hst).
    assert (HZ : partition T L <> 0) by (pose proof (partition_pos T L Hc Hne); lra). assert (HT' : T <> 0) by lra.
    pose proof (move_negligible c mult combs T Nbegin Nend store HT' HZ Hn) as Hn'.
    destruct (fdm_Z_F mult combs T Nbegin Nend store GS E0 HT Hst) as (_ & H2 & _).
    destruct (fdm_Z_F _ _ _ _ _ _ _ _ HT Hst') as (_ & H2' & _).
    destruct (fdm_gibbs _ _ _ _ _ _ _ _ HT Hst (negligible_cut _ _ _ _ _ _ _ _ HT Hst Hn)) as (H4 & H5 & H6).
    destruct (fdm_gibbs _ _ _ _ _ _ _ _ HT Hst' (negligible_cut _ _ _ _ _ _ _ _ HT Hst' Hn')) as (H4' & H5' & H6').
    rewrite H2, H4, H5, H6, H2', H4', H5', H6', move_chain. destruct (shift_laws T c L HT' Hc Hne) as (S1 & S2 & S3 & S4). auto.
  Qed.
End ChainThms.

Theorem td_laws mult factor diag : (forall J v, In (J, v) diag -> (1 <= mult J)%Z) -> (exists J v, In (J, v) diag /\ v <> []) ->
  let l := step_levels mult factor diag in let r := calculate_TD mult diag factor in
  td_Z r = partition 1 l /\ td_E r = average 1 l (fun e => e) /\ td_E2 r = average 1 l (fun e => e ^ 2) /\ td_F r = free_energy 1 l /\
  td_C r = heat_capacity 1 l /\ td_S r = entropy 1 l /\
  0 <= td_C r /\ td_S r = td_E r - td_F r /\ 0 <= td_S r <= ln (number l).
Proof.
  intros Hm He. destruct (td_levels mult diag factor Hm He) as (Hne & Hc & H1 & H2 & H3 & H4 & H5 & H6). cbn zeta.
  repeat (split; [assumption|]). split; [rewrite H5; apply heat_capacity_ge0; auto; lra|]. split.
  - rewrite H6, H2, H4, entropy_thermo by (auto; lra). field.
  - rewrite H6. split; [apply entropy_ge0|apply entropy_le]; auto.
Qed.
Lemma move_step_levels c mult factor diag : step_levels mult factor (move_step c diag) = shifted (factor * c) (step_levels mult factor diag).
Proof.
  unfold step_levels, move_step, shifted. rewrite !flat_map_concat_map, concat_map, !map_map. f_equal. apply map_ext. intros [J v]. cbn.
  rewrite !map_map. apply map_ext. intros x. unfold count, energy. cbn. f_equal. ring.
Qed.
Theorem td_move c mult factor diag : (forall J v, In (J, v) diag -> (1 <= mult J)%Z) -> (exists J v, In (J, v) diag /\ v <> []) ->
  let r := calculate_TD mult diag factor in let r' := calculate_TD mult (move_step c diag) factor in
  td_S r' = td_S r /\ td_C r' = td_C r /\ td_F r' = td_F r + factor * c /\ td_E r' = td_E r + factor * c.
Proof.
  intros Hm He. destruct (td_levels mult diag factor Hm He) as (Hne & Hc & H1 & H2 & H3 & H4 & H5 & H6).
  destruct (td_levels mult (move_step c diag) factor) as (Hne' & Hc' & H1' & H2' & H3' & H4' & H5' & H6').
  - intros J v Hin. apply in_map_iff in Hin as [[J1 v1] [E Hin]]. injection E as <- <-. eapply Hm; eauto.
  - destruct He as (J & v & Hin & Hv). exists J, (map (fun x => x + c) v). split; [apply in_map_iff; exists (J, v); auto|]. destruct v; [congruence|discriminate].
  - cbn zeta. rewrite H2, H4, H5, H6, H2', H4', H5', H6', move_step_levels. destruct (shift_laws 1 (factor * c) _ R1_neq_R0 Hc Hne) as (S1 & S2 & S3 & S4). auto.
Qed.

(** *** Expectation values of singlet operators *)
Lemma singlet_average mult diag factor m : measure_singlet mult diag factor m = thermal_average mult factor diag m.
Proof.
  unfold measure_singlet, thermal_average, labelled. rewrite !acc_rsum, !rsum_flat_map. apply (f_equal2 Rdiv); apply rsum_ext; intros [J v] _; cbn [fst snd]; rewrite acc_rsum, rsum_map, <- rsum_scal.
  - apply rsum_ext. intros [i x] _. cbn. replace (- factor * x) with (- (factor * x)) by ring. ring.
  - transitivity (rsum (fun x => IZR (mult J) * exp (- (factor * x))) v).
    + apply rsum_ext. intros x _. replace (- factor * x) with (- (factor * x)) by ring. reflexivity.
    + assert (Hg : forall k, rsum (fun x => IZR (mult J) * exp (- (factor * x))) v = rsum (fun x : nat * R => IZR (mult J) * exp (- (factor * snd x))) (List.combine (seq k (length v)) v)).
      { induction v as [|x v IH]; intros k; cbn; auto. rewrite <- (IH (S k)). auto. }
      apply (Hg 0%nat).
Qed.
Section Average.
  Variables (mult : invar -> Z) (factor : R) (diag : list (invar * list R)).
  Hypothesis Hm : forall J v, In (J, v) diag -> (1 <= mult J)%Z.
  Hypothesis He : exists J v, In (J, v) diag /\ v <> [].
  Let w (x : invar * nat * R) : R := let '(J, i, e) := x in IZR (mult J) * exp (- (factor * e)).
  Lemma lab_in J i e : In (J, i, e) (labelled diag) -> exists v, In (J, v) diag /\ (i < length v)%nat.
  Proof.
    intros H. apply in_flat_map in H as [[J1 v1] [H1 H]]. apply in_map_iff in H as [[i1 x1] [E H]]. injection E as <- <- <-. exists v1. split; auto.
    apply in_combine_l, in_seq in H. cbn in H. lia.
  Qed.
  Lemma w_pos x : In x (labelled diag) -> 0 < w x.
  Proof. destruct x as [[J i] e]. intros H. apply lab_in in H as (v & Hin & _). cbn. apply Hm in Hin. apply IZR_le in Hin. pose proof (exp_pos (- (factor * e))). nra. Qed.
  Lemma w_total : 0 < rsum w (labelled diag).
  Proof.
    apply rsum_gt0; [intros x Hx; apply Rlt_le, w_pos; auto|]. destruct He as (J & v & Hin & Hv). destruct v as [|y v]; [congruence|].
    assert (H : In (J, 0%nat, y) (labelled diag)) by (apply in_flat_map; exists (J, y :: v); split; [auto|left; auto]).
    exists (J, 0%nat, y). split; auto. apply w_pos; auto.
  Qed.
  Theorem singlet_expectation :
    (forall m, measure_singlet mult diag factor m = thermal_average mult factor diag m) /\
    measure_singlet mult diag factor (fun _ _ => 1) = 1 /\
    (forall a b m n, measure_singlet mult diag factor (fun J i => a * m J i + b * n J i) = a * measure_singlet mult diag factor m + b * measure_singlet mult diag factor n) /\
    (forall lo hi m, (forall J v i, In (J, v) diag -> (i < length v)%nat -> lo <= m J i <= hi) -> lo <= measure_singlet mult diag factor m <= hi).
  Proof.
    assert (HE : forall m, measure_singlet mult diag factor m = rsum (fun x => w x * m (fst (fst x)) (snd (fst x))) (labelled diag) / rsum w (labelled diag)).
    { intros m. rewrite singlet_average. unfold thermal_average. f_equal. apply rsum_ext. intros [[J i] e] _. auto. }
    pose proof w_total as HW. split; [apply singlet_average|]. split; [|split].
    - rewrite HE. rewrite (rsum_ext _ w) by (intros; ring). field. lra.
    - intros a b m n. rewrite !HE. rewrite (rsum_ext _ (fun x => a * (w x * m (fst (fst x)) (snd (fst x))) + b * (w x * n (fst (fst x)) (snd (fst x))))) by (intros; ring).
      rewrite rsum_plus, !rsum_scal. field. lra.
    - intros lo hi m H. rewrite HE. unfold Rdiv.
      assert (H' : forall x, In x (labelled diag) -> lo <= m (fst (fst x)) (snd (fst x)) <= hi).
      { intros [[J i] e] Hx. apply lab_in in Hx as (v & Hin & Hi). cbn. eapply H; eauto. }
      split.
      + apply (Rmult_le_reg_r (rsum w (labelled diag))); auto. rewrite Rmult_assoc, Rinv_l, Rmult_1_r by lra. rewrite <- rsum_scal. apply rsum_le.
        intros x Hx. pose proof (w_pos x Hx). specialize (H' x Hx). nra.
      + apply (Rmult_le_reg_r (rsum w (labelled diag))); auto. rewrite Rmult_assoc, Rinv_l, Rmult_1_r by lra. rewrite <- rsum_scal. apply rsum_le.
        intros x Hx. pose proof (w_pos x Hx). specialize (H' x Hx). nra.
  Qed.
End Average.
