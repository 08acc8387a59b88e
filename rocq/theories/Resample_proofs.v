(** Proofs about integ and resample. *)
From Coq Require Import List ZArith Reals Bool Lia Lra Permutation Sorted.
From Coquelicot Require Import Coquelicot.
From Verif Require Import Base Interp_model Interp_spec Interp_proofs Tables_model Tables_spec Tables_lines Averages_model Averages_spec Averages_proofs Resample_model Resample_spec.
Import ListNotations.
Local Open Scope R_scope.

(** ** Sorting *)
Lemma arranged_unique im v w : arranged im v -> arranged im w -> v = w.
Proof.
  intros [P1 I1] [P2 I2]. assert (P : Permutation v w) by (rewrite P1; now symmetry). assert (E : map fst v = map fst w).
  { apply strict_unique; try (now apply increasing_sorted). intros x. split; apply Permutation_in; [now apply Permutation_map | symmetry; now apply Permutation_map]. }
  assert (N : NoDup (map fst v)). { pose proof (increasing_sorted v I1) as S. clear -S. induction S as [|a l S IH H]; constructor; [| assumption]. intros Hin. rewrite Forall_forall in H. specialize (H a Hin). lra. }
  clear -P E N. assert (Q : forall p, In p v -> In p w) by (intros p; now apply Permutation_in). clear P. revert w E Q. induction v as [|p v IH]; intros [|q w] E Q; try discriminate; [reflexivity |]. cbn in E, N. injection E as E1 E2. inversion N as [|? ? N1 N2]; subst.
  assert (p = q). { destruct (Q p (or_introl eq_refl)) as [H | H]; [now symmetry |]. exfalso. apply N1. rewrite E2. now apply in_map. } subst q. f_equal. apply IH; auto.
  intros a Ha. destruct (Q a (or_intror Ha)) as [<- | H]; [| assumption]. exfalso. apply N1. now apply in_map.
Qed.
Lemma sort_arranged im v : arranged im v -> sort_pairs R Rltb im = v.
Proof.
  intros H. destruct R_order as (O1 & O2 & O3). apply (arranged_unique im); [| assumption]. assert (Hp : Permutation (sort_pairs R Rltb im) im) by (symmetry; apply Tables_lines.sort_perm). split; [assumption |].
  apply sorted_increasing. assert (Hs : StronglySorted (before R Rltb) (sort_pairs R Rltb im)) by (apply Tables_lines.sort_sorted; assumption).
  assert (Hn : NoDup (map fst (sort_pairs R Rltb im))).
  { eapply Permutation_NoDup; [apply Permutation_map; symmetry; exact Hp |]. destruct H as [P I]. eapply Permutation_NoDup; [apply Permutation_map; exact P |].
    pose proof (increasing_sorted v I) as S. clear -S. induction S as [|a l S IH H]; constructor; [| assumption]. intros Hin. rewrite Forall_forall in H. specialize (H a Hin). lra. }
  clear Hp H. induction Hs as [|p t Hs IH Hf]; [constructor |]. cbn in Hn |- *. inversion Hn as [|? ? N1 N2]; subst. constructor; [now apply IH |].
  apply Forall_forall. intros x Hx. apply in_map_iff in Hx as (q & <- & Hq). rewrite Forall_forall in Hf. destruct (Hf q Hq) as [H | [H _]]; [now apply Rltb_true |]. exfalso. apply N1. rewrite H. now apply in_map.
Qed.
Lemma back_last v : v <> [] -> back v = Ok (last_of v).
Proof.
  intros H. destruct v as [|p v]; [contradiction |]. unfold back, at_, last_of. replace (nth_error (p :: v) (length (p :: v) - 1)) with (Some (last (p :: v) (0, 0))); [reflexivity |].
  clear. revert p. induction v as [|q v IH]; intros p; [reflexivity |]. specialize (IH q). cbn [length last nth_error Nat.sub] in *. rewrite Nat.sub_0_r in IH. exact IH.
Qed.
Lemma first_last v p : increasing v -> In p v -> fst (first_of v) <= fst p <= fst (last_of v).
Proof.
  intros H Hp. apply increasing_sorted in H. unfold first_of, last_of. revert p Hp. induction v as [|q v IH]; intros p Hp; [destruct Hp |]. cbn in H. inversion H as [|? ? H1 H2]; subst. rewrite Forall_forall in H2. cbn [hd]. split.
  - destruct Hp as [-> | Hp]; [lra |]. left. apply H2. now apply in_map.
  - destruct v as [|r v]; [destruct Hp as [-> | []]; cbn; lra |]. change (last (q :: r :: v) (0, 0)) with (last (r :: v) (0, 0)). destruct Hp as [-> | Hp]; [| now apply (IH H1)].
    specialize (IH H1 r (or_introl eq_refl)). pose proof (H2 (fst r) (or_introl eq_refl)). lra.
Qed.

Section Gsl.
  Variables (spline_init : table -> option (R -> R)) (im v : table) (f : R -> R).
  Hypothesis Hne : im <> [].
  Hypothesis Ha : arranged im v.
  Hypothesis Hf : spline_init v = Some f.
  Hypothesis Hi : interpolates f v.
  Let a := fst (first_of v).
  Let b := fst (last_of v).
  Lemma v_ne : v <> [].
  Proof. intros ->. destruct Ha as [P _]. apply Permutation_nil in P. contradiction. Qed.
  Lemma init_ok : init spline_init im = Ok {| s_f := f; s_min := a; s_max := b; s_first := snd (first_of v); s_last := snd (last_of v) |}.
  Proof.
    unfold init. pose proof v_ne as Hv. rewrite (sort_arranged im v Ha). destruct im as [|p t]; [contradiction |]. rewrite (back_last v Hv). destruct v as [|q u]; [contradiction |]. cbn [front at_ nth_error bind]. now rewrite Hf.
  Qed.
  Lemma a_b : a <= b.
  Proof. assert (H : exists p, In p v). { pose proof v_ne as Hv. clear -Hv. destruct v as [|p u]; [contradiction |]. exists p. now left. } destruct H as [p Hp]. destruct (first_last v p (proj2 Ha) Hp). unfold a, b. lra. Qed.
  Lemma f_cont x : a <= x <= b -> continuous f x.
  Proof. apply (proj2 Hi). Qed.
  Lemma f_ex c d : a <= c -> c <= d -> d <= b -> ex_RInt f c d.
  Proof. intros H1 H2 H3. apply (ex_RInt_continuous (V := R_CompleteNormedModule)). intros x Hx. rewrite Rmin_left, Rmax_right in Hx by lra. apply f_cont. lra. Qed.
  Let s := {| s_f := f; s_min := a; s_max := b; s_first := snd (first_of v); s_last := snd (last_of v) |}.
  Lemma eval_in x : a <= x <= b -> spline_eval s x = Some (f x).
  Proof. intros [H1 H2]. unfold spline_eval. cbn. apply Rleb_true in H1, H2. now rewrite H1, H2. Qed.
  Lemma eval_out x : x < a \/ b < x -> spline_eval s x = None.
  Proof. unfold spline_eval. cbn. intros [H | H]; apply Rleb_false in H; rewrite H; [reflexivity | now rewrite andb_false_r]. Qed.

  Variables (qag : (R -> option R) -> R -> R -> option R) (tol : R).
  Hypothesis Hq : integrates qag tol.
  Lemma calc_ok g h x : (forall x, a <= x <= b -> g x = Some (h x)) -> is_RInt h a b x -> about (qag g a b) tol x.
  Proof.
    intros H1 H2. destruct (Hq g h a b a_b H1) as (r & E & Hr); [now exists x |]. exists r. split; [assumption |]. now rewrite (is_RInt_unique h a b x H2) in Hr.
  Qed.
  Let z := nearest_zero a b.
  Lemma z_in : a <= z <= b.
  Proof. pose proof a_b. unfold z, nearest_zero. split; [apply Rmax_l |]. apply Rmax_lub; [assumption | apply Rmin_r]. Qed.
  Lemma z_low x : a <= x < z -> x < 0.
  Proof. unfold z, nearest_zero. intros [H1 H2]. destruct (Rle_dec a (Rmin 0 b)) as [E | E].
    - rewrite Rmax_right in H2 by assumption. pose proof (Rmin_l 0 b). lra.
    - rewrite Rmax_left in H2 by lra. lra. Qed.
  Lemma z_high x : z < x <= b -> 0 < x.
  Proof. unfold z, nearest_zero. intros [H1 H2]. pose proof (Rmax_r a (Rmin 0 b)). destruct (Rle_dec 0 b) as [E | E]; [rewrite Rmin_left in * by assumption; lra | rewrite Rmin_right in * by lra; lra]. Qed.
  Theorem total_ok : about (qag (f_total s) a b) tol (RInt f a b).
  Proof. pose proof a_b. apply (calc_ok _ f); [exact eval_in |]. apply (RInt_correct (V := R_CompleteNormedModule)). apply f_ex; lra. Qed.
  Theorem pos_ok : about (qag (f_pos s) a b) tol (RInt f z b).
  Proof.
    pose proof z_in. apply (calc_ok _ (fun x => if Rltb 0 x then f x else 0)).
    - intros x Hx. unfold f_pos. destruct (Rltb 0 x); [now apply eval_in | reflexivity].
    - replace (RInt f z b) with (plus (scal (z - a) 0) (RInt f z b)) by (unfold plus, scal; cbn; unfold mult; cbn; ring). apply (is_RInt_Chasles (V := R_NormedModule) _ a z b).
      + apply (is_RInt_ext (V := R_NormedModule) (fun _ => 0)); [| apply (is_RInt_const (V := R_NormedModule))]. intros x Hx. rewrite Rmin_left, Rmax_right in Hx by lra. replace (Rltb 0 x) with false; [reflexivity |]. symmetry. apply Rltb_false. pose proof (z_low x). lra.
      + apply (is_RInt_ext (V := R_NormedModule) f); [| apply (RInt_correct (V := R_CompleteNormedModule)); apply f_ex; lra]. intros x Hx. rewrite Rmin_left, Rmax_right in Hx by lra. replace (Rltb 0 x) with true; [reflexivity |]. symmetry. apply Rltb_true. apply z_high. lra.
  Qed.
  Theorem neg_ok : about (qag (f_neg s) a b) tol (RInt f a z).
  Proof.
    pose proof z_in. apply (calc_ok _ (fun x => if Rltb x 0 then f x else 0)).
    - intros x Hx. unfold f_neg. destruct (Rltb x 0); [now apply eval_in | reflexivity].
    - replace (RInt f a z) with (plus (RInt f a z) (scal (b - z) 0)) by (unfold plus, scal; cbn; unfold mult; cbn; ring). apply (is_RInt_Chasles (V := R_NormedModule) _ a z b).
      + apply (is_RInt_ext (V := R_NormedModule) f); [| apply (RInt_correct (V := R_CompleteNormedModule)); apply f_ex; lra]. intros x Hx. rewrite Rmin_left, Rmax_right in Hx by lra. replace (Rltb x 0) with true; [reflexivity |]. symmetry. apply Rltb_true. apply z_low. lra.
      + apply (is_RInt_ext (V := R_NormedModule) (fun _ => 0)); [| apply (is_RInt_const (V := R_NormedModule))]. intros x Hx. rewrite Rmin_left, Rmax_right in Hx by lra. replace (Rltb x 0) with false; [reflexivity |]. symmetry. apply Rltb_false. pose proof (z_high x). lra.
  Qed.
  Theorem abs_ok : about (qag (f_abs s) a b) tol (RInt (fun x => Rabs (f x)) a b).
  Proof.
    pose proof a_b. apply (calc_ok _ (fun x => Rabs (f x))); [intros x Hx; unfold f_abs; now rewrite eval_in |]. apply (RInt_correct (V := R_CompleteNormedModule)). apply (ex_RInt_continuous (V := R_CompleteNormedModule)).
    intros x Hx. rewrite Rmin_left, Rmax_right in Hx by lra. apply (continuous_comp f Rabs); [now apply f_cont | apply continuous_Rabs].
  Qed.
  Lemma fd_cont T x : T <> 0 -> continuous (fun x => 1 / (1 + exp (x / T))) x.
  Proof.
    intros HT. apply (ex_derive_continuous (K := R_AbsRing) (V := R_NormedModule)). auto_derive. pose proof (exp_pos (x * / T)). lra.
  Qed.
  Lemma fermi_ex T : T <> 0 -> ex_RInt (fun x => f x * (1 / (1 + exp (x / T)))) a b.
  Proof.
    intros HT. pose proof a_b. apply (ex_RInt_continuous (V := R_CompleteNormedModule)). intros x Hx. rewrite Rmin_left, Rmax_right in Hx by lra.
    apply (continuous_mult (K := R_AbsRing) f (fun x => 1 / (1 + exp (x / T)))); [now apply f_cont | now apply fd_cont].
  Qed.
  Theorem fermi_ok T : T <> 0 -> about (qag (f_fermi s T) a b) tol (RInt (fun x => f x * (1 / (1 + exp (x / T)))) a b).
  Proof.
    intros HT. apply (calc_ok _ (fun x => f x * (1 / (1 + exp (x / T))))); [| apply (RInt_correct (V := R_CompleteNormedModule)); now apply fermi_ex].
    intros x Hx. unfold f_fermi. rewrite eval_in by assumption. unfold fermi_dirac. destruct (Req_EM_T T 0); [contradiction | reflexivity].
  Qed.
  Theorem fermi_zero_ok : b < 0 \/ 0 < a -> about (qag (f_fermi s 0) a b) tol (RInt f a z).
  Proof.
    intros Hz. pose proof z_in. pose proof a_b. assert (E : z = b \/ z = a) by (unfold z, nearest_zero; destruct Hz; [left; rewrite Rmin_right, Rmax_right; lra | right; rewrite Rmin_left, Rmax_left; lra]).
    apply (calc_ok _ (fun x => f x * (if Rltb x 0 then 1 else 0))).
    - intros x Hx. unfold f_fermi. rewrite eval_in by assumption. unfold fermi_dirac. destruct (Req_EM_T 0 0); [| lra]. destruct (Rltb x 0) eqn:E1; [reflexivity |]. apply Rltb_false in E1. replace (Rltb 0 x) with true; [reflexivity |]. symmetry. apply Rltb_true. lra.
    - replace (RInt f a z) with (plus (RInt f a z) (scal (b - z) 0)) by (unfold plus, scal; cbn; unfold mult; cbn; ring). apply (is_RInt_Chasles (V := R_NormedModule) _ a z b).
      + apply (is_RInt_ext (V := R_NormedModule) f); [| apply (RInt_correct (V := R_CompleteNormedModule)); apply f_ex; lra]. intros x Hx. rewrite Rmin_left, Rmax_right in Hx by lra. replace (Rltb x 0) with true; [symmetry; apply Rmult_1_r |]. symmetry. apply Rltb_true. apply z_low. lra.
      + apply (is_RInt_ext (V := R_NormedModule) (fun _ => 0)); [| apply (is_RInt_const (V := R_NormedModule))]. intros x Hx. rewrite Rmin_left, Rmax_right in Hx by lra. replace (Rltb x 0) with false; [symmetry; apply Rmult_0_r |]. symmetry. apply Rltb_false. pose proof (z_high x). lra.
  Qed.
End Gsl.

(** ** The tools *)
Section Tools.
  Variables (spline_init : table -> option (R -> R)) (im v : table) (f : R -> R).
  Hypothesis Hne : im <> [].
  Hypothesis Ha : arranged im v.
  Hypothesis Hf : spline_init v = Some f.
  Hypothesis Hi : interpolates f v.
  Let a := fst (first_of v).
  Let b := fst (last_of v).
  Section Integ.
    Variables (qag : (R -> option R) -> R -> R -> option R) (tol : R).
    Hypothesis Hq : integrates qag tol.
    Lemma integ_run T : integ spline_init qag T im =
      let s := {| s_f := f; s_min := a; s_max := b; s_first := snd (first_of v); s_last := snd (last_of v) |} in
      Ok {| i_total := qag (f_total s) a b; i_pos := qag (f_pos s) a b; i_neg := qag (f_neg s) a b; i_abs := qag (f_abs s) a b; i_fermi := qag (f_fermi s T) a b |}.
    Proof. unfold integ. rewrite (init_ok spline_init im v f Hne Ha Hf Hi). reflexivity. Qed.
    Theorem integrals_ok T : exists r, integ spline_init qag T im = Ok r /\
      about (i_total r) tol (RInt f a b) /\ about (i_pos r) tol (RInt f (nearest_zero a b) b) /\ about (i_neg r) tol (RInt f a (nearest_zero a b)) /\
      about (i_abs r) tol (RInt (fun x => Rabs (f x)) a b) /\ (T <> 0 -> about (i_fermi r) tol (RInt (fun x => f x * (1 / (1 + exp (x / T)))) a b)).
    Proof.
      rewrite integ_run. eexists. split; [reflexivity |]. cbn [i_total i_pos i_neg i_abs i_fermi]. repeat split.
      - eapply total_ok; eassumption.
      - eapply pos_ok; eassumption.
      - eapply neg_ok; eassumption.
      - eapply abs_ok; eassumption.
      - intros HT. eapply fermi_ok; eassumption.
    Qed.
    Lemma abs_bound x y t : Rabs (x - y) <= t -> y - t <= x <= y + t.
    Proof. intros H. apply Rabs_le_between in H. lra. Qed.
    Theorem balance T r p n t u : integ spline_init qag T im = Ok r -> i_total r = Some t -> i_pos r = Some p -> i_neg r = Some n -> i_abs r = Some u -> Rabs (t - (p + n)) <= 3 * tol /\ Rabs t <= u + 2 * tol.
    Proof.
      intros E Et Ep En Eu. destruct (integrals_ok T) as (r' & E' & (t' & Et' & Ht) & (p' & Ep' & Hp) & (n' & En' & Hn) & (u' & Eu' & Hu) & _). rewrite E in E'. injection E' as <-.
      rewrite Et in Et'. rewrite Ep in Ep'. rewrite En in En'. rewrite Eu in Eu'. injection Et' as <-. injection Ep' as <-. injection En' as <-. injection Eu' as <-.
      pose proof (a_b spline_init im v f Hne Ha Hf Hi) as Hab. pose proof (z_in spline_init im v f Hne Ha Hf Hi) as Hz. fold a b in Hab, Hz.
      assert (C : RInt f a (nearest_zero a b) + RInt f (nearest_zero a b) b = RInt f a b). { apply (RInt_Chasles (V := R_CompleteNormedModule)); eapply f_ex; try exact Hi; fold a b; lra. }
      assert (A : Rabs (RInt f a b) <= RInt (fun x => Rabs (f x)) a b). { apply abs_RInt_le; [assumption |]. eapply f_ex; try exact Hi; fold a b; lra. }
      apply abs_bound in Ht, Hp, Hn, Hu. split; [apply Rabs_le; lra |]. apply Rabs_le_between in A. apply Rabs_le. lra.
    Qed.
    Theorem fermi_sum T r r' x y t : T <> 0 -> integ spline_init qag T im = Ok r -> integ spline_init qag (- T) im = Ok r' -> i_fermi r = Some x -> i_fermi r' = Some y -> i_total r = Some t -> Rabs (x + y - t) <= 3 * tol.
    Proof.
      intros HT E E' Ex Ey Et. destruct (integrals_ok T) as (r1 & E1 & (t1 & Et1 & Ht) & _ & _ & _ & H1). rewrite E in E1. injection E1 as <-. destruct (H1 HT) as (x1 & Ex1 & Hx).
      destruct (integrals_ok (- T)) as (r2 & E2 & _ & _ & _ & _ & H2). rewrite E' in E2. injection E2 as <-. destruct (H2 ltac:(lra)) as (y1 & Ey1 & Hy).
      rewrite Et in Et1. rewrite Ex in Ex1. rewrite Ey in Ey1. injection Et1 as <-. injection Ex1 as <-. injection Ey1 as <-.
      assert (C : RInt (fun x => f x * (1 / (1 + exp (x / T)))) a b + RInt (fun x => f x * (1 / (1 + exp (x / - T)))) a b = RInt f a b).
      { rewrite <- (RInt_plus (V := R_CompleteNormedModule)); [| eapply fermi_ex; try eassumption; lra | eapply fermi_ex; try eassumption; lra]. apply (RInt_ext (V := R_CompleteNormedModule)). intros u _. unfold plus. cbn.
        replace (u / - T) with (- (u / T)) by (field; assumption). rewrite exp_Ropp. pose proof (exp_pos (u / T)). field. split; lra. }
      apply abs_bound in Ht, Hx, Hy. apply Rabs_le. lra.
    Qed.
    Theorem fermi_range T r x t : 0 < T -> (forall u, a <= u <= b -> 0 <= f u) -> integ spline_init qag T im = Ok r -> i_fermi r = Some x -> i_total r = Some t -> - tol <= x <= t + 2 * tol.
    Proof.
      intros HT Hpos E Ex Et. destruct (integrals_ok T) as (r1 & E1 & (t1 & Et1 & Ht) & _ & _ & _ & H1). rewrite E in E1. injection E1 as <-. destruct (H1 ltac:(lra)) as (x1 & Ex1 & Hx).
      rewrite Et in Et1. rewrite Ex in Ex1. injection Et1 as <-. injection Ex1 as <-. pose proof (a_b spline_init im v f Hne Ha Hf Hi) as Hab. fold a b in Hab.
      assert (L : forall u, 0 < 1 / (1 + exp (u / T)) <= 1). { intros u. pose proof (exp_pos (u / T)). split; [apply Rdiv_lt_0_compat; lra |]. apply Rle_div_l; lra. }
      assert (X : ex_RInt (fun x => f x * (1 / (1 + exp (x / T)))) a b) by (eapply fermi_ex; try eassumption; lra).
      assert (F : ex_RInt f a b) by (eapply f_ex; try exact Hi; fold a b; lra).
      assert (C1 : 0 <= RInt (fun x => f x * (1 / (1 + exp (x / T)))) a b). { apply RInt_ge_0; try assumption. intros u Hu. pose proof (L u). pose proof (Hpos u). apply Rmult_le_pos; lra. }
      assert (C2 : RInt (fun x => f x * (1 / (1 + exp (x / T)))) a b <= RInt f a b). { apply RInt_le; try assumption. intros u Hu. pose proof (L u). pose proof (Hpos u ltac:(lra)). nra. }
      apply abs_bound in Ht, Hx. lra.
    Qed.
    Theorem zero_temperature : uses_centre qag -> a = - b -> exists r, integ spline_init qag 0 im = Ok r /\ i_fermi r = None.
    Proof.
      intros Hc E. rewrite integ_run. eexists. split; [reflexivity |]. cbn [i_fermi]. apply Hc. unfold f_fermi, fermi_dirac. replace ((a + b) / 2) with 0 by lra. destruct (Req_EM_T 0 0); [| lra].
      replace (Rltb 0 0) with false by (symmetry; apply Rltb_false; lra). now destruct spline_eval.
    Qed.
  End Integ.

  Theorem resample_ok e below above grid : (e = true \/ (below = None /\ above = None)) ->
    exists l, resample spline_init e below above im grid = Ok l /\ map fst l = map fst grid /\
      forall x y, In (x, y) l ->
        (a <= x <= b -> y = Some (f x)) /\
        (x < a -> y = if e then Some (match below with Some c => c | None => snd (first_of v) end) else None) /\
        (b < x -> y = if e then Some (match above with Some c => c | None => snd (last_of v) end) else None).
  Proof.
    intros He. unfold resample. replace (e || negb match below, above with None, None => false | _, _ => true end) with true by (destruct He as [-> | [-> ->]]; [reflexivity | now rewrite orb_true_r]).
    cbn [my_assert bind]. rewrite (init_ok spline_init im v f Hne Ha Hf Hi). cbn [bind s_first s_last]. eexists. split; [reflexivity |]. split; [rewrite map_map; now apply map_ext |].
    intros x y Hy. apply in_map_iff in Hy as (p & E & Hp). injection E as <- <-. pose proof (a_b spline_init im v f Hne Ha Hf Hi) as Hab. fold a b in Hab |- *. unfold resampled. cbn [s_min s_max].
    destruct e; cbn [andb].
    - repeat split.
      + intros Hx. replace (Rltb (fst p) a) with false by (symmetry; apply Rltb_false; lra). replace (Rltb b (fst p)) with false by (symmetry; apply Rltb_false; lra). apply eval_in. assumption.
      + intros Hx. apply Rltb_true in Hx. now rewrite Hx.
      + intros Hx. replace (Rltb (fst p) a) with false by (symmetry; apply Rltb_false; lra). apply Rltb_true in Hx. now rewrite Hx.
    - repeat split; intros Hx; [now apply eval_in | apply eval_out; now left | apply eval_out; now right].
  Qed.
  Theorem resample_own e below above : (e = true \/ (below = None /\ above = None)) -> resample spline_init e below above im im = Ok (map (fun p => (fst p, Some (snd p))) im).
  Proof.
    intros He. destruct (resample_ok e below above im He) as (l & E & Hl & H). rewrite E. f_equal. apply (nth_ext _ _ (0, None) (0, None)).
    - rewrite map_length. rewrite <- (map_length fst l), Hl. apply map_length.
    - intros n Hn. assert (Hlen : length l = length im) by (rewrite <- (map_length fst l), Hl; apply map_length).
      rewrite (nth_indep (map (fun p : R * R => (fst p, Some (snd p))) im) (0, None) ((fun p : R * R => (fst p, Some (snd p))) (0, 0))) by (rewrite map_length; lia). rewrite (map_nth (fun p : R * R => (fst p, Some (snd p))) im (0, 0) n). destruct (nth n l (0, None)) as [x y] eqn:El.
      assert (Hin : In (x, y) l) by (rewrite <- El; now apply nth_In). assert (Ex : x = fst (nth n im (0, 0))). { change x with (fst (x, y)). rewrite <- El. rewrite <- (map_nth fst l), <- (map_nth fst im). cbn [fst]. now rewrite Hl. }
      assert (Hp : In (nth n im (0, 0)) v). { eapply Permutation_in; [symmetry; apply (proj1 Ha) |]. apply nth_In. lia. }
      pose proof (first_last v _ (proj2 Ha) Hp). destruct (H x y Hin) as (H1 & _). rewrite Ex in H1 |- *. rewrite H1 by assumption. now rewrite (proj1 Hi).
  Qed.
End Tools.
Theorem resample_refused spline_init below above im grid : (below <> None \/ above <> None) -> resample spline_init false below above im grid = Throw.
Proof. intros H. unfold resample. destruct below, above; try reflexivity. destruct H; contradiction. Qed.
Theorem empty_refused spline_init qag T e below above grid : integ spline_init qag T [] = Throw /\ resample spline_init e below above [] grid = Throw.
Proof. split; [reflexivity |]. unfold resample. destruct (my_assert _) as [u | |] eqn:E; try reflexivity. unfold my_assert in E. destruct (_ || _); discriminate. Qed.
Theorem chosen_last options q : chosen (options ++ [q]) = q /\ chosen [] = Total.
Proof. split; [apply last_last | reflexivity]. Qed.
