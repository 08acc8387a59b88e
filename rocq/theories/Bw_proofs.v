(** A run of the tool [bw]. *)
From Coq Require Import List ZArith Reals Lra Lia Bool Sorting Permutation String.
From Coquelicot Require Import Coquelicot.
From Verif Require Import Base Interp_model Interp_spec Gauss Bw_model Bw_spec Bw_run_spec Bw_kernel Bw_lists Bw_refine Bw_steps.
Import List ListNotations.
Local Open Scope string_scope.
Local Open Scope list_scope.
Local Open Scope R_scope.

(** ** The broadened spectrum *)
Lemma fold_sum {A} (c : A -> bool) (t : A -> R) l s : fold_left (fun s p => if c p then s + t p else s) l s = s + rsum (map (fun p => if c p then t p else 0) l).
Proof. revert s. induction l as [| h l IH]; intros s; cbn [fold_left map]; unfold rsum; cbn [fold_right]; [lra |]. rewrite IH. unfold rsum. destruct (c h); lra. Qed.
Lemma spectrum_ok peaks b E : E <> 0 -> spectrum peaks b E = broadened peaks b E.
Proof.
  intros HE. unfold spectrum, broadened. rewrite (fold_sum (fun p : R * R * R => same_sign E (fst (fst p))) (fun p : R * R * R => snd (fst p) * bfnc E (snd p) (fst (fst p)))). rewrite Rplus_0_l. f_equal. apply map_ext. intros [[w y] al]. cbn [fst snd contribution]. unfold same_sign, bfnc.
  destruct (Req_EM_T w 0) as [-> | Hw].
  - rewrite !Rmult_0_r. destruct (Rlt_dec 0 0); [lra |]. now destruct (Bool.eqb _ _).
  - destruct (Rltb E 0) eqn:E1, (Rltb w 0) eqn:E2; cbn [Bool.eqb]; try apply Rltb_spec in E1; try apply Rltb_spec in E2; try apply Rltb_false in E1; try apply Rltb_false in E2; destruct (Rlt_dec 0 (E * w)) as [C | C]; try reflexivity; exfalso; nra.
Qed.
Lemma broaden_ok o m peaks b : ~ In 0 m -> broaden o m peaks b = map (fun E => shown (o_positive o) (broadened peaks b E)) m.
Proof.
  intros H. unfold broaden. apply map_ext_in. intros E HE. unfold broaden_at, shown. rewrite spectrum_ok by (intros ->; contradiction). unfold Rltb. destruct (Rlt_dec (broadened peaks b E) 0), (o_positive o); reflexivity.
Qed.

Lemma int_zero (Fa Fb : (R -> Prop) -> Prop) (FF : Filter Fa) (FF' : Filter Fb) : is_RInt_gen (fun _ : R => 0) Fa Fb 0.
Proof.
  intros P HP. apply (Filter_prod Fa Fb _ (fun _ => True) (fun _ => True)); [apply filter_true | apply filter_true |]. intros a b _ _. exists 0. split; [| now apply locally_singleton]. assert (E : scal (b - a) (0 : R_NormedModule) = (0 : R_NormedModule)) by (unfold scal; cbn; unfold mult; cbn; apply Rmult_0_r). exact (eq_ind _ (fun v => is_RInt (fun _ : R => 0) a b v) (is_RInt_const (V := R_NormedModule) a b 0) 0 E).
Qed.
Lemma int_scaled (Fa Fb : (R -> Prop) -> Prop) (FF : Filter Fa) (FF' : Filter Fb) (f : R -> R) y : is_RInt_gen f Fa Fb 1 -> is_RInt_gen (fun E => scal y (f E)) Fa Fb y.
Proof.
  intros H. assert (E : scal y (1 : R_NormedModule) = (y : R_NormedModule)) by (unfold scal; cbn; unfold mult; cbn; apply Rmult_1_r). exact (eq_ind _ (fun v => is_RInt_gen (fun E => scal y (f E)) Fa Fb v) (is_RInt_gen_scal (V := R_NormedModule) f y 1 H) y E).
Qed.
Lemma weight_above_ok peaks b : List.length b = List.length peaks -> Forall (fun y => 0 < y) b -> is_RInt_gen (broadened peaks b) (at_right 0) (Rbar_locally p_infty) (weight_above peaks).
Proof.
  revert b. induction peaks as [| [w y] peaks IH]; intros b L HB; (destruct b as [| al b]; [try discriminate | try discriminate]).
  - apply (is_RInt_gen_ext (fun _ => 0)); [| apply int_zero; apply _]. apply (Filter_prod _ _ _ (fun _ => True) (fun _ => True)); [apply filter_true | apply filter_true |]. intros. reflexivity.
  - inversion_clear HB as [| ? ? Hal HB']. specialize (IH b ltac:(now injection L) HB'). unfold weight_above, rsum. cbn [map fold_right fst snd]. fold (rsum (map (fun p : R * R => if Rlt_dec 0 (fst p) then snd p else 0) peaks)). fold (weight_above peaks).
    apply (is_RInt_gen_ext (fun E => plus (contribution E ((w, y), al)) (broadened peaks b E))). { apply (Filter_prod _ _ _ (fun _ => True) (fun _ => True)); [apply filter_true | apply filter_true |]. intros. reflexivity. }
    apply (is_RInt_gen_plus (V := R_NormedModule)); [| exact IH]. destruct (Rlt_dec 0 w) as [C | C].
    + apply (is_RInt_gen_ext (fun E => scal y (log_gaussian al w E))); [| apply int_scaled; [apply _ | apply _ | now apply unit_pos]].
      apply (Filter_prod _ _ _ (fun a => 0 < a) (fun c => 0 < c)); [exists (mkposreal 1 Rlt_0_1); auto | exists 0; auto |]. intros a c H1 H2 x Hx. cbn [fst snd] in Hx. pose proof (Rmin_glb_lt a c 0 H1 H2) as Hm. cbn [contribution]. destruct (Rlt_dec 0 (x * w)) as [D | D]; [reflexivity | exfalso; nra].
    + apply (is_RInt_gen_ext (fun _ => 0)); [| apply int_zero; apply _]. apply (Filter_prod _ _ _ (fun a => 0 < a) (fun c => 0 < c)); [exists (mkposreal 1 Rlt_0_1); auto | exists 0; auto |]. intros a c H1 H2 x Hx. cbn [fst snd] in Hx. pose proof (Rmin_glb_lt a c 0 H1 H2) as Hm. cbn [contribution]. destruct (Rlt_dec 0 (x * w)) as [D | D]; [exfalso; nra | reflexivity].
Qed.
Lemma weight_below_ok peaks b : List.length b = List.length peaks -> Forall (fun y => 0 < y) b -> is_RInt_gen (broadened peaks b) (Rbar_locally m_infty) (at_left 0) (weight_below peaks).
Proof.
  revert b. induction peaks as [| [w y] peaks IH]; intros b L HB; (destruct b as [| al b]; [try discriminate | try discriminate]).
  - apply (is_RInt_gen_ext (fun _ => 0)); [| apply int_zero; apply _]. apply (Filter_prod _ _ _ (fun _ => True) (fun _ => True)); [apply filter_true | apply filter_true |]. intros. reflexivity.
  - inversion_clear HB as [| ? ? Hal HB']. specialize (IH b ltac:(now injection L) HB'). unfold weight_below, rsum. cbn [map fold_right fst snd]. fold (rsum (map (fun p : R * R => if Rlt_dec (fst p) 0 then snd p else 0) peaks)). fold (weight_below peaks).
    apply (is_RInt_gen_ext (fun E => plus (contribution E ((w, y), al)) (broadened peaks b E))). { apply (Filter_prod _ _ _ (fun _ => True) (fun _ => True)); [apply filter_true | apply filter_true |]. intros. reflexivity. }
    apply (is_RInt_gen_plus (V := R_NormedModule)); [| exact IH]. destruct (Rlt_dec w 0) as [C | C].
    + apply (is_RInt_gen_ext (fun E => scal y (log_gaussian al w E))); [| apply int_scaled; [apply _ | apply _ | now apply unit_neg]].
      apply (Filter_prod _ _ _ (fun a => a < 0) (fun c => c < 0)); [exists 0; auto | exists (mkposreal 1 Rlt_0_1); auto |]. intros a c H1 H2 x Hx. cbn [fst snd] in Hx. pose proof (Rmax_lub_lt a c 0 H1 H2) as Hm. cbn [contribution]. destruct (Rlt_dec 0 (x * w)) as [D | D]; [reflexivity | exfalso; nra].
    + apply (is_RInt_gen_ext (fun _ => 0)); [| apply int_zero; apply _]. apply (Filter_prod _ _ _ (fun a => a < 0) (fun c => c < 0)); [exists 0; auto | exists (mkposreal 1 Rlt_0_1); auto |]. intros a c H1 H2 x Hx. cbn [fst snd] in Hx. pose proof (Rmax_lub_lt a c 0 H1 H2) as Hm. cbn [contribution]. destruct (Rlt_dec 0 (x * w)) as [D | D]; [exfalso; nra | reflexivity].
Qed.

(** ** Files *)
Lemma rows_ok trim m data : save_rows trim m data = rows trim m data.
Proof.
  unfold save_rows, rows. apply filter_ext. intros [x y]. cbn [fst]. unfold Rltb. pose proof (Rabs_pos x). destruct (Req_EM_T trim 0), (Rlt_dec (Rabs x) trim), (Rle_dec trim (Rabs x)); cbn [negb andb]; try reflexivity; exfalso; lra.
Qed.
Lemma save_ok name m data i trim : (0 < i)%nat -> save name m data i trim = ((name ++ tostring i ++ ".dat")%string, rows trim m data).
Proof. intros H. unfold save, save_name. apply Nat.ltb_lt in H. now rewrite H, rows_ok. Qed.

(** ** Invariant of the mesh *)
Record good (o : options) (m : list R) : Prop := {
  g_sort : StronglySorted Rlt m; g_zero : ~ In 0 m; g_six : 0 < o_dyn o -> (6 <= List.length m)%nat;
  g_neg : exists x y, x < y < 0 /\ In x m /\ In y m; g_pos : exists x y, 0 < x < y /\ In x m /\ In y m }.
Lemma good_one o m : good o m -> (exists x, x < 0 /\ In x m) /\ (exists x, 0 < x /\ In x m).
Proof. intros [_ _ _ (x & y & H & Hx & Hy) (u & v & H' & Hu & Hv)]. split; [exists x | exists u]; split; auto; lra. Qed.
Definition resolve (o : options) : options :=
  {| o_min := o_min o; o_max := o_max o; o_ratio := o_ratio o; o_iter := o_iter o; o_trim := trimmed o; o_positive := o_positive o; o_b0 := o_b0 o;
     o_bmin := lower o; o_q := o_q o; o_savemore := o_savemore o; o_saveall := o_saveall o; o_dyn := o_dyn o; o_one := o_one o; o_name := o_name o; o_nz := o_nz o |}.
Lemma defaults_ok debug o : valid o -> defaults debug o = Ok (resolve o).
Proof.
  intros V. unfold defaults, resolve. set (bm := if Rltb 0 (o_dyn o) then _ else _). assert (E : bm = lower o). { unfold bm, lower, Rltb. destruct (Rlt_dec 0 (o_dyn o)), (Rlt_dec (o_bmin o) 0); reflexivity. } rewrite E. unfold cassert. pose proof (v_bmin o V) as HB. apply Rleb_spec in HB. rewrite HB, andb_false_r. cbn [bind].
  assert (T : (if Rltb (o_trim o) 0 then o_min o * 10 else o_trim o) = trimmed o). { unfold trimmed, Rltb. destruct (Rlt_dec (o_trim o) 0); [ring | reflexivity]. } rewrite T. reflexivity.
Qed.
Lemma in_grid_good o n m : valid o -> o_min o * o_ratio o ^ n < o_max o <= o_min o * o_ratio o ^ S n -> StronglySorted Rlt m ->
  (forall x, In x m <-> exists k, ((k <= n)%nat \/ k = S (S n)) /\ Rabs x = o_min o * o_ratio o ^ k) -> (0 < o_dyn o -> (6 <= List.length m)%nat) -> good o m.
Proof.
  intros V Hn Hs Hi H6. pose proof (v_min o V) as Vm. pose proof (v_ratio o V) as Vr. pose proof (pow_gt (o_ratio o) Vr) as PP. pose proof (pow_mono (o_min o) (o_ratio o) Vm Vr) as PM. constructor; auto.
  - intros H. apply Hi in H. destruct H as (k & _ & E). rewrite Rabs_R0 in E. specialize (PP k). nra.
  - exists (- (o_min o * o_ratio o ^ S (S n))), (- (o_min o * o_ratio o ^ 0)). pose proof (PM 0%nat (S (S n)) ltac:(lia)) as Q. pose proof (PP 0%nat) as Q0. pose proof (PP (S (S n))) as Q1. split; [split; [| nra]; apply Ropp_lt_contravar; assumption |]. split; apply Hi; [exists (S (S n)) | exists 0%nat]; (split; [auto; left; lia | rewrite Rabs_Ropp; apply Rabs_right; nra]).
  - exists (o_min o * o_ratio o ^ 0), (o_min o * o_ratio o ^ S (S n)). pose proof (PM 0%nat (S (S n)) ltac:(lia)) as Q. pose proof (PP 0%nat) as Q0. pose proof (PP (S (S n))) as Q1. split; [split; [nra | assumption] |]. split; apply Hi; [exists 0%nat | exists (S (S n))]; (split; [auto; left; lia | apply Rabs_right; nra]).
Qed.
Lemma same_set_length l1 l2 : StronglySorted Rlt l1 -> StronglySorted Rlt l2 -> (forall x : R, In x l1 <-> In x l2) -> List.length l1 = List.length l2.
Proof. intros H1 H2 H. apply Permutation_length, NoDup_Permutation; [apply strict_nodup; assumption | apply strict_nodup; assumption | assumption]. Qed.
Lemma first_good o m : valid o -> initial_mesh (o_min o) (o_max o) (o_ratio o) m -> good o m.
Proof.
  intros V (n & Hn & Hs & Hi). apply (in_grid_good o n m V Hn Hs Hi). intros Hd. pose proof (v_min o V) as Vm. pose proof (v_ratio o V) as Vr. destruct (mesh_ok (o_min o) (o_max o) (o_ratio o) Vm (v_max o V) Vr) as (f0 & m1 & n1 & _ & Hn1 & Hs1 & Hi1 & L1).
  assert (E : n1 = n). { pose proof (pow_mono (o_min o) (o_ratio o) Vm Vr) as PM. destruct (Nat.lt_trichotomy n1 n) as [C | [C | C]]; [| assumption |].
    - destruct (Nat.eq_dec (S n1) n) as [<- | D]; [lra |]. pose proof (PM (S n1) n ltac:(lia)). lra.
    - destruct (Nat.eq_dec (S n) n1) as [<- | D]; [lra |]. pose proof (PM (S n) n1 ltac:(lia)). lra. }
  subst n1. rewrite (same_set_length m m1) by (auto; intros x; rewrite Hi, Hi1; tauto). rewrite L1. enough (1 <= n)%nat by lia. destruct n as [| n]; [| lia]. pose proof (v_dyn o V Hd) as X. cbn [pow] in Hn. lra.
Qed.
Lemma next_good o m a : valid o -> good o m -> List.length a = List.length m -> forall debug,
  exists m', (if Rltb 0 (o_dyn o) then refine_mesh debug (o_dyn o) m a else Ok m) = Ok m' /\ next_mesh (o_dyn o) m a m' /\ good o m' /\ incl m m' /\ forall x, In x m' -> exists lo hi, In lo m /\ In hi m /\ lo <= x <= hi.
Proof.
  intros V G L debug. unfold next_mesh. unfold Rltb. destruct (Rlt_dec 0 (o_dyn o)) as [C | C]; cbn [negb].
  - destruct (refine_ok debug (o_dyn o) m a L (g_sort o m G) (g_zero o m G) (g_six o m G C) (g_neg o m G) (g_pos o m G)) as (m' & E & S' & I' & B'). exists m'. split; [assumption |]. split; [split; assumption |].
    assert (IN : incl m m') by (intros x Hx; apply I'; left; exact Hx). split; [| split; [assumption | intros x Hx; apply B'; assumption]]. destruct G as [G1 G2 G3 (x & y & G4 & G5 & G6) (u & v & G7 & G8 & G9)]. constructor; [assumption | | | |].
    + intros H. destruct (B' 0 H) as [H' _]. lra.
    + intros _. pose proof (NoDup_incl_length (strict_nodup m G1) IN). specialize (G3 C). lia.
    + exists x, y. auto.
    + exists u, v. auto.
  - exists m. split; [reflexivity |]. split; [reflexivity |]. split; [assumption |]. split; [apply incl_refl |]. intros x Hx. exists x, x. repeat split; auto; lra.
Qed.
Lemma next_unique o m a m1 m2 : next_mesh (o_dyn o) m a m1 -> next_mesh (o_dyn o) m a m2 -> m1 = m2.
Proof.
  unfold next_mesh. destruct (Rlt_dec 0 (o_dyn o)); [| congruence]. intros [S1 I1] [S2 I2]. assert (H : forall x, In x m1 <-> In x m2) by (intros x; rewrite I1, I2; tauto). clear I1 I2. revert m2 S2 H. induction S1 as [| h t H1 IH H2]; intros m2 S2 H.
  - destruct m2 as [| k m2]; [reflexivity |]. destruct (proj2 (H k) (or_introl eq_refl)).
  - destruct S2 as [| k m2 K1 K2]; [destruct (proj1 (H h) (or_introl eq_refl)) |]. rewrite Forall_forall in H2, K2. assert (E : h = k). { destruct (proj1 (H h) (or_introl eq_refl)) as [E | E]; [auto |]. destruct (proj2 (H k) (or_introl eq_refl)) as [E' | E']; [auto |]. specialize (H2 k E'). specialize (K2 h E). lra. } subst k. f_equal. apply IH; [assumption |]. intros x. split; intros Hx.
    + destruct (proj1 (H x) (or_intror Hx)) as [E | E]; [| assumption]. subst. specialize (H2 x Hx). lra.
    + destruct (proj2 (H x) (or_intror Hx)) as [E | E]; [| assumption]. subst. specialize (K2 x Hx). lra.
Qed.

(** ** One pass *)
Lemma tab_map_minus f c n : map (fun x => x - c) (tabulate f n) = tabulate (fun k => f k - c) n.
Proof. unfold tabulate. now rewrite map_map. Qed.
Lemma tab_map_rminus f c n : map (fun x => c - x) (tabulate f n) = tabulate (fun k => c - f k) n.
Proof. unfold tabulate. now rewrite map_map. Qed.
Lemma tab_table m h : List.length (combine m (tabulate h (List.length m))) = List.length m /\ forall i, (i < List.length m)%nat -> nth i (combine m (tabulate h (List.length m))) (0, 0) = (nth i m 0, h i).
Proof.
  rewrite combine_map_seq. split; [now rewrite map_length, seq_length |]. intros i Hi. rewrite (nth_indep _ (0, 0) ((fun i => (nth i m 0, h i)) 0%nat)) by (rewrite map_length, seq_length; assumption). rewrite (map_nth (fun i => (nth i m 0, h i))), seq_nth by assumption. reflexivity.
Qed.
Lemma forall2_impl {A B} (P Q : A -> B -> Prop) l l' : (forall x y, P x y -> Q x y) -> Forall2 P l l' -> Forall2 Q l l'.
Proof. intros H. induction 1; constructor; auto. Qed.
Lemma iteration_ok debug o peaks i m b : valid o -> good o m -> StronglySorted Rlt (map fst peaks) -> (0 < i)%nat ->
  exists b' m' fs a z, iteration debug (resolve o) peaks i m b = Ok (b', m', fs) /\ a = map (fun E => shown (o_positive o) (broadened peaks b E)) m /\ integral_at_zero m a z /\
    Forall2 (fun (p : R * R) y => new_width (o_q o) (o_b0 o) (lower o) m a (fst p) y) peaks b' /\ next_mesh (o_dyn o) m a m' /\ fs = pass_files o peaks i m a b' z /\ good o m'.
Proof.
  intros V G Hpk Hi0. destruct (good_one o m G) as [Gn Gp]. pose proof (g_sort o m G) as Hs. pose proof (g_zero o m G) as Hz. unfold iteration. rewrite (broaden_ok (resolve o) m peaks b Hz). change (o_positive (resolve o)) with (o_positive o). set (a := map (fun E => shown (o_positive o) (broadened peaks b E)) m).
  assert (La : List.length a = List.length m) by (unfold a; apply map_length). rewrite (int_ok debug m Hs Hz Gn Gp a La). cbn [bind]. set (n := List.length m) in *. unfold combinations.
  destruct (crossing m Hs Hz Gn Gp) as (k & Hk & Hc). pose proof (zero_ok m Hs (integral m a) k Hk Hc) as EZ. fold n in EZ. rewrite EZ. set (z := (integral m a k + integral m a (S k)) / 2). assert (N2 : (2 <= n)%nat) by (apply n_two; assumption). pose proof (last_tf m (integral m a) ltac:(fold n; lia)) as EL. fold n in EL. rewrite EL. rewrite tab_map_minus, tab_map_rminus.
  unfold n. rewrite !(slope_ok debug m Hs Hz Gn Gp). cbn [bind]. fold n.
  rewrite !calc_ok by exact (v_q o V). cbn [bind]. change (o_q (resolve o)) with (o_q o). change (o_b0 (resolve o)) with (o_b0 o). change (o_bmin (resolve o)) with (lower o). change (o_dyn (resolve o)) with (o_dyn o).
  set (hp := fun i => adapted (o_q o) (o_b0 o) (log_slope m (fun k => integral m a k - z) i) (log_slope m (fun k => integral m a (n - 1) - integral m a k) i)).
  set (hn := fun i => adapted (o_q o) (o_b0 o) (log_slope m (integral m a) i) (log_slope m (fun k => integral m a k - z) i)).
  destruct (recalc_ok debug m peaks (lower o) (o_b0 o) hp hn Hs N2 Hpk (fun i => adapted_bounds _ _ _ _ (v_q o V) (v_b0 o V)) (fun i => adapted_bounds _ _ _ _ (v_q o V) (v_b0 o V))) as (b' & Eb & Hb). fold n in Eb, Hb. rewrite Eb. cbn [bind].
  destruct (next_good o m a V G La debug) as (m' & Em & Hm & Gm & _). rewrite Em. cbn [bind]. assert (Z : integral_at_zero m a z) by (exists k; split; [exact Hk | split; [exact Hc | reflexivity]]). exists b', m'. eexists. exists a, z. split; [reflexivity |]. split; [reflexivity |]. split; [exact Z |]. split; [| split; [assumption |]; split; [| assumption]].
  - eapply forall2_impl; [| exact Hb]. cbn beta. intros p y (v & Hv & Ey). exists z. destruct (Rlt_dec (fst p) 0) as [C | C]; [exists (combine m (tabulate hn n)) | exists (combine m (tabulate hp n))]; exists v; (split; [exact Z |]); (split; [apply tab_table |]); (split; [| split; assumption]); intros j Hj.
    + destruct (tab_table m hn) as [_ T]. now rewrite T.
    + destruct (tab_table m hp) as [_ T]. now rewrite T.
  - unfold pass_files. fold n. change (o_savemore (resolve o)) with (o_savemore o). change (o_saveall (resolve o)) with (o_saveall o). change (o_iter (resolve o)) with (o_iter o). change (o_trim (resolve o)) with (trimmed o). rewrite !save_ok by assumption. unfold hp, hn. destruct (o_saveall o); cbn [app]; reflexivity.
Qed.
Lemma iterations_ok debug o peaks : valid o -> StronglySorted Rlt (map fst peaks) -> forall n i m b fs, good o m -> passes o peaks i m b fs ->
  exists m' b' gs, iterations debug (resolve o) peaks (seq (S i) n) m b = Ok gs /\ passes o peaks (i + n) m' b' (fs ++ gs).
Proof.
  intros V Hpk. induction n as [| n IH]; intros i m b fs G P.
  - exists m, b, []. split; [reflexivity |]. now rewrite Nat.add_0_r, app_nil_r.
  - cbn [seq iterations]. destruct (iteration_ok debug o peaks (S i) m b V G Hpk ltac:(lia)) as (b1 & m1 & f1 & a & z & E & Ea & Hz & Hb & Hm & Ef & G1). rewrite E. cbn [bind fst snd].
    destruct (IH (S i) m1 b1 (fs ++ f1) G1) as (m' & b' & gs & E' & P'). { rewrite Ef. eapply next_pass; eassumption. } rewrite E'. cbn [bind]. exists m', b', (f1 ++ gs). split; [reflexivity |]. rewrite app_assoc. now rewrite Nat.add_succ_r.
Qed.

Lemma readable_ok files o bufs : readable files o bufs -> read_files files (resolve o) = Ok bufs.
Proof. intros [L H]. unfold read_files. change (o_nz (resolve o)) with (o_nz o). apply read_all; [assumption |]. intros i l Hi. exact (H i l Hi). Qed.
Lemma run_ok debug files o bufs : valid o -> readable files o bufs -> exists fuel0 peaks m b fs,
  (forall fuel, (fuel0 <= fuel)%nat -> bw fuel debug files o = Some (Ok fs)) /\ merged (o_nz o) (List.concat bufs) peaks /\ passes o peaks (o_iter o) m b fs.
Proof.
  intros V HR. destruct (mesh_ok (o_min o) (o_max o) (o_ratio o) (v_min o V) (v_max o V) (v_ratio o V)) as (f0 & m0 & n & Hf & Hn & Hs & Hi & L). set (peaks := merge (o_nz o) bufs). assert (M : merged (o_nz o) (List.concat bufs) peaks) by apply merge_ok.
  assert (I0 : initial_mesh (o_min o) (o_max o) (o_ratio o) m0) by (exists n; auto).
  destruct (iterations_ok debug o peaks V (proj1 M) (o_iter o) 0%nat m0 _ _ (first_good o m0 V I0) (first_pass o peaks m0 I0)) as (m & b & gs & E & P). exists f0, peaks, m, b. eexists. split; [| split; [exact M | exact P]].
  intros fuel Hfuel. unfold bw. pose proof (v_b0 o V) as B0. apply Rltb_spec in B0. rewrite B0. cbn [negb]. pose proof (v_nz o V) as NZ. apply Z.leb_le in NZ. rewrite NZ. cbn [negb]. rewrite (defaults_ok debug o V). cbn [bind]. rewrite (readable_ok files o bufs HR). cbn [bind]. change (o_nz (resolve o)) with (o_nz o). fold peaks.
  destruct (Hf fuel Hfuel) as (l & z & El & Em). unfold make_mesh. cbn [resolve o_min o_max o_ratio]. pose proof (v_max o V) as X1. pose proof (v_ratio o V) as X2. apply Rltb_spec in X1, X2. rewrite X1, X2. unfold cassert. cbn [andb negb]. rewrite andb_false_r. rewrite El, Em. change (o_iter (resolve o)) with (o_iter o). change (initial_b (resolve o) peaks) with (map (fun _ : R * R => o_b0 o) peaks). rewrite E. cbn [bind].
  change (o_savemore (resolve o)) with (o_savemore o). destruct (o_savemore o); [| reflexivity]. unfold save. rewrite rows_ok. reflexivity.
Qed.

(** ** Consequences *)
Lemma passes_good o peaks i m b fs : valid o -> passes o peaks i m b fs -> good o m /\ exists m0, initial_mesh (o_min o) (o_max o) (o_ratio o) m0 /\ incl m0 m /\ (forall x, In x m -> exists lo hi, In lo m0 /\ In hi m0 /\ lo <= x <= hi) /\ (o_dyn o <= 0 -> m = m0).
Proof.
  intros V. induction 1 as [m H | i m b fs a z b' m' H IH Ea Hz Hb Hm].
  - split; [now apply first_good |]. exists m. split; [assumption |]. split; [apply incl_refl |]. split; [| reflexivity]. intros x Hx. exists x, x. repeat split; auto; lra.
  - destruct IH as (G & m0 & I0 & I1 & I2 & I3). assert (La : List.length a = List.length m) by (rewrite Ea; apply map_length). destruct (next_good o m a V G La true) as (m2 & _ & Hm2 & G2 & I4 & I5). pose proof (next_unique o m a m' m2 Hm Hm2) as E. subst m2. split; [assumption |]. exists m0. split; [assumption |]. split; [eapply incl_tran; eassumption |]. split.
    + intros x Hx. destruct (I5 x Hx) as (lo & hi & H1 & H2 & H3). destruct (I2 lo H1) as (lo' & hi0 & L1 & _ & L2). destruct (I2 hi H2) as (lo0 & hi' & _ & L3 & L4). exists lo', hi'. repeat split; auto; lra.
    + intros D. unfold next_mesh in Hm. destruct (Rlt_dec 0 (o_dyn o)); [lra |]. rewrite Hm. auto.
Qed.
Lemma new_width_bounds q b0 bmin m a x y : 0 < q -> 0 < b0 -> bmin <= b0 -> StronglySorted Rlt m -> (0 < List.length m)%nat -> new_width q b0 bmin m a x y -> 0 < y /\ bmin <= y <= b0.
Proof.
  intros Hq Hb Hm Hs Hl (z & t & v & _ & Lt & Ht & Hv & ->). assert (NE : forall i p, nth_error t i = Some p -> (i < List.length m)%nat /\ fst p = nth i m 0 /\ 0 < snd p <= b0).
  { intros i p Hp. assert (Hi : (i < List.length m)%nat) by (rewrite <- Lt; apply nth_error_Some; congruence). split; [assumption |]. apply (nth_error_nth _ _ (0, 0)) in Hp. rewrite Ht in Hp by assumption. subst p. cbn [fst snd]. split; [reflexivity |]. destruct (Rlt_dec x 0); now apply adapted_bounds. }
  assert (BV : 0 < v <= b0). { apply (interpolant_bounds t x v 0 b0); [| intros ->; cbn in Lt; lia | assumption |].
    - intros i p p' H1 H2. destruct (NE i p H1) as (A1 & A2 & _). destruct (NE (S i) p' H2) as (B1 & B2 & _). rewrite A2, B2. apply sorted_nth; auto.
    - intros p Hp. apply In_nth_error in Hp. destruct Hp as [i Hp]. apply (NE i p Hp). }
  pose proof (Rmax_l bmin v). pose proof (Rmax_r bmin v). repeat split; try lra. apply Rmax_lub; lra.
Qed.
Lemma passes_widths o peaks i m b fs : valid o -> passes o peaks i m b fs -> (0 < i)%nat \/ True -> List.length b = List.length peaks /\ Forall (fun y => 0 < y <= o_b0 o /\ lower o <= y) b.
Proof.
  intros V H _. destruct H as [m H | i m b fs a z b' m' H Ea Hz Hb Hm].
  - split; [apply map_length |]. apply Forall_forall. intros y Hy. apply in_map_iff in Hy. destruct Hy as (p & <- & _). pose proof (v_b0 o V). pose proof (v_bmin o V). lra.
  - destruct (passes_good o peaks i m b fs V H) as (G & _). destruct (good_one o m G) as [G1 G2]. split; [symmetry; clear - Hb; induction Hb; cbn; auto |].
    assert (L : (0 < List.length m)%nat) by (destruct G1 as (x & _ & Hx); destruct m; [destruct Hx | cbn; lia]). clear - Hb V G L. induction Hb as [| p y t t' H1 H2 IH]; constructor; [| assumption]. pose proof (new_width_bounds _ _ _ m a _ y (v_q o V) (v_b0 o V) (v_bmin o V) (g_sort o m G) L H1). lra.
Qed.
Lemma output_ok o peaks n m' b' fs : o_iter o = S n -> passes o peaks (S n) m' b' fs ->
  exists m b gs, passes o peaks n m b gs /\ In (("a" ++ tostring (S n) ++ ".dat")%string, rows (trimmed o) m (map (fun E => shown (o_positive o) (broadened peaks b E)) m)) fs.
Proof.
  intros Hn H. inversion H as [| i m b fs0 a z b1 m1 P Ea Hz Hb Hm]; subst. exists m, b, fs0. split; [assumption |]. apply in_app_iff. right. unfold pass_files. rewrite Hn, Nat.eqb_refl, orb_true_r. apply in_app_iff. left. left. reflexivity.
Qed.
Lemma quiet_ok o peaks i m b fs : o_savemore o = false -> o_saveall o = false -> passes o peaks i m b fs -> (i < o_iter o)%nat -> fs = [].
Proof.
  intros H1 H2. induction 1 as [m H | i m b fs a z b' m' H IH Ea Hz Hb Hm]; intros Hi; [now rewrite H1 |]. rewrite IH by lia. unfold pass_files. rewrite H1, H2. assert (E : (S i =? o_iter o)%nat = false) by (apply Nat.eqb_neq; lia). now rewrite E.
Qed.
Lemma single_ok o peaks n m' b' fs : o_savemore o = false -> o_saveall o = false -> o_iter o = S n -> passes o peaks (S n) m' b' fs ->
  exists m b gs, passes o peaks n m b gs /\ fs = [(("a" ++ tostring (S n) ++ ".dat")%string, rows (trimmed o) m (map (fun E => shown (o_positive o) (broadened peaks b E)) m))].
Proof.
  intros H1 H2 Hn H. inversion H as [| i m b fs0 a z b1 m1 P Ea Hz Hb Hm]; subst. exists m, b, fs0. split; [assumption |]. rewrite (quiet_ok o peaks n m b fs0 H1 H2 P) by lia. unfold pass_files. rewrite H1, H2, Hn, Nat.eqb_refl. reflexivity.
Qed.
Lemma endless_ok debug files o bufs fuel : 0 < o_b0 o -> (1 <= o_nz o)%Z -> lower o <= o_b0 o -> o_min o <= 0 -> o_min o < o_max o -> 1 < o_ratio o -> readable files o bufs -> bw fuel debug files o = None.
Proof.
  intros B0 NZ LB Hm Hmm Hr HR. unfold bw. apply Rltb_spec in B0. rewrite B0. cbn [negb]. apply Z.leb_le in NZ. rewrite NZ. cbn [negb].
  assert (D : defaults debug o = Ok (resolve o)). { unfold defaults, resolve. set (bm := if Rltb 0 (o_dyn o) then _ else _). assert (E : bm = lower o). { unfold bm, lower, Rltb. destruct (Rlt_dec 0 (o_dyn o)), (Rlt_dec (o_bmin o) 0); reflexivity. } rewrite E. unfold cassert. apply Rleb_spec in LB. rewrite LB, andb_false_r. cbn [bind].
    assert (T : (if Rltb (o_trim o) 0 then o_min o * 10 else o_trim o) = trimmed o). { unfold trimmed, Rltb. destruct (Rlt_dec (o_trim o) 0); [ring | reflexivity]. } rewrite T. reflexivity. }
  rewrite D. cbn [bind]. rewrite (readable_ok files o bufs HR). cbn [bind]. unfold make_mesh. cbn [resolve o_min o_max o_ratio]. pose proof Hmm as X1. pose proof Hr as X2. apply Rltb_spec in X1, X2. rewrite X1, X2. unfold cassert. cbn [andb negb]. rewrite andb_false_r. rewrite mesh_endless; [reflexivity | assumption | lra | assumption | right; lra].
Qed.
Lemma reject_ok fuel debug files o : o_b0 o <= 0 \/ (o_nz o < 1)%Z -> bw fuel debug files o = Some Throw.
Proof.
  intros H. unfold bw. destruct (Rltb 0 (o_b0 o)) eqn:E; cbn [negb]; [| reflexivity]. apply Rltb_spec in E. destruct H as [H | H]; [lra |]. assert (X : (1 <=? o_nz o)%Z = false) by (apply Z.leb_gt; lia). rewrite X. reflexivity.
Qed.
Lemma mapM_throw {A B} (f : A -> res B) l x : (forall y, In y l -> exists r, f y = Ok r \/ f y = Throw) -> In x l -> f x = Throw -> mapM f l = Throw.
Proof.
  induction l as [| h t IH]; intros H Hx E; [destruct Hx |]. cbn [mapM]. destruct (H h ltac:(now left)) as [r [Er | Er]]; rewrite Er; cbn [bind]; [| reflexivity]. destruct Hx as [-> | Hx]; [congruence |]. rewrite IH; auto. intros y Hy. apply H. now right.
Qed.
Lemma bad_file_ok fuel debug files o i : valid o -> (1 <= i <= Z.to_nat (o_nz o))%nat ->
  (let f := files (if o_one o && (o_nz o =? 1)%Z then o_name o else (tostring i ++ "/" ++ o_name o)%string) in f = None \/ exists g, f = Some g /\ ((8 * List.length (values g) + rest g) mod 16 <> 0)%nat) -> bw fuel debug files o = Some Throw.
Proof.
  intros V Hi H. unfold bw. pose proof (v_b0 o V) as B0. apply Rltb_spec in B0. rewrite B0. cbn [negb]. pose proof (v_nz o V) as NZ. apply Z.leb_le in NZ. rewrite NZ. cbn [negb]. rewrite (defaults_ok debug o V). cbn [bind].
  assert (E : read_files files (resolve o) = Throw). { unfold read_files. change (o_nz (resolve o)) with (o_nz o). apply (mapM_throw _ _ i).
    - intros y _. unfold load. destruct (files (file_name (resolve o) y)) as [g |]; [| exists []; auto]. destruct ((8 * List.length (values g) + rest g) mod 16 =? 0)%nat; [eexists; left; reflexivity | exists []; auto].
    - apply in_seq. lia.
    - unfold load. change (file_name (resolve o) i) with (if o_one o && (o_nz o =? 1)%Z then o_name o else (tostring i ++ "/" ++ o_name o)%string). cbn zeta in H. destruct H as [-> | (g & -> & Hg)]; [reflexivity |]. apply Nat.eqb_neq in Hg. now rewrite Hg. }
  rewrite E. reflexivity.
Qed.
Lemma zero_lost w b E : broadened [(0, w)] [b] E = 0.
Proof. unfold broadened, rsum. cbn. rewrite Rmult_0_r. destruct (Rlt_dec 0 0); lra. Qed.

Lemma lonely raw peaks nz y : merged nz [(0, y)] peaks -> raw = [(0, y)] -> peaks = [(0, y / IZR nz)].
Proof.
  intros (H1 & H2 & H3 & _) _. destruct peaks as [| [x v] t]; [destruct (proj2 (H2 0) (or_introl eq_refl)) |]. cbn [map fst] in *. assert (X : x = 0) by (destruct (proj1 (H2 x) (or_introl eq_refl)) as [E | []]; auto). subst x. destruct t as [| [x' v'] t].
  - f_equal. f_equal. rewrite (H3 0 v (or_introl eq_refl)). f_equal. unfold weight_at, rsum. cbn. destruct (Req_EM_T 0 0); lra.
  - exfalso. cbn [map fst] in *. destruct (proj1 (H2 x') (or_intror (or_introl eq_refl))) as [E | []]. inversion_clear H1 as [| ? ? A1 A2]. pose proof (Forall_inv A2). cbn in *. lra.
Qed.
Lemma zero_peak_ok debug files o n : valid o -> o_nz o = 1%Z -> o_iter o = S n -> readable files o [[(0, 1)]] ->
  exists fuel0 fs m, (forall fuel, (fuel0 <= fuel)%nat -> bw fuel debug files o = Some (Ok fs)) /\ In (("a" ++ tostring (S n) ++ ".dat")%string, rows (trimmed o) m (map (fun _ => 0) m)) fs.
Proof.
  intros V NZ Hn HR. destruct (run_ok debug files o _ V HR) as (fuel0 & peaks & m' & b' & fs & E & M & P). rewrite NZ in M. cbn [List.concat app] in M. pose proof (lonely _ peaks 1 1 M eq_refl) as Ep. rewrite Hn in P. destruct (output_ok o peaks n m' b' fs Hn P) as (m & b & gs & P' & HI). exists fuel0, fs, m. split; [assumption |].
  replace (map (fun _ => 0) m) with (map (fun E => shown (o_positive o) (broadened peaks b E)) m); [exact HI |]. apply map_ext. intros x. pose proof (passes_widths o peaks n m b gs V P' (or_intror Logic.I)) as [L _]. rewrite Ep in *. destruct b as [| y [| y' b]]; try discriminate. rewrite zero_lost. unfold shown. destruct (o_positive o); [| reflexivity]. destruct (Rlt_dec 0 0); lra.
Qed.
Lemma whole_ok debug files o bufs n : valid o -> readable files o bufs -> o_iter o = S n -> o_savemore o = false -> o_saveall o = false -> o_positive o = false ->
  exists fuel0 peaks m b, merged (o_nz o) (List.concat bufs) peaks /\ List.length b = List.length peaks /\ Forall (fun y => 0 < y <= o_b0 o /\ lower o <= y) b /\
    (forall fuel, (fuel0 <= fuel)%nat -> bw fuel debug files o = Some (Ok [(("a" ++ tostring (S n) ++ ".dat")%string, rows (trimmed o) m (map (broadened peaks b) m))])) /\
    is_RInt_gen (broadened peaks b) (at_right 0) (Rbar_locally p_infty) (weight_above peaks) /\ is_RInt_gen (broadened peaks b) (Rbar_locally m_infty) (at_left 0) (weight_below peaks).
Proof.
  intros V HR Hn S1 S2 Hp. destruct (run_ok debug files o _ V HR) as (fuel0 & peaks & m' & b' & fs & E & M & P). rewrite Hn in P. destruct (single_ok o peaks n m' b' fs S1 S2 Hn P) as (m & b & gs & P' & Ef). destruct (passes_widths o peaks n m b gs V P' (or_intror Logic.I)) as [L B]. exists fuel0, peaks, m, b. split; [assumption |]. split; [assumption |]. split; [assumption |].
  assert (B' : Forall (fun y => 0 < y) b) by (eapply Forall_impl; [| exact B]; cbn; intros; lra). split; [| split; [now apply weight_above_ok | now apply weight_below_ok]].
  intros fuel Hf. rewrite (E fuel Hf), Ef. rewrite Hp. reflexivity.
Qed.
Lemma mesh_form o peaks i m b fs : valid o -> passes o peaks i m b fs -> StronglySorted Rlt m /\ ~ In 0 m /\
  exists m0, initial_mesh (o_min o) (o_max o) (o_ratio o) m0 /\ incl m0 m /\ (forall x, In x m -> exists lo hi, In lo m0 /\ In hi m0 /\ lo <= x <= hi) /\ (o_dyn o <= 0 -> m = m0).
Proof. intros V P. destruct (passes_good o peaks i m b fs V P) as (G & H). split; [apply G | split; [apply G | exact H]]. Qed.
Lemma widths_form o peaks i m b fs : valid o -> passes o peaks i m b fs -> List.length b = List.length peaks /\ Forall (fun y => 0 < y <= o_b0 o /\ lower o <= y) b.
Proof. intros V P. apply (passes_widths o peaks i m b fs V P). now right. Qed.
Lemma weight_form peaks b : List.length b = List.length peaks -> Forall (fun y => 0 < y) b ->
  is_RInt_gen (broadened peaks b) (at_right 0) (Rbar_locally p_infty) (weight_above peaks) /\ is_RInt_gen (broadened peaks b) (Rbar_locally m_infty) (at_left 0) (weight_below peaks).
Proof. intros L B. split; [now apply weight_above_ok | now apply weight_below_ok]. Qed.
Lemma nothing_form o peaks i m b fs : o_savemore o = false -> o_saveall o = false -> passes o peaks i m b fs -> (i < o_iter o)%nat \/ o_iter o = 0%nat /\ i = 0%nat -> fs = [].
Proof.
  intros H1 H2 P [H | [_ H]]; [eapply quiet_ok; eassumption |]. subst i. inversion P. now rewrite H1.
Qed.
