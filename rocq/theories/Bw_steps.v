(** The steps of one pass of the tool [bw]. *)
From Coq Require Import List ZArith Reals Lra Lia Bool Sorting Permutation String.
From Verif Require Import Base Interp_model Interp_spec Interp_proofs Bw_model Bw_spec Bw_run_spec Bw_lists Bw_refine.
Import ListNotations.
Local Open Scope string_scope.
Local Open Scope list_scope.
Local Open Scope R_scope.

Lemma mapM_total {A B} (f : A -> res B) (g : A -> B) l : (forall x, In x l -> f x = Ok (g x)) -> mapM f l = Ok (map g l).
Proof. induction l as [| h t IH]; intros H; [reflexivity |]. cbn [mapM map]. rewrite H by now left. cbn [bind]. rewrite IH by (intros; apply H; now right). reflexivity. Qed.
Lemma skipn_step {A} (l : list A) k d : (k < List.length l)%nat -> skipn k l = nth k l d :: skipn (S k) l.
Proof. revert k. induction l as [| h t IH]; intros k H; [cbn in H; lia |]. destruct k; [reflexivity |]. cbn in H |- *. apply IH. lia. Qed.
Lemma skipn_end {A} (l : list A) k : (List.length l <= k)%nat -> skipn k l = [].
Proof. apply skipn_all2. Qed.
Lemma combine_map_seq (l : list R) f : combine l (tabulate f (List.length l)) = map (fun i => (nth i l 0, f i)) (seq 0 (List.length l)).
Proof.
  unfold tabulate. enough (H : forall k, combine l (map f (seq k (List.length l))) = map (fun i => (nth (i - k) l 0, f i)) (seq k (List.length l))).
  { rewrite H. apply map_ext. intros i. now rewrite Nat.sub_0_r. }
  induction l as [| h t IH]; intros k; [reflexivity |]. cbn [List.length seq map combine]. rewrite Nat.sub_diag. cbn [nth]. f_equal. rewrite IH. apply map_ext_in. intros i Hi. apply in_seq in Hi. replace (i - k)%nat with (S (i - S k)) by lia. reflexivity.
Qed.
Lemma sorted_nth m i j : StronglySorted Rlt m -> (i < j)%nat -> (j < List.length m)%nat -> nth i m 0 < nth j m 0.
Proof.
  intros H. revert i j. induction H as [| h t H1 IH H2]; intros i j Hi Hj; [cbn in Hj; lia |]. destruct j as [| j]; [lia |]. cbn in Hj. destruct i as [| i]; cbn [nth].
  - rewrite Forall_forall in H2. apply H2, nth_In. lia.
  - apply IH; lia.
Qed.

Section Steps.
  Variables (debug : bool) (m : list R).
  Let n := List.length m.
  Hypothesis Hs : StronglySorted Rlt m.
  Hypothesis Hz : ~ In 0 m.
  Hypothesis Hneg : exists x, x < 0 /\ In x m.
  Hypothesis Hpos : exists x, 0 < x /\ In x m.
  Lemma n_two : (2 <= n)%nat.
  Proof. unfold n. destruct Hneg as (x & Hx & Ix), Hpos as (y & Hy & Iy). destruct m as [| h [| k t]]; [destruct Ix | | cbn; lia]. destruct Ix as [<- | []], Iy as [<- | []]. lra. Qed.
  Lemma step_lt k : (S k < n)%nat -> nth k m 0 < nth (S k) m 0.
  Proof. intros H. apply sorted_nth; auto. Qed.

  (** ** Integration *)
  Variable a : list R.
  Hypothesis Ha : List.length a = n.
  Lemma comb_step k : (k < n)%nat -> skipn k (combine m a) = (nth k m 0, nth k a 0) :: skipn (S k) (combine m a).
  Proof. intros H. rewrite (skipn_step _ k (0, 0)) by (rewrite combine_length, Ha; fold n; lia). rewrite combine_nth by (rewrite Ha; reflexivity). reflexivity. Qed.
  Lemma comb_end k : (n <= k)%nat -> skipn k (combine m a) = [].
  Proof. intros H. apply skipn_end. rewrite combine_length. fold n. lia. Qed.
  Lemma int_loop j : forall k, (k + j = n)%nat -> (0 < k)%nat ->
    integrate_loop debug (nth (k - 1) m 0) (nth (k - 1) a 0) (skipn k (combine m a)) (integral m a (k - 1)) = Ok (map (integral m a) (seq k j)).
  Proof.
    induction j as [| j IH]; intros k Hk H0; [rewrite comb_end by lia; reflexivity |]. rewrite comb_step by lia. cbn [integrate_loop seq map]. destruct k as [| k]; [lia |]. replace (S k - 1)%nat with k by lia.
    pose proof (step_lt k ltac:(lia)) as L. apply Rltb_spec in L. rewrite L. unfold cassert. rewrite andb_false_r. cbn [bind]. specialize (IH (S (S k)) ltac:(lia) ltac:(lia)). replace (S (S k) - 1)%nat with (S k) in IH by lia. cbn [integral] in IH. rewrite IH. reflexivity.
  Qed.
  Lemma int_ok : integrate_a debug m a = Ok (tabulate (integral m a) n).
  Proof.
    pose proof n_two as H2. unfold integrate_a. rewrite <- (skipn_O (combine m a)), comb_step by lia. pose proof (int_loop (n - 1) 1 ltac:(lia) ltac:(lia)) as H. change (1 - 1)%nat with 0%nat in H. change (integral m a 0) with 0 in H. rewrite H. cbn [bind]. unfold tabulate. replace n with (S (n - 1)) at 2 by lia. reflexivity.
  Qed.
End Steps.

Section Steps2.
  Variables (debug : bool) (m : list R).
  Let n := List.length m.
  Hypothesis Hs : StronglySorted Rlt m.
  Hypothesis Hz : ~ In 0 m.
  Hypothesis Hneg : exists x, x < 0 /\ In x m.
  Hypothesis Hpos : exists x, 0 < x /\ In x m.
  Variable f : nat -> R.
  Let tf := tabulate f n.
  Lemma tf_length : List.length tf = n.
  Proof. unfold tf, tabulate. now rewrite map_length, seq_length. Qed.
  Lemma tf_nth k : (k < n)%nat -> nth k tf 0 = f k.
  Proof. intros H. unfold tf, tabulate. rewrite (nth_indep _ 0 (f 0%nat)) by (rewrite map_length, seq_length; assumption). rewrite map_nth, seq_nth by assumption. reflexivity. Qed.
  Lemma tf_step k : (k < n)%nat -> skipn k (combine m tf) = (nth k m 0, f k) :: skipn (S k) (combine m tf).
  Proof. intros H. rewrite (comb_step m tf tf_length k H). now rewrite tf_nth. Qed.
  Lemma nz k : (k < n)%nat -> nth k m 0 <> 0.
  Proof. intros H E. apply Hz. rewrite <- E. now apply nth_In. Qed.

  (** ** The value at zero *)
  Lemma crossing : exists k, (S k < n)%nat /\ nth k m 0 < 0 < nth (S k) m 0.
  Proof.
    destruct Hneg as (x & Hx & Ix), Hpos as (y & Hy & Iy). apply (In_nth _ _ 0) in Ix, Iy. destruct Ix as (i & Hi & Ei), Iy as (j & Hj & Ej). assert (Hij : (i < j)%nat). { destruct (Nat.lt_trichotomy i j) as [C | [C | C]]; [assumption | subst; lra | pose proof (sorted_nth m j i Hs C Hi); lra]. }
    assert (Q : forall d i, (i + d = j)%nat -> nth i m 0 < 0 -> exists k, (S k < n)%nat /\ nth k m 0 < 0 < nth (S k) m 0).
    { induction d as [| d IH]; intros i' E1 E2; [replace i' with j in E2 by lia; lra |]. destruct (Rlt_dec (nth (S i') m 0) 0) as [C | C]; [apply (IH (S i')); [lia | assumption] |]. exists i'. split; [unfold n; lia |]. split; [assumption |]. pose proof (nz (S i') ltac:(unfold n; lia)). lra. }
    apply (Q (j - i)%nat i); [lia | lra].
  Qed.
  Lemma zero_ok k : (S k < n)%nat -> nth k m 0 < 0 < nth (S k) m 0 -> at_zero (combine m tf) = (f k + f (S k)) / 2.
  Proof.
    intros Hk Hc. rewrite <- (skipn_O (combine m tf)). enough (Q : forall d j, (j + d = k)%nat -> at_zero (skipn j (combine m tf)) = (f k + f (S k)) / 2) by (apply (Q k 0%nat); lia).
    induction d as [| d IH]; intros j Hj.
    - replace j with k by lia. rewrite tf_step, tf_step by lia. cbn [at_zero]. destruct Hc as [C1 C2]. apply Rltb_spec in C1, C2. rewrite C1, C2. reflexivity.
    - rewrite tf_step by lia. specialize (IH (S j) ltac:(lia)). rewrite tf_step in IH |- * by lia. change (at_zero ((nth j m 0, f j) :: (nth (S j) m 0, f (S j)) :: skipn (S (S j)) (combine m tf))) with
        (if Rltb (nth j m 0) 0 && Rltb 0 (nth (S j) m 0) then (f j + f (S j)) / 2 else at_zero ((nth (S j) m 0, f (S j)) :: skipn (S (S j)) (combine m tf))).
      assert (L : nth (S j) m 0 <= nth k m 0). { destruct (Nat.eq_dec (S j) k) as [-> |]; [lra |]. apply Rlt_le, sorted_nth; [assumption | lia | unfold n in Hk; lia]. }
      assert (E : Rltb 0 (nth (S j) m 0) = false) by (apply Rltb_false; lra). rewrite E, andb_false_r. exact IH.
  Qed.
  Lemma last_tf : (0 < n)%nat -> last tf 0 = f (n - 1)%nat.
  Proof. intros H. unfold tf, tabulate. replace n with (S (n - 1)) at 1 by lia. rewrite seq_S, map_app. cbn [map]. now rewrite last_last. Qed.

  (** ** Logarithmic derivatives *)
  Lemma slope_one k : (S k < n)%nat -> deriv1 (nth k m 0) (nth (S k) m 0) (f k) (f (S k)) = log_slope m f (S k).
  Proof.
    intros Hk. pose proof (nz k ltac:(lia)) as Z0. pose proof (nz (S k) Hk) as Z1. unfold deriv1. cbn [log_slope]. set (w0 := nth k m 0) in *. set (w1 := nth (S k) m 0) in *.
    assert (L : ln (Rabs (w1 / w0)) = 0 <-> Rabs w1 = Rabs w0).
    { assert (P0 : 0 < Rabs w0) by now apply Rabs_pos_lt. assert (P1 : 0 < Rabs w1) by now apply Rabs_pos_lt. unfold Rdiv. rewrite Rabs_mult, Rabs_inv. split; intros H.
      - assert (E : Rabs w1 * / Rabs w0 = 1). { apply ln_inv; [apply Rmult_lt_0_compat; [assumption | now apply Rinv_0_lt_compat] | lra | now rewrite ln_1]. } apply (f_equal (fun x => x * Rabs w0)) in E. rewrite Rmult_assoc, Rinv_l in E by lra. lra.
      - rewrite H, Rinv_r by lra. apply ln_1. }
    destruct (Req_EM_T (f k) 0) as [E0 | E0].
    - destruct (Req_EM_T (Rabs w1) (Rabs w0)); [reflexivity |]. destruct (Rlt_dec 0 (f (S k) * f k)) as [C | C]; [rewrite E0 in C; lra | reflexivity].
    - assert (S1 : 0 < f (S k) / f k <-> 0 < f (S k) * f k).
      { assert (Q : f (S k) / f k = f (S k) * f k * / (f k * f k)) by (field; assumption). assert (QP : 0 < / (f k * f k)) by (apply Rinv_0_lt_compat; nra). rewrite Q. split; intros H; [| nra]. apply (Rmult_lt_reg_r (/ (f k * f k))); [assumption |]. lra. }
      destruct (Rltb 0 (f (S k) / f k)) eqn:C.
      + apply Rltb_spec in C. destruct (Rlt_dec 0 (f (S k) * f k)) as [C' | C']; [| exfalso; tauto]. destruct (Req_EM_T (ln (Rabs (w1 / w0))) 0) as [E1 | E1], (Req_EM_T (Rabs w1) (Rabs w0)) as [E2 | E2]; tauto || reflexivity.
      + apply Rltb_false in C. destruct (Rlt_dec 0 (f (S k) * f k)) as [C' | C']; [apply S1 in C'; lra |]. destruct (Req_EM_T (Rabs w1) (Rabs w0)); reflexivity.
  Qed.
  Lemma slope_loop j : forall k, (k + j = n)%nat -> (0 < k)%nat -> deriv_loop debug (nth (k - 1) m 0) (f (k - 1)%nat) (skipn k (combine m tf)) = Ok (map (log_slope m f) (seq k j)).
  Proof.
    induction j as [| j IH]; intros k Hk H0; [rewrite (comb_end m tf tf_length) by (fold n; lia); reflexivity |]. rewrite tf_step by lia. cbn [deriv_loop seq map]. destruct k as [| k]; [lia |]. replace (S k - 1)%nat with k by lia.
    pose proof (sorted_nth m k (S k) Hs ltac:(lia) ltac:(fold n; lia)) as L. apply Rltb_spec in L. rewrite L. unfold cassert. rewrite andb_false_r. cbn [bind]. specialize (IH (S (S k)) ltac:(lia) ltac:(lia)). replace (S (S k) - 1)%nat with (S k) in IH by lia. rewrite IH. cbn [bind]. rewrite slope_one by lia. reflexivity.
  Qed.
  Lemma slope_ok : calc_deriv debug m tf = Ok (tabulate (log_slope m f) n).
  Proof.
    assert (H2 : (2 <= n)%nat) by (apply n_two; assumption). unfold calc_deriv. rewrite <- (skipn_O (combine m tf)), tf_step by lia. pose proof (slope_loop (n - 1) 1 ltac:(lia) ltac:(lia)) as H. change (1 - 1)%nat with 0%nat in H. rewrite H. cbn [bind]. unfold tabulate. replace n with (S (n - 1)) at 2 by lia. reflexivity.
  Qed.
End Steps2.

(** ** Widths *)
Lemma adapted_bounds q b0 s1 s2 : 0 < q -> 0 < b0 -> 0 < adapted q b0 s1 s2 <= b0.
Proof.
  intros Hq Hb. unfold adapted. assert (H : forall s, 0 < q / (q + Rabs s) <= 1).
  { intros s. pose proof (Rabs_pos s). split; [apply Rdiv_lt_0_compat; lra |]. apply (Rmult_le_reg_r (q + Rabs s)); [lra |]. unfold Rdiv. rewrite Rmult_assoc, Rinv_l by lra. lra. }
  pose proof (H s1). pose proof (H s2). split; [nra |]. nra.
Qed.
Lemma calc_one q b0 s1 s2 : 0 < q -> calc_b1 q b0 s1 s2 = Ok (adapted q b0 s1 s2).
Proof.
  intros Hq. unfold calc_b1, rdiv. pose proof (Rabs_pos s1). pose proof (Rabs_pos s2). destruct (Req_EM_T (q + Rabs s1) 0); [lra |]. destruct (Req_EM_T (q + Rabs s2) 0); [lra |]. f_equal. unfold adapted. field. lra.
Qed.
Lemma combine_tab f g n : combine (tabulate f n) (tabulate g n) = map (fun i => (f i, g i)) (seq 0 n).
Proof. unfold tabulate. generalize 0%nat. induction n as [| n IH]; intros k; [reflexivity |]. cbn [seq map combine]. now rewrite IH. Qed.
Lemma calc_ok o f g n : 0 < o_q o -> calc_b o (tabulate f n) (tabulate g n) = Ok (tabulate (fun i => adapted (o_q o) (o_b0 o) (f i) (g i)) n).
Proof.
  intros Hq. unfold calc_b. rewrite combine_tab. rewrite (mapM_total _ (fun d : R * R => adapted (o_q o) (o_b0 o) (fst d) (snd d))); [now rewrite map_map |]. intros x _. now apply calc_one.
Qed.

(** ** Interpolation between positive values *)
Lemma bracket (t : list (R * R)) x : forall p, nth_error t 0 = Some p -> fst p <= x -> exists i p, nth_error t i = Some p /\ fst p <= x /\ (S i = List.length t \/ exists q, nth_error t (S i) = Some q /\ x <= fst q).
Proof.
  induction t as [| h t IH]; intros p H0 Hx; [discriminate |]. cbn in H0. assert (h = p) by congruence. subst h. destruct t as [| k t]; [exists 0%nat, p; auto |]. destruct (Rle_dec x (fst k)) as [C | C].
  - exists 0%nat, p. split; [reflexivity |]. split; [assumption |]. right. exists k. auto.
  - destruct (IH k eq_refl ltac:(lra)) as (i & q & H1 & H2 & H3). exists (S i), q. split; [assumption |]. split; [assumption |]. destruct H3 as [H3 | H3]; [left; cbn [List.length] in *; lia | right; exact H3].
Qed.
Lemma interpolant_bounds (t : list (R * R)) x v lo hi : increasing t -> t <> [] -> linear_interpolant t x v -> (forall p, In p t -> lo < snd p <= hi) -> lo < v <= hi.
Proof.
  intros Hi Hn (L1 & L2 & L3) Hb. destruct t as [| h t'] eqn:Et; [contradiction |]. rewrite <- Et in *. assert (H0 : nth_error t 0 = Some h) by now rewrite Et. destruct (Rle_dec x (fst h)) as [C | C].
  - rewrite (L1 h H0 C). apply Hb. eapply nth_error_In; eassumption.
  - destruct (bracket t x h H0 ltac:(lra)) as (i & p & H1 & H2 & [H3 | (q & H3 & H4)]).
    + rewrite (L2 p); [apply Hb; eapply nth_error_In; eassumption | replace (List.length t - 1)%nat with i by lia; assumption | assumption].
    + rewrite (L3 i p q H1 H3 (conj H2 H4)). pose proof (Hi i p q H1 H3) as Hlt. pose proof (Hb p (nth_error_In _ _ H1)) as [A1 A2]. pose proof (Hb q (nth_error_In _ _ H3)) as [B1 B2]. set (r := (x - fst p) / (fst q - fst p)).
      assert (Hr : 0 <= r <= 1). { unfold r. split; [apply Rmult_le_pos; [lra | apply Rlt_le, Rinv_0_lt_compat; lra] |]. apply (Rmult_le_reg_r (fst q - fst p)); [lra |]. unfold Rdiv. rewrite Rmult_assoc, Rinv_l by lra. lra. }
      replace (snd p + (snd q - snd p) * r) with ((1 - r) * snd p + r * snd q) by ring. destruct (Rlt_dec r 1) as [Cr | Cr]; [split; nra |]. replace r with 1 by lra. split; lra.
Qed.

Section Recalc.
  Variables (debug : bool) (m : list R) (peaks : list (R * R)) (bmin b0 : R) (hp hn : nat -> R).
  Let n := List.length m.
  Hypothesis Hs : StronglySorted Rlt m.
  Hypothesis Hn : (2 <= n)%nat.
  Hypothesis Hpk : StronglySorted Rlt (map fst peaks).
  Hypothesis Hhp : forall i, 0 < hp i <= b0.
  Hypothesis Hhn : forall i, 0 < hn i <= b0.
  Let tp := combine m (tabulate hp n).
  Let tn := combine m (tabulate hn n).
  Lemma tab_inc h : increasing (combine m (tabulate h n)).
  Proof.
    unfold n. rewrite combine_map_seq. intros i p q H1 H2. assert (L : (S i < List.length m)%nat). { assert (Q : nth_error (map (fun i => (nth i m 0, h i)) (seq 0 (List.length m))) (S i) <> None) by congruence. apply nth_error_Some in Q. rewrite map_length, seq_length in Q. exact Q. }
    apply (nth_error_nth _ _ (nth 0 m 0, h 0%nat)) in H1, H2. rewrite (map_nth (fun i => (nth i m 0, h i))) in H1, H2. rewrite seq_nth in H1, H2 by lia. subst p q. cbn [fst]. apply sorted_nth; [assumption | cbn; lia | exact L].
  Qed.
  Lemma tab_len h : List.length (combine m (tabulate h n)) = n.
  Proof. rewrite combine_length. unfold tabulate. rewrite map_length, seq_length. fold n. lia. Qed.
  Lemma tab_bound h : (forall i, 0 < h i <= b0) -> forall p, In p (combine m (tabulate h n)) -> 0 < snd p <= b0.
  Proof. intros H p Hp. unfold n in Hp. rewrite combine_map_seq in Hp. apply in_map_iff in Hp. destruct Hp as (i & <- & _). apply H. Qed.
  Lemma split_freqs l : StronglySorted Rlt l -> filter (fun f => Rltb f 0) l ++ filter (fun f => negb (Rltb f 0)) l = l.
  Proof.
    induction 1 as [| h t H1 IH H2]; [reflexivity |]. cbn [filter]. destruct (Rltb h 0) eqn:E; cbn [negb app]; [now rewrite IH |]. apply Rltb_false in E.
    assert (Q : Forall (fun x => Rltb x 0 = false) t) by (eapply Forall_impl; [| exact H2]; cbn; intros; apply Rltb_false; lra). clear - Q. assert (Q1 : filter (fun f => Rltb f 0) t = []) by (induction Q; cbn; [reflexivity | now rewrite H]). rewrite Q1. cbn [app]. f_equal. clear Q1. induction Q; cbn; [reflexivity | rewrite H; cbn; now rewrite IHQ].
  Qed.
  Lemma recalc_ok : exists b', recalc_b debug bmin m (tabulate hp n) (tabulate hn n) peaks = Ok b' /\
    Forall2 (fun (p : R * R) y => exists v, linear_interpolant (if Rlt_dec (fst p) 0 then tn else tp) (fst p) v /\ y = Rmax bmin v) peaks b'.
  Proof.
    unfold recalc_b. fold tp tn. destruct (history_form false tn (tab_inc hn) ltac:(unfold tn; rewrite (tab_len hn); assumption)) as (fn & N1 & _ & N2). destruct (history_form false tp (tab_inc hp) ltac:(unfold tp; rewrite (tab_len hp); assumption)) as (fp & P1 & _ & P2).
    rewrite N2, P2. cbn [bind]. set (freqs := map fst peaks) in *.
    assert (Bn : forall x, 0 < fn x <= b0). { intros x. apply (interpolant_bounds tn x); [apply tab_inc | | apply N1 | apply tab_bound, Hhn]. intros C. apply (f_equal (@List.length _)) in C. unfold tn in C. rewrite (tab_len hn) in C. cbn in C. lia. }
    assert (Bp : forall x, 0 < fp x <= b0). { intros x. apply (interpolant_bounds tp x); [apply tab_inc | | apply P1 | apply tab_bound, Hhp]. intros C. apply (f_equal (@List.length _)) in C. unfold tp in C. rewrite (tab_len hp) in C. cbn in C. lia. }
    set (g := fun x => if Rlt_dec x 0 then fn x else fp x).
    assert (E : map (fun x => Some (fn x)) (filter (fun f => Rltb f 0) freqs) ++ map (fun x => Some (fp x)) (filter (fun f => negb (Rltb f 0)) freqs) = map (fun x => Some (g x)) freqs).
    { rewrite <- (split_freqs freqs Hpk) at 3. rewrite map_app. f_equal; apply map_ext_in; intros x Hx; apply filter_In in Hx; destruct Hx as [_ Hx]; unfold g; destruct (Rlt_dec x 0) as [C | C]; try reflexivity.
      - apply Rltb_spec in Hx. contradiction.
      - apply negb_true_iff, Rltb_false in Hx. lra. }
    rewrite E. assert (Bg : forall x, 0 < g x <= b0) by (intros x; unfold g; destruct (Rlt_dec x 0); auto).
    rewrite (mapM_total _ (fun y : option R => match y with Some v => Rmax bmin v | None => 0 end)).
    - eexists. split; [reflexivity |]. rewrite map_map. unfold freqs. rewrite map_map. clear - N1 P1. induction peaks as [| p t IH]; cbn [map]; constructor; [| exact IH]. exists (g (fst p)). split; [| reflexivity]. unfold g. destruct (Rlt_dec (fst p) 0); auto.
    - intros y Hy. apply in_map_iff in Hy. destruct Hy as (x & <- & _). unfold positives, cassert. assert (Q : Rltb 0 (g x) = true) by (apply Rltb_spec, Bg). rewrite Q, andb_false_r. cbn [bind]. f_equal. destruct (Rltb bmin (g x)) eqn:C; [apply Rltb_spec in C; rewrite Rmax_right; lra | apply Rltb_false in C; rewrite Rmax_left; lra].
  Qed.
End Recalc.
