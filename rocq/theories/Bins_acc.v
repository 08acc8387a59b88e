From Coq Require Import List ZArith Reals Lia Lra Psatz Permutation.
From Verif Require Import Base Bins_model Bins_spec Bins_proofs.
Import ListNotations.
Local Open Scope R_scope.

(** *** Loops *)
Fixpoint repeat_f (n : nat) (f : R -> R) (x : R) : R := match n with O => x | S n' => repeat_f n' f (f x) end.
Lemma for_loop_exists {A} (cond : R -> Prop) next (emit : R -> A) n e :
  (forall x, cond x \/ ~ cond x) -> ~ cond (repeat_f n next e) -> exists l, for_loop cond next emit e l.
Proof.
  intros D. revert e. induction n as [|n IH]; intros e H.
  - exists []. now constructor.
  - destruct (D e) as [Hc|Hc]; [|exists []; now constructor].
    destruct (IH (next e)) as [l Hl]; [|exists (emit e :: l); now constructor].
    exact H.
Qed.
Lemma for_loop_fun {A} (cond : R -> Prop) next (emit : R -> A) e l l' :
  for_loop cond next emit e l -> for_loop cond next emit e l' -> l = l'.
Proof. intros H. revert l'. induction H; intros l' H'; inversion H'; subst; try contradiction; auto. f_equal. now apply IHfor_loop. Qed.
Lemma for_loop_in {A} (cond : R -> Prop) next (emit : R -> A) e l x : for_loop cond next emit e l -> In x l -> exists e', cond e' /\ x = emit e'.
Proof. induction 1; intros Hx; [destruct Hx|]. destruct Hx as [<-|Hx]; eauto. Qed.
Lemma iter_geo r n e : repeat_f n (fun e => e * r) e = e * r ^ n.
Proof. revert e. induction n as [|n IH]; intros e; cbn [repeat_f pow]; [ring|]. rewrite IH. ring. Qed.
Lemma iter_lin d n e : repeat_f n (fun e => e - d) e = e - INR n * d.
Proof. revert e. induction n as [|n IH]; intros e; [cbn; ring|]. rewrite S_INR. cbn [repeat_f]. rewrite IH. ring. Qed.
Lemma geo_loop_exists {A} r m e (emit : R -> A) : 1 < r -> 0 < e -> exists l, for_loop (fun e => e <= m) (fun e => e * r) emit e l.
Proof.
  intros Hr He. destruct (Pow_x_infinity r ltac:(rewrite Rabs_pos_eq; lra) (m / e + 1)) as [N HN].
  apply (for_loop_exists _ _ _ N).
  - intros x. destruct (Rle_dec x m); auto.
  - rewrite iter_geo. specialize (HN N (le_n N)). rewrite Rabs_pos_eq in HN by (apply pow_le; lra).
    assert (E : e * (m / e + 1) = m + e) by (field; lra). assert (H : e * r ^ N >= e * (m / e + 1)) by (apply Rmult_ge_compat_l; lra). lra.
Qed.
Lemma INR_unbounded x : exists N, x < INR N.
Proof.
  destruct (archimed x) as [H _]. destruct (Z_le_gt_dec 0 (up x)) as [H1|H1].
  - exists (Z.to_nat (up x)). rewrite INR_IZR_INZ, Z2Nat.id by auto. lra.
  - exists 0%nat. cbn. assert (IZR (up x) < 0) by (apply IZR_lt; lia). lra.
Qed.
Lemma lin_loop_exists {A} d e (emit : R -> A) : 0 < d -> exists l, for_loop (fun e => 0 < e) (fun e => e - d) emit e l.
Proof.
  intros Hd. destruct (INR_unbounded (e / d)) as [N HN]. apply (for_loop_exists _ _ _ N).
  - intros x. destruct (Rlt_dec 0 x); auto.
  - rewrite iter_lin. assert (E : e / d * d = e) by (field; lra). assert (H : e / d * d < INR N * d) by (apply Rmult_lt_compat_r; lra). lra.
Qed.
(** The last value visited. *)
Lemma geo_loop_top {A} r m e (emit : R -> A) l : for_loop (fun e => e <= m) (fun e => e * r) emit e l -> e <= m ->
  exists e', e' <= m < e' * r /\ In (emit e') l.
Proof.
  induction 1 as [e Hn|e l Hc H IH]; intros He; [contradiction|].
  destruct (Rle_dec (e * r) m) as [H1|H1].
  - destruct (IH H1) as [e' [H2 H3]]. exists e'. split; [auto|now right].
  - exists e. split; [lra|now left].
Qed.

(** *** Sorting *)
Fixpoint ordered (l : spikes) : Prop := match l with p :: ((q :: _) as r) => fst p <= fst q /\ ordered r | _ => True end.
Lemma insert_ordered p l : ordered l -> ordered (insert_first p l).
Proof.
  induction l as [|q l IH]; intros H; [exact Logic.I|]. cbn [insert_first]. destruct (Rle_dec (fst p) (fst q)) as [H1|H1]; [split; auto|].
  destruct l as [|r l]; [cbn; lra|]. cbn in H. destruct H as [H2 H3]. specialize (IH H3).
  cbn [insert_first] in *. destruct (Rle_dec (fst p) (fst r)); split; auto; lra.
Qed.
Lemma sort_ordered l : ordered (sort_first l).
Proof. induction l as [|p l IH]; [exact Logic.I|]. now apply insert_ordered. Qed.
Lemma insert_perm p l : Permutation (insert_first p l) (p :: l).
Proof.
  induction l as [|q l IH]; [auto|]. cbn [insert_first]. destruct (Rle_dec (fst p) (fst q)); [auto|].
  eapply perm_trans; [apply perm_skip, IH|apply perm_swap].
Qed.
Lemma sort_perm l : Permutation (sort_first l) l.
Proof. induction l as [|p l IH]; [auto|]. cbn. eapply perm_trans; [apply insert_perm|now apply perm_skip]. Qed.
Lemma ordered_head p l q : ordered (p :: l) -> In q (p :: l) -> fst p <= fst q.
Proof.
  revert p. induction l as [|r l IH]; intros p H Hq; destruct Hq as [<-|Hq]; try lra; [destruct Hq|].
  destruct H as [H1 H2]. specialize (IH r H2 Hq). lra.
Qed.
Lemma ordered_non_decreasing l : ordered l -> non_decreasing l.
Proof.
  unfold non_decreasing, energy_at. induction l as [|p l IH]; intros H i j Hij; [cbn in Hij; lia|].
  assert (Ho : ordered l) by (destruct l; [exact Logic.I|apply H]).
  destruct i as [|i].
  - cbn [nth]. apply (ordered_head p l); [auto|]. destruct j as [|j]; [now left|]. right. cbn [nth]. apply nth_In. cbn in Hij. lia.
  - destruct j as [|j]; [lia|]. cbn [nth]. apply IH; [auto|]. cbn in Hij. lia.
Qed.
Lemma ordered_energies l l' : energies l = energies l' -> ordered l' -> ordered l.
Proof.
  revert l'. induction l as [|p l IH]; intros l' H Ho; [exact Logic.I|]. destruct l' as [|p' l']; [discriminate|]. cbn in H. injection H as H1 H2.
  destruct l as [|q l]; [exact Logic.I|]. destruct l' as [|q' l']; [discriminate|]. pose proof H2 as H2'. cbn in H2. injection H2 as H3 H4. destruct Ho as [H5 H6].
  split; [lra|]. exact (IH (q' :: l') H2' H6).
Qed.
Lemma last_energy_in l x : ordered l -> In x l -> fst x <= last_energy l.
Proof.
  intros Ho Hx. apply In_nth with (d := (0, (0, 0))) in Hx. destruct Hx as [i [Hi <-]].
  unfold last_energy. apply (ordered_non_decreasing l Ho i (length l - 1)%nat). lia.
Qed.
Lemma first_energy_le l x : ordered l -> In x l -> first_energy l <= fst x.
Proof. intros Ho Hx. destruct l as [|p l]; [destruct Hx|]. exact (ordered_head p l x Ho Hx). Qed.

(** *** The shifted grid *)
Section Acc.
  Variable P : bparams.
  Hypothesis HP : valid P.
  Notation a := (p_accumulation P).
  Notation r := (Rpower 10 (1 / INR (p_bins P))).
  Hypothesis Ha : 0 < a.
  Lemma ratio_gt1 : 1 < r.
  Proof.
    pose proof (bins_pos P HP) as HB. assert (H : Rpower 10 0 < r); [|rewrite Rpower_O in H; lra].
    apply Rpower_lt; [lra|]. unfold Rdiv. rewrite Rmult_1_l. now apply Rinv_0_lt_compat.
  Qed.
  Lemma DBL_MIN_pos : 0 < DBL_MIN.
  Proof. unfold DBL_MIN. apply Rinv_0_lt_compat. apply pow_lt. lra. Qed.
  Lemma acc_exists : exists b, loggrid_acc P b.
  Proof.
    destruct HP as [_ [H1 H2]].
    destruct (geo_loop_exists r (emax P) (emin P) (fun e => ((emax P - a) / emax P * e + a, wzero)) ratio_gt1 H1) as [l1 Hl1].
    assert (exists l2, if Rlt_dec 0 (p_linstep P) then for_loop (fun e => 0 < e) (fun e => e - p_linstep P) (fun e => (e, wzero)) a l2 else l2 = []) as [l2 Hl2].
    { destruct (Rlt_dec 0 (p_linstep P)); [now apply lin_loop_exists|now exists []]. }
    exists (sort_first (l1 ++ l2 ++ [(DBL_MIN, wzero)])). now exists l1, l2.
  Qed.
  Lemma acc_fun b b' : loggrid_acc P b -> loggrid_acc P b' -> b = b'.
  Proof.
    intros [l1 [l2 [H1 [H2 ->]]]] [m1 [m2 [H3 [H4 ->]]]]. rewrite (for_loop_fun _ _ _ _ _ _ H1 H3).
    destruct (Rlt_dec 0 (p_linstep P)); [now rewrite (for_loop_fun _ _ _ _ _ _ H2 H4)|now subst].
  Qed.
  Lemma shifted_pos e : e <= emax P -> 0 < e -> 0 < (emax P - a) / emax P * e + a.
  Proof.
    intros H1 H2. destruct HP as [_ [H3 H4]]. assert (Hm : 0 < emax P) by lra.
    replace ((emax P - a) / emax P * e + a) with (e + a * ((emax P - e) / emax P)) by (field; lra).
    assert (0 <= a * ((emax P - e) / emax P)).
    { apply Rmult_le_pos; [lra|]. apply Rmult_le_pos; [lra|]. left. now apply Rinv_0_lt_compat. }
    lra.
  Qed.
  Lemma geo_in {A} m e (emit : R -> A) l x : 0 < e -> for_loop (fun e => e <= m) (fun e => e * r) emit e l -> In x l -> exists e', 0 < e' <= m /\ x = emit e'.
  Proof.
    intros He H. induction H as [e Hn|e l Hc H IH]; intros Hx; [destruct Hx|]. destruct Hx as [<-|Hx]; [exists e; auto|].
    apply IH; [|auto]. apply Rmult_lt_0_compat; [auto|apply pow10_pos].
  Qed.
  Variable b0 : spikes.
  Hypothesis Hb0 : loggrid_acc P b0.
  Lemma acc_ordered : ordered b0.
  Proof. destruct Hb0 as [l1 [l2 [_ [_ ->]]]]. apply sort_ordered. Qed.
  Lemma acc_elem p : In p b0 -> 0 < fst p /\ snd p = wzero.
  Proof.
    destruct Hb0 as [l1 [l2 [H1 [H2 ->]]]]. intros Hp. apply (Permutation_in _ (sort_perm _)) in Hp. apply in_app_iff in Hp. destruct HP as [_ [H3 H4]].
    destruct Hp as [Hp|Hp].
    - destruct (geo_in _ _ _ _ _ H3 H1 Hp) as [e [[H5 H6] ->]]. split; [now apply shifted_pos|auto].
    - apply in_app_iff in Hp. destruct Hp as [Hp|[<-|[]]]; [|split; [apply DBL_MIN_pos|auto]].
      destruct (Rlt_dec 0 (p_linstep P)); [|subst l2; destruct Hp]. destruct (for_loop_in _ _ _ _ _ _ H2 Hp) as [e [H5 ->]]. auto.
  Qed.
  Lemma acc_length : (2 <= length b0)%nat.
  Proof.
    destruct Hb0 as [l1 [l2 [H1 [H2 ->]]]]. rewrite (Permutation_length (sort_perm _)), !app_length. cbn. destruct HP as [_ [H3 H4]].
    inversion H1; subst; [lra|]. cbn. lia.
  Qed.
  Lemma acc_first : first_energy b0 <= DBL_MIN.
  Proof.
    change DBL_MIN with (fst (DBL_MIN, wzero)). apply first_energy_le; [apply acc_ordered|].
    destruct Hb0 as [l1 [l2 [H1 [H2 ->]]]]. apply (Permutation_in _ (Permutation_sym (sort_perm _))). rewrite !in_app_iff. right. right. now left.
  Qed.
  Lemma acc_last : emax P / r < last_energy b0.
  Proof.
    destruct Hb0 as [l1 [l2 [H1 [H2 E]]]]. destruct HP as [_ [H3 H4]].
    destruct (geo_loop_top _ _ _ _ _ H1 ltac:(lra)) as [e [[H5 H6] Hin]].
    assert (Hin' : In ((emax P - a) / emax P * e + a, wzero) b0).
    { rewrite E. apply (Permutation_in _ (Permutation_sym (sort_perm _))). rewrite in_app_iff. now left. }
    pose proof (last_energy_in b0 _ acc_ordered Hin') as H7. cbn [fst] in H7.
    pose proof (pow10_pos (1 / INR (p_bins P))) as Hr.
    assert (H8 : emax P / r < e). { apply (Rmult_lt_reg_r r); [auto|]. replace (emax P / r * r) with (emax P) by (field; lra). auto. }
    assert (Hm : 0 < emax P) by lra.
    replace ((emax P - a) / emax P * e + a) with (e + a * ((emax P - e) / emax P)) in H7 by (field; lra).
    assert (0 <= a * ((emax P - e) / emax P)).
    { apply Rmult_le_pos; [lra|]. apply Rmult_le_pos; [lra|]. left. now apply Rinv_0_lt_compat. }
    lra.
  Qed.
End Acc.

(** *** Adding to the shifted grid *)
Lemma shared_cons p b b' w i t : shared b b' w i t -> shared (p :: b) (p :: b') w (S i) t.
Proof.
  intros [H1 [H2 [H3 H4]]]. split; [cbn; lia|]. split; [auto|]. split; [unfold energies in *; cbn [map]; now rewrite H3|].
  intros [|k]; [reflexivity|]. exact (H4 k).
Qed.
Lemma last_energy_cons p q l : last_energy (p :: q :: l) = last_energy (q :: l).
Proof. unfold last_energy, energy_at. cbn [length]. now rewrite !Nat.sub_succ, !Nat.sub_0_r. Qed.
Lemma acc_outside energy w b : ordered b -> energy < first_energy b \/ last_energy b < energy -> add_acc_loop energy w b = Ok b.
Proof.
  induction b as [|[e1 w1] b IH]; intros Ho H; [auto|]. destruct b as [|[e2 w2] b]; [auto|].
  destruct Ho as [H1 H2]. cbn [fst] in H1. rewrite last_energy_cons in H.
  assert (Hl : e2 <= last_energy ((e2, w2) :: b)) by (apply (last_energy_in _ (e2, w2)); [auto|now left]).
  assert (Hr : add_acc_loop energy w ((e2, w2) :: b) = Ok ((e2, w2) :: b)).
  { apply IH; [auto|]. unfold first_energy, energy_at in *. cbn [nth fst] in *. destruct H; [left|right]; lra. }
  cbn [add_acc_loop]. cbn [add_acc_loop] in Hr. destruct (Rle_dec e1 e2); [|contradiction].
  destruct (Rle_dec e1 energy) as [H3|H3]; [destruct (Rle_dec energy e2) as [H4|H4]|]; [|now rewrite Hr|now rewrite Hr].
  exfalso. unfold first_energy, energy_at in H. cbn [nth fst] in H. destruct H; lra.
Qed.
Lemma acc_inside energy w b : ordered b -> (2 <= length b)%nat -> first_energy b <= energy <= last_energy b ->
  exists b' i t, add_acc_loop energy w b = Ok b' /\ shared b b' w i t /\ energy_at b i <= energy <= energy_at b (S i) /\
    energy = (1 - t) * energy_at b i + t * energy_at b (S i).
Proof.
  induction b as [|[e1 w1] b IH]; intros Ho Hl H; [cbn in Hl; lia|]. destruct b as [|[e2 w2] b]; [cbn in Hl; lia|].
  destruct Ho as [H1 H2]. cbn [fst] in H1. rewrite last_energy_cons in H. unfold first_energy, energy_at at 1 in H. cbn [nth fst] in H.
  assert (Estep : add_acc_loop energy w ((e1, w1) :: (e2, w2) :: b) =
    if Rle_dec energy e2 then
      (if Req_EM_T (e2 - e1) 0 then Ok ((e1, wadd w1 (wscale (1 / 2) w)) :: (e2, wadd w2 (wscale (1 / 2) w)) :: b)
       else Ok ((e1, wadd w1 (wscale (1 - (energy - e1) / (e2 - e1)) w)) :: (e2, wadd w2 (wscale ((energy - e1) / (e2 - e1)) w)) :: b))
    else let* r' := add_acc_loop energy w ((e2, w2) :: b) in Ok ((e1, w1) :: r')).
  { cbn [add_acc_loop]. destruct (Rle_dec e1 e2); [|contradiction]. destruct (Rle_dec e1 energy); [|lra]. destruct (Rle_dec energy e2); reflexivity. }
  destruct (Rle_dec energy e2) as [H3|H3].
  - destruct (Req_EM_T (e2 - e1) 0) as [H4|H4].
    + exists ((e1, wadd w1 (wscale (1 / 2) w)) :: (e2, wadd w2 (wscale (1 / 2) w)) :: b), 0%nat, (1 / 2). split; [exact Estep|].
      split; [|unfold energy_at; cbn [nth fst]; split; lra].
      split; [cbn; lia|]. split; [lra|]. split; [auto|]. intros [|[|k]]; auto. cbn. unfold wadd, wscale. cbn. f_equal; lra.
    + set (t := (energy - e1) / (e2 - e1)). assert (Hd : 0 < e2 - e1) by lra.
      exists ((e1, wadd w1 (wscale (1 - t) w)) :: (e2, wadd w2 (wscale t w)) :: b), 0%nat, t. split; [exact Estep|].
      assert (Et : t * (e2 - e1) = energy - e1) by (unfold t; field; lra).
      assert (Ht : 0 <= t <= 1).
      { split; [apply (Rmult_le_reg_r (e2 - e1)); lra|apply (Rmult_le_reg_r (e2 - e1)); lra]. }
      split; [|unfold energy_at; cbn [nth fst]; split; lra].
      split; [cbn; lia|]. split; [auto|]. split; [auto|]. intros [|[|k]]; auto.
  - assert (Hb : b <> []). { intros ->. unfold last_energy, energy_at in H. cbn in H. lra. }
    destruct IH as [b' [i [t [E1 [E2 E3]]]]]; [auto|destruct b; [contradiction|cbn; lia]|unfold first_energy, energy_at at 1; cbn [nth fst]; lra|].
    exists ((e1, w1) :: b'), (S i), t. rewrite Estep, E1. split; [auto|]. split; [now apply shared_cons|exact E3].
Qed.
