From Coq Require Import List ZArith Reals Lia Lra Psatz Permutation.
From Verif Require Import Base Bins_model Bins_spec Bins_proofs Bins_acc.
Import ListNotations.
Local Open Scope R_scope.

(** *** The constructor *)
Lemma limits_ok_iff P : limits_ok P = true <-> 0 < emin P /\ emin P < emax P.
Proof. unfold limits_ok. destruct (Rlt_dec 0 (emin P)), (Rlt_dec (emin P) (emax P)); split; try tauto; try (intros [? ?]; contradiction); discriminate. Qed.
Lemma construct_inv P b0 : construct P (Ok b0) -> valid P /\ (2 <= length b0)%nat /\
  if Rlt_dec 0 (p_accumulation P) then loggrid_acc P b0 else b0 = loggrid_std P.
Proof.
  unfold construct. destruct (Nat.eqb_spec (p_bins P) 0) as [H|H]; [discriminate|]. destruct (limits_ok P) eqn:E; [|discriminate].
  apply limits_ok_iff in E. assert (HP : valid P) by (split; [lia|auto]). destruct (Rlt_dec 0 (p_accumulation P)).
  - intros [b [H1 H2]]. destruct (Nat.leb_spec 2 (length b)); [|discriminate]. injection H2 as <-. auto.
  - intros H1. injection H1 as ->. split; [auto|]. split; [|auto]. rewrite grid_length by auto. now apply nrb_ge.
Qed.
Lemma construct_ok P : valid P -> exists b0, construct P (Ok b0) /\ forall r, construct P r -> r = Ok b0.
Proof.
  intros HP. unfold construct. destruct (Nat.eqb_spec (p_bins P) 0) as [H|H]; [destruct HP; lia|].
  assert (E : limits_ok P = true) by (apply limits_ok_iff; apply HP). rewrite E. destruct (Rlt_dec 0 (p_accumulation P)) as [Ha|Ha].
  - destruct (acc_exists P HP) as [b Hb]. exists b. pose proof (acc_length P HP b Hb) as Hl. apply Nat.leb_le in Hl. split.
    + exists b. split; [auto|]. now rewrite Hl.
    + intros r [b' [H1 ->]]. rewrite (acc_fun P _ _ H1 Hb). now rewrite Hl.
  - now exists (loggrid_std P).
Qed.
Lemma construct_invalid P r : ~ valid P -> construct P r -> r = Throw.
Proof.
  intros HP. unfold construct. destruct (Nat.eqb_spec (p_bins P) 0) as [H|H]; [auto|]. destruct (limits_ok P) eqn:E; [|auto].
  apply limits_ok_iff in E. exfalso. apply HP. split; [lia|auto].
Qed.

Lemma increasing_ordered l : increasing l -> ordered l.
Proof.
  induction l as [|p l IH]; intros H; [exact Logic.I|]. destruct l as [|q l]; [exact Logic.I|]. split.
  - left. apply (H 0%nat 1%nat). cbn. lia.
  - apply IH. intros i j Hij. apply (H (S i) (S j)). cbn in *. lia.
Qed.

Section Grid.
  Variables (P : bparams) (b0 : spikes).
  Hypothesis Hb0 : construct P (Ok b0).
  Lemma grid_ordered : ordered b0.
  Proof.
    destruct (construct_inv _ _ Hb0) as [HP [Hl H]]. destruct (Rlt_dec 0 (p_accumulation P)).
    - now apply (acc_ordered P).
    - subst b0. apply increasing_ordered. now apply grid_increasing.
  Qed.
  Lemma grid_elem p : In p b0 -> 0 < fst p /\ snd p = wzero.
  Proof.
    destruct (construct_inv _ _ Hb0) as [HP [Hl H]]. destruct (Rlt_dec 0 (p_accumulation P)) as [Ha|Ha].
    - now apply (acc_elem P HP Ha).
    - subst b0. intros Hp. split; [now apply (grid_pos P)|now apply (grid_zero P)].
  Qed.
  Lemma grid_total : total b0 = (0, 0).
  Proof. apply total_zero. intros p Hp. now apply grid_elem. Qed.
  Lemma grid_size : (2 <= length b0)%nat.
  Proof. now destruct (construct_inv _ _ Hb0) as [_ [H _]]. Qed.

  Lemma on_range_grid b p : energies b = energies b0 -> on_range P b p = on_range P b0 p.
  Proof. intros Hb. destruct (energies_first_last _ _ Hb) as [H1 H2]. unfold on_range. now rewrite H1, H2. Qed.
  Lemma add_ok energy w b : energies b = energies b0 -> 0 <= energy ->
    exists b', add P energy w b = Ok b' /\ energies b' = energies b /\
      total b' = wadd (total b) (total (collected P b0 [(energy, w)])).
  Proof.
    intros Hb He. pose proof (on_range_grid b (energy, w) Hb) as Hor. destruct (construct_inv _ _ Hb0) as [HP [Hl H]].
    assert (Hne : b <> []). { intros ->. apply energies_length in Hb. cbn in Hb. lia. }
    unfold collected, add. cbn [filter]. unfold not_clipped. cbn [fst snd]. rewrite <- Hor. rewrite (Rabs_pos_eq energy He).
    unfold clipped_dec, clipped. destruct (Rlt_dec (wabs w) (p_discard_immediately P * energy)) as [Hc|Hc].
    { cbn [andb]. exists b. split; [auto|]. split; [auto|]. now rewrite wadd_0_r. }
    cbn [andb]. unfold on_range. cbn [fst snd]. rewrite (Rabs_pos_eq energy He). destruct (Rlt_dec 0 (p_accumulation P)) as [Ha|Ha].
    - assert (Ho : ordered b) by (apply (ordered_energies _ _ Hb), grid_ordered).
      assert (E : add_acc energy w b = add_acc_loop energy w b) by (destruct b; [contradiction|auto]). rewrite E.
      assert (Hl' : (2 <= length b)%nat) by (rewrite (energies_length _ _ Hb); auto).
      destruct (Rle_dec (first_energy b) energy) as [H1|H1]; [destruct (Rle_dec energy (last_energy b)) as [H2|H2]|].
      + destruct (acc_inside energy w b Ho Hl' (conj H1 H2)) as [b' [i [t [E1 [E2 _]]]]]. exists b'. split; [auto|]. split; [apply E2|].
        rewrite (shared_total _ _ _ _ _ E2). cbn. unfold wadd; cbn. f_equal; ring.
      + exists b. split; [apply acc_outside; [auto|right; lra]|]. split; [auto|]. now rewrite wadd_0_r.
      + exists b. split; [apply acc_outside; [auto|left; lra]|]. split; [auto|]. now rewrite wadd_0_r.
    - subst b0. destruct (add_std_spec P HP b Hb energy w) as [b' [i [t [E1 [E2 _]]]]]. exists b'. split; [auto|]. split; [apply E2|].
      rewrite (shared_total _ _ _ _ _ E2). cbn. unfold wadd; cbn. f_equal; ring.
  Qed.

  Lemma collected_neg e w : collected P b0 [(- e, w)] = [] /\ collected P b0 [(e, w)] = [] \/
    collected P b0 [(- e, w)] = [(- e, w)] /\ collected P b0 [(e, w)] = [(e, w)].
  Proof.
    unfold collected, not_clipped, on_range. cbn [filter fst snd]. rewrite Rabs_Ropp.
    destruct (clipped_dec P (Rabs e) w), (Rlt_dec 0 (p_accumulation P)), (Rle_dec (first_energy b0) (Rabs e)), (Rle_dec (Rabs e) (last_energy b0)); cbn; auto.
  Qed.
  Definition on (c : chain) : Prop := energies (fst c) = energies b0 /\ energies (snd c) = energies b0.
  Lemma chain_add_ok energy w c : on c ->
    exists c', chain_add P energy w c = Ok c' /\ on c' /\ chain_total c' = wadd (chain_total c) (total (collected P b0 [(energy, w)])).
  Proof.
    intros [H1 H2]. unfold chain_add, chain_total. destruct (Rle_dec 0 energy) as [He|He].
    - destruct (add_ok energy w (fst c) H1 He) as [s [E1 [E2 E3]]]. rewrite E1. exists (s, snd c). split; [auto|]. split; [split; cbn [fst snd]; congruence|].
      cbn [fst snd]. rewrite !sum_total, E3, <- !wadd_assoc. f_equal. apply wadd_comm.
    - destruct (add_ok (- energy) w (snd c) H2 ltac:(lra)) as [s [E1 [E2 E3]]]. rewrite E1. exists (fst c, s). split; [auto|]. split; [split; cbn [fst snd]; congruence|].
      cbn [fst snd]. rewrite !sum_total, E3, <- !wadd_assoc. do 2 f_equal. destruct (collected_neg energy w) as [[-> ->]|[-> ->]]; reflexivity.
  Qed.
  Lemma collected_app l m : collected P b0 (l ++ m) = collected P b0 l ++ collected P b0 m.
  Proof. apply filter_app. Qed.
  Lemma chain_add_all_ok l c : on c ->
    exists c', chain_add_all P l c = Ok c' /\ on c' /\ chain_total c' = wadd (chain_total c) (total (collected P b0 l)).
  Proof.
    revert c. induction l as [|[e w] l IH]; intros c Hc.
    - exists c. cbn. split; [auto|]. split; [auto|]. now rewrite wadd_0_r.
    - destruct (chain_add_ok e w c Hc) as [c1 [E1 [H1 T1]]]. destruct (IH c1 H1) as [c2 [E2 [H2 T2]]].
      exists c2. cbn [chain_add_all fst snd]. rewrite E1. cbn [bind]. split; [auto|]. split; [auto|].
      change ((e, w) :: l) with ([(e, w)] ++ l). now rewrite T2, T1, collected_app, total_app, <- !wadd_assoc.
  Qed.
End Grid.

(** *** Merging *)
Lemma merge_loop_ok b c : energies b = energies c ->
  exists r, merge_loop b c = Ok r /\ energies r = energies b /\ (forall k, weight_at r k = wadd (weight_at b k) (weight_at c k)) /\
    total r = wadd (total b) (total c).
Proof.
  revert c. induction b as [|[e w] b IH]; intros [|[e' w'] c] H; try discriminate.
  - exists []. split; [auto|]. split; [auto|]. split; [intros [|k]; cbn; now rewrite wadd_0_l|]. cbn. now rewrite wadd_0_l.
  - cbn in H. injection H as <- H. destruct (IH c H) as [r [E1 [E2 [E3 E4]]]]. exists ((e, wadd w w') :: r).
    cbn [merge_loop]. destruct (Req_EM_T e e) as [_|Hn]; [|contradiction]. rewrite E1. split; [auto|]. split; [unfold energies in *; cbn [map]; now rewrite E2|].
    split; [intros [|k]; [reflexivity|exact (E3 k)]|]. rewrite !total_cons, E4. cbn [snd]. rewrite <- !wadd_assoc. f_equal. rewrite !wadd_assoc. f_equal. apply wadd_comm.
Qed.
Lemma merge_ok b c : energies b = energies c ->
  exists r, merge b c = Ok r /\ energies r = energies b /\ (forall k, weight_at r k = wadd (weight_at b k) (weight_at c k)) /\
    total r = wadd (total b) (total c).
Proof. intros H. unfold merge. rewrite (energies_length _ _ H), Nat.eqb_refl. now apply merge_loop_ok. Qed.
Lemma merge_fail b c : energies b <> energies c -> merge b c = Throw.
Proof.
  intros H. unfold merge. destruct (Nat.eqb_spec (length b) (length c)) as [Hl|Hl]; [|auto]. cbn [my_assert bind].
  revert c H Hl. induction b as [|[e w] b IH]; intros [|[e' w'] c] H Hl; try discriminate; [contradiction H; auto|].
  cbn [merge_loop]. destruct (Req_EM_T e e') as [<-|Hn]; [|auto]. rewrite IH; [auto| |cbn in Hl; lia].
  intros E. apply H. unfold energies in *. cbn [map]. now rewrite E.
Qed.

Section Run.
  Variables (P : bparams) (b0 : spikes).
  Hypothesis Hb0 : construct P (Ok b0).
  Notation on := (on b0).
  Lemma mergeCFS_ok fs cs : on fs -> on cs -> exists r, mergeCFS fs cs = Ok r /\ on r /\ chain_total r = wadd (chain_total fs) (chain_total cs).
  Proof.
    intros [H1 H2] [H3 H4]. destruct (merge_ok (fst fs) (fst cs) ltac:(congruence)) as [p [E1 [E2 [_ E3]]]].
    destruct (merge_ok (snd fs) (snd cs) ltac:(congruence)) as [n [F1 [F2 [_ F3]]]].
    exists (p, n). unfold mergeCFS. rewrite E1. cbn [bind]. rewrite F1. split; [auto|]. split; [split; cbn [fst snd]; congruence|].
    unfold chain_total. cbn [fst snd]. rewrite !sum_total, E3, F3. unfold wadd. cbn. f_equal; ring.
  Qed.
  Lemma collect_steps_ok steps fs : on fs ->
    exists r, collect_steps P b0 steps fs = Ok r /\ on r /\ chain_total r = wadd (chain_total fs) (total (collected P b0 (concat steps))).
  Proof.
    revert fs. induction steps as [|l steps IH]; intros fs Hf.
    - exists fs. cbn. split; [auto|]. split; [auto|]. now rewrite wadd_0_r.
    - destruct (chain_add_all_ok P b0 Hb0 l (b0, b0) (conj eq_refl eq_refl)) as [cs [E1 [H1 T1]]].
      destruct (mergeCFS_ok fs cs Hf H1) as [f1 [E2 [H2 T2]]]. destruct (IH f1 H2) as [r [E3 [H3 T3]]].
      exists r. cbn [collect_steps]. rewrite E1. cbn [bind]. rewrite E2. cbn [bind]. split; [auto|]. split; [auto|].
      rewrite T3, T2, T1. cbn [concat]. rewrite collected_app, total_app. unfold chain_total at 2. cbn [fst snd]. rewrite !sum_total, (grid_total P b0 Hb0), !wadd_0_l.
      now rewrite <- !wadd_assoc.
  Qed.
  Lemma run_ok steps : exists r, collect_steps P b0 steps (b0, b0) = Ok r /\ energies (fst r) = energies b0 /\ energies (snd r) = energies b0 /\
    chain_total r = total (collected P b0 (concat steps)).
  Proof.
    destruct (collect_steps_ok steps (b0, b0) (conj eq_refl eq_refl)) as [r [E [[H1 H2] T]]]. exists r. split; [auto|]. split; [auto|]. split; [auto|].
    rewrite T. unfold chain_total. cbn [fst snd]. now rewrite !sum_total, (grid_total P b0 Hb0), !wadd_0_l.
  Qed.
  Lemma mapM_pos l : energies l = energies b0 -> mapM (fun p => if Rlt_dec 0 (fst p) then Ok p else Throw) l = Ok l.
  Proof.
    intros H. rewrite (mapM_ok _ (fun p => p)); [now rewrite map_id|]. intros p Hp. destruct (Rlt_dec 0 (fst p)) as [_|Hn]; [auto|]. exfalso. apply Hn.
    assert (Hi : In (fst p) (energies b0)) by (rewrite <- H; now apply in_map). apply in_map_iff in Hi. destruct Hi as [q [<- Hq]]. now apply (grid_elem P b0 Hb0).
  Qed.
  Lemma savebins_ok fs : on fs -> savebins fs = Ok (fst fs ++ map (fun p => (- fst p, snd p)) (snd fs)).
  Proof.
    intros [H1 H2]. unfold savebins. rewrite mapM_pos by auto. cbn [bind].
    rewrite (mapM_ok _ (fun p => (- fst p, snd p))); [auto|]. intros p Hp. destruct (Rlt_dec (- fst p) 0) as [_|Hn]; [auto|]. exfalso. apply Hn.
    assert (Hi : In (fst p) (energies b0)) by (rewrite <- H2; now apply in_map). apply in_map_iff in Hi. destruct Hi as [q [<- Hq]].
    pose proof (proj1 (grid_elem P b0 Hb0 q Hq)). lra.
  Qed.
End Run.

(** *** Trimming *)
Section Trim.
  Variable P : bparams.
  Lemma heavy_cons (p q : R * weight) (l : spikes) i : heavy P (p :: q :: l) (S i) = heavy P (q :: l) i.
  Proof. reflexivity. Qed.
  Lemma filter_shift (p q : R * weight) (b : spikes) l : map (fun i => nth i (p :: q :: b) (0, (0, 0))) (filter (heavy P (p :: q :: b)) (map S l)) =
      map (fun i => nth i (q :: b) (0, (0, 0))) (filter (heavy P (q :: b)) l).
  Proof. induction l as [|i l IH]; [auto|]. cbn [map filter]. rewrite heavy_cons. destruct (heavy P _ i); [apply (f_equal2 cons); [reflexivity|exact IH]|exact IH]. Qed.
  Lemma trim_step p q b : trim_loop P (p :: q :: b) =
    if Rle_dec (fst p) (fst q) then
      let* t := trim_loop P (q :: b) in Ok (if Rle_dec (p_discard_trim P * (fst q - fst p)) (wabs (snd p)) then p :: t else t)
    else Throw.
  Proof. reflexivity. Qed.
  Lemma trim_loop_ok b : ordered b -> trim_loop P b = Ok (map (fun i => nth i b (0, (0, 0))) (filter (heavy P b) (seq 0 (length b)))).
  Proof.
    induction b as [|p b IH]; intros Ho; [auto|]. destruct b as [|q b].
    { cbn. now destruct p. }
    destruct Ho as [H1 H2]. specialize (IH H2). rewrite trim_step.
    remember (q :: b) as r.
    destruct (Rle_dec (fst p) (fst q)); [|contradiction].
    rewrite IH. cbn [bind]. f_equal. cbn [length seq filter]. rewrite <- seq_shift.
    assert (Ef : map (fun i => nth i (p :: r) (0, (0, 0))) (filter (heavy P (p :: r)) (map S (seq 0 (length r)))) =
      map (fun i => nth i r (0, (0, 0))) (filter (heavy P r) (seq 0 (length r)))).
    { subst r. apply filter_shift. }
    assert (E0 : heavy P (p :: r) 0 = if Rle_dec (p_discard_trim P * (fst q - fst p)) (wabs (snd p)) then true else false) by (subst r; reflexivity).
    rewrite E0. destruct (Rle_dec _ _); [cbn [map nth]; f_equal|]; symmetry; exact Ef.
  Qed.
  Lemma trim_ok b : ordered b -> b <> [] -> trim P b = Ok (map (fun i => nth i b (0, (0, 0))) (filter (heavy P b) (seq 0 (length b)))).
  Proof. intros Ho Hb. unfold trim. destruct b; [contradiction|]. now apply trim_loop_ok. Qed.
  Lemma trim_loss b b' : 0 <= p_discard_trim P -> ordered b -> trim_loop P b = Ok b' ->
    wabs (wsub (total b) (total b')) <= p_discard_trim P * (last_energy b - first_energy b).
  Proof.
    intros Hd. revert b'. induction b as [|p b IH]; intros b' Ho H.
    { injection H as <-. unfold wsub, last_energy, first_energy, energy_at. cbn. rewrite !Rminus_eq_0, wabs_0. lra. }
    destruct b as [|q b].
    { injection H as <-. unfold wsub, last_energy, first_energy, energy_at. cbn [length Nat.sub nth]. rewrite !Rminus_eq_0, wabs_0. lra. }
    destruct Ho as [H1 H2]. rewrite last_energy_cons. unfold first_energy, energy_at. cbn [nth].
    rewrite trim_step in H. remember (q :: b) as r. destruct (Rle_dec (fst p) (fst q)); [|contradiction].
    destruct (trim_loop P r) as [t| |] eqn:E; try discriminate. cbn [bind] in H. injection H as <-. specialize (IH t H2 eq_refl).
    assert (Ef : first_energy r = fst q) by (subst r; reflexivity). rewrite Ef in IH.
    assert (Hw : 0 <= p_discard_trim P * (fst q - fst p)) by (apply Rmult_le_pos; lra).
    destruct (Rle_dec _ _) as [H3|H3].
    - rewrite !total_cons. assert (E3 : wsub (wadd (snd p) (total r)) (wadd (snd p) (total t)) = wsub (total r) (total t)) by (unfold wsub, wadd; cbn; f_equal; ring). rewrite E3. lra.
    - rewrite total_cons. assert (E3 : wsub (wadd (snd p) (total r)) (total t) = wadd (snd p) (wsub (total r) (total t))) by (unfold wsub, wadd; cbn; f_equal; ring). rewrite E3.
      pose proof (wabs_triangle (snd p) (wsub (total r) (total t))). lra.
  Qed.
End Trim.

(** *** Temperature dependence *)
Lemma add_value_total e w l : total (add_value e w l) = wadd (total l) w.
Proof.
  induction l as [|[e' x] l IH]; cbn [add_value]; [rewrite total_cons; cbn [snd]; apply wadd_comm|].
  destruct (Req_EM_T e' e); rewrite !total_cons; cbn [snd].
  - rewrite <- !wadd_assoc. f_equal. apply wadd_comm.
  - rewrite IH. apply wadd_assoc.
Qed.
Lemma add_value_in e w l x : In x (energies (add_value e w l)) <-> x = e \/ In x (energies l).
Proof.
  induction l as [|[e' y] l IH]; cbn [add_value].
  - cbn. intuition.
  - destruct (Req_EM_T e' e) as [->|Hn]; cbn; [intuition|]. unfold energies in IH. rewrite IH. intuition.
Qed.
Lemma add_value_nodup e w l : NoDup (energies l) -> NoDup (energies (add_value e w l)).
Proof.
  induction l as [|[e' y] l IH]; cbn [add_value]; intros H.
  - repeat constructor. intros [].
  - inversion H; subst. destruct (Req_EM_T e' e) as [->|Hn]; [auto|]. constructor; [|auto]. intros Hi. apply add_value_in in Hi. destruct Hi; [contradiction|auto].
Qed.
