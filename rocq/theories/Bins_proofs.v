From Coq Require Import List ZArith Reals Lia Lra Psatz Rgeom.
From Verif Require Import Base Bins_model Bins_spec.
Import ListNotations.
Local Open Scope R_scope.

(** *** Weights *)
Lemma wadd_assoc x y z : wadd x (wadd y z) = wadd (wadd x y) z.
Proof. unfold wadd; cbn. f_equal; ring. Qed.
Lemma wadd_comm x y : wadd x y = wadd y x.
Proof. unfold wadd; cbn. f_equal; ring. Qed.
Lemma wadd_0_l x : wadd (0, 0) x = x.
Proof. destruct x; unfold wadd; cbn. f_equal; ring. Qed.
Lemma wadd_0_r x : wadd x (0, 0) = x.
Proof. destruct x; unfold wadd; cbn. f_equal; ring. Qed.
Lemma wadd_split t w : wadd (wscale (1 - t) w) (wscale t w) = w.
Proof. destruct w; unfold wadd, wscale; cbn. f_equal; ring. Qed.
Lemma wadd_half w : wadd (wscale (1 / 2) w) (wscale (1 / 2) w) = w.
Proof. destruct w; unfold wadd, wscale; cbn. f_equal; lra. Qed.
Lemma wabs_0 : wabs (0, 0) = 0.
Proof. unfold wabs; cbn. rewrite Rmult_0_l, Rplus_0_l. exact sqrt_0. Qed.
Lemma wabs_ge0 x : 0 <= wabs x.
Proof. apply sqrt_pos. Qed.
Lemma wabs_triangle x y : wabs (wadd x y) <= wabs x + wabs y.
Proof.
  pose proof (triangle 0 0 (- (fst x + fst y)) (- (snd x + snd y)) (- fst x) (- snd x)) as H.
  unfold dist_euc, Rsqr in H. unfold wabs, wadd; cbn.
  replace ((0 - - (fst x + fst y)) * (0 - - (fst x + fst y))) with ((fst x + fst y) * (fst x + fst y)) in H by ring.
  replace ((0 - - (snd x + snd y)) * (0 - - (snd x + snd y))) with ((snd x + snd y) * (snd x + snd y)) in H by ring.
  replace ((0 - - fst x) * (0 - - fst x)) with (fst x * fst x) in H by ring.
  replace ((0 - - snd x) * (0 - - snd x)) with (snd x * snd x) in H by ring.
  replace ((- fst x - - (fst x + fst y)) * (- fst x - - (fst x + fst y))) with (fst y * fst y) in H by ring.
  replace ((- snd x - - (snd x + snd y)) * (- snd x - - (snd x + snd y))) with (snd y * snd y) in H by ring.
  exact H.
Qed.

Lemma total_cons p l : total (p :: l) = wadd (snd p) (total l).
Proof. reflexivity. Qed.
Lemma total_app l m : total (l ++ m) = wadd (total l) (total m).
Proof. induction l as [|p l IH]; [cbn [app]; now rewrite wadd_0_l|]. cbn [app]. now rewrite !total_cons, IH, wadd_assoc. Qed.
Lemma sum_total l : sum_weights l = total l.
Proof.
  unfold sum_weights. assert (H : forall a, fold_left (fun acc p => wadd acc (snd p)) l a = wadd a (total l)).
  { induction l as [|p l IH]; intros a; cbn [fold_left]; [now rewrite wadd_0_r|]. now rewrite IH, total_cons, wadd_assoc. }
  rewrite H. apply wadd_0_l.
Qed.
Lemma total_zero l : (forall p, In p l -> snd p = wzero) -> total l = (0, 0).
Proof. induction l as [|p l IH]; intros H; auto. rewrite total_cons, (H p (or_introl eq_refl)), IH; [apply wadd_0_l|intros q Hq; apply H; now right]. Qed.

(** *** Adding to one bin *)
Lemma add_at_energies i w l : energies (add_at i w l) = energies l.
Proof. revert i. induction l as [|p l IH]; intros [|i]; cbn; auto. f_equal. apply IH. Qed.
Lemma energies_length l l' : energies l = energies l' -> length l = length l'.
Proof. unfold energies. intros H. apply (f_equal (@length R)) in H. now rewrite !map_length in H. Qed.
Lemma energies_at l l' i : energies l = energies l' -> energy_at l i = energy_at l' i.
Proof. intros H. unfold energy_at. rewrite <- (map_nth fst l), <- (map_nth fst l'). unfold energies in H. now rewrite H. Qed.
Lemma add_at_length i w l : length (add_at i w l) = length l.
Proof. apply energies_length, add_at_energies. Qed.
Lemma add_at_total i w l : (i < length l)%nat -> total (add_at i w l) = wadd (total l) w.
Proof.
  revert i. induction l as [|p l IH]; intros [|i] H; cbn in H; try lia; cbn [add_at]; rewrite !total_cons.
  - cbn [snd]. rewrite <- !wadd_assoc. f_equal. apply wadd_comm.
  - rewrite IH by lia. apply wadd_assoc.
Qed.
Lemma add_at_weight i w l k : (i < length l)%nat -> weight_at (add_at i w l) k = if Nat.eqb k i then wadd (weight_at l k) w else weight_at l k.
Proof.
  unfold weight_at. revert i k. induction l as [|p l IH]; intros [|i] [|k] H; cbn in H; try lia; auto.
  cbn [add_at nth Nat.eqb]. apply IH. lia.
Qed.
Lemma energies_first_last l l' : energies l = energies l' -> first_energy l = first_energy l' /\ last_energy l = last_energy l'.
Proof. intros H. unfold first_energy, last_energy. rewrite (energies_length _ _ H). split; now apply energies_at. Qed.

Lemma shared_two b w i t : (S i < length b)%nat -> 0 <= t <= 1 ->
  shared b (add_at (i + 1) (wscale t w) (add_at i (wscale (1 - t) w) b)) w i t.
Proof.
  intros Hi Ht. split; [auto|]. split; [auto|]. split; [now rewrite !add_at_energies|].
  intros k. rewrite Nat.add_1_r, add_at_weight by (rewrite add_at_length; lia). rewrite add_at_weight by lia.
  destruct (Nat.eqb_spec k i) as [->|Hk].
  - assert (E : Nat.eqb i (S i) = false) by (apply Nat.eqb_neq; lia). rewrite E. reflexivity.
  - destruct (Nat.eqb k (S i)); reflexivity.
Qed.
Lemma shared_left b w i : (S i < length b)%nat -> shared b (add_at i w b) w i 0.
Proof.
  intros Hi. split; [auto|]. split; [lra|]. split; [now rewrite !add_at_energies|].
  intros k. rewrite add_at_weight by lia. destruct (Nat.eqb k i).
  - unfold wadd. f_equal; ring.
  - destruct (Nat.eqb k (S i)); [|auto]. rewrite !Rmult_0_l, !Rplus_0_r. apply surjective_pairing.
Qed.
Lemma shared_right b w i : (S i < length b)%nat -> shared b (add_at (S i) w b) w i 1.
Proof.
  intros Hi. split; [auto|]. split; [lra|]. split; [now rewrite !add_at_energies|].
  intros k. rewrite add_at_weight by lia. destruct (Nat.eqb_spec k i) as [->|Hk].
  - assert (E : Nat.eqb i (S i) = false) by (apply Nat.eqb_neq; lia). rewrite E.
    rewrite !Rminus_eq_0, !Rmult_0_l, !Rplus_0_r. apply surjective_pairing.
  - destruct (Nat.eqb k (S i)); [|auto]. unfold wadd. f_equal; ring.
Qed.
Lemma eq_by_parts (l l' : spikes) : energies l = energies l' -> (forall k, weight_at l k = weight_at l' k) -> l = l'.
Proof.
  revert l'. induction l as [|[e w] l IH]; intros [|[e' w'] l'] H1 H2; auto; try discriminate.
  cbn in H1. injection H1 as <- H1. pose proof (H2 0%nat) as H3. cbn in H3. subst w'. f_equal. apply IH; [auto|]. intros k. exact (H2 (S k)).
Qed.
Lemma shared_total b b' w i t : shared b b' w i t -> total b' = wadd (total b) w.
Proof.
  intros [Hi [Ht [He Hw]]].
  assert (E : b' = add_at (i + 1) (wscale t w) (add_at i (wscale (1 - t) w) b)).
  { apply eq_by_parts; [now rewrite !add_at_energies|]. intros k. rewrite Hw.
    destruct (shared_two b w i t Hi Ht) as [_ [_ [_ H]]]. now rewrite H. }
  rewrite E, add_at_total by (rewrite add_at_length; lia). rewrite add_at_total by lia. now rewrite <- wadd_assoc, wadd_split.
Qed.

(** *** floor, ceil, log10 *)
Lemma floor_spec x : IZR (floor x) <= x < IZR (floor x) + 1.
Proof. unfold floor. pose proof (base_Int_part x). lra. Qed.
Lemma floor_unique x z : IZR z <= x < IZR z + 1 -> floor x = z.
Proof.
  intros H. pose proof (floor_spec x) as H'. assert (IZR z < IZR (floor x + 1)) as H1 by (rewrite plus_IZR; lra).
  assert (IZR (floor x) < IZR (z + 1)) as H2 by (rewrite plus_IZR; lra). apply lt_IZR in H1. apply lt_IZR in H2. lia.
Qed.
Lemma ceil_spec x : IZR (ceil x) - 1 < x <= IZR (ceil x).
Proof. unfold ceil. pose proof (floor_spec (- x)) as H. unfold floor in H. rewrite opp_IZR. lra. Qed.
Lemma ln10_pos : 0 < ln 10.
Proof. rewrite <- ln_1. apply ln_increasing; lra. Qed.
Lemma log10_lt x y : 0 < x -> x < y -> log10 x < log10 y.
Proof. intros H H'. unfold log10, Rdiv. apply Rmult_lt_compat_r; [apply Rinv_0_lt_compat, ln10_pos|now apply ln_increasing]. Qed.
Lemma log10_le x y : 0 < x -> x <= y -> log10 x <= log10 y.
Proof. intros H [H'| ->]; [left; now apply log10_lt|right; auto]. Qed.
Lemma ln_log10 x : ln x = log10 x * ln 10.
Proof. unfold log10. field. pose proof ln10_pos. lra. Qed.
Lemma ln_pow10 x : ln (Rpower 10 x) = x * ln 10.
Proof. unfold Rpower. apply ln_exp. Qed.
Lemma pow10_log10 x : 0 < x -> Rpower 10 (log10 x) = x.
Proof. intros H. unfold Rpower, log10. replace (ln x / ln 10 * ln 10) with (ln x) by (field; pose proof ln10_pos; lra). now apply exp_ln. Qed.
Lemma pow10_lt x y : x < y -> Rpower 10 x < Rpower 10 y.
Proof. intros H. apply Rpower_lt; lra. Qed.
Lemma pow10_le x y : x <= y -> Rpower 10 x <= Rpower 10 y.
Proof. intros [H| ->]; [left; now apply pow10_lt|right; auto]. Qed.
Lemma pow10_pos x : 0 < Rpower 10 x.
Proof. apply exp_pos. Qed.

Lemma nth_map_seq {A} (f : nat -> A) n d i : (i < n)%nat -> nth i (map f (seq 0 n)) d = f i.
Proof. intros H. rewrite (nth_indep _ d (f 0%nat)) by (rewrite map_length, seq_length; auto). now rewrite map_nth, seq_nth. Qed.

(** *** The standard grid *)
Section Std.
  Variable P : bparams.
  Hypothesis HP : valid P.
  Notation B := (INR (p_bins P)).
  Lemma bins_pos : 0 < B.
  Proof. apply lt_0_INR. apply HP. Qed.
  Definition nrb : nat := (Z.to_nat (log10emax P - log10emin P) * p_bins P + 1)%nat.
  Lemma decades : (log10emin P < log10emax P)%Z.
  Proof.
    destruct HP as [_ [H1 H2]]. apply lt_IZR. unfold log10emin, log10emax.
    pose proof (floor_spec (log10 (emin P))). pose proof (ceil_spec (log10 (emax P))). pose proof (log10_lt _ _ H1 H2). lra.
  Qed.
  Lemma grid_eq : loggrid_std P = map (fun i => (Rpower 10 (IZR (log10emin P) + INR i / B), wzero)) (seq 0 nrb).
  Proof.
    unfold loggrid_std. cbv zeta. do 3 f_equal. unfold nrb. pose proof decades.
    assert (E : floor ((IZR (log10emax P) - IZR (log10emin P)) * B + 1) = ((log10emax P - log10emin P) * Z.of_nat (p_bins P) + 1)%Z).
    { apply floor_unique. rewrite plus_IZR, mult_IZR, minus_IZR, <- INR_IZR_INZ. lra. }
    rewrite E. apply Nat2Z.inj. rewrite Nat2Z.inj_add, Nat2Z.inj_mul, !Z2Nat.id by nia. reflexivity.
  Qed.
  Lemma grid_length : length (loggrid_std P) = nrb.
  Proof. now rewrite grid_eq, map_length, seq_length. Qed.
  Lemma nrb_ge : (2 <= nrb)%nat.
  Proof.
    unfold nrb. pose proof decades. destruct HP as [H1 _]. assert (1 <= Z.to_nat (log10emax P - log10emin P))%nat by lia. nia.
  Qed.
  Lemma grid_energy i : (i < nrb)%nat -> energy_at (loggrid_std P) i = Rpower 10 (IZR (log10emin P) + INR i / B).
  Proof.
    intros Hi. unfold energy_at. rewrite grid_eq.
    now rewrite (nth_map_seq _ nrb (0, (0, 0)) i Hi).
  Qed.
  Lemma grid_increasing : increasing (loggrid_std P).
  Proof.
    intros i j [H1 H2]. rewrite grid_length in H2. rewrite !grid_energy by lia. apply pow10_lt.
    apply Rplus_lt_compat_l. apply Rmult_lt_compat_r; [apply Rinv_0_lt_compat, bins_pos|]. now apply lt_INR.
  Qed.
  Lemma grid_first : first_energy (loggrid_std P) = Rpower 10 (IZR (log10emin P)).
  Proof. unfold first_energy. pose proof nrb_ge. rewrite grid_energy by lia. f_equal. cbn. unfold Rdiv. ring. Qed.
  Lemma grid_last : last_energy (loggrid_std P) = Rpower 10 (IZR (log10emax P)).
  Proof.
    unfold last_energy. pose proof nrb_ge. rewrite grid_length, grid_energy by lia. f_equal.
    unfold nrb. rewrite Nat.add_sub, mult_INR, INR_IZR_INZ, Z2Nat.id by (pose proof decades; lia). rewrite minus_IZR.
    field. pose proof bins_pos. lra.
  Qed.
  Lemma grid_covers : first_energy (loggrid_std P) <= emin P /\ emax P <= last_energy (loggrid_std P).
  Proof.
    rewrite grid_first, grid_last. destruct HP as [_ [H1 H2]]. split.
    - apply Rle_trans with (Rpower 10 (log10 (emin P))); [apply pow10_le, floor_spec|right; now apply pow10_log10].
    - apply Rle_trans with (Rpower 10 (log10 (emax P))); [right; symmetry; apply pow10_log10; lra|apply pow10_le, ceil_spec].
  Qed.
  Lemma grid_zero p : In p (loggrid_std P) -> snd p = wzero.
  Proof. unfold loggrid_std. intros H. apply in_map_iff in H. destruct H as [i [<- _]]. reflexivity. Qed.
  Lemma grid_pos p : In p (loggrid_std P) -> 0 < fst p.
  Proof. unfold loggrid_std. intros H. apply in_map_iff in H. destruct H as [i [<- _]]. apply pow10_pos. Qed.

  (** Adding a peak. *)
  Variable b : spikes.
  Hypothesis Hb : energies b = energies (loggrid_std P).
  Lemma b_length : length b = nrb.
  Proof. rewrite (energies_length _ _ Hb). apply grid_length. Qed.
  Lemma b_energy i : (i < nrb)%nat -> energy_at b i = Rpower 10 (IZR (log10emin P) + INR i / B).
  Proof. intros Hi. rewrite (energies_at _ _ i Hb). now apply grid_energy. Qed.
  Lemma b_last : last_energy b = Rpower 10 (IZR (log10emax P)).
  Proof. destruct (energies_first_last _ _ Hb) as [_ ->]. apply grid_last. Qed.

  Lemma add_std_spec energy w : exists b' i t, add_std P energy w b = Ok b' /\ shared b b' w i t /\
    (energy < emin P -> i = 0%nat /\ t = 0) /\
    (emin P <= energy <= last_energy b -> energy_at b i <= energy <= energy_at b (S i) /\
       ln energy = (1 - t) * ln (energy_at b i) + t * ln (energy_at b (S i))) /\
    (last_energy b < energy -> S (S i) = length b /\ t = 1).
  Proof.
    pose proof nrb_ge as Hn. pose proof b_length as Hl. pose proof bins_pos as HB. destruct HP as [_ [Hmin Hmm]].
    assert (Hcov : emin P < last_energy b).
    { rewrite b_last. destruct grid_covers as [_ H]. rewrite grid_last in H. lra. }
    unfold add_std. destruct b as [|p0 b0] eqn:Eb; [cbn in Hl; lia|]. rewrite <- Eb in *. clear Eb p0 b0.
    destruct (Rlt_dec energy (emin P)) as [H1|H1].
    { exists (add_at 0 w b), 0%nat, 0. split; [auto|]. split; [apply shared_left; lia|]. split; [auto|]. split; lra. }
    cbv zeta. set (x := (log10 energy - IZR (log10emin P)) * B).
    assert (Hen : 0 < energy) by lra.
    assert (Hx : 0 <= x).
    { unfold x. apply Rmult_le_pos; [|lra]. pose proof (floor_spec (log10 (emin P))). pose proof (log10_le (emin P) energy). unfold log10emin. lra. }
    pose proof (floor_spec x) as Hf.
    assert (Hz : (0 <= floor x)%Z).
    { destruct (Z_lt_le_dec (floor x) 0) as [H|H]; [|auto]. assert (floor x <= -1)%Z as H' by lia. apply IZR_le in H'. lra. }
    destruct (Z.ltb_spec (floor x) 0) as [H|_]; [lia|].
    set (i := Z.to_nat (floor x)). assert (Ei : INR i = IZR (floor x)).
    { unfold i. now rewrite INR_IZR_INZ, Z2Nat.id. }
    assert (Hlog : log10 energy = IZR (log10emin P) + x / B).
    { unfold x. field. lra. }
    assert (Hlast : INR (nrb - 1) / B = IZR (log10emax P) - IZR (log10emin P)).
    { unfold nrb. rewrite Nat.add_sub, mult_INR, INR_IZR_INZ, Z2Nat.id by (pose proof decades; lia). rewrite minus_IZR. field. lra. }
    destruct (Nat.leb_spec (length b - 1) i) as [H2|H2].
    - assert (H3 : last_energy b <= energy).
      { rewrite b_last. pose proof (pow10_log10 energy Hen) as Hpe. rewrite <- Hpe. apply pow10_le. rewrite Hlog.
        assert (INR (nrb - 1) <= x) as H4. { rewrite Hl in H2. apply le_INR in H2. lra. }
        assert (INR (nrb - 1) / B <= x / B) as H5. { apply Rmult_le_compat_r; [left; now apply Rinv_0_lt_compat|auto]. } lra. }
      exists (add_at (length b - 1) w b), (length b - 2)%nat, 1. split; [auto|].
      assert (E2 : (length b - 1)%nat = S (length b - 2)) by lia.
      split; [rewrite E2; apply shared_right; lia|]. split; [lra|]. split.
      + intros [_ H4]. assert (E : energy = last_energy b) by lra. rewrite E. unfold last_energy. rewrite E2. split; [|lra]. split; [|lra].
        rewrite !b_energy by lia. apply pow10_le. apply Rplus_le_compat_l. apply Rmult_le_compat_r; [left; now apply Rinv_0_lt_compat|]. apply le_INR. lia.
      + intros _. split; [lia|auto].
    - exists (add_at (i + 1) (wscale (x - IZR (floor x)) w) (add_at i (wscale (1 - (x - IZR (floor x))) w) b)), i, (x - IZR (floor x)).
      split; [auto|]. split; [apply shared_two; [lia|lra]|]. split; [lra|]. split.
      + intros _. rewrite !b_energy, S_INR, Ei by lia. split.
        * pose proof (pow10_log10 energy Hen) as Hpe. rewrite Hlog in Hpe. rewrite <- Hpe. pose proof (Rinv_0_lt_compat _ HB).
          split; apply pow10_le; apply Rplus_le_compat_l; unfold Rdiv; apply Rmult_le_compat_r; lra.
        * rewrite !ln_pow10, ln_log10, Hlog. field. lra.
      + intros H3. exfalso. assert (H4 : log10 energy < IZR (log10emax P)).
        { rewrite Hlog. assert (x < INR (nrb - 1)) as H4. { rewrite Hl in H2. assert (S i <= nrb - 1)%nat as H4 by lia. apply le_INR in H4. rewrite S_INR in H4. lra. }
          assert (x / B < INR (nrb - 1) / B) as H5. { apply Rmult_lt_compat_r; [now apply Rinv_0_lt_compat|auto]. } lra. }
        apply pow10_lt in H4. rewrite pow10_log10, <- b_last in H4 by auto. lra.
  Qed.
End Std.
