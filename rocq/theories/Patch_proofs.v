(** Proofs about Patch_model. *)
From Coq Require Import List ZArith Reals Lia Lra Psatz.
From Verif Require Import Base Bins_model Bins_spec Bins_proofs Patch_model Patch_spec.
Import ListNotations.
Local Open Scope R_scope.

(** Hyperbolic tangent. *)
Lemma tanh_exp x : tanh x = 1 - 2 / (exp (2 * x) + 1).
Proof.
  unfold tanh, sinh, cosh. assert (E : exp (2 * x) = exp x * exp x) by (rewrite <- exp_plus; f_equal; ring).
  rewrite E, exp_Ropp. pose proof (exp_pos x). field. repeat split; nra.
Qed.
Lemma tanh_lt x y : x < y -> tanh x < tanh y.
Proof.
  intros H. rewrite !tanh_exp. assert (exp (2 * x) < exp (2 * y)) by (apply exp_increasing; lra). pose proof (exp_pos (2 * x)).
  assert (2 / (exp (2 * y) + 1) < 2 / (exp (2 * x) + 1)); [|lra]. unfold Rdiv. apply Rmult_lt_compat_l; [lra|]. apply Rinv_lt_contravar; [apply Rmult_lt_0_compat; lra|lra].
Qed.
Lemma tanh_le x y : x <= y -> tanh x <= tanh y.
Proof. intros [H|H]; [left; now apply tanh_lt|subst; lra]. Qed.

Section Fnc.
  Variable P : pparams.
  Lemma fnc_0 : fnc P 0 = 0.
  Proof. unfold fnc. destruct (Rlt_dec 0 (p_NNtanh P)); [|reflexivity]. unfold fnc_tanh. cbv zeta. unfold Rdiv. ring. Qed.
  Lemma fnc_1 : fnc P 1 = 1.
  Proof.
    unfold fnc. destruct (Rlt_dec 0 (p_NNtanh P)) as [H|]; [|reflexivity]. unfold fnc_tanh, fnc_tanh_0. cbv zeta.
    assert (tanh (p_NNtanh P * (0 - 0.5)) < tanh (p_NNtanh P * (1 - 0.5))) by (apply tanh_lt; nra). field. lra.
  Qed.
  Lemma fnc_range x : 0 <= x <= 1 -> 0 <= fnc P x <= 1.
  Proof.
    intros Hx. unfold fnc. destruct (Rlt_dec 0 (p_NNtanh P)) as [H|]; [|unfold fnc_linear; lra]. unfold fnc_tanh, fnc_tanh_0. cbv zeta.
    set (a := p_NNtanh P) in *. assert (H1 : tanh (a * (0 - 0.5)) < tanh (a * (1 - 0.5))) by (apply tanh_lt; nra).
    assert (H2 : tanh (a * (0 - 0.5)) <= tanh (a * (x - 0.5))) by (apply tanh_le; nra).
    assert (H3 : tanh (a * (x - 0.5)) <= tanh (a * (1 - 0.5))) by (apply tanh_le; nra).
    assert (Hi : 0 < / (tanh (a * (1 - 0.5)) - tanh (a * (0 - 0.5)))) by (apply Rinv_0_lt_compat; lra).
    split; unfold Rdiv; [apply Rmult_le_pos; lra|].
    apply (Rmult_le_reg_r (tanh (a * (1 - 0.5)) - tanh (a * (0 - 0.5)))); [lra|]. rewrite Rmult_assoc, Rinv_l; lra.
  Qed.
End Fnc.

Lemma frac_range lo hi E : lo < hi -> lo <= E <= hi -> 0 <= (E - lo) / (hi - lo) <= 1.
Proof.
  intros H1 H2. assert (Hi : 0 < / (hi - lo)) by (apply Rinv_0_lt_compat; lra). split; unfold Rdiv; [apply Rmult_le_pos; lra|].
  apply (Rmult_le_reg_r (hi - lo)); [lra|]. rewrite Rmult_assoc, Rinv_l; lra.
Qed.

Section Window.
  Variable P : pparams.
  (** The window as a function of real numbers. *)
  Definition hat (s : step) (E : R) : R :=
    if Rlt_dec (lower P s) E then if Rlt_dec E (upper P s) then
      if Rle_dec E (peak P s) then if is_last P s then 1 else fnc P ((E - lower P s) / (peak P s - lower P s))
      else if is_first P s then 1 else 1 - fnc P ((E - peak P s) / (upper P s - peak P s))
    else 0 else 0.
  Definition factor : R := if p_NN2avg P then 0.5 else 1.
  Definition share (s : step) (E : R) : R := if N_for_merging P s then factor * hat s E else 0.
  Definition edges (s : step) : Prop := lower P s < peak P s < upper P s.

  Lemma window_ok s E : edges s -> lower P s < E -> E < upper P s -> windowfunction P E (lower P s) (peak P s) (upper P s) s = Ok (hat s E).
  Proof.
    intros [H1 H2] H3 H4. unfold windowfunction, hat. destruct (Rlt_dec (lower P s) E); [|contradiction]. destruct (Rlt_dec E (upper P s)); [|contradiction].
    destruct (Rle_dec E (peak P s)) as [Ha|Ha].
    - destruct (is_last P s) eqn:El; [reflexivity|]. destruct (Rle_dec (peak P s) E) as [Hb|Hb].
      + assert (E = peak P s) by lra. subst E. destruct (is_first P s) eqn:Ef.
        * f_equal. unfold Rdiv. rewrite Rinv_r, fnc_1; lra.
        * destruct (Rle_dec (peak P s) (lower P s)); [lra|]. destruct (Rle_dec (upper P s) (peak P s)); [lra|]. reflexivity.
      + destruct (Rle_dec E (lower P s)); [lra|]. destruct (Rle_dec (upper P s) E); [lra|]. reflexivity.
    - destruct (Rle_dec (peak P s) E) as [Hb|Hb]; [|lra]. destruct (is_first P s) eqn:Ef; [reflexivity|].
      destruct (Rle_dec E (lower P s)); [lra|]. destruct (Rle_dec (upper P s) E); [lra|]. destruct (Rlt_dec (peak P s) E); [reflexivity|lra].
  Qed.
  Lemma hat_range s E : edges s -> 0 <= hat s E <= 1.
  Proof.
    intros [H1 H2]. unfold hat. destruct (Rlt_dec (lower P s) E); [|lra]. destruct (Rlt_dec E (upper P s)); [|lra].
    destruct (Rle_dec E (peak P s)).
    - destruct (is_last P s); [lra|]. apply fnc_range, frac_range; lra.
    - destruct (is_first P s); [lra|]. assert (H : 0 <= fnc P ((E - peak P s) / (upper P s - peak P s)) <= 1) by (apply fnc_range, frac_range; lra). lra.
  Qed.
  Lemma wabs_eq0 w : wabs w = 0 -> w = (0, 0).
  Proof.
    unfold wabs. intros H. destruct w as [x y]. cbn in *. apply sqrt_eq_0 in H; [|nra]. f_equal; nra.
  Qed.
  Lemma merge_bin_ok s E f w : edges s -> merge_bin P s (E, f) (E, w) = Ok (E, (fst f + factor * hat s E * fst w, snd f + factor * hat s E * snd w)).
  Proof.
    intros He. unfold merge_bin. cbv zeta. cbn [fst snd]. change (scale P s * getEmin P) with (lower P s). change (scale P s * getEx P) with (peak P s).
    change (scale P s * getEmax P) with (upper P s).
    assert (Hz : Ok (E, f) = Ok (E, (fst f + factor * 0 * fst w, snd f + factor * 0 * snd w))) by (destruct f; cbn; do 3 f_equal; ring).
    destruct (Rlt_dec (lower P s) E) as [H1|H1]; [destruct (Rlt_dec E (upper P s)) as [H2|H2]|].
    - destruct (Req_EM_T (wabs w) 0) as [H3|H3].
      + apply wabs_eq0 in H3. subst w. destruct f; cbn. do 3 f_equal; ring.
      + rewrite (window_ok s E He H1 H2). cbn. unfold wadd, wscale. cbn [fst snd]. unfold factor. destruct f; cbn. do 3 f_equal; ring.
    - rewrite Hz. replace (hat s E) with 0; [reflexivity|]. unfold hat. destruct (Rlt_dec (lower P s) E); [|auto]. destruct (Rlt_dec E (upper P s)); [contradiction|auto].
    - rewrite Hz. replace (hat s E) with 0; [reflexivity|]. unfold hat. destruct (Rlt_dec (lower P s) E); [contradiction|auto].
  Qed.
  Lemma share_of_ok s E : edges s -> share_of P s E (share s E).
  Proof.
    intros He w Hw. unfold mergeNN2, share. destruct (N_for_merging P s).
    - unfold mergeNN2half. cbn [length Nat.eqb my_assert bind merge_bins].
      refine (eq_trans (f_equal (fun r => let* x := r in Ok [x]) (merge_bin_ok s E (0, 0) w He)) _). cbn. do 4 f_equal; ring.
    - do 4 f_equal; ring.
  Qed.
  Lemma share_of_fun s E x y : share_of P s E x -> share_of P s E y -> x = y.
  Proof.
    intros H1 H2. assert (Hw : wabs (1, 0) <> 0) by (intros H; apply wabs_eq0 in H; injection H; lra).
    specialize (H1 _ Hw). specialize (H2 _ Hw). rewrite H1 in H2. injection H2. cbn. lra.
  Qed.
  Fixpoint ssum (f : step -> R) (l : list step) : R := match l with [] => 0 | s :: t => f s + ssum f t end.
  Lemma share_sum_iff E l x : Forall edges l -> (share_sum P E l x <-> x = ssum (fun s => share s E) l).
  Proof.
    intros Hl. revert x. induction Hl as [|s l Hs Hl IH]; intros x; split; intros H.
    - inversion H. reflexivity.
    - subst. constructor.
    - inversion H as [|? ? a b Ha Hb]; subst. cbn. f_equal; [|now apply IH]. eapply share_of_fun; [exact Ha|now apply share_of_ok].
    - subst. cbn. constructor; [now apply share_of_ok|now apply IH].
  Qed.

  (** Whole runs. *)
  Lemma energies_cons p l : energies (p :: l) = fst p :: energies l.
  Proof. reflexivity. Qed.
  Lemma merge_bins_ok s f c : edges s -> energies f = energies c ->
    exists r, merge_bins P s f c = Ok r /\ energies r = energies f /\
      forall k, weight_at r k = (fst (weight_at f k) + factor * hat s (energy_at f k) * fst (weight_at c k), snd (weight_at f k) + factor * hat s (energy_at f k) * snd (weight_at c k)).
  Proof.
    intros He. revert c. induction f as [|[e x] f IH]; intros [|[e' y] c] H; try discriminate.
    - exists []. split; [reflexivity|]. split; [reflexivity|]. intros k. unfold weight_at. destruct k; cbn; f_equal; ring.
    - rewrite !energies_cons in H. cbn [fst] in H. injection H as <- H. cbn [merge_bins]. rewrite (merge_bin_ok s e x y He). cbn [bind].
      destruct (IH c H) as [r [-> [E1 E2]]]. cbn [bind]. eexists. split; [reflexivity|]. split; [rewrite !energies_cons; now rewrite E1|].
      intros [|k]; [reflexivity|]. exact (E2 k).
  Qed.
  Lemma mergeNN2_ok s f c : edges s -> energies f = energies c ->
    exists r, mergeNN2 P s f c = Ok r /\ energies r = energies f /\
      forall k, weight_at r k = (fst (weight_at f k) + share s (energy_at f k) * fst (weight_at c k), snd (weight_at f k) + share s (energy_at f k) * snd (weight_at c k)).
  Proof.
    intros He H. unfold mergeNN2, share. destruct (N_for_merging P s).
    - unfold mergeNN2half. rewrite (energies_length _ _ H), Nat.eqb_refl. cbn [my_assert bind]. now apply merge_bins_ok.
    - exists f. split; [reflexivity|]. split; [reflexivity|]. intros k. destruct (weight_at f k). cbn. f_equal; ring.
  Qed.
  Lemma mergeNN2_fail s f c : N_for_merging P s = true -> length f <> length c -> mergeNN2 P s f c = Throw.
  Proof. intros H1 H2. unfold mergeNN2. rewrite H1. unfold mergeNN2half. apply Nat.eqb_neq in H2. now rewrite H2. Qed.
End Window.

(** Chains of windows that fit together. *)
Section Chain.
  Variable P : pparams.
  Variable E : R.
  Notation "'H' s" := (hat P s E) (at level 10).
  Fixpoint linked (l : list step) : Prop :=
    match l with
    | s :: ((t :: _) as r) => lower P s = peak P t /\ peak P s = upper P t /\ is_first P t = false /\ is_last P s = false /\ linked r
    | _ => True
    end.
  Lemma hat_above s : upper P s <= E -> H s = 0.
  Proof. intros Hu. unfold hat. destruct (Rlt_dec (lower P s) E); [|auto]. destruct (Rlt_dec E (upper P s)); [lra|auto]. Qed.
  Lemma hat_below s : E <= lower P s -> H s = 0.
  Proof. intros Hu. unfold hat. destruct (Rlt_dec (lower P s) E); [lra|auto]. Qed.
  Lemma hat_peak s : edges P s -> E = peak P s -> H s = 1.
  Proof.
    intros [H1 H2] ->. unfold hat. destruct (Rlt_dec (lower P s) (peak P s)); [|contradiction]. destruct (Rlt_dec (peak P s) (upper P s)); [|contradiction].
    destruct (Rle_dec (peak P s) (peak P s)); [|lra]. destruct (is_last P s); [auto|]. unfold Rdiv. rewrite Rinv_r by lra. apply fnc_1.
  Qed.
  Lemma sum_above s l : Forall (edges P) (s :: l) -> linked (s :: l) -> upper P s <= E -> ssum (fun s => H s) (s :: l) = 0.
  Proof.
    revert s. induction l as [|t l IH]; intros s He Hl Hu.
    - cbn. rewrite hat_above by auto. ring.
    - destruct Hl as [L1 [L2 [_ [_ L3]]]]. inversion He as [|? ? Hs He']; subst. cbn [ssum]. rewrite hat_above by auto.
      change (ssum _ (t :: l)) with (ssum (fun s => H s) (t :: l)). cbn [ssum] in IH |- *. rewrite (IH t He' L3); [ring|]. rewrite <- L2. destruct Hs. lra.
  Qed.
  Definition top (s : step) : R := if is_first P s then 1 else 1 - fnc P ((E - peak P s) / (upper P s - peak P s)).
  Lemma sum_top s l : Forall (edges P) (s :: l) -> linked (s :: l) -> peak P s <= E < upper P s -> ssum (fun s => H s) (s :: l) = top s.
  Proof.
    intros He Hl Hu. assert (Ht : ssum (fun s => H s) l = 0).
    { destruct l as [|t l]; [reflexivity|]. destruct Hl as [L1 [L2 [_ [_ L3]]]]. inversion He; subst. apply sum_above; auto. lra. }
    cbn [ssum]. rewrite Ht, Rplus_0_r. inversion He as [|? ? [H1 H2] _]; subst. destruct (Req_dec E (peak P s)) as [Ee|Ne].
    - rewrite hat_peak by (auto; now split). unfold top. rewrite Ee. destruct (is_first P s); [auto|]. unfold Rdiv. rewrite Rminus_eq_0, Rmult_0_l, fnc_0. ring.
    - unfold hat, top. destruct (Rlt_dec (lower P s) E); [|lra]. destruct (Rlt_dec E (upper P s)); [|lra]. destruct (Rle_dec E (peak P s)); [lra|auto].
  Qed.
  Lemma sum_inside s l : Forall (edges P) (s :: l) -> linked (s :: l) -> E <= peak P s ->
    peak P (last (s :: l) s) <= E \/ (is_last P (last (s :: l) s) = true /\ lower P (last (s :: l) s) < E) -> ssum (fun s => H s) (s :: l) = 1.
  Proof.
    revert s. induction l as [|t l IH]; intros s He Hl Hu Hd.
    - cbn in Hd. cbn. inversion He as [|? ? [H1 H2] _]; subst. destruct Hd as [Hd|[Hd1 Hd2]].
      + rewrite hat_peak; [ring|now split|lra].
      + unfold hat. destruct (Rlt_dec (lower P s) E); [|contradiction]. destruct (Rlt_dec E (upper P s)); [|lra]. destruct (Rle_dec E (peak P s)); [|contradiction].
        rewrite Hd1. ring.
    - destruct Hl as [L1 [L2 [L4 [L5 L3]]]]. inversion He as [|? ? [H1 H2] He']; subst.
      assert (Hlast : last (s :: t :: l) s = last (t :: l) t).
      { change (last (s :: t :: l) s) with (last (t :: l) s). clear. revert t s. induction l as [|u l IH]; intros t s; [reflexivity|]. change (last (u :: l) s = last (u :: l) t). now rewrite (IH u s), (IH u t). }
      rewrite Hlast in Hd. destruct (Rle_dec E (peak P t)) as [Hc|Hc].
      + change (ssum (fun s => H s) (s :: t :: l)) with (H s + ssum (fun s => H s) (t :: l)). rewrite (IH t He' L3 Hc Hd). rewrite hat_below; [ring|lra].
      + change (ssum (fun s => H s) (s :: t :: l)) with (H s + ssum (fun s => H s) (t :: l)).
        destruct (Req_dec E (peak P s)) as [Ee|Ne].
        { rewrite (hat_peak s ltac:(now split) Ee), (sum_above t l He' L3); [ring|]. rewrite <- L2. lra. }
        rewrite (sum_top t l He' L3) by (rewrite <- L2; lra).
        unfold top. rewrite L4. unfold hat. destruct (Rlt_dec (lower P s) E); [|lra]. destruct (Rlt_dec E (upper P s)); [|lra]. destruct (Rle_dec E (peak P s)); [|contradiction].
        rewrite L5, L1, L2. ring.
  Qed.
End Chain.
