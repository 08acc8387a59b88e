(** C66: the Hilbert-transform tool. *)
From Coq Require Import List Reals Lra Sorted.
From Coquelicot Require Import Coquelicot.
From Verif Require Import Base Hilb_model Hilb_spec Hilb_final Hilb_aux.
Import ListNotations.
Local Open Scope R_scope.

(** Far from the real axis: with an exact integration the value is the transform, for any piecewise continuous complex density. *)
Theorem C66_direct : forall integr rhor rhoi B x y lim, exact_integration integr -> y <> 0 -> piecewise rhor rhoi (- B) B ->
  lim <= Rabs y -> hilbert_transform integr rhor rhoi B x y lim = transform rhor rhoi B (x, y).
Proof. intros. apply direct; assumption. Qed.
Print Assumptions C66_direct.
Example C66_direct_case : hilbert_transform exact_integr (Bethe 1) (fun _ => 0) 1 (1 / 2) (1 / 10) (1 / 1000)
  = transform (Bethe 1) (fun _ => 0) 1 (1 / 2, 1 / 10).
Proof. apply C66_direct; [exact exact_integr_ok | lra | exact Bethe1_piecewise | rewrite Rabs_pos_eq; lra]. Qed.

(** The tool adds the shift given on the command line to the argument, and uses 1e-3 as the limit of the direct integration. *)
Theorem C66_shift : forall integr rho B shiftx shifty x y, exact_integration integr -> piecewise rho (fun _ => 0) (- B) B ->
  1 / 1000 <= Rabs (y + shifty) ->
  hilbert integr rho B shiftx shifty x y = transform rho (fun _ => 0) B (x + shiftx, y + shifty).
Proof. exact shifted. Qed.
Print Assumptions C66_shift.
Example C66_shift_case : hilbert exact_integr (Bethe 1) 1 (1 / 2) (1 / 10) 0 0 = transform (Bethe 1) (fun _ => 0) 1 (0 + 1 / 2, 0 + 1 / 10).
Proof. apply C66_shift; [exact exact_integr_ok | exact Bethe1_piecewise | rewrite Rabs_pos_eq; lra]. Qed.

(** Near the real axis and outside the band: also. *)
Theorem C66_outside : forall integr rhor rhoi B x y lim, exact_integration integr -> y <> 0 -> 0 <= B -> piecewise rhor rhoi (- B) B ->
  Rabs y < lim -> B < Rabs x -> rhor x = 0 -> rhoi x = 0 ->
  hilbert_transform integr rhor rhoi B x y lim = transform rhor rhoi B (x, y).
Proof. intros. apply outside; assumption. Qed.
Print Assumptions C66_outside.
Example C66_outside_case : hilbert_transform exact_integr (Bethe 1) (fun _ => 0) 1 (- 2) (1 / 10000) (1 / 1000)
  = transform (Bethe 1) (fun _ => 0) 1 (- 2, 1 / 10000).
Proof.
  apply C66_outside; [exact exact_integr_ok | lra | lra | exact Bethe1_piecewise | rewrite Rabs_pos_eq; lra | | | reflexivity];
    [rewrite Rabs_left; lra|]. apply Bethe_outside; [lra|]. rewrite Rabs_left; lra.
Qed.

(** Near the real axis and inside the band: what is left out is an interval of length 2 |Im z| exp(-36.8) around Re z, and the error is
    at most 3 L |Im z| exp(-36.8) if the density is Lipschitz with constant L there. *)
Theorem C66_inside : forall integr rhor rhoi B x y lim, exact_integration integr -> y <> 0 -> piecewise rhor rhoi (- B) B ->
  forall L, Rabs y < lim -> - B < x < B -> 0 <= L ->
    (forall w, Rabs (w - x) <= Rabs y * exp (- (368 / 10)) -> - B <= w <= B ->
       Rabs (rhor w - rhor x) <= L * Rabs (w - x) /\ Rabs (rhoi w - rhoi x) <= L * Rabs (w - x)) ->
    let g := hilbert_transform integr rhor rhoi B x y lim in
    let h := transform rhor rhoi B (x, y) in
    Rabs (fst g - Re h) <= 3 * L * Rabs y * exp (- (368 / 10)) /\ Rabs (snd g - Im h) <= 3 * L * Rabs y * exp (- (368 / 10)).
Proof. intros. apply inside; assumption. Qed.
Print Assumptions C66_inside.
Example C66_inside_case : let g := hilbert_transform exact_integr Rabs (fun _ => 0) 1 (1 / 4) (1 / 10000) (1 / 1000) in
  let h := transform Rabs (fun _ => 0) 1 (1 / 4, 1 / 10000) in
  Rabs (fst g - Re h) <= 3 * 1 * Rabs (1 / 10000) * exp (- (368 / 10)) /\ Rabs (snd g - Im h) <= 3 * 1 * Rabs (1 / 10000) * exp (- (368 / 10)).
Proof.
  apply C66_inside; [exact exact_integr_ok | lra | exact cusp_piecewise | rewrite Rabs_pos_eq; lra | lra | lra |].
  intros w _ _. apply cusp_Lipschitz.
Qed.

(** On the band edges and near the real axis the integrals are left out: for every density of states that is not negative, vanishes at
    the edge and does not vanish in the band, the tool returns 0, but the real part of the transform is not 0. *)
Theorem C66_edge_refuted : forall integr rho B y lim, 0 < B -> y <> 0 -> Rabs y < lim -> piecewise rho (fun _ => 0) (- B) B ->
  (forall w, 0 <= rho w) -> rho B = 0 -> rho (- B) = 0 ->
  forall c d m, - B <= c -> c < d -> d <= B -> 0 < m -> (forall w, c < w < d -> m <= rho w) ->
  (hilbert_transform integr rho (fun _ => 0) B B y lim = (0, 0) /\ 0 < Re (transform rho (fun _ => 0) B (B, y)))
  /\ (hilbert_transform integr rho (fun _ => 0) B (- B) y lim = (0, 0) /\ Re (transform rho (fun _ => 0) B (- B, y)) < 0).
Proof.
  intros. split; split.
  - apply edge; auto.
  - eapply edge_upper; eauto.
  - apply edge; auto.
  - eapply edge_lower; eauto.
Qed.
Print Assumptions C66_edge_refuted.
Example C66_edge_refuted_case : (hilbert_transform exact_integr (Bethe 1) (fun _ => 0) 1 1 (1 / 10000) (1 / 1000) = (0, 0)
    /\ 0 < Re (transform (Bethe 1) (fun _ => 0) 1 (1, 1 / 10000)))
  /\ (hilbert_transform exact_integr (Bethe 1) (fun _ => 0) 1 (Ropp 1) (1 / 10000) (1 / 1000) = (0, 0)
    /\ Re (transform (Bethe 1) (fun _ => 0) 1 (Ropp 1, 1 / 10000)) < 0).
Proof.
  apply (C66_edge_refuted exact_integr (Bethe 1) 1 (1 / 10000) (1 / 1000)) with (c := - (1 / 2)) (d := 1 / 2) (m := 1 / 4);
    try lra; [rewrite Rabs_pos_eq; lra | exact Bethe1_piecewise | intros w; apply Bethe_pos; lra | apply Bethe1_edge; auto |
              apply Bethe1_edge; auto | exact Bethe1_quarter].
Qed.

(** Tabulated density of states: it is zero outside of the table, and the band is the smallest symmetric interval with the table in it. *)
Theorem C66_table : forall integr X splr spli x y lim, exact_integration integr -> y <> 0 -> X <> [] -> StronglySorted Rle X ->
  (forall w, hd 0 X <= w <= last X 0 -> continuous splr w /\ continuous spli w) ->
  let B := Rmax (Rabs (hd 0 X)) (Rabs (last X 0)) in
  lim <= Rabs y \/ B < Rabs x ->
  hilbert_table integr X splr spli x y lim
  = Ok (transform (zero_outside (hd 0 X) (last X 0) splr) (zero_outside (hd 0 X) (last X 0) spli) B (x, y)).
Proof. exact table. Qed.
Print Assumptions C66_table.
Example C66_table_case : hilbert_table exact_integr [0; 1; 3] (fun w => w) (fun _ => 0) (- 4) (1 / 10000) (1 / 1000)
  = Ok (transform (zero_outside 0 3 (fun w => w)) (zero_outside 0 3 (fun _ => 0)) (Rmax (Rabs 0) (Rabs 3)) (- 4, 1 / 10000)).
Proof.
  apply (C66_table exact_integr [0; 1; 3]); [exact exact_integr_ok | lra | discriminate | | |].
  - repeat constructor; lra.
  - intros w _. split; [apply continuous_id | apply continuous_const].
  - right. cbn. rewrite Rabs_R0, Rmax_right by apply Rabs_pos. rewrite (Rabs_left (-4)), Rabs_pos_eq; lra.
Qed.

(** Conversion of a self-energy: line k of the output holds the frequency and G(omega - Sigma), or -1/pi times it, with the imaginary part of
    the self-energy at most -1e-8; a mismatch of the frequencies ends the conversion there. *)
Theorem C66_selfenergy : forall h G Fr Fi out ok, do_hilb h G Fr Fi = (out, ok) ->
  (length out <= Nat.min (length Fr) (length Fi))%nat
  /\ (forall k, (k < length out)%nat -> forall dr di dout,
        let '(l1, x) := nth k Fr dr in let '(l2, y) := nth k Fi di in
        let v := h (l1 - x) (Rmax (- y) (1 / 100000000)) in
        Rabs (l1 - l2) <= 1 / 1000000
        /\ nth k out dout = ((l1, if G then fst v else - (1 / PI) * fst v), (l2, if G then snd v else - (1 / PI) * snd v)))
  /\ (ok = true -> length out = Nat.min (length Fr) (length Fi))
  /\ (ok = false -> (length out < Nat.min (length Fr) (length Fi))%nat
        /\ forall dr di, 1 / 1000000 < Rabs (fst (nth (length out) Fr dr) - fst (nth (length out) Fi di))).
Proof. exact do_hilb_spec. Qed.
Print Assumptions C66_selfenergy.
Example C66_selfenergy_case : do_hilb (fun x y => (x, y)) true [(1, 2); (3, 1)] [(1, - 5); (4, 0)] = ([((1, - 1), (1, 5))], false).
Proof.
  cbn [do_hilb]. unfold do_line. rewrite Rminus_eq_0, Rabs_R0. destruct (Rlt_dec (1 / 1000000) 0); [lra|].
  destruct (Rlt_dec (1 / 1000000) (Rabs (3 - 4))) as [|N].
  - rewrite Rmin_left by lra. cbn [fst snd]. replace (1 - 2) with (- 1) by ring. replace (- -5) with 5 by ring. reflexivity.
  - exfalso. apply N. rewrite Rabs_minus_sym, Rabs_pos_eq; lra.
Qed.

(** The spectral function made from a self-energy with imaginary part at most -1e-3 is nowhere negative. *)
Theorem C66_spectral_function : forall integr rho B Fr Fi out ok, exact_integration integr -> 0 <= B -> piecewise rho (fun _ => 0) (- B) B ->
  (forall w, 0 <= rho w) -> do_hilb (hilbert integr rho B 0 0) false Fr Fi = (out, ok) ->
  forall k dr di dout, (k < length out)%nat -> snd (nth k Fi di) <= - (1 / 1000) ->
  let '(label, re, im) := (fst (nth k Fr dr), snd (nth k Fr dr), snd (nth k Fi di)) in
  let h := transform rho (fun _ => 0) B (label - re, - im) in
  snd (fst (nth k out dout)) = - (1 / PI) * Re h /\ snd (snd (nth k out dout)) = - (1 / PI) * Im h /\ 0 <= - (1 / PI) * Im h.
Proof. exact do_hilb_nonneg. Qed.
Print Assumptions C66_spectral_function.
Example C66_spectral_function_case : let out := fst (do_hilb (hilbert exact_integr (Bethe 1) 1 0 0) false [(1 / 2, 0)] [(1 / 2, - (1 / 10))]) in
  forall dout, 0 <= snd (snd (nth 0 out dout)).
Proof.
  intros out dout. destruct (do_hilb (hilbert exact_integr (Bethe 1) 1 0 0) false [(1 / 2, 0)] [(1 / 2, - (1 / 10))]) as [o ok] eqn:E.
  assert (Hl : (0 < length o)%nat).
  { destruct (C66_selfenergy _ _ _ _ _ _ E) as (_ & _ & H1 & H2). destruct ok; [rewrite H1; cbn; auto|].
    destruct (H2 eq_refl) as [H3 H4]. assert (length o = 0)%nat as L0 by (cbn in H3; inversion H3; [reflexivity | inversion H0]).
    specialize (H4 (0, 0) (0, 0)). rewrite L0 in H4. cbn in H4. rewrite Rminus_eq_0, Rabs_R0 in H4. lra. }
  pose proof (C66_spectral_function exact_integr (Bethe 1) 1 _ _ _ _ exact_integr_ok ltac:(lra) Bethe1_piecewise
    (fun w => Bethe_pos 1 w ltac:(lra)) E 0%nat (0, 0) (0, 0) dout Hl) as H. cbn [nth fst snd] in H.
  destruct (H ltac:(lra)) as (_ & E2 & E3). cbv zeta in out. subst out. cbn [fst]. rewrite E2. exact E3.
Qed.
