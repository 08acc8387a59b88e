(** C73: what integ and resample compute. *)
From Coq Require Import List ZArith Reals Bool Lia Lra Permutation.
From Coquelicot Require Import Coquelicot.
From Verif Require Import Base Interp_model Interp_spec Resample_model Resample_spec Resample_proofs Resample_aux.
Import ListNotations.
Local Open Scope R_scope.

(** The five integrals of the interpolating function over the range of the table, its parts above and below zero, its absolute value, and with
    the weight of the Fermi-Dirac function.  The order of the lines of the table plays no role. *)
Theorem C73_integrals spline_init im v f qag tol T : im <> [] -> arranged im v -> spline_init v = Some f -> interpolates f v -> integrates qag tol ->
  let a := fst (first_of v) in let b := fst (last_of v) in let z := nearest_zero a b in
  exists r, integ spline_init qag T im = Ok r /\
    about (printed Total r) tol (RInt f a b) /\ about (printed Pos r) tol (RInt f z b) /\ about (printed Neg r) tol (RInt f a z) /\
    about (printed Abs r) tol (RInt (fun x => Rabs (f x)) a b) /\ (T <> 0 -> about (printed Fermi r) tol (RInt (fun x => f x * (1 / (1 + exp (x / T)))) a b)).
Proof. intros H1 H2 H3 H4 H5. exact (integrals_ok spline_init im v f H1 H2 H3 H4 qag tol H5 T). Qed.
Print Assumptions C73_integrals.
Example C73_integrals_nonvacuous : exists r, integ line_spline exact_qag 1 line_table = Ok r /\ printed Total r = Some 4.
Proof.
  destruct (C73_integrals line_spline line_table line_sorted line exact_qag 0 1) as (r & E & (t & Et & Ht) & _); try reflexivity; [discriminate | exact line_arranged | exact line_interpolates | exact exact_integrates |].
  exists r. split; [assumption |]. rewrite Et. change (fst (first_of line_sorted)) with (-1) in Ht. change (fst (last_of line_sorted)) with 1 in Ht. rewrite line_integral in Ht. apply Rabs_le_between in Ht. f_equal. lra.
Qed.

(** The parts sum up to the whole, and the whole is at most the integral of the absolute value. *)
Theorem C73_balance spline_init im v f qag tol T r p n t u : im <> [] -> arranged im v -> spline_init v = Some f -> interpolates f v -> integrates qag tol ->
  integ spline_init qag T im = Ok r -> printed Total r = Some t -> printed Pos r = Some p -> printed Neg r = Some n -> printed Abs r = Some u ->
  Rabs (t - (p + n)) <= 3 * tol /\ Rabs t <= u + 2 * tol.
Proof. intros H1 H2 H3 H4 H5. exact (balance spline_init im v f H1 H2 H3 H4 qag tol H5 T r p n t u). Qed.
Print Assumptions C73_balance.
Example C73_balance_nonvacuous : exists r p n t u, integ line_spline exact_qag 1 line_table = Ok r /\ printed Total r = Some t /\ printed Pos r = Some p /\ printed Neg r = Some n /\ printed Abs r = Some u /\ t = p + n.
Proof.
  destruct (C73_integrals line_spline line_table line_sorted line exact_qag 0 1) as (r & E & (t & Et & _) & (p & Ep & _) & (n & En & _) & (u & Eu & _) & _); try reflexivity; [discriminate | exact line_arranged | exact line_interpolates | exact exact_integrates |].
  exists r, p, n, t, u. repeat split; try assumption. destruct (C73_balance line_spline line_table line_sorted line exact_qag 0 1 r p n t u) as [H _]; try assumption; try reflexivity; [discriminate | exact line_arranged | exact line_interpolates | exact exact_integrates |].
  apply Rabs_le_between in H. lra.
Qed.

(** Electrons and holes: the weights for T and for -T sum up to the whole. *)
Theorem C73_particle_hole spline_init im v f qag tol T r r' x y t : im <> [] -> arranged im v -> spline_init v = Some f -> interpolates f v -> integrates qag tol ->
  T <> 0 -> integ spline_init qag T im = Ok r -> integ spline_init qag (- T) im = Ok r' -> printed Fermi r = Some x -> printed Fermi r' = Some y -> printed Total r = Some t ->
  Rabs (x + y - t) <= 3 * tol.
Proof. intros H1 H2 H3 H4 H5. exact (fermi_sum spline_init im v f H1 H2 H3 H4 qag tol H5 T r r' x y t). Qed.
Print Assumptions C73_particle_hole.
(** The occupied part of a function that is nowhere negative is between zero and the whole. *)
Theorem C73_occupied spline_init im v f qag tol T r x t : im <> [] -> arranged im v -> spline_init v = Some f -> interpolates f v -> integrates qag tol ->
  0 < T -> (forall u, fst (first_of v) <= u <= fst (last_of v) -> 0 <= f u) -> integ spline_init qag T im = Ok r -> printed Fermi r = Some x -> printed Total r = Some t ->
  - tol <= x <= t + 2 * tol.
Proof. intros H1 H2 H3 H4 H5. exact (fermi_range spline_init im v f H1 H2 H3 H4 qag tol H5 T r x t). Qed.
Print Assumptions C73_occupied.
Example C73_particle_hole_nonvacuous : exists r r' x y t, integ line_spline exact_qag 1 line_table = Ok r /\ integ line_spline exact_qag (-1) line_table = Ok r' /\ printed Fermi r = Some x /\ printed Fermi r' = Some y /\ printed Total r = Some t /\
  x + y = t /\ 0 <= x <= t.
Proof.
  destruct (C73_integrals line_spline line_table line_sorted line exact_qag 0 1) as (r & E & (t & Et & _) & _ & _ & _ & H1); try reflexivity; [discriminate | exact line_arranged | exact line_interpolates | exact exact_integrates |].
  destruct (C73_integrals line_spline line_table line_sorted line exact_qag 0 (-1)) as (r' & E' & _ & _ & _ & _ & H2); try reflexivity; [discriminate | exact line_arranged | exact line_interpolates | exact exact_integrates |].
  destruct (H1 ltac:(lra)) as (x & Ex & _). destruct (H2 ltac:(lra)) as (y & Ey & _). exists r, r', x, y, t. repeat split; try assumption.
  - assert (H : Rabs (x + y - t) <= 3 * 0). { apply (C73_particle_hole line_spline line_table line_sorted line exact_qag 0 1 r r' x y t); try assumption; try reflexivity; try lra; [discriminate | exact line_arranged | exact line_interpolates | exact exact_integrates]. }
    apply Rabs_le_between in H. lra.
  - destruct (C73_occupied line_spline line_table line_sorted line exact_qag 0 1 r x t) as [H _]; try assumption; try reflexivity; try lra; try discriminate; try exact line_arranged; try exact line_interpolates; try exact exact_integrates; try (unfold line; cbn; intros; lra).
  - destruct (C73_occupied line_spline line_table line_sorted line exact_qag 0 1 r x t) as [_ H]; try assumption; try reflexivity; try lra; try discriminate; try exact line_arranged; try exact line_interpolates; try exact exact_integrates; try (unfold line; cbn; intros; lra).
Qed.

(** Temperature zero, which the weight has as a limit, gives no number when the range is symmetric about zero. *)
Theorem C73_zero_temperature_refuted spline_init im v f qag : im <> [] -> arranged im v -> spline_init v = Some f -> interpolates f v -> uses_centre qag -> fst (first_of v) = - fst (last_of v) ->
  exists r, integ spline_init qag 0 im = Ok r /\ printed Fermi r = None.
Proof. intros H1 H2 H3 H4. exact (zero_temperature spline_init im v f H1 H2 H3 H4 qag). Qed.
Print Assumptions C73_zero_temperature_refuted.
Example C73_zero_temperature_nonvacuous : exists r, integ line_spline exact_qag 0 line_table = Ok r /\ printed Fermi r = None.
Proof. apply (C73_zero_temperature_refuted line_spline line_table line_sorted line exact_qag); try reflexivity; [discriminate | exact line_arranged | exact line_interpolates | exact exact_centre]. Qed.

(** The last of the options decides what is printed; without one it is the whole integral. *)
Theorem C73_choice options q : chosen (options ++ [q]) = q /\ chosen [] = Total.
Proof. exact (chosen_last options q). Qed.
Print Assumptions C73_choice.

(** resample: the abscissae of the grid with the values of the interpolating function; outside of the range with -e a constant, without -e no number. *)
Theorem C73_resample spline_init im v f e below above grid : im <> [] -> arranged im v -> spline_init v = Some f -> interpolates f v -> (e = true \/ (below = None /\ above = None)) ->
  let a := fst (first_of v) in let b := fst (last_of v) in
  exists l, resample spline_init e below above im grid = Ok l /\ map fst l = map fst grid /\
    forall x y, In (x, y) l ->
      (a <= x <= b -> y = Some (f x)) /\
      (x < a -> y = if e then Some (match below with Some c => c | None => snd (first_of v) end) else None) /\
      (b < x -> y = if e then Some (match above with Some c => c | None => snd (last_of v) end) else None).
Proof. intros H1 H2 H3 H4. exact (resample_ok spline_init im v f H1 H2 H3 H4 e below above grid). Qed.
Print Assumptions C73_resample.
Example C73_resample_nonvacuous : exists l, resample line_spline true (Some 7) None line_table [(-3, 0); (1/2, 0); (4, 0)] = Ok l /\ map fst l = [-3; 1/2; 4] /\ In (-3, Some 7) l /\ In (4, Some 3) l.
Proof.
  destruct (C73_resample line_spline line_table line_sorted line true (Some 7) None [(-3, 0); (1/2, 0); (4, 0)]) as (l & E & El & H); try reflexivity; [discriminate | exact line_arranged | exact line_interpolates | now left |].
  exists l. split; [assumption |]. split; [assumption |]. destruct l as [|[x1 y1] [|[x2 y2] [|[x3 y3] [|]]]]; try discriminate. cbn in El. injection El as -> -> ->.
  change (fst (first_of line_sorted)) with (-1) in H. change (fst (last_of line_sorted)) with 1 in H.
  split; [left; f_equal; apply (H (-3) y1); [now left | lra] | right; right; left; f_equal; apply (H 4 y3); [cbn; tauto | lra]].
Qed.

(** On its own grid the table is reproduced. *)
Theorem C73_own_grid spline_init im v f e below above : im <> [] -> arranged im v -> spline_init v = Some f -> interpolates f v -> (e = true \/ (below = None /\ above = None)) ->
  resample spline_init e below above im im = Ok (map (fun p => (fst p, Some (snd p))) im).
Proof. intros H1 H2 H3 H4. exact (resample_own spline_init im v f H1 H2 H3 H4 e below above). Qed.
Print Assumptions C73_own_grid.
Example C73_own_grid_nonvacuous : resample line_spline false None None line_table line_table = Ok [(1, Some 3); (-1, Some 1); (0, Some 2)].
Proof. apply (C73_own_grid line_spline line_table line_sorted line); try reflexivity; [discriminate | exact line_arranged | exact line_interpolates | right; split; reflexivity]. Qed.

(** The options -a and -b are refused without -e. *)
Theorem C73_options_refused spline_init below above im grid : (below <> None \/ above <> None) -> resample spline_init false below above im grid = Throw.
Proof. exact (resample_refused spline_init below above im grid). Qed.
Print Assumptions C73_options_refused.
Example C73_options_nonvacuous : resample line_spline false (Some 7) None line_table [(0, 0)] = Throw.
Proof. apply C73_options_refused. left. discriminate. Qed.
(** Tables without points are refused. *)
Theorem C73_empty_refused spline_init qag T e below above grid : integ spline_init qag T [] = Throw /\ resample spline_init e below above [] grid = Throw.
Proof. exact (empty_refused spline_init qag T e below above grid). Qed.
Print Assumptions C73_empty_refused.
