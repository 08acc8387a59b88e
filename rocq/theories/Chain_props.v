(** Property theorems C35, C47 and C48. *)
From Coq Require Import List ZArith Reals.
From Verif Require Import Base Interp_model Interp_spec Chain_model Chain_spec Chain_lanczos Chain_moments Chain_tables Chain_flat Chain_scale Chain_aux.
Import ListNotations.
Local Open Scope R_scope.

(** C35. On a decreasing mesh and with some hybridisation inside it, the tables are accepted: theta is the hybridisation in the
    discretised range, the squares of the coefficients add up to one, and each is the share of its own interval. *)
Theorem C35_normalised : forall P vp vn Fp Fn, band vp -> band vn -> cumulated vp Fp -> cumulated vn Fn ->
  let xp k := eps P (g_pos P) (z P + INR k + 1) in
  let xn k := eps P (g_neg P) (z P + INR k + 1) in
  (forall k, (k <= mMAX P)%nat -> xp (S k) <= xp k /\ xn (S k) <= xn k) ->
  let total := (Fp (xp 0%nat) - Fp (xp (mMAX P + 1)%nat)) + (Fn (xn 0%nat) - Fn (xn (mMAX P + 1)%nat)) in
  0 < total ->
  exists r d, tables P vp vn = Ok r /\ theta r = Fin total /\
    du r = map (fun m => (Fin (fst (d m)), Fin (snd (d m)))) (seq 0 (mMAX P + 1)) /\
    sum_to (mMAX P + 1) (fun m => fst (d m) * fst (d m) + snd (d m) * snd (d m)) = 1 /\
    forall m, (m <= mMAX P)%nat -> 0 <= fst (d m) /\ 0 <= snd (d m) /\
      total * (fst (d m) * fst (d m)) = Fp (xp m) - Fp (xp (S m)) /\ total * (snd (d m) * snd (d m)) = Fn (xn m) - Fn (xn (S m)).
Proof. exact normalised_form. Qed.
Print Assumptions C35_normalised.

(** The fixed mesh always decreases, for every twist z and every number of intervals. Without any hybridisation in the
    discretised range, however, the check accepts tables of NaN. *)
Theorem C35_fixed_mesh : forall P vp vn Fp Fn, band vp -> band vn -> cumulated vp Fp -> cumulated vn Fn -> adapt P = false -> 1 < Lambda P ->
  let x k := fixed_mesh (Lambda P) (z P + INR k + 1) in
  let total := (Fp (x 0%nat) - Fp (x (mMAX P + 1)%nat)) + (Fn (x 0%nat) - Fn (x (mMAX P + 1)%nat)) in
  0 <= total /\
  (0 < total -> exists r d, tables P vp vn = Ok r /\ theta r = Fin total /\
    du r = map (fun m => (Fin (fst (d m)), Fin (snd (d m)))) (seq 0 (mMAX P + 1)) /\
    sum_to (mMAX P + 1) (fun m => fst (d m) * fst (d m) + snd (d m) * snd (d m)) = 1 /\
    forall m, (m <= mMAX P)%nat -> 0 <= fst (d m) /\ 0 <= snd (d m) /\
      total * (fst (d m) * fst (d m)) = Fp (x m) - Fp (x (S m)) /\ total * (snd (d m) * snd (d m)) = Fn (x m) - Fn (x (S m))) /\
  (total = 0 -> exists r, tables P vp vn = Ok r /\ length (du r) = (mMAX P + 1)%nat /\ forall p, In p (du r) -> p = (NaN, NaN)).
Proof. exact fixed_form. Qed.
Print Assumptions C35_fixed_mesh.

(** The check does not notice a mesh that is not decreasing: then all the coefficients are NaN and are accepted. *)
Theorem C35_nan_accepted_refuted : forall P vp vn Fp Fn m, band vp -> band vn -> cumulated vp Fp -> cumulated vn Fn ->
  let xp k := eps P (g_pos P) (z P + INR k + 1) in
  let xn k := eps P (g_neg P) (z P + INR k + 1) in
  (m <= mMAX P)%nat -> Fp (xp m) < Fp (xp (S m)) \/ Fn (xn m) < Fn (xn (S m)) ->
  exists r, tables P vp vn = Ok r /\ length (du r) = (mMAX P + 1)%nat /\ forall p, In p (du r) -> p = (NaN, NaN).
Proof. exact negative_form. Qed.
Print Assumptions C35_nan_accepted_refuted.

Example C35_example : band flat_band /\ cumulated flat_band half /\ adapt P3 = false /\
  (half (fixed_mesh 2 (1 + INR 0 + 1)) - half (fixed_mesh 2 (1 + INR 3 + 1))) + (half (fixed_mesh 2 (1 + INR 0 + 1)) - half (fixed_mesh 2 (1 + INR 3 + 1))) = 7 / 8.
Proof. exact (conj flat_band_ok (conj flat_cumulated (conj eq_refl flat_total))). Qed.
Example C35_example_empty : exists r, tables P3 zero_band zero_band = Ok r /\ du r = [(NaN, NaN); (NaN, NaN); (NaN, NaN)].
Proof. exact zero_form. Qed.
Example C35_example_growing : half (eps P4 (g_pos P4) (z P4 + INR 0 + 1)) < half (eps P4 (g_pos P4) (z P4 + INR 1 + 1)).
Proof. exact growing_mesh. Qed.

(** C47. The chain is the star seen in another orthonormal basis that starts with the state the impurity couples to: the
    coefficients are its hoppings, all positive, and its on-site energies. *)
Theorem C47_chain_is_the_star : forall M Nmax u e l, tridiag M Nmax u e = Ok l ->
  length l = (Nmax + 1)%nat /\
  exists c q xi zeta, 0 < c /\ same M u (fun m => (c * fst (q 0%nat m), c * snd (q 0%nat m))) /\ orthonormal M (Nmax + 2) q /\
    forall n, (n <= Nmax)%nat -> nth_error l n = Some (xi n, zeta n) /\ chain_form M e q xi zeta n /\ 0 < xi n.
Proof. exact chain_form_form. Qed.
Print Assumptions C47_chain_is_the_star.

(** The impurity cannot tell the chain of sites 0, ..., Nmax from the star by the moments 0, ..., 2 Nmax + 1 of the hybridisation. *)
Theorem C47_moments : forall M Nmax u e l, tridiag M Nmax u e = Ok l ->
  exists xi zeta, (forall n, (n <= Nmax)%nat -> nth_error l n = Some (xi n, zeta n)) /\
    forall k, (k <= 2 * Nmax + 1)%nat -> star_moment M u e k = star_moment M u e 0 * chain_moment Nmax xi zeta k.
Proof. exact moments_form. Qed.
Print Assumptions C47_moments.

(** The tridiagonalisation aborts only if nothing couples to the impurity or the chain ends by itself: the states found so far
    are not coupled to any other. *)
Theorem C47_aborts_only_at_the_end : forall M Nmax u e, (forall l, tridiag M Nmax u e <> Ok l) ->
  tridiag M Nmax u e = Throw /\
  (same M u zero_state \/
   exists c n q xi zeta, (n <= Nmax)%nat /\ 0 < c /\ same M u (fun m => (c * fst (q 0%nat m), c * snd (q 0%nat m))) /\ orthonormal M (n + 1) q /\
     (forall i, (i < n)%nat -> chain_form M e q xi zeta i) /\
     same M (star e (q n)) (comb3 (hop_before xi n) (before q n) (zeta n) (q n) 0 (q n))).
Proof. exact abort_form. Qed.
Print Assumptions C47_aborts_only_at_the_end.

(** The band may be given in other units: the stored coefficients are those of the star in the original units. *)
Theorem C47_bandrescale : forall M Nmax u e b L z, 0 < b -> forall l n r, tridiag M Nmax u e = Ok l -> nth_error l n = Some r ->
  exists l', tridiag M Nmax u (fun m => (b * fst (e m), b * snd (e m))) = Ok l' /\ nth_error l' n = Some (stored L z b false n r).
Proof. exact bandrescale_form. Qed.
Print Assumptions C47_bandrescale.

Example C47_example : tridiag 2 1 u4 e4 = Ok [(5, 0); (24 / 5, 0)].
Proof. exact star_example. Qed.
Example C47_example_abort : tridiag 1 0 u2 e2 = Ok [(24 / 25, - (7 / 25))] /\ tridiag 1 1 u2 e2 = Throw.
Proof. exact two_levels. Qed.

(** C48. The energies that represent the intervals of a flat band lie inside their intervals, for every twist. *)
Theorem C48_inside_interval : forall P vp vn r, band vp -> band vn -> tables P vp vn = Ok r -> flat P = true -> 1 < Lambda P -> 0 < z P ->
  length (de r) = (mMAX P + 1)%nat /\
  forall m, (m <= mMAX P)%nat -> exists a, nth_error (de r) m = Some (a, a) /\
    fixed_mesh (Lambda P) (z P + INR m + 2) < a < fixed_mesh (Lambda P) (z P + INR m + 1).
Proof. exact flat_table_form. Qed.
Print Assumptions C48_inside_interval.

(** As a function of the continuous index, that energy solves the discretisation equation: its rate of change is minus the
    hybridisation in the interval divided by the hybridisation at that energy. *)
Theorem C48_discretisation_equation : forall L, 1 < L -> forall x, 1 < x ->
  derivable_pt_lim (Eps_flat L) x (- (fixed_mesh L x - fixed_mesh L (x + 1))).
Proof. exact flat_ode. Qed.
Print Assumptions C48_discretisation_equation.

Example C48_example : flat P3 = true /\ Lambda P3 = 2 /\ z P3 = 1 /\ band flat_band.
Proof. exact (conj eq_refl (conj eq_refl (conj eq_refl flat_band_ok))). Qed.
