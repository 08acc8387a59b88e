(** Property theorems C32, C49, C50, C51, C52. *)
From Coq Require Import List ZArith Reals Lra.
From Coquelicot Require Import Coquelicot.
From Verif Require Import Base Zavg_model Zavg_spec Zavg_proofs Zavg_kernel Zavg_mesh Zavg_weight Zavg_total Zavg_aux.
Import ListNotations.
Local Open Scope R_scope.

(** C32. Averaging Nz raw spectra: the frequencies come out strictly increasing and are exactly the input frequencies, each with
    the mean of its weights; every integral over the spectrum (total weight, moments, broadened value) is the mean of the
    integrals over the inputs.  The tool that adds with operator[] gives the same. *)
Theorem C32_z_averaging : forall (Nz nrcol col : nat) (tab : nat -> list (list R)), (1 <= Nz)%nat -> (col <= nrcol)%nat ->
  (forall i, (1 <= i <= Nz)%nat -> table nrcol (tab i)) -> exists l,
    averaged merge Nz nrcol col (fun i => Some (file_of (tab i))) = Ok l /\
    averaged merge_broaden Nz nrcol col (fun i => Some (file_of (tab i))) = Ok l /\
    ascending (map fst l) /\
    (forall f, In f (map fst l) <-> exists i r, (1 <= i <= Nz)%nat /\ In r (tab i) /\ freq r = f) /\
    (forall f w, In (f, w) l -> w = mean_over Nz col tab (delta f)) /\
    (forall g, integral g l = mean_over Nz col tab g).
Proof. exact average_ok. Qed.
Print Assumptions C32_z_averaging.

(** A missing file or one with an incomplete row stops the tool. *)
Theorem C32_incomplete_input_rejected : forall mrg Nz nrcol col dir i, (1 <= i <= Nz)%nat ->
  match dir i with None => True | Some b => leftover b <> 0%nat \/ (length (doubles b) mod S nrcol <> 0)%nat end ->
  averaged mrg Nz nrcol col dir = Throw.
Proof. exact bad_file. Qed.
Print Assumptions C32_incomplete_input_rejected.

Example C32_example : (1 <= 2)%nat /\ (1 <= 1)%nat /\ (forall i, (1 <= i <= 2)%nat -> table 1 (z_tab i)) /\
  mean_over 2 1 z_tab (delta 1) = 4 /\ mean_over 2 1 z_tab (fun _ => 1) = 6.
Proof. exact z_case. Qed.

(** C49. The five reported raw moments are those of the spectrum inside the selected window. *)
Theorem C49_moments_in_window : forall low high posonly negonly l,
  moments (spm_filter low high posonly negonly l) =
    map (fun k => integral (fun f => f ^ k * spm_window low high posonly negonly f) l) [0; 1; 2; 3; 4]%nat.
Proof. exact moments_window. Qed.
Print Assumptions C49_moments_in_window.

(** Central moments: reported exactly when the total weight is not zero, about the mean, the second one equal to <w^2> - <w>^2
    and not negative when the weights are not. *)
Theorem C49_central_moments : forall l, let mom k := integral (fun f => f ^ k) l in let m := mom 1%nat / mom 0%nat in
  let cen k := integral (fun f => (f - m) ^ k) l / mom 0%nat in
  (mom 0%nat <> 0 -> central_moments l = Ok [mom 0%nat; mom 1%nat; cen 2%nat; cen 3%nat; cen 4%nat] /\ cen 2%nat = mom 2%nat / mom 0%nat - m ^ 2) /\
  (mom 0%nat = 0 -> central_moments l = Throw) /\
  (nonnegative l -> forall a b c2 c3 c4, central_moments l = Ok [a; b; c2; c3; c4] -> 0 < a /\ 0 <= c2 /\ 0 <= c4).
Proof. exact central_full. Qed.
Print Assumptions C49_central_moments.

(** Shifting all frequencies only shifts the first moment. *)
Theorem C49_central_moments_shift : forall c l a b c2 c3 c4, central_moments l = Ok [a; b; c2; c3; c4] ->
  central_moments (shifted c l) = Ok [a; b + c * a; c2; c3; c4].
Proof. exact central_shift'. Qed.
Print Assumptions C49_central_moments_shift.

Example C49_example : nonnegative z_spec /\ exists b c2 c3 c4, central_moments z_spec = Ok [6; b; c2; c3; c4].
Proof. exact z_central_case. Qed.

(** C50. Sum rules and the cumulative spectrum. *)
Theorem C50_sum_rules : forall T l, 0 < T -> let s := integrals_for_sumrules T l in
  s_sum s = integral (fun _ => 1) l /\
  s_pos s + s_neg s + integral (delta 0) l = s_sum s /\
  s_fermi s + s_fermiinv s = s_sum s /\
  s_bose s + s_boseinv s + integral (delta 0) l = s_sum s.
Proof. exact sumrules_ok. Qed.
Print Assumptions C50_sum_rules.

Theorem C50_cumulative : forall mesh l, sorted mesh -> ascending (map fst l) ->
  calc_cumulative mesh l = map (fun m => rsum (fun p => if Rlt_dec (fst p) m then snd p else 0) l) mesh.
Proof. exact cumulative_ok. Qed.
Print Assumptions C50_cumulative.

Theorem C50_cumulative_monotonic : forall m m' l, nonnegative l -> m <= m' ->
  rsum (fun p => if Rlt_dec (fst p) m then snd p else 0) l <= rsum (fun p => if Rlt_dec (fst p) m' then snd p else 0) l.
Proof. exact cumulative_grows. Qed.
Print Assumptions C50_cumulative_monotonic.

Theorem C50_filter : forall low high keeppositive keepnegative l,
  br_filter low high keeppositive keepnegative l = map (fun p => (fst p, br_window low high keeppositive keepnegative (fst p) * snd p)) l.
Proof. exact br_filter_ok. Qed.
Print Assumptions C50_filter.

Example C50_example : ascending (map fst z_spec) /\ nonnegative z_spec /\ moment 0 z_spec = 6 /\ integral (delta 0) z_spec = 2 /\ sorted [-1 / 2; 0; 1 / 2] /\
  map (fun m => below_weight m z_spec) [-1 / 2; 0; 1 / 2] = [1; 1; 3].
Proof. exact z_spec_case. Qed.

(** C51. Broadening.  For a mesh without the point zero the spectrum is the sum of the weights times a non-negative kernel: no
    assertion fires and no not-a-number appears. *)
Theorem C51_broadening : forall alpha omega0 acc sqrtpi, 0 < alpha -> 0 < omega0 -> 0 <= acc -> 0 < sqrtpi -> forall gaussian normalization l mesh,
  (forall m, In m mesh -> m <> 0) -> exists K, (forall m f, m <> 0 -> 0 <= K m f) /\
  broaden alpha omega0 acc sqrtpi gaussian normalization l mesh = Ok (map (fun m => Some (integral (K m) l)) mesh).
Proof.
  intros alpha omega0 acc sqrtpi H1 H2 H3 H4 ga no l mesh H. exists (br_kernel alpha omega0 acc sqrtpi ga no).
  exact (conj (kernel_nonneg alpha omega0 acc sqrtpi H1 H2 H3 H4 ga no) (broaden_ok alpha omega0 acc sqrtpi H1 H2 H3 H4 ga no l mesh H)).
Qed.
Print Assumptions C51_broadening.

(** The mesh made by the tool is sorted, has no zero, reaches the maximum and is symmetric when both signs are requested. *)
Theorem C51_mesh : forall min max ratio a pos neg, 0 < min -> min < max -> 1 < ratio -> 0 <= a < max ->
  exists mesh, make_mesh min max ratio a pos neg (Ok mesh) /\ (forall o, make_mesh min max ratio a pos neg o -> exists m, o = Ok m) /\
    sorted mesh /\
    (forall x, In x mesh -> 0 < Rabs x <= max /\ (0 < x -> pos = true) /\ (x < 0 -> neg = true)) /\
    (pos = true -> neg = true -> forall x, In x mesh <-> In (- x) mesh) /\
    (pos = true -> In max mesh).
Proof. exact mesh_ok. Qed.
Print Assumptions C51_mesh.

(** The kernels are symmetric in their two arguments. *)
Theorem C51_kernels_symmetric : forall alpha sqrtpi, 0 < alpha -> 0 < sqrtpi -> forall e p,
  (0 < e * p -> BR_L_orig alpha sqrtpi e p = BR_L_orig alpha sqrtpi p e) /\ forall w, BR_Gw sqrtpi w e p = BR_Gw sqrtpi w p e.
Proof. exact (fun alpha sqrtpi Ha Hp e p => conj (BR_L_symmetric alpha sqrtpi Ha Hp e p) (fun w => BR_G_symmetric sqrtpi w e p)). Qed.
Print Assumptions C51_kernels_symmetric.

(** The weight put on the interval [a,b] by a peak at p > 0 is a convex combination of Gaussian measures of the images of the
    interval under e -> ln(e/p)/alpha - alpha/4 and e -> (e-p)/omega0. *)
Theorem C51_kernel_weight : forall alpha omega0 sqrtpi p, 0 < alpha -> 0 < omega0 -> 0 < sqrtpi -> 0 < p -> forall a b, 0 < a <= b ->
  exists h, BR_h0 alpha omega0 p = Some h /\ 0 <= h <= 1 /\
    is_RInt (fun e => match bfnc alpha omega0 0 sqrtpi false true e p with Ok (Some k) => k | _ => 0 end) a b
      (h * RInt (fun t => exp (- Rsqr t) / sqrtpi) (ln (a / p) / alpha - alpha / 4) (ln (b / p) / alpha - alpha / 4) +
       (1 - h) * RInt (fun t => exp (- Rsqr t) / sqrtpi) ((a - p) / omega0) ((b - p) / omega0)).
Proof. exact weight_ok. Qed.
Print Assumptions C51_kernel_weight.

(** With the normalised cross-over and no accumulation point the broadened spectrum keeps the total weight of the raw one, for either
    kernel and for peaks of either sign and at zero. *)
Theorem C51_total_weight : forall alpha omega0, 0 < alpha -> 0 < omega0 -> forall gaussian l, exists below above,
  is_RInt_gen (fun e => match broaden1 alpha omega0 0 (sqrt PI) gaussian true l e with Ok (Some x) => x | _ => 0 end) (Rbar_locally m_infty) (at_left 0) below /\
  is_RInt_gen (fun e => match broaden1 alpha omega0 0 (sqrt PI) gaussian true l e with Ok (Some x) => x | _ => 0 end) (at_right 0) (Rbar_locally p_infty) above /\
  below + above = rsum snd l.
Proof. exact total_ok. Qed.
Print Assumptions C51_total_weight.

(** With an accumulation point the kernel of a peak above it has weight one above the point and more below it. *)
Theorem C51_accumulation_refuted : forall alpha omega0, 0 < alpha -> forall acc p, 0 < acc -> acc < p -> omega0 < p -> exists excess, 0 < excess /\
  is_RInt_gen (fun e => match bfnc alpha omega0 acc (sqrt PI) false true e p with Ok (Some k) => k | _ => 0 end) (at_right 0) (at_left acc) excess /\
  is_RInt_gen (fun e => match bfnc alpha omega0 acc (sqrt PI) false true e p with Ok (Some k) => k | _ => 0 end) (at_right acc) (Rbar_locally p_infty) 1.
Proof. exact accumulation_excess. Qed.
Print Assumptions C51_accumulation_refuted.

(** A mesh containing zero (it can be loaded from a file) gives not-a-number there, whatever the other peaks. *)
Theorem C51_zero_on_mesh_refuted : forall alpha omega0 acc sqrtpi, 0 < omega0 -> 0 <= acc -> forall gaussian normalization l f w,
  gaussian = false -> In (f, w) l -> f <> 0 -> broaden1 alpha omega0 acc sqrtpi gaussian normalization l 0 = Ok None.
Proof. exact zero_mesh. Qed.
Print Assumptions C51_zero_on_mesh_refuted.

Example C51_weight_example : 0 < 3 / 10 /\ 0 < 1 / 100 /\ rsum snd [(-1, 2); (0, 1); (1 / 1000, 3)] = 6 /\ (0 < 1 / 2 /\ 1 / 2 < 1 /\ 1 / 100 < 1).
Proof. cbn. repeat split; lra. Qed.
Example C51_example : (0 < 1 / 10 /\ 1 / 10 < 2 /\ 1 < 101 / 100 /\ 0 <= 0 < 2) /\ (forall m, In m [-1; 1] -> m <> 0).
Proof. split; [lra|]. intros m H E. simpl in H. lra. Qed.

(** C52. Thermal Green's function: the value at the n-th fermionic Matsubara frequency is the sum of w/(i w_n - f), its imaginary
    part being non-positive for non-negative weights. *)
Theorem C52_matsubara : forall T nrmats l, 0 < T -> forall n, (n < nrmats)%nat -> exists a b, nth_error (compute true T nrmats l) n = Some (Some (a, b)) /\
  a = integral (fun f => - f / (Rsqr ((2 * INR n + 1) * PI * T) + Rsqr f)) l /\
  b = - integral (fun f => (2 * INR n + 1) * PI * T / (Rsqr ((2 * INR n + 1) * PI * T) + Rsqr f)) l /\
  (nonnegative l -> b <= 0).
Proof. exact green_ok. Qed.
Print Assumptions C52_matsubara.

Theorem C52_kernel_is_inverse : forall om f, om <> 0 -> let a := - f / (om * om + f * f) in let b := - om / (om * om + f * f) in
  a * - f - b * om = 1 /\ a * om + b * - f = 0.
Proof. exact green_kernel. Qed.
Print Assumptions C52_kernel_is_inverse.

Example C52_example : 0 < 1 / 2 /\ (3 < 10)%nat /\ nonnegative z_spec.
Proof. split; [lra|]. split; [repeat constructor|exact (proj1 (proj2 z_spec_case))]. Qed.
