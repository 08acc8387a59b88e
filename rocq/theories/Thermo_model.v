(** Model of the thermodynamic averages: /repo/c++/measurements.hpp (calc_ZnD, fdm_thermodynamics, calculate_TD,
    measure_singlet), /repo/c++/eigen.hpp (Values, StoredEigen, trace), /repo/c++/store.hpp (ThermoStore).
    Floating-point and multiprecision numbers are real numbers: rounding, overflow and underflow are not modelled.
    Printing and saving of the results are omitted. *)
From Coq Require Import List ZArith Reals.
From Verif Require Import Base Invar_model.
Import ListNotations.
Local Open Scope R_scope.

(** An accumulation loop. *)
Definition accumulate {A} (f : A -> R) (l : list A) : R := fold_left (fun acc a => acc + f a) l 0.

(** eigen.hpp:69-83, 437-457: the eigenvalues of one sector of store[N] with their scale and shifts, the number of kept
    states, the dimension and the last flag. *)
Record stored := {
  st_v : list R; st_scale : R; st_shift : R; st_T_shift : R; st_GS : R;
  st_kept : nat; st_dim : nat; st_last : bool }.
(** eigen.hpp:86-93 *)
Definition rel (s : stored) (i : nat) : R := nth i (st_v s) 0.
Definition abs_zero (s : stored) (i : nat) : R := (rel s i - st_shift s) * st_scale s.
Definition abs_T (s : stored) (i : nat) : R := abs_zero s i + st_T_shift s.
Definition abs_G (s : stored) (i : nat) : R := abs_T s i - st_GS s.
(** eigen.hpp:450-454 min, max, all. *)
Definition all_states (s : stored) : list nat := let m := if st_last s then 0%nat else st_kept s in seq m (st_dim s - m).
(** store.hpp:70-74, eigen.hpp:455 shift_abs_energies *)
Definition subtract_GS_energy (e : R) (s : stored) : stored :=
  {| st_v := st_v s; st_scale := st_scale s; st_shift := st_shift s; st_T_shift := st_T_shift s; st_GS := e;
     st_kept := st_kept s; st_dim := st_dim s; st_last := st_last s |}.

Definition shell := list (invar * stored).

Section Fdm.
  (** Sym->mult(I) and Sym->nr_combs(); [T] is P.T; store.Nbegin, store.Nend and store[N]; [near] is num_equal. *)
  Variables (mult : invar -> Z) (combs : nat) (T : R) (Nbegin Nend : nat) (store : nat -> shell) (near : R -> R -> bool).

  Definition Nall : list nat := seq Nbegin (Nend - Nbegin).

  (** measurements.hpp:62-78: loop over the sectors and over all(). *)
  Definition over_states (f : invar -> stored -> nat -> R) (s : shell) : R :=
    accumulate (fun p => accumulate (f (fst p) (snd p)) (all_states (snd p))) s.
  Definition ZnDG (N : nat) : R := over_states (fun J ds i => IZR (mult J) * exp (- abs_G ds i / T)) (store N).
  Definition ZnDN (N : nat) : R := over_states (fun J ds i => IZR (mult J) * exp (- abs_zero ds i / T)) (store N).
  (** measurements.hpp:79-91 *)
  Definition ZZG : R := accumulate (fun N => ZnDG N * INR combs ^ (Nend - N - 1)) Nall.
  (** measurements.hpp:92-96 *)
  Definition wnfactor (N : nat) : R := INR combs ^ (Nend - N - 1) / ZZG.
  Definition wn (N : nat) : R := wnfactor N * ZnDG N.

  (** Reading past the end of the vector of eigenvalues (eigen.hpp:86, no bounds check). *)
  Definition in_range (s : stored) : bool := forallb (fun i => Nat.ltb i (length (st_v s))) (all_states s).
  Definition reads_ok : bool := forallb (fun N => forallb (fun p => in_range (snd p)) (store N)) Nall.

  (** measurements.hpp:56-100 calc_ZnD.  Division by ZZG = 0 gives NaN, for which num_equal is false. *)
  Definition calc_ZnD : res ((nat -> R) * (nat -> R) * R * (nat -> R)) :=
    if reads_ok then
      let sumwn := accumulate wn Nall in
      if Req_EM_T ZZG 0 then Throw
      else let* _ := my_assert (near sumwn 1) in Ok (ZnDG, ZnDN, ZZG, wn)
    else UB.

  (** measurements.hpp:117-146 fdm_thermodynamics; [GS] is stats.GS_energy. *)
  Record td_fdm := { fdm_Z : R; fdm_F : R; fdm_E : R; fdm_C : R; fdm_S : R }.
  Definition cut : R := / 10 ^ 16.
  Definition state_weight (N : nat) (J : invar) (ds : stored) (i : nat) : R :=
    wn N * IZR (mult J) * exp (- abs_zero ds i / T) / ZnDN N.
  Definition fdm_moment (p : nat) : R :=
    accumulate (fun N => if Rlt_dec cut (wn N) then over_states (fun J ds i => abs_T ds i ^ p * state_weight N J ds i) (store N) else 0) Nall.
  Definition fdm_thermodynamics (GS : R) : td_fdm :=
    let F := - ln ZZG * T + GS in
    let E := fdm_moment 1 in
    let E2 := fdm_moment 2 in
    {| fdm_Z := ZZG * exp (- GS / T); fdm_F := F; fdm_E := E; fdm_C := (E2 - E * E) / T ^ 2; fdm_S := (E - F) / T |}.
End Fdm.

(** nrg-general.hpp:153-170 (run_phase): after the first pass all stored energies are referred to the ground-state energy. *)
Definition shift_abs_energies (GS : R) (store : nat -> shell) (N : nat) : shell :=
  map (fun p => (fst p, subtract_GS_energy GS (snd p))) (store N).

Section TD.
  (** DiagInfo seen by calculate_TD: each sector with its energies relative to the ground state of the step. *)
  Variables (mult : invar -> Z) (diag : list (invar * list R)) (factor : R).
  (** eigen.hpp:411-414, 559-562 trace *)
  Definition trace (fnc : R -> R) : R :=
    accumulate (fun p => IZR (mult (fst p)) * accumulate (fun x => fnc (factor * x) * exp (- factor * x)) (snd p)) diag.
  (** measurements.hpp:168-187 calculate_TD *)
  Record td := { td_Z : R; td_E : R; td_E2 : R; td_C : R; td_F : R; td_S : R }.
  Definition calculate_TD : td :=
    let Z := trace (fun _ => 1) in
    let E := trace (fun x => x) in
    let E2 := trace (fun x => x ^ 2) in
    {| td_Z := Z; td_E := E / Z; td_E2 := E2 / Z; td_C := E2 / Z - (E / Z) ^ 2; td_F := - ln Z; td_S := E / Z + ln Z |}.

  (** measurements.hpp:16-31 measure_singlet, numerics.hpp sum_of_exp, trace_exp: [m J i] is the i-th diagonal element of
      the operator in sector J. *)
  Definition measure_singlet (m : invar -> nat -> R) : R :=
    let Z := accumulate (fun p => IZR (mult (fst p)) * accumulate (fun x => exp (- factor * x)) (snd p)) diag in
    accumulate (fun p => IZR (mult (fst p)) *
      accumulate (fun ix => exp (- factor * snd ix) * m (fst p) (fst ix)) (List.combine (seq 0 (length (snd p))) (snd p))) diag / Z.
End TD.
