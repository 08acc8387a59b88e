(** Model of the iteration over the Wilson chain: /repo/c++/step.hpp, core.hpp:320-338 (docalc0, nrg_loop),
    nrg-general.hpp:155-172 (run_phase), params.hpp:642-646 (validate_after_data_file), read-input.hpp:53-63.
    The work done at a step is an arbitrary function [iterate] of the step and the state. *)
From Coq Require Import List ZArith.
From Verif Require Import Base Patch_model.
Import ListNotations.
Local Open Scope Z_scope.

(** The parameters used here. *)
Record sparams := { sp_Ninit : nat; sp_Nmax : nat; sp_channels : nat; sp_substeps : bool; sp_calc0 : bool }.
(** read-input.hpp:59 *)
Definition determine_Nmax (substeps : bool) (channels Nmax0 : nat) : nat := if negb substeps then Nmax0 else (channels * Nmax0)%nat.
(** params.hpp:642-646 *)
Definition validate_after_data_file (p : sparams) : res unit :=
  if Nat.eqb (sp_Nmax p) 0 then Throw else if Nat.leb (sp_Nmax p) (sp_Ninit p) then Throw else Ok tt.

Section Loop.
  Variable p : sparams.
  Context {D : Type}.
  Variable iterate : step -> D -> res D.
  Variable calc0 : step -> D -> res D.

  (** step.hpp:25, 57-66 *)
  Definition step_init : step := step_set (Z.of_nat (sp_Ninit p)).
  Definition step_end (s : step) : bool := Nat.leb (sp_Nmax p) (s_ndx s).
  Definition lastndx : Z := Z.of_nat (sp_Nmax p) - 1.
  Definition step_first (s : step) : bool := Nat.eqb (s_ndx s) (sp_Ninit p).
  Definition step_last (s : step) : bool := Z.eqb (Z.of_nat (s_ndx s)) lastndx.
  (** step.hpp:39-43 NM *)
  Definition step_NM (s : step) : nat * nat := let N := Nat.div (s_ndx s) (sp_channels p) in (N, (s_ndx s - N * sp_channels p)%nat).

  (** core.hpp:334 for (step.init(); !step.end(); step.next()) as a terminating execution. *)
  Inductive nrg_for : step -> D -> res (step * D) -> Prop :=
  | for_end s d : step_end s = true -> nrg_for s d (Ok (s, d))
  | for_body s d d' r : step_end s = false -> iterate s d = Ok d' -> nrg_for (step_next s) d' r -> nrg_for s d r
  | for_throw s d : step_end s = false -> iterate s d = Throw -> nrg_for s d Throw
  | for_ub s d : step_end s = false -> iterate s d = UB -> nrg_for s d UB.
  (** core.hpp:331-338 nrg_loop: afterwards step.set(step.lastndx()). *)
  Inductive nrg_loop (d : D) : res (step * D) -> Prop :=
  | loop_ok s d' : nrg_for step_init d (Ok (s, d')) -> nrg_loop d (Ok (step_set lastndx, d'))
  | loop_throw : nrg_for step_init d Throw -> nrg_loop d Throw
  | loop_ub : nrg_for step_init d UB -> nrg_loop d UB.
  (** nrg-general.hpp:166-172: docalc0 in the first run if requested, then the loop. *)
  Inductive run_steps (nrg_run : bool) (d : D) : res (step * D) -> Prop :=
  | run_pre d' r : (nrg_run && sp_calc0 p)%bool = true -> calc0 (step_set (Z.of_nat (sp_Ninit p) - 1)) d = Ok d' -> nrg_loop d' r -> run_steps nrg_run d r
  | run_pre_throw : (nrg_run && sp_calc0 p)%bool = true -> calc0 (step_set (Z.of_nat (sp_Ninit p) - 1)) d = Throw -> run_steps nrg_run d Throw
  | run_pre_ub : (nrg_run && sp_calc0 p)%bool = true -> calc0 (step_set (Z.of_nat (sp_Ninit p) - 1)) d = UB -> run_steps nrg_run d UB
  | run_direct r : (nrg_run && sp_calc0 p)%bool = false -> nrg_loop d r -> run_steps nrg_run d r.
End Loop.
