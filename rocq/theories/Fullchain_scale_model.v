(** The ratio of the energy scales of successive steps: /repo/c++/params.hpp. *)
From Coq Require Import Reals ZArith.
From Verif Require Import Patch_model.
Local Open Scope R_scope.

(** params.hpp:732-735 *)
Definition nrg_step_scale_factor (P : pparams) : R :=
  if p_absolute P then 1 else if negb (p_substeps P) then sqrt (p_Lambda P) else Rpower (p_Lambda P) (0.5 / INR (p_channels P)).
