(** C80: what the processes of nrg should do at the start. *)
From Coq Require Import List ZArith Bool String.
From Verif Require Import Startup_model.
Import ListNotations.
Local Open Scope list_scope.
Local Open Scope Z_scope.

(** The directory: the option -w, the variable NRG_WORKDIR, the current directory. *)
Inductive directory (w : world) : string -> Prop :=
| D_option d : args w = ["-w"%string; d] -> directory w d
| D_variable d : (forall e, args w <> ["-w"%string; e]) -> env_workdir w = Some d -> directory w d
| D_current : (forall e, args w <> ["-w"%string; e]) -> env_workdir w = None -> directory w ".".
Definition help_asked (w : world) : Prop := exists l, args w = "-h"%string :: l.
(** What all processes do: return with a status, or work. *)
Inductive outcome (w : world) : nat -> local -> Prop :=
| O_help r : help_asked w -> outcome w r (Returned 0)
| O_missing r : ~ help_asked w -> has_data w 0 = false \/ has_param w 0 = false -> outcome w r (Returned 1)
| O_master d : ~ help_asked w -> has_data w 0 = true -> has_param w 0 = true -> directory w d -> outcome w 0 (Master d)
| O_slave r : ~ help_asked w -> has_data w 0 = true -> has_param w 0 = true -> outcome w (S r) Slave.
Definition stuck (w : world) (s : state) : Prop := forall t, ~ step w s t.
