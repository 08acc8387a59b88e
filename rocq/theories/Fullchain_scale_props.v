(** C65: the energy scales. *)
From Coq Require Import Reals ZArith List String.
From Verif Require Import Patch_model Coef_model Datafile_spec Fullchain_terms Fullchain_scale_model Fullchain_scale Fullchain_scale_aux.
Import ListNotations.
Local Open Scope string_scope.
Local Open Scope list_scope.
Local Open Scope R_scope.

(** C65: the energy scales of successive steps have the ratio used to build the next Hamiltonian. *)
Theorem C65_scale P s : 1 < p_Lambda P -> 0 < p_bandrescale P -> (0 < p_channels P)%nat ->
  0 < scale P s /\ scale P (step_next s) * nrg_step_scale_factor P = scale P s.
Proof. exact (scale_step P s). Qed.
Print Assumptions C65_scale.
Example C65_scale_case : 1 < p_Lambda ex_params /\ 0 < p_bandrescale ex_params /\ (0 < p_channels ex_params)%nat /\ p_absolute ex_params = false /\ p_substeps ex_params = true.
Proof. exact ex_params_ok. Qed.

(** C65: a run keeps as many operators per channel as the data file holds. *)
Theorem C65_operators_per_channel cs : In (cs_name cs) ["QSZ"; "DBLQSZ"; "U1"; "NONE"; "SPU1"; "SL"; "SL3"] ->
  per_channel cs = ops_per_channel (cs_name cs).
Proof. exact (per_channel_ok cs). Qed.
Print Assumptions C65_operators_per_channel.
Example C65_operators_per_channel_case : ops_per_channel "NONE" = 4%nat /\ ops_per_channel "U1" = 2%nat.
Proof. exact (conj eq_refl eq_refl). Qed.
