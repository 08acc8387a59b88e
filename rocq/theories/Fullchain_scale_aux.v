(** Parameters for the example of C65_scale. *)
From Coq Require Import Reals ZArith Lra Lia.
From Verif Require Import Patch_model Fullchain_scale_model Fullchain_scale.
Local Open Scope R_scope.
Definition ex_params : pparams := {| p_Lambda := 2; p_discretization := Zitko; p_bandrescale := 1; p_z := 1; p_channels := 2; p_substeps := true; p_absolute := false;
  p_goodE := 2; p_NN1 := false; p_NN2even := true; p_NN2avg := false; p_NNtanh := 1 / 2; p_Ninit := 0; p_Nmax := 10; p_calc0 := false |}.
Lemma ex_params_ok : 1 < p_Lambda ex_params /\ 0 < p_bandrescale ex_params /\ (0 < p_channels ex_params)%nat /\ p_absolute ex_params = false /\ p_substeps ex_params = true.
Proof. cbn. repeat split; try lra; lia. Qed.
