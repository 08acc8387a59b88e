(** Property theorems C55, C56, C58: the lines of make_matrix() and the tables of the smaller system's electron operators. *)
From Coq Require Import List ZArith Reals Lia Bool String.
From Verif Require Import Base Invar_model Symmetry_model Coef_model Coef_spec Coef_lines_spec Coef_tables Coef_tab_QS Coef_tab_U1 Coef_tab_P Coef_lines_lemmas.
Import ListNotations.
Local Open Scope string_scope.
Local Open Scope list_scope.
Local Open Scope Z_scope.

(** Hopping: in every sector, the lines of make_matrix() that carry a given hopping coefficient n and the reduced elements of the last
    site's operator x are the matrix elements of the product of an electron operator o of the smaller system with the adjoint of
    the new site's operator of the same channel and spin ([partner]).  All factors are defined. *)
Theorem C55_hopping : forall cs, In cs all_coef -> translated cs = true -> has_doublets cs = true ->
  forall m n x I nn, In m (cs_modes cs) -> In n (hopping_names m) -> In x (opers cs) -> served cs x = true -> sector cs I -> regular cs I = true ->
  exists es B F, line_values cs nn (off_lines m n x) I = Some es /\ o_below (mended cs) nn "doublet" I = Some B /\ f_sel cs nn (partner cs n x) I = Some F /\
    forall i j, family cs I i = true -> family cs I j = true ->
      at_ij es i j = (if both cs && negb (i <? j) then 0 else (if minus cs x then -1 else 1) * overlap one B F i j)%R.
Proof. exact hopping_lines. Qed.
Print Assumptions C55_hopping.

(** There are no further lines, except those of anomalous hopping. *)
Theorem C55_every_line : forall cs, In cs all_coef -> translated cs = true -> forall m i j c g n f, In m (cs_modes cs) -> In (i, j, c, g, n, f) (mo_off m) ->
  In (c, g) (opers cs) /\ (In n (hopping_names m) \/ n = "kappa") /\ (both cs = true -> i < j).
Proof. exact every_off_line. Qed.
Print Assumptions C55_every_line.

(** The partner is the operator of the same spin, except in the nonpolarized mode of U1: there the product of the last site's
    spin-up operator with the new site's spin-up operator has no element between families 1 and 2, but the lines have. *)
Theorem C55_same_spin_refuted : In u1_nonpolarized (cs_modes coef_u1_1ch) /\ mo_name u1_nonpolarized = "nonpolarized" /\
  exists es B F, line_values coef_u1_1ch 0 (off_lines u1_nonpolarized "xi" (0, 0)) [0] = Some es /\ o_below coef_u1_1ch 0 "doublet" [0] = Some B /\
    f_sel coef_u1_1ch 0 (is_op (0, 0)) [0] = Some F /\ family coef_u1_1ch [0] 1 = true /\ family coef_u1_1ch [0] 2 = true /\
    at_ij es 1 2 = 1%R /\ overlap one B F 1 2 = 0%R /\ overlap one B F 2 1 = 0%R.
Proof. exact u1_spin_swap. Qed.
Print Assumptions C55_same_spin_refuted.
Example C55_nonvacuous : In coef_qs_2ch all_coef /\ translated coef_qs_2ch = true /\ has_doublets coef_qs_2ch = true /\
  (exists m, In m (cs_modes coef_qs_2ch) /\ In "xi" (hopping_names m) /\ List.length (off_lines m "xi" (1, 0)) = 20%nat) /\
  In (1, 0) (opers coef_qs_2ch) /\ served coef_qs_2ch (1, 0) = true /\ sector coef_qs_2ch [0; 3] /\ regular coef_qs_2ch [0; 3] = true /\
  family coef_qs_2ch [0; 3] 6 = true.
Proof.
  split; [unfold all_coef; cbn [In]; tauto|]. split; [reflexivity|]. split; [reflexivity|].
  split; [eexists; split; [left; reflexivity|]; split; [left; reflexivity|reflexivity]|].
  split; [vm_compute; tauto|]. split; [reflexivity|]. split; [split; [repeat constructor; cbv; try exact Logic.I; discriminate|discriminate]|].
  split; reflexivity.
Qed.

(** On-site energies: the numbers on the diagonal are the matrix elements of the number of electrons of the channel (and spin), which
    is diagonal in the families.  All lines are of this kind. *)
Theorem C56_on_site : forall cs, In cs all_coef -> translated cs = true -> isospin cs = false ->
  forall m n c I nn i j, In m (cs_modes cs) -> In n (site_names m) -> (c < cs_channels cs)%nat -> sector cs I -> family cs I i = true -> family cs I j = true ->
  exists es v, line_values cs nn (diag_lines m n (Z.of_nat c)) I = Some es /\ number cs nn n (Z.of_nat c) I i j = Some v /\ at_ij es i j = v.
Proof. exact site_lines. Qed.
Print Assumptions C56_on_site.
Theorem C56_every_line : forall cs, In cs all_coef -> translated cs = true -> forall m i c n f, In m (cs_modes cs) -> In (i, c, n, f) (mo_diag m) ->
  isospin cs = false /\ 0 <= c < Z.of_nat (cs_channels cs) /\ exists s, In s (site_names m) /\ (n = s \/ n = (s ++ " half")%string).
Proof. exact every_diag_line. Qed.
Print Assumptions C56_every_line.
Example C56_nonvacuous : In coef_qs_2ch all_coef /\ isospin coef_qs_2ch = false /\
  (exists m, In m (cs_modes coef_qs_2ch) /\ In "zeta" (site_names m) /\ List.length (diag_lines m "zeta" 1) = 16%nat) /\
  sector coef_qs_2ch [0; 3] /\ family coef_qs_2ch [0; 3] 6 = true /\ family coef_qs_2ch [0; 3] 7 = true.
Proof.
  split; [unfold all_coef; cbn [In]; tauto|]. split; [reflexivity|]. split; [eexists; split; [left; reflexivity|]; split; [left; reflexivity|reflexivity]|].
  split; [split; [repeat constructor; cbv; try exact Logic.I; discriminate|discriminate]|]. split; reflexivity.
Qed.

(** Electron operators o of the smaller system and f_x of the new site anticommute, once the labels, and the signs of types P and
    ISOLR, are corrected: <I,i| o f_x^+ + f_x^+ o |I,j> = 0, summed over components. *)
Theorem C58_anticommute : forall cs, In cs all_coef -> translated cs = true -> has_doublets cs = true ->
  forall x I nn i j, In x (opers cs) -> sector cs I -> regular cs I = true -> family cs I i = true -> family cs I j = true ->
  exists d p q, mult (cs_sym cs) I = Ok d /\ old_new (mended cs) nn x I i j = Some p /\ new_old (mended cs) nn x I i j = Some q /\ (IZR d * p + q = 0)%R.
Proof. exact old_new_anticommute. Qed.
Print Assumptions C58_anticommute.

(** Not with the tables of type P as they are: the anticommutator is -2 between families 2 and 4. *)
Theorem C58_anticommute_refuted : exists p q, old_new coef_p_1ch 0 (0, 0) [1] 2 4 = Some p /\ new_old coef_p_1ch 0 (0, 0) [1] 2 4 = Some q /\
  mult (cs_sym coef_p_1ch) [1] = Ok 1 /\ (1 * p + q = -2)%R.
Proof. exact p_commutes. Qed.
Print Assumptions C58_anticommute_refuted.
Example C58_nonvacuous : In coef_p_1ch all_coef /\ translated coef_p_1ch = true /\ has_doublets coef_p_1ch = true /\ In (0, 0) (opers coef_p_1ch) /\
  sector coef_p_1ch [1] /\ regular coef_p_1ch [1] = true /\ family coef_p_1ch [1] 2 = true /\ family coef_p_1ch [1] 4 = true /\
  In coef_qs_4ch all_coef /\ has_doublets coef_qs_4ch = true.
Proof.
  split; [unfold all_coef; cbn [In]; tauto|]. split; [reflexivity|]. split; [reflexivity|]. split; [vm_compute; tauto|].
  split; [split; [repeat constructor; cbv; try exact Logic.I; try discriminate; tauto|discriminate]|]. do 3 (split; [reflexivity|]).
  split; [unfold all_coef; cbn [In]; tauto|reflexivity].
Qed.
