(** Property theorems C53, C54: the coefficient tables. *)
From Coq Require Import List ZArith Reals Lia Bool String.
From Verif Require Import Base Invar_model Symmetry_model Coef_model Coef_spec Coef_tables Coef_tab_QS Coef_tab_SPSU2T Coef_props_lemmas Coef_car.
Import ListNotations.
Local Open Scope string_scope.
Local Open Scope list_scope.
Local Open Scope Z_scope.

(** Tables of the new site's operators: a row connects two families that consist of the same states of the smaller system; no
    pair of families is listed twice; the bra sector is a vector of the right length. *)
Theorem C53_new_site_tables : forall cs, In cs all_coef -> forall t, In t (cs_irr cs) ->
  NoDup (map fst (it_rows t)) /\
  forall Ip, sector cs Ip -> exists I1, sh_apply (it_shift t) Ip = Some I1 /\ List.length I1 = List.length Ip /\
    forall i k f, In (i, k, f) (it_rows t) -> family_index cs i /\ family_index cs k /\ same_states cs I1 i Ip k.
Proof. exact new_site_rows. Qed.
Print Assumptions C53_new_site_tables.

(** Tables of all other operators: the smaller-system sectors written in a row are those of its two families. *)
Theorem C53_operator_tables : forall cs, In cs all_coef -> cs_name cs <> "SPU1LR" -> forall t, In t (cs_ten cs) ->
  NoDup (map (fun r => fst (fst (fst r))) (tt_rows t)) /\
  forall I1, sector cs I1 -> exists Ip, sh_apply (tt_shift t) I1 = Some Ip /\ List.length Ip = List.length I1 /\
    forall i k s1 sp f, In (i, k, s1, sp, f) (tt_rows t) -> family_index cs i /\ family_index cs k /\
      exists A B, sh_apply s1 I1 = Some A /\ built_from cs I1 i = Some A /\ sh_apply sp I1 = Some B /\ built_from cs Ip k = Some B.
Proof. exact operator_rows. Qed.
Print Assumptions C53_operator_tables.

(** The label of an operator couples the two sectors of each of its tables, for all sectors with large enough spins. *)
Theorem C53_operator_labels : forall cs, In cs all_coef -> forall t, In t (cs_ten cs) -> lost cs t = false -> forall I1, sector cs I1 ->
  spins_above cs 4 I1 -> table_used cs t I1.
Proof. exact operator_labels. Qed.
Print Assumptions C53_operator_labels.

(** Not for the operators listed in [lost]: there the label never couples, so that no block is ever computed. *)
Theorem C53_operator_labels_refuted : forall cs, In cs all_coef -> forall t, In t (cs_ten cs) -> lost cs t = true -> forall I1, sector cs I1 ->
  ~ table_used cs t I1.
Proof. exact operators_lost. Qed.
Print Assumptions C53_operator_labels_refuted.
Example C53_nonvacuous :
  (In coef_qs_2ch all_coef /\ sector coef_qs_2ch [0; 5] /\ spins_above coef_qs_2ch 4 [0; 5] /\ List.length (cs_irr coef_qs_2ch) = 4%nat /\ In (7, 3) (map fst (it_rows qs_2ch_t2))) /\
  (exists t, In t (cs_ten coef_qs_2ch) /\ lost coef_qs_2ch t = false /\ tt_iop t = [0; 3]) /\
  (In coef_spsu2t all_coef /\ sector coef_spsu2t [2; 1] /\ exists t, In t (cs_ten coef_spsu2t) /\ lost coef_spsu2t t = true /\ tt_iop t = [1; 2; 1]).
Proof.
  split; [|split].
  - split; [unfold all_coef; cbn [In]; tauto|]. split; [split; [|discriminate]|split; [|split; [reflexivity|]]].
    + repeat constructor; cbv; try exact Logic.I; discriminate.
    + repeat constructor; cbv; intros; discriminate.
    + vm_compute. tauto.
  - eexists. split; [cbn [cs_ten coef_qs_2ch]; right; right; left; reflexivity|]. split; reflexivity.
  - split; [unfold all_coef; cbn [In]; tauto|]. split; [split; [|discriminate]; repeat constructor; cbv; discriminate|].
    eexists. split; [left; reflexivity|]. split; reflexivity.
Qed.

(** Canonical anticommutation: for all operators a and b of the new site and all families i and j of any sector I,
    <I,i| f_a f_b^+ + f_b^+ f_a |I,j> summed over the components is the number of components if a = b and i = j, and 0 otherwise.
    All factors that enter are defined (no division by zero, no root of a negative number). *)
Theorem C54_anticommutation : forall cs, In cs all_coef -> translated cs = true -> forall I nn, sector cs I -> exists m, mult (cs_sym cs) I = Ok m /\
  forall a b i j, In a (opers cs) -> In b (opers cs) -> family cs I i = true -> family cs I j = true ->
  exists d u, down_up cs nn a b I i j = Some d /\ up_down cs nn a b I i j = Some u /\
    (IZR m * d + u = if op_eqb a b && (i =? j)%Z then IZR (components cs) * IZR m else 0)%R.
Proof. exact anticommutation. Qed.
Print Assumptions C54_anticommutation.
Example C54_nonvacuous : In coef_qs_2ch all_coef /\ translated coef_qs_2ch = true /\ sector coef_qs_2ch [0; 3] /\ mult (cs_sym coef_qs_2ch) [0; 3] = Ok 3 /\
  In (0, 0) (opers coef_qs_2ch) /\ In (1, 0) (opers coef_qs_2ch) /\ family coef_qs_2ch [0; 3] 6 = true /\ family coef_qs_2ch [0; 3] 7 = true /\
  family coef_qs_2ch [0; 1] 10 = false /\ components coef_qs_2ch = 2.
Proof.
  split; [unfold all_coef; cbn [In]; tauto|]. split; [reflexivity|]. split; [split; [repeat constructor; cbv; try exact Logic.I; discriminate|discriminate]|].
  split; [reflexivity|]. split; [vm_compute; tauto|]. split; [vm_compute; tauto|]. vm_compute. tauto.
Qed.
