(** Property theorems C01-C07, C28, C36, C37. *)
From Coq Require Import List ZArith Bool String Permutation Sorted.
From Verif Require Import Base Invar_model Invar_spec Invar_proofs Symmetry_model Symmetry_spec Symmetry_tables Symmetry_proofs
  Symmetry_factor Symmetry_dim Subspaces_model Subspaces_spec Subspaces_proofs Subspaces_tasks Subspaces_step Subspaces_chain
  Selection_spec Selection_proofs Recalc_model Recalc_spec Recalc_proofs Sectors_aux Recalc_aux.
Import ListNotations.
Local Open Scope string_scope.
Local Open Scope Z_scope.

(** C01 *)
Theorem C01_combine_composes : forall ts a b, admissible ts a -> admissible ts b ->
  exists c, combine ts a b = Ok c /\ admissible ts c /\ composes_all ts a b c.
Proof. exact combine_correct. Qed.
Print Assumptions C01_combine_composes.
Theorem C01_combine_commutative : forall ts a b, admissible ts a -> admissible ts b -> combine ts a b = combine ts b a.
Proof. exact combine_comm. Qed.
Print Assumptions C01_combine_commutative.
Theorem C01_combine_associative : forall ts a b c, admissible ts a -> admissible ts b -> admissible ts c ->
  (let* ab := combine ts a b in combine ts ab c) = (let* bc := combine ts b c in combine ts a bc).
Proof. exact combine_assoc. Qed.
Print Assumptions C01_combine_associative.
Theorem C01_inverse : forall ts a, admissible ts a ->
  exists b, inverse ts a = Ok b /\ admissible ts b /\ combine ts a b = Ok (unit_of ts) /\ inverse ts b = Ok a.
Proof. exact inverse_correct. Qed.
Print Assumptions C01_inverse.
Theorem C01_inverse_undoes_combine : forall ts a b, admissible ts a -> admissible ts b ->
  (let* ab := combine ts a b in let* ib := inverse ts b in combine ts ab ib) = Ok a.
Proof. exact inverse_undoes. Qed.
Print Assumptions C01_inverse_undoes_combine.
Theorem C01_order_is_total : forall a b : invar,
  (invar_eqb a b = true <-> a = b) /\ invar_ltb a a = false /\ (a <> b -> invar_ltb a b = true \/ invar_ltb b a = true) /\
  (forall c, invar_ltb a b = true -> invar_ltb b c = true -> invar_ltb a c = true).
Proof. exact invar_order. Qed.
Print Assumptions C01_order_is_total.
Example C01_case : admissible [Additive; Multiplicative; Mod3] [-2; -1; 2] /\ admissible [Additive; Multiplicative; Mod3] [5; -1; 2] /\
  combine [Additive; Multiplicative; Mod3] [-2; -1; 2] [5; -1; 2] = Ok [3; 1; 1].
Proof. split; [|split]; [repeat (apply Forall2_cons || apply Forall2_nil); cbn; auto..|reflexivity]. Qed.

(** C02 *)
Theorem C02_ancestor_descendant_duality : forall sh I, In sh shipped -> admissible (ts (sh_sym sh)) I ->
  exists anc new, ancestors (sh_sym sh) (sh_combs sh) (sh_tab sh) I = Ok anc /\ new_subspaces (sh_sym sh) (sh_combs sh) (sh_tab sh) I = Ok new /\
    List.length anc = sh_combs sh /\ List.length new = sh_combs sh /\
    Forall (admissible (ts (sh_sym sh))) anc /\ Forall (admissible (ts (sh_sym sh))) new /\
    (forall i, (i < sh_combs sh)%nat -> exists A, nth_error anc i = Some A /\ ancestor (sh_sym sh) (sh_combs sh) (sh_tab sh) I i = Ok A) /\
    forall J, admissible (ts (sh_sym sh)) J -> exists ancJ, ancestors (sh_sym sh) (sh_combs sh) (sh_tab sh) J = Ok ancJ /\
      forall i, (i < sh_combs sh)%nat -> (nth_error new i = Some J <-> nth_error ancJ i = Some I).
Proof. exact shipped_duality. Qed.
Print Assumptions C02_ancestor_descendant_duality.
Theorem C02_any_table : forall sy combs t, List.length (tb_In t) = combs -> List.length (tb_QN t) = combs -> Forall (admissible (ts sy)) (tb_In t) ->
  forall I, admissible (ts sy) I ->
  exists anc new, ancestors sy combs t I = Ok anc /\ new_subspaces sy combs t I = Ok new /\
    List.length anc = combs /\ List.length new = combs /\
    Forall (admissible (ts sy)) anc /\ Forall (admissible (ts sy)) new /\
    (forall i, (i < combs)%nat -> exists A, nth_error anc i = Some A /\ ancestor sy combs t I i = Ok A) /\
    forall J, admissible (ts sy) J -> exists ancJ, ancestors sy combs t J = Ok ancJ /\
      forall i, (i < combs)%nat -> (nth_error new i = Some J <-> nth_error ancJ i = Some I).
Proof. exact duality. Qed.
Print Assumptions C02_any_table.
Example C02_case : exists sh, In sh shipped /\ sh_name sh = "QS" /\ sh_channels sh = 1%nat /\ admissible (ts (sh_sym sh)) [0; 3] /\
  new_subspaces (sh_sym sh) (sh_combs sh) (sh_tab sh) [0; 3] = Ok [[-1; 3]; [0; 4]; [0; 2]; [1; 3]].
Proof. exact qs_case. Qed.

(** C03 *)
Theorem C03_dimension_per_multiplet : forall sh I, In sh shipped -> multiplet (sh_sym sh) I ->
  exists Js, new_subspaces (sh_sym sh) (sh_combs sh) (sh_tab sh) I = Ok Js /\
    List.length Js = sh_combs sh /\ List.length (tb_QN (sh_tab sh)) = sh_combs sh /\
    (forall J q, In (J, q) (List.combine Js (tb_QN (sh_tab sh))) ->
       exists ba bt m, allowed (sh_sym sh) J = Ok ba /\ triangle (sh_sym sh) J I q = Ok bt /\ mult (sh_sym sh) J = Ok m /\
         (bt = true -> ba = true /\ multiplet (sh_sym sh) J /\ 1 <= m)) /\
    1 <= degeneracy (sh_sym sh) I /\
    zsum (map (fun Jq => received (sh_sym sh) I (fst Jq) (snd Jq)) (List.combine Js (tb_QN (sh_tab sh))))
    = Z.of_nat (sh_combs sh) * degeneracy (sh_sym sh) I.
Proof. exact dim_conserved_api. Qed.
Print Assumptions C03_dimension_per_multiplet.
Example C03_count : List.length shipped = 51%nat.
Proof. reflexivity. Qed.
Example C03_case : exists sh, In sh shipped /\ sh_name sh = "QST" /\ multiplet (sh_sym sh) [0; 2; 1] /\
  degeneracy (sh_sym sh) [0; 2; 1] = 6 /\ sh_combs sh = 64%nat.
Proof. exact qst_case. Qed.

(** C04 *)
Theorem C04_step_dimension : forall sh, In sh shipped -> forall dp, NoDup (map fst dp) ->
  (forall J n, In (J, n) dp -> multiplet (sh_sym sh) J /\ 0 <= n <= 1000000) ->
  exists st, mk_structure (sh_sym sh) (sh_combs sh) (sh_tab sh) dp = Ok st /\ NoDup (map fst st) /\
    (forall J d, In (J, d) st -> admissible (ts (sh_sym sh)) J /\ dims_total (sd_dims d) = zsum (sd_dims d) /\
        List.length (sd_dims d) = sh_combs sh /\ List.length (sd_anc d) = sh_combs sh /\
        (forall x, In x (sd_dims d) -> 0 <= x) /\ (0 < zsum (sd_dims d) -> multiplet (sh_sym sh) J)) /\
    zsum (map (fun p => degeneracy (sh_sym sh) (fst p) * zsum (sd_dims (snd p))) st)
      = Z.of_nat (sh_combs sh) * zsum (map (fun p => degeneracy (sh_sym sh) (fst p) * snd p) dp) /\
    (forall J i A q n, admissible (ts (sh_sym sh)) J -> ancestor (sh_sym sh) (sh_combs sh) (sh_tab sh) J i = Ok A ->
        nth_error (tb_QN (sh_tab sh)) i = Some q -> coupled (sh_sym sh) J A q = true -> In (A, n) dp -> 0 < n ->
        exists d, In (J, d) st /\ nth_error (sd_dims d) i = Some n /\ nth_error (sd_anc d) i = Some A /\ In J (task_list st)).
Proof. exact structure_correct. Qed.
Print Assumptions C04_step_dimension.
Example C04_case : exists sh st, In sh shipped /\ sh_name sh = "QS" /\
  mk_structure (sh_sym sh) (sh_combs sh) (sh_tab sh) [([0; 1], 3); ([1; 2], 5)] = Ok st /\ List.length (task_list st) = 5%nat.
Proof. exact qs_step_case. Qed.

(** C05 *)
Theorem C05_blocks_tile_basis : forall d, (forall x, In x d -> 0 <= x) -> zsum d < two64 -> Z.of_nat (List.length d) < two64 ->
    (forall i, Z.of_nat (List.length d) <= i -> view d i = Throw /\ part d i = Throw) /\
    (forall i, 0 <= i < Z.of_nat (List.length d) ->
       exists a b n, view d i = Ok (a, b) /\ part d i = Ok (a, b) /\ view_mma d (i + 1) = Ok (a, b) /\ part_mma d (i + 1) = Ok (a, b) /\
                   chunk d (i + 1) = Ok (a, n) /\ b = a + n /\ nth_error d (Z.to_nat i) = Some n /\ rmax d i = Ok n /\
                   offset d i = Ok a /\ 0 <= a /\ a <= b <= zsum d) /\
    (forall x, 0 <= x < zsum d -> exists! i, 0 <= i < Z.of_nat (List.length d) /\ exists a b, view d i = Ok (a, b) /\ a <= x < b) /\
    (forall i j a b a' b', 0 <= i -> i < j -> view d i = Ok (a, b) -> view d j = Ok (a', b') -> b <= a').
Proof. exact tiling. Qed.
Print Assumptions C05_blocks_tile_basis.
Theorem C05_block_zero_rejected : forall d, Z.of_nat (List.length d) < two64 ->
  view_mma d 0 = Throw /\ part_mma d 0 = Throw /\ chunk d 0 = Throw.
Proof. exact view_mma_zero. Qed.
Print Assumptions C05_block_zero_rejected.
Theorem C05_total : forall d, (forall x, In x d -> 0 <= x) -> zsum d < 2 ^ 31 -> dims_total d = zsum d.
Proof. exact dims_total_exact. Qed.
Print Assumptions C05_total.
Theorem C05_total_overflow_refuted : exists d, (forall x, In x d -> 0 <= x <= 1000000) /\ zsum d = 2 ^ 31 + 1 /\ dims_total d < 0.
Proof. exact total_wraps. Qed.
Print Assumptions C05_total_overflow_refuted.
Example C05_case : view [3; 0; 2; 4] 2 = Ok (3, 5) /\ view [3; 0; 2; 4] 1 = Ok (3, 3) /\ chunk [3; 0; 2; 4] 4 = Ok (5, 4).
Proof. vm_compute. auto. Qed.

Theorem C05_offdiagonal_blocks : forall d i j, (forall x, In x d -> 0 <= x) -> Z.of_nat (List.length d) < two64 ->
  (1 <= i <= Z.of_nat (List.length d) -> 1 <= j <= Z.of_nat (List.length d) -> i <> j ->
   exists b ni nj, offdiag_contributes d i j = Ok b /\ nth_error d (Z.to_nat (i - 1)) = Some ni /\ nth_error d (Z.to_nat (j - 1)) = Some nj /\
     (b = true <-> 0 < ni /\ 0 < nj)) /\
  (i < 1 \/ Z.of_nat (List.length d) < i \/ j < 1 \/ Z.of_nat (List.length d) < j \/ i = j -> offdiag_contributes d i j = Throw).
Proof. exact offdiag_rule. Qed.
Print Assumptions C05_offdiagonal_blocks.
Example C05_offdiagonal_case : offdiag_contributes [3; 0; 2; 4] 1 3 = Ok true /\ offdiag_contributes [3; 0; 2; 4] 2 1 = Ok false /\
  offdiag_contributes [3; 0; 2; 4] 1 2 = Ok false /\ offdiag_contributes [3; 0; 2; 4] 1 5 = Throw.
Proof. vm_compute. auto. Qed.

(** C06 *)
Theorem C06_task_list : forall s, sane s ->
  NoDup (task_list s) /\
  (forall I, In I (task_list s) <-> exists d, In (I, d) s /\ 0 < zsum (sd_dims d)) /\
  StronglySorted (before s) (task_list s) /\
  (forall s', Permutation s s' -> task_list s' = task_list s).
Proof. exact task_list_sane. Qed.
Print Assumptions C06_task_list.
Theorem C06_tasks_descending : forall sh dp tasks, In sh shipped -> NoDup tasks ->
  (forall J n, In (J, n) dp -> multiplet (sh_sym sh) J /\ 0 <= n <= 1000000) -> Forall (admissible (ts (sh_sym sh))) tasks ->
  exists l, tasks_descending (sh_sym sh) (sh_combs sh) (sh_tab sh) dp tasks = Ok l /\ Permutation tasks (map snd l) /\
    StronglySorted (fun p q => fst q < fst p \/ (fst p = fst q /\ invar_ltb (snd q) (snd p) = true)) l /\
    (forall n I, In (n, I) l -> exists anc d, ancestors (sh_sym sh) (sh_combs sh) (sh_tab sh) I = Ok anc /\
        mk_subdims (sh_sym sh) (sh_combs sh) (sh_tab sh) dp I anc = Ok d /\ n = zsum (sd_dims d)).
Proof. exact tasks_descending_correct. Qed.
Print Assumptions C06_tasks_descending.
Example C06_case : let s := [([0; 1], {| sd_dims := [2; 0]; sd_anc := [] |}); ([1; 2], {| sd_dims := [3; 4]; sd_anc := [] |});
                             ([2; 1], {| sd_dims := [0; 0]; sd_anc := [] |}); ([3; 1], {| sd_dims := [0; 2]; sd_anc := [] |})] in
  sane s /\ task_list s = [[1; 2]; [3; 1]; [0; 1]].
Proof. exact task_case. Qed.

(** C07: [ss] is a multiplicity 2S+1. In terms of twice the spins s = 2S: |s2-s3| <= s1 <= s2+s3. *)
Theorem C07_su2_rule : forall a b c, su2_triangle_inequality a b c = true <->
  1 <= a /\ 1 <= b /\ 1 <= c /\ Z.abs ((b - 1) - (c - 1)) <= a - 1 <= (b - 1) + (c - 1).
Proof. exact su2_rule. Qed.
Print Assumptions C07_su2_rule.
Theorem C07_su2_symmetric : forall a b c, su2_triangle_inequality a b c = su2_triangle_inequality b a c /\
  su2_triangle_inequality a b c = su2_triangle_inequality a c b.
Proof. exact su2_sym. Qed.
Print Assumptions C07_su2_symmetric.
(** Together with the selection by the tables (C03) the parity of a+b+c is odd for every coupled triple. *)
Example C07_case : su2_triangle_inequality 3 2 2 = true /\ su2_triangle_inequality 4 2 2 = false /\ su2_triangle_inequality 0 0 1 = false.
Proof. vm_compute. auto. Qed.

Theorem C07_selection_rules : forall sh a1 a2 a3, In sh shipped ->
  admissible (ts (sh_sym sh)) a1 -> admissible (ts (sh_sym sh)) a2 -> admissible (ts (sh_sym sh)) a3 ->
  exists gs b, groups_of (sh_name sh) = Some gs /\ triangle (sh_sym sh) a1 a2 a3 = Ok b /\ (b = true <-> occurs_all gs a1 a2 a3).
Proof. exact selection_rules. Qed.
Print Assumptions C07_selection_rules.
Example C07_selection_case : exists sh, In sh shipped /\ sh_name sh = "QST" /\
  groups_of "QST" = Some [Charge; SpinMult; OrbL] /\ occurs_all [Charge; SpinMult; OrbL] [1; 2; 1] [0; 1; 0] [1; 2; 1] /\
  triangle (sh_sym sh) [1; 2; 1] [0; 1; 0] [1; 2; 1] = Ok true /\ triangle (sh_sym sh) [1; 2; 2] [0; 1; 0] [1; 2; 1] = Ok false.
Proof. exact selection_case. Qed.

(** C28 *)
Theorem C28_parity_odd_singlet_always_throws : forall M C ops sy combs t diag substruct cold (one : C),
  sy_islr sy = true -> diag <> [] -> Forall (fun p => fst p <> []) diag ->
  @recalc_singlet M C ops sy combs t diag substruct cold one (-1) = Throw.
Proof. exact singlet_odd_throws. Qed.
Print Assumptions C28_parity_odd_singlet_always_throws.
Theorem C28_parity_odd_singlet_refuted : exists sh diag substruct cold, In sh shipped /\ sy_islr (sh_sym sh) = true /\
  (forall I e, In (I, e) diag -> multiplet (sh_sym sh) I) /\
  recalc_singlet Z Z {| mo_zero := fun _ _ => 0; mo_transform := fun a f u c v => a + f * u * c * v; mo_finite := fun _ => true |}
    (sh_sym sh) (sh_combs sh) (sh_tab sh) diag substruct cold 1 (-1) = Throw.
Proof. exact singlet_odd_witness. Qed.
Print Assumptions C28_parity_odd_singlet_refuted.

(** C36 *)
Theorem C36_singlet_recalc : forall sh, In sh shipped -> forall M C (ops : matops M C) one, mo_finite ops one = true ->
  forall diag substruct cold,
  (forall I e, In (I, e) diag -> multiplet (sh_sym sh) I /\ List.length (eg_blocks e) = sh_combs sh /\
    exists s, map_at substruct I = Ok s /\ List.length (sd_dims s) = sh_combs sh) ->
  NoDup (map fst diag) -> sh_name sh <> "SPSU2LR" ->
  recalc_singlet M C ops (sh_sym sh) (sh_combs sh) (sh_tab sh) diag substruct cold one 1 =
    Ok (map (fun p => ((fst p, fst p),
              singlet_value ops one (sh_sym sh) (sh_combs sh) (sh_tab sh) cold (fst p) (snd p)
                (val {| sd_dims := []; sd_anc := [] |} (map_at substruct (fst p))))) diag).
Proof. exact singlet_even. Qed.
Print Assumptions C36_singlet_recalc.
Theorem C36_spsu2lr_singlets_lost_refuted : forall sh M C ops (one : C) diag substruct cold,
  In sh shipped -> sh_name sh = "SPSU2LR" -> (forall I e, In (I, e) diag -> multiplet (sh_sym sh) I) ->
  recalc_singlet M C ops (sh_sym sh) (sh_combs sh) (sh_tab sh) diag substruct cold one 1 = Ok [].
Proof. exact spsu2lr_singlet_empty. Qed.
Print Assumptions C36_spsu2lr_singlets_lost_refuted.

(** C37 *)
Theorem C37_untruncated_chain : forall sh n dp dp', In sh shipped -> NoDup (map fst dp) ->
  (forall I k, In (I, k) dp -> multiplet (sh_sym sh) I) ->
  grows (sh_sym sh) (sh_combs sh) (sh_tab sh) n dp dp' ->
  NoDup (map fst dp') /\ (forall I k, In (I, k) dp' -> multiplet (sh_sym sh) I) /\
  total_states (sh_sym sh) dp' = Z.of_nat (sh_combs sh) ^ Z.of_nat n * total_states (sh_sym sh) dp.
Proof. exact chain_total. Qed.
Print Assumptions C37_untruncated_chain.
Example C37_case : exists sh dp', In sh shipped /\ sh_name sh = "QS" /\ sh_channels sh = 1%nat /\
  grows (sh_sym sh) (sh_combs sh) (sh_tab sh) 2 [([0; 1], 1)] dp' /\ dp' <> [].
Proof. exact grows_case. Qed.
