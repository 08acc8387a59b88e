(** The statements about the lines of make_matrix() and the operator tables, from the checks that were evaluated. *)
From Coq Require Import List ZArith Reals Lra Lia Bool String.
From Verif Require Import Base Invar_model Symmetry_model Coef_model Coef_spec Coef_lines_spec Coef_check Coef_check_sound Coef_tables Coef_tab_U1 Coef_tab_P Coef_hop.
Import ListNotations.
Local Open Scope string_scope.
Local Open Scope list_scope.
Local Open Scope Z_scope.

Lemma hop_of : forall cs, In cs all_coef -> translated cs = true -> exists C T O G, run_lines (mended cs) C T O G = true.
Proof.
  intros cs H E. pose proof hop_all as R. rewrite Forall_forall in R. apply R. apply filter_In. split; assumption.
Qed.

Lemma has_doublets_mended : forall cs, has_doublets cs = true -> has_doublets (mended cs) = true.
Proof.
  intros cs H. unfold has_doublets in *. apply andb_true_iff in H. destruct H as [H N]. apply andb_true_iff. split; [|exact N].
  apply existsb_exists in H. destruct H as (t & Ht & E). apply existsb_exists. exists (mend_table cs t). split; [|exact E].
  unfold mended. cbn [cs_ten]. apply in_or_app. left. apply in_map. exact Ht.
Qed.

Lemma hopping_lines : forall cs, In cs all_coef -> translated cs = true -> has_doublets cs = true ->
  forall m n x I nn, In m (cs_modes cs) -> In n (hopping_names m) -> In x (opers cs) -> served cs x = true -> sector cs I -> regular cs I = true ->
  exists es B F, line_values cs nn (off_lines m n x) I = Some es /\ o_below (mended cs) nn "doublet" I = Some B /\ f_sel cs nn (partner cs n x) I = Some F /\
    forall i j, family cs I i = true -> family cs I j = true ->
      at_ij es i j = (if both cs && negb (i <? j) then 0 else (if minus cs x then -1 else 1) * overlap one B F i j)%R.
Proof.
  intros cs H E D. destruct (hop_of cs H E) as (C & T & OO & G & R). exact (run_hop (mended cs) C T OO G R (has_doublets_mended cs D)).
Qed.

Lemma site_lines : forall cs, In cs all_coef -> translated cs = true -> isospin cs = false ->
  forall m n c I nn i j, In m (cs_modes cs) -> In n (site_names m) -> (c < cs_channels cs)%nat -> sector cs I -> family cs I i = true -> family cs I j = true ->
  exists es v, line_values cs nn (diag_lines m n (Z.of_nat c)) I = Some es /\ number cs nn n (Z.of_nat c) I i j = Some v /\ at_ij es i j = v.
Proof.
  intros cs H E D. destruct (hop_of cs H E) as (C & T & OO & G & R). exact (run_site (mended cs) C T OO G R D).
Qed.

Lemma old_new_anticommute : forall cs, In cs all_coef -> translated cs = true -> has_doublets cs = true ->
  forall x I nn i j, In x (opers cs) -> sector cs I -> regular cs I = true -> family cs I i = true -> family cs I j = true ->
  exists d p q, mult (cs_sym cs) I = Ok d /\ old_new (mended cs) nn x I i j = Some p /\ new_old (mended cs) nn x I i j = Some q /\ (IZR d * p + q = 0)%R.
Proof.
  intros cs H E D. destruct (hop_of cs H E) as (C & T & OO & G & R). exact (run_anti (mended cs) C T OO G R (has_doublets_mended cs D)).
Qed.

(** ** Every line is one of these *)
Definition off_ok (cs : coef_set) (m : mode) (l : off_line) : bool :=
  let '(i, j, c, g, n, _) := l in
  existsb (op_eqb (c, g)) (opers cs) && (one_of n (hopping_names m) || String.eqb n "kappa") && (negb (both cs) || (i <? j)).
Definition diag_ok (cs : coef_set) (m : mode) (l : diag_line) : bool :=
  let '(_, c, n, _) := l in
  (0 <=? c) && (c <? Z.of_nat (cs_channels cs)) && existsb (fun s => String.eqb n s || String.eqb n (s ++ " half")) (site_names m).
Definition lines_named (cs : coef_set) : bool :=
  forallb (fun m => forallb (off_ok cs m) (mo_off m) && forallb (diag_ok cs m) (mo_diag m) &&
     (if isospin cs then match mo_diag m with [] => true | _ => false end else true)) (cs_modes cs).
Lemma lines_named_all : forallb lines_named (filter translated all_coef) = true.
Proof. vm_compute. reflexivity. Qed.

Lemma op_eqb_eq : forall a b, op_eqb a b = true -> a = b.
Proof. intros [a1 a2] [b1 b2] H. unfold op_eqb in H. cbn [fst snd] in H. apply andb_true_iff in H. destruct H as [A B]. apply Z.eqb_eq in A, B. congruence. Qed.

Lemma every_off_line : forall cs, In cs all_coef -> translated cs = true -> forall m i j c g n f, In m (cs_modes cs) -> In (i, j, c, g, n, f) (mo_off m) ->
  In (c, g) (opers cs) /\ (In n (hopping_names m) \/ n = "kappa") /\ (both cs = true -> i < j).
Proof.
  intros cs H E m i j c g n f Hm Hl. pose proof lines_named_all as R. rewrite forallb_forall in R.
  assert (H' : In cs (filter translated all_coef)) by (apply filter_In; split; assumption).
  specialize (R cs H'). unfold lines_named in R. rewrite forallb_forall in R. specialize (R m Hm). rewrite !andb_true_iff in R. destruct R as [[R _] _].
  rewrite forallb_forall in R. specialize (R _ Hl). unfold off_ok in R. rewrite !andb_true_iff in R. destruct R as [[A B] D]. split; [|split].
  - apply existsb_exists in A. destruct A as (y & Hy & Ey). apply op_eqb_eq in Ey. rewrite Ey. exact Hy.
  - apply orb_true_iff in B. destruct B as [B|B]; [left|right; apply String.eqb_eq; exact B].
    unfold one_of in B. apply existsb_exists in B. destruct B as (y & Hy & Ey). apply String.eqb_eq in Ey. rewrite Ey. exact Hy.
  - intros Hb. rewrite Hb in D. cbn [negb orb] in D. apply Z.ltb_lt. exact D.
Qed.

Lemma every_diag_line : forall cs, In cs all_coef -> translated cs = true -> forall m i c n f, In m (cs_modes cs) -> In (i, c, n, f) (mo_diag m) ->
  isospin cs = false /\ 0 <= c < Z.of_nat (cs_channels cs) /\ exists s, In s (site_names m) /\ (n = s \/ n = (s ++ " half")%string).
Proof.
  intros cs H E m i c n f Hm Hl. pose proof lines_named_all as R. rewrite forallb_forall in R.
  assert (H' : In cs (filter translated all_coef)) by (apply filter_In; split; assumption).
  specialize (R cs H'). unfold lines_named in R. rewrite forallb_forall in R. specialize (R m Hm). rewrite !andb_true_iff in R. destruct R as [[_ R] S].
  rewrite forallb_forall in R. specialize (R _ Hl). unfold diag_ok in R. rewrite !andb_true_iff in R. destruct R as [[A B] D]. split; [|split].
  - destruct (isospin cs); [|reflexivity]. destruct (mo_diag m); [destruct Hl|discriminate].
  - apply Z.leb_le in A. apply Z.ltb_lt in B. lia.
  - apply existsb_exists in D. destruct D as (s & Hs & Es). exists s. split; [exact Hs|]. apply orb_true_iff in Es.
    destruct Es as [Es|Es]; apply String.eqb_eq in Es; [left|right]; exact Es.
Qed.

(** ** Findings *)
Definition u1_nonpolarized : mode := nth 2 (cs_modes coef_u1_1ch) (mk_mode "" [] [] []).
Lemma u1_spin_swap : In u1_nonpolarized (cs_modes coef_u1_1ch) /\ mo_name u1_nonpolarized = "nonpolarized" /\
  exists es B F, line_values coef_u1_1ch 0 (off_lines u1_nonpolarized "xi" (0, 0)) [0] = Some es /\ o_below coef_u1_1ch 0 "doublet" [0] = Some B /\
    f_sel coef_u1_1ch 0 (is_op (0, 0)) [0] = Some F /\ family coef_u1_1ch [0] 1 = true /\ family coef_u1_1ch [0] 2 = true /\
    at_ij es 1 2 = 1%R /\ overlap one B F 1 2 = 0%R /\ overlap one B F 2 1 = 0%R.
Proof.
  split; [vm_compute; tauto|]. split; [reflexivity|]. eexists. eexists. eexists. split; [vm_compute; reflexivity|]. split; [vm_compute; reflexivity|].
  split; [vm_compute; reflexivity|]. split; [reflexivity|]. split; [reflexivity|].
  split; [|split]; vm_compute; lra.
Qed.
Lemma p_commutes : exists p q, old_new coef_p_1ch 0 (0, 0) [1] 2 4 = Some p /\ new_old coef_p_1ch 0 (0, 0) [1] 2 4 = Some q /\
  mult (cs_sym coef_p_1ch) [1] = Ok 1 /\ (1 * p + q = -2)%R.
Proof.
  eexists. eexists. split; [vm_compute; reflexivity|]. split; [vm_compute; reflexivity|]. split; [reflexivity|]. vm_compute. lra.
Qed.
