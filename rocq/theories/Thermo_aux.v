(** Concrete cases for Thermo_props.v *)
From Coq Require Import List ZArith Reals Lia Lra.
From Verif Require Import Base Invar_model Thermo_model Thermo_spec Thermo_proofs.
Import ListNotations.
Local Open Scope R_scope.

(** Two steps with four local states; the first step keeps one of its three doublets, the last step has two. *)
Definition case_mult (J : invar) : Z := nth 1 J 1%Z.
Definition case_store (N : nat) : shell :=
  match N with
  | 0%nat => [([0; 2]%Z, {| st_v := [0; ln 2; 3 * ln 2]; st_scale := 1; st_shift := 0; st_T_shift := 0; st_GS := - ln 2; st_kept := 1; st_dim := 3; st_last := false |})]
  | 1%nat => [([1; 1]%Z, {| st_v := []; st_scale := / 2; st_shift := 0; st_T_shift := - ln 2; st_GS := - ln 2; st_kept := 0; st_dim := 0; st_last := true |});
         ([0; 2]%Z, {| st_v := [1; 1 + 2 * ln 2]; st_scale := / 2; st_shift := 1; st_T_shift := - ln 2; st_GS := - ln 2; st_kept := 0; st_dim := 2; st_last := true |})]
  | _ => []
  end.
Definition case_E0 (N : nat) : R := match N with 0%nat => 0 | _ => - ln 2 end.
Lemma exp_mln2 : exp (- ln 2) = / 2.
Proof. rewrite exp_Ropp, exp_ln; lra. Qed.
Lemma exp_m3ln2 : exp (- (3 * ln 2)) = / 8.
Proof. rewrite exp_Ropp. replace (3 * ln 2) with (ln 2 + (ln 2 + ln 2)) by ring. rewrite !exp_plus, exp_ln by lra. field. Qed.
Lemma case_completed : completed case_mult 4 2 case_store 0 (- ln 2) case_E0.
Proof.
  split; [lia|]. split; [lia|]. split.
  - intros N J ds HN Hin. destruct N as [|[|N]]; [| |lia].
    + destruct Hin as [E|[]]. injection E as <- <-. cbn. repeat split; lia || reflexivity.
    + destruct Hin as [E|[E|[]]]; injection E as <- <-; cbn; repeat split; lia || reflexivity.
  - eexists _, _. split; [right; left; reflexivity|]. cbn. lia.
Qed.
Lemma case_levels0 : partition 1 (shell_levels case_mult 4 2 case_store 0) = 5.
Proof.
  unfold partition. cbn. replace (- ((ln 2 - 0) * 1 + 0) / 1) with (- ln 2) by field. replace (- ((3 * ln 2 - 0) * 1 + 0) / 1) with (- (3 * ln 2)) by field.
  rewrite exp_mln2, exp_m3ln2. lra.
Qed.
Lemma case_levels1 : partition 1 (shell_levels case_mult 4 2 case_store 1) = 6.
Proof.
  unfold partition. cbn. replace (- ((1 - 1) * / 2 + - ln 2) / 1) with (ln 2) by field. replace (- ((1 + 2 * ln 2 - 1) * / 2 + - ln 2) / 1) with 0 by field.
  rewrite exp_0, exp_ln by lra. lra.
Qed.
Lemma case_chain : partition 1 (chain_levels case_mult 4 2 case_store 0) = 11.
Proof. rewrite (Z_shells case_mult 4 1 0 2 case_store). unfold Nall. cbn [seq Nat.sub rsum]. rewrite case_levels0, case_levels1. lra. Qed.
Lemma case_C21 : completed case_mult 4 2 case_store 0 (- ln 2) case_E0 /\
  wn case_mult 4 1 0 2 case_store 0 = 5 / 11 /\ wn case_mult 4 1 0 2 case_store 1 = 6 / 11.
Proof.
  split; [apply case_completed|].
  split; (rewrite (wn_levels case_mult 4 1 0 2 case_store (- ln 2) case_E0) by (lia || lra || apply case_completed); rewrite case_chain).
  - rewrite case_levels0. lra.
  - rewrite case_levels1. lra.
Qed.
Lemma case_C30 : completed case_mult 4 2 case_store 0 (- ln 2) case_E0 /\ no_negligible_shell 1 case_mult 4 0 2 case_store /\
  length (chain_levels case_mult 4 2 case_store 0) = 4%nat.
Proof.
  split; [apply case_completed|]. split; [|reflexivity]. intros N HN. right. rewrite case_chain.
  assert (/ 10 ^ 16 < 1 / 4). { replace (1 / 4) with (/ 4) by lra. apply Rinv_lt_contravar; cbn; lra. }
  destruct N as [|[|N]]; [| |lia].
  - rewrite case_levels0. lra.
  - rewrite case_levels1. lra.
Qed.
Definition case_diag : list (invar * list R) := [([0; 2]%Z, [0; ln 2]); ([1; 1]%Z, []); ([1; 3]%Z, [2 * ln 2])].
Lemma case_step : (forall J v, In (J, v) case_diag -> (1 <= case_mult J)%Z) /\ (exists J v, In (J, v) case_diag /\ v <> []) /\
  td_Z (calculate_TD case_mult case_diag 1) = 15 / 4.
Proof.
  split; [|split].
  - intros J v H. destruct H as [E|[E|[E|[]]]]; injection E as <- <-; cbn; lia.
  - eexists _, _. split; [left; reflexivity|discriminate].
  - cbn. unfold trace, accumulate. cbn. replace (- (1) * 0) with 0 by ring. replace (- (1) * ln 2) with (- ln 2) by ring. replace (- (1) * (2 * ln 2)) with (- ln 2 + - ln 2) by ring.
    rewrite exp_plus, exp_0, exp_mln2. lra.
Qed.
