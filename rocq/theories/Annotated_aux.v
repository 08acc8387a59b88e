(** Cases for the examples of C74. *)
From Coq Require Import List ZArith Reals Bool String Lia Lra Permutation Sorted.
From Verif Require Import Interp_model Interp_proofs Annotated_model Annotated_spec Annotated_proofs.
Import ListNotations.
Local Open Scope string_scope.
Local Open Scope list_scope.
Local Open Scope R_scope.

Definition chain_settings : settings := {| dumpannotated := 3; dumpgroups := true; grouptol := 1 / 10; dumpscaled := true; dumpabs := false; dumpEscale := 1 |}.
Definition two_settings (groups : bool) : settings := {| dumpannotated := 2; dumpgroups := groups; grouptol := 1 / 10; dumpscaled := true; dumpabs := false; dumpEscale := 1 |}.
Definition three_settings : settings := {| dumpannotated := 2; dumpgroups := true; grouptol := 1 / 10; dumpscaled := false; dumpabs := true; dumpEscale := 2 |}.
Definition two_sectors : list (list Z * list R) := [([1%Z], [10; 14]); ([0%Z], [12])].
Definition sector_name (i : list Z) : string := match i with [0%Z] => "0" | _ => "1" end.
Definition sector_size (i : list Z) : nat := match i with [0%Z] => 5%nat | _ => 3%nat end.
Definition level_chain : list level := [(10, [1%Z]); (12, [0%Z]); (14, [1%Z])].
Lemma R10_12 : Rltb 10 12 = true. Proof. apply Rltb_true. lra. Qed.
Lemma R12_10 : Rltb 12 10 = false. Proof. apply Rltb_false. lra. Qed.
Lemma R14_12 : Rltb 14 12 = false. Proof. apply Rltb_false. lra. Qed.
Lemma R12_14 : Rltb 12 14 = true. Proof. apply Rltb_true. lra. Qed.
Lemma sorted_chain : sort_by level_ltb (flat_map (fun s => map (fun e => (e, fst s)) (snd s)) two_sectors) = level_chain.
Proof. cbn [two_sectors flat_map map fst snd app sort_by fold_right insert_by]. unfold level_ltb. cbn [fst snd]. rewrite R12_14. cbn [insert_by]. unfold level_ltb. cbn [fst snd]. now rewrite R12_10, R10_12. Qed.
Lemma near_12_10 : degenerate (1 / 10) 12 10.
Proof. right. right. rewrite !Rabs_pos_eq by lra. lra. Qed.
Lemma near_14_12 : degenerate (1 / 10) 14 12.
Proof. right. right. rewrite !Rabs_pos_eq by lra. lra. Qed.
Lemma far_14_10 : ~ degenerate (1 / 10) 14 10.
Proof. unfold degenerate. rewrite !Rabs_pos_eq by lra. lra. Qed.
Lemma chain_groups : dump chain_settings 1 0 sector_size sector_name two_sectors = Some [Group (Some 10) ["0"; "1"] 8; Group (Some 14) ["1"] 3].
Proof.
  unfold dump. cbn [dumpannotated chain_settings Nat.eqb]. rewrite sorted_chain. unfold level_chain, dump_length. cbn [List.length Nat.min dumpannotated chain_settings skipn further Nat.add firstn dumpgroups dump_groups fst].
  assert (E1 : Z.eqb (my_fcmp 12 10 (1 / 10)) 0 = true) by (apply fcmp_eqb, near_12_10). assert (E2 : Z.eqb (my_fcmp 14 10 (1 / 10)) 0 = false) by (apply fcmp_neqb, far_14_10). assert (E0 : forall x, Z.eqb (my_fcmp x x (1 / 10)) 0 = true) by (intros x; apply fcmp_eqb, degenerate_refl).
  cbn [group_of fst]. change (grouptol chain_settings) with (1 / 10). rewrite E0, E1, E2. cbn [List.length skipn group_of fst]. change (grouptol chain_settings) with (1 / 10). rewrite E0. cbn [List.length skipn]. unfold group_line, scaled_energy, rdiv. cbn [dumpscaled dumpabs dumpEscale chain_settings].
  destruct (Req_EM_T 1 0); [lra |]. replace ((10 * 1 + 0) / 1) with 10 by lra. replace ((14 * 1 + 0) / 1) with 14 by lra. reflexivity.
Qed.
Lemma sectors_positive p : In p (levels two_sectors) -> 0 <= fst p.
Proof. intros [<- | [<- | [<- | []]]]; cbn; lra. Qed.
