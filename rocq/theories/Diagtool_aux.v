(** Cases for the examples of C75. *)
From Coq Require Import List ZArith Reals Bool Lia Lra.
From Verif Require Import Base Interp_model Diagtool_model Diagtool_spec Diagtool_proofs.
Import ListNotations.
Local Open Scope R_scope.

(** A dsyev that solves matrices (a b; b a) with b >= 0 and reports an error otherwise. *)
Definition root_half : R := / sqrt 2.
Lemma root_half_square : root_half * root_half = 1 / 2.
Proof. unfold root_half. assert (H : sqrt 2 * sqrt 2 = 2) by (apply sqrt_sqrt; lra). assert (sqrt 2 <> 0) by (intros E; rewrite E in H; lra). replace (/ sqrt 2 * / sqrt 2) with (/ (sqrt 2 * sqrt 2)) by (field; assumption). rewrite H. lra. Qed.
Definition small_dsyev (n : nat) (a : nat -> R) : option ((nat -> R) * (nat -> R)) :=
  if Nat.eqb n 2 then if Req_EM_T (a 0%nat) (a 3%nat) then if Rle_dec 0 (a 1%nat) then
    Some (fun k => if Nat.eqb k 0 then a 0%nat - a 1%nat else a 0%nat + a 1%nat, fun p => if Nat.eqb p 1 then - root_half else root_half) else None else None else None.
Lemma small_some n a w z : small_dsyev n a = Some (w, z) -> n = 2%nat /\ a 0%nat = a 3%nat /\ 0 <= a 1%nat /\ w = (fun k => if Nat.eqb k 0 then a 0%nat - a 1%nat else a 0%nat + a 1%nat) /\ z = (fun p => if Nat.eqb p 1 then - root_half else root_half).
Proof. unfold small_dsyev. destruct (Nat.eqb_spec n 2); [| discriminate]. destruct (Req_EM_T _ _); [| discriminate]. destruct (Rle_dec _ _); [| discriminate]. intros [= <- <-]. tauto. Qed.
Lemma small_contract : dsyev_contract small_dsyev.
Proof.
  pose proof root_half_square as Hr. split.
  - intros n a w z E k i Hk Hi. apply small_some in E as (-> & Ea & Hb & -> & ->). destruct k as [|[|k]]; [| | lia]; (destruct i as [|[|i]]; [| | lia]); cbn; rewrite ?Ea; ring.
  - intros n a w z E k l Hk Hl. apply small_some in E as (-> & Ea & Hb & -> & ->). destruct k as [|[|k]]; [| | lia]; (destruct l as [|[|l]]; [| | lia]); cbn; lra.
  - intros n a w z E k l Hkl. apply small_some in E as (-> & Ea & Hb & -> & ->). destruct k as [|[|k]]; [| | lia]; (destruct l as [|[|l]]; [| | lia]); try lia; cbn; lra.
  - intros n a b H. unfold small_dsyev. destruct (Nat.eqb_spec n 2) as [-> |]; [| reflexivity]. pose proof (H 0%nat 0%nat ltac:(lia)) as H0. pose proof (H 1%nat 0%nat ltac:(lia)) as H1. pose proof (H 1%nat 1%nat ltac:(lia)) as H3. cbn in H0, H1, H3. now rewrite H0, H1, H3.
Qed.
Definition two_by_two : list (list R) := [[3; 1]; [1; 3]].
Lemma two_square : square 2 two_by_two.
Proof. split; [reflexivity | repeat constructor]. Qed.
Lemma two_symmetric : symmetric 2 two_by_two.
Proof. intros i j Hi Hj. destruct i as [|[|i]]; [| | lia]; (destruct j as [|[|j]]; [| | lia]); reflexivity. Qed.
Lemma two_solved : exists d, diag_stream small_dsyev 100 2 (map Some (concat two_by_two)) = Ok d /\ d_values d = [2 * 2; 4 * 2] /\ d_vectors d = [[root_half; - root_half]; [root_half; root_half]].
Proof.
  eexists. split; [unfold diag_stream, diagonalize, small_dsyev; cbn; destruct (Req_EM_T 3 3); [| lra]; destruct (Rle_dec 0 1); [| lra]; reflexivity |]. cbn. split; [| reflexivity]. repeat f_equal; lra.
Qed.
(** A file with a comment and a blank line. *)
Definition commented : list text_line := [Skipped; Words [([1], false); ([2], false)]; Skipped; Words [([3], false); ([4], false)]].
(** A code of zero and one in eight bytes. *)
Definition small_encode (x : R) : list Z := if Req_EM_T x 0 then repeat 0%Z 8 else repeat 0%Z 7 ++ [1%Z].
Definition small_decode (b : list Z) : R := IZR (last b 0%Z).
Lemma small_length x : length (small_encode x) = 8%nat.
Proof. unfold small_encode. now destruct (Req_EM_T x 0). Qed.
Definition swapped : diagonalized := {| d_dim := 2; d_values := [1; 1]; d_vectors := [[0; 1]; [1; 0]] |}.
Lemma swapped_codes : Forall (Forall (fun x => small_decode (small_encode x) = x)) (d_vectors swapped).
Proof.
  assert (small_decode (small_encode 0) = 0) by (unfold small_encode; destruct (Req_EM_T 0 0); [reflexivity | lra]).
  assert (small_decode (small_encode 1) = 1) by (unfold small_encode; destruct (Req_EM_T 1 0); [lra | reflexivity]).
  repeat (constructor; auto).
Qed.
