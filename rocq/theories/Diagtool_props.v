(** C75: the tools diag and unitary. *)
From Coq Require Import List ZArith Reals Bool Lia Lra.
From Verif Require Import Base Interp_model Diagtool_model Diagtool_spec Diagtool_proofs Diagtool_aux.
Import ListNotations.
Local Open Scope R_scope.

(** diag: for a symmetric matrix, the eigenvalues times the scale factor and the eigenvectors as rows; the text ends at the first word that is no number. *)
Theorem C75_diag dsyev imax scale n H t d : dsyev_contract dsyev -> (0 < n)%nat -> square n H -> symmetric n H -> (t = [] \/ exists u, t = None :: u) ->
  diag_stream dsyev imax scale (map Some (concat H) ++ t) = Ok d -> d_dim d = n /\ exists w, d_values d = map (fun x => x * scale) w /\ eigensystem n H w (d_vectors d).
Proof. intros C. exact (diag_ok dsyev imax C scale n H t d). Qed.
Print Assumptions C75_diag.
Example C75_diag_nonvacuous : exists d, diag_stream small_dsyev 100 2 (map Some (concat two_by_two)) = Ok d /\ d_values d = [2 * 2; 4 * 2] /\ exists w, d_values d = map (fun x => x * 2) w /\ eigensystem 2 two_by_two w (d_vectors d).
Proof.
  destruct two_solved as (d & E & Ev & _). exists d. split; [assumption |]. split; [assumption |].
  apply (C75_diag small_dsyev 100 2 2 two_by_two [] d); [exact small_contract | lia | exact two_square | exact two_symmetric | now left | now rewrite app_nil_r].
Qed.

(** Of a matrix that is not symmetric only the upper triangle is used, without a message. *)
Theorem C75_triangle_refuted dsyev imax scale n H K : dsyev_contract dsyev -> (0 < n)%nat -> square n H -> square n K -> (forall i j, (i <= j < n)%nat -> entry H i j = entry K i j) ->
  diag_stream dsyev imax scale (map Some (concat H)) = diag_stream dsyev imax scale (map Some (concat K)).
Proof. intros C. exact (diag_triangle dsyev imax C scale n H K). Qed.
Print Assumptions C75_triangle_refuted.
Example C75_triangle_nonvacuous : exists d, diag_stream small_dsyev 100 2 (map Some (concat [[3; 1]; [8; 3]])) = Ok d.
Proof.
  destruct two_solved as (d & E & _). exists d. rewrite <- E. apply (C75_triangle_refuted small_dsyev 100 2 2 [[3; 1]; [8; 3]] two_by_two small_contract); [lia | split; [reflexivity | repeat constructor] | exact two_square |].
  intros i j Hij. destruct i as [|[|i]]; [| | lia]; (destruct j as [|[|j]]; [| | lia]); try lia; reflexivity.
Qed.

(** Numbers that do not fill a square are refused. *)
Theorem C75_not_square dsyev imax scale F : (forall n, (0 < n)%nat -> length (values F) <> (n * n)%nat) -> diag_stream dsyev imax scale F = Throw.
Proof. exact (diag_refused dsyev imax scale F). Qed.
Print Assumptions C75_not_square.
Example C75_not_square_nonvacuous : diag_stream small_dsyev 100 1 [Some 1; Some 2; Some 3] = Throw.
Proof. apply C75_not_square. intros n Hn. cbn. destruct n as [|[|n]]; lia. Qed.

(** A square matrix is refused only if it is too large for LAPACK or LAPACK reports an error. *)
Theorem C75_lapack dsyev imax scale n H : (0 < n)%nat -> square n H ->
  (diag_stream dsyev imax scale (map Some (concat H)) = Throw <-> (imax < Z.of_nat n)%Z \/ dsyev n (fun p => nth p (concat H) 0) = None) /\
  diag_stream dsyev imax scale (map Some (concat H)) <> UB.
Proof. exact (diag_lapack dsyev imax scale n H). Qed.
Print Assumptions C75_lapack.
Example C75_lapack_nonvacuous : diag_stream small_dsyev 100 1 (map Some (concat [[1; 0]; [0; 2]])) = Throw.
Proof.
  apply (C75_lapack small_dsyev 100 1 2 [[1; 0]; [0; 2]]); [lia | split; [reflexivity | repeat constructor] |]. right. unfold small_dsyev. cbn. destruct (Req_EM_T 1 2); [lra | reflexivity].
Qed.

(** unitary: the product of three matrices, the outer ones transposed as wanted. *)
Theorem C75_unitary t l s A B D : op_cols t A = m_rows B -> m_cols B = op_rows l D ->
  exists M, unitary t l s A B D = Ok M /\ m_rows M = op_rows t A /\ m_cols M = op_cols l D /\
    forall i j, m_el M i j = s * sum (m_rows B) (fun p => op t A i p * sum (m_cols B) (fun q => m_el B p q * op l D q j)).
Proof. exact (unitary_ok t l s A B D). Qed.
Print Assumptions C75_unitary.
Example C75_unitary_nonvacuous : exists M, unitary true false 2 (of_rows 2 1 [[1]; [2]]) (of_rows 2 2 two_by_two) (of_rows 2 1 [[5]; [7]]) = Ok M /\ m_rows M = 1%nat /\ m_el M 0%nat 0%nat = 2 * (1 * (3 * 5 + 1 * 7) + 2 * (1 * 5 + 3 * 7)).
Proof.
  destruct (C75_unitary true false 2 (of_rows 2 1 [[1]; [2]]) (of_rows 2 2 two_by_two) (of_rows 2 1 [[5]; [7]]) eq_refl eq_refl) as (M & E & Hr & _ & Hel). exists M. split; [assumption |]. split; [assumption |]. rewrite Hel. cbn. lra.
Qed.
(** Sizes that do not fit violate an assertion. *)
Theorem C75_mismatch t l s A B D : op_cols t A <> m_rows B \/ m_cols B <> op_rows l D -> unitary t l s A B D = UB.
Proof. exact (unitary_mismatch t l s A B D). Qed.
Print Assumptions C75_mismatch.
Example C75_mismatch_nonvacuous : unitary false false 1 (of_rows 2 1 [[1]; [2]]) (of_rows 2 2 two_by_two) (of_rows 2 1 [[5]; [7]]) = UB.
Proof. apply C75_mismatch. left. discriminate. Qed.

(** Together: unitary -l with the eigenvectors of diag saves the diagonal matrix of the eigenvalues, exact zeros elsewhere. *)
Theorem C75_diagonalises n H w U s tol : square n H -> eigensystem n H w U -> 0 <= tol ->
  exists M, unitary false true s (of_rows n n U) (of_rows n n H) (of_rows n n U) = Ok M /\ m_rows M = n /\ m_cols M = n /\
    forall k l, (k < n)%nat -> (l < n)%nat -> entry (save_matrix tol M) k l = if Nat.eq_dec k l then (if Rlt_dec tol (Rabs (nth k w 0 * s)) then nth k w 0 * s else 0) else 0.
Proof. exact (diagonalises n H w U s tol). Qed.
Print Assumptions C75_diagonalises.
Example C75_diagonalises_nonvacuous : exists w U, eigensystem 2 two_by_two w U /\
  exists M, unitary false true 1 (of_rows 2 2 U) (of_rows 2 2 two_by_two) (of_rows 2 2 U) = Ok M /\ entry (save_matrix 0 M) 0 1 = 0.
Proof.
  destruct C75_diag_nonvacuous as (d & _ & _ & w & _ & He). exists w, (d_vectors d). split; [assumption |].
  destruct (C75_diagonalises 2 two_by_two w (d_vectors d) 1 0 two_square He (Rle_refl 0)) as (M & E & _ & _ & H). exists M. split; [assumption |]. rewrite H by lia. reflexivity.
Qed.

(** Text files: rows of numbers of equal lengths, between blank lines and comments. *)
Theorem C75_text cols l rows : spells l rows -> rows <> [] -> Forall (fun r => length r = cols) rows -> read_matrix_text l = Ok (of_rows (length rows) cols rows).
Proof. exact (text_ok cols l rows). Qed.
Print Assumptions C75_text.
Example C75_text_nonvacuous : read_matrix_text commented = Ok (of_rows 2 2 [[1; 2]; [3; 4]]).
Proof.
  apply (C75_text 2 commented [[1; 2]; [3; 4]]); [| discriminate | repeat constructor]. apply sp_skipped. apply (sp_row [1; 2]); [discriminate |]. apply sp_skipped. apply (sp_row [3; 4]); [discriminate |]. constructor.
Qed.
Theorem C75_uneven l rows r1 r2 : spells l rows -> In r1 rows -> In r2 rows -> length r1 <> length r2 -> read_matrix_text l = Throw.
Proof. exact (text_uneven l rows r1 r2). Qed.
Print Assumptions C75_uneven.
Example C75_uneven_nonvacuous : read_matrix_text [Words [([1], false); ([2], false)]; Words [([3], false)]] = Throw.
Proof.
  apply (C75_uneven _ [[1; 2]; [3]] [1; 2] [3]); [| now left | right; now left | discriminate]. apply (sp_row [1; 2]); [discriminate |]. apply (sp_row [3]); [discriminate |]. constructor.
Qed.
(** A word that is no number is refused. *)
Theorem C75_unreadable l rows : spells_words l rows -> In None (concat rows) -> read_matrix_text l = Throw.
Proof. exact (text_unreadable l rows). Qed.
Print Assumptions C75_unreadable.
Example C75_unreadable_nonvacuous : read_matrix_text [Words [([1], false); ([], true)]; Words [([3], false); ([4], false)]] = Throw.
Proof.
  apply (C75_unreadable _ [[Some 1; None]; [Some 3; Some 4]]); [| cbn; auto]. apply (sw_row [Some 1; None]); [discriminate |]. apply (sw_row [Some 3; Some 4]); [discriminate |]. constructor.
Qed.
(** The columns are counted in words, the numbers are read without regard to words: the line "1.5.5 7" is read as the row 1.5, 0.5. *)
Theorem C75_words_refuted : read_matrix_text [Words [([15 / 10; 5 / 10], false); ([7], false)]] = Ok (of_rows 1 2 [[15 / 10; 5 / 10]]).
Proof. reflexivity. Qed.
Print Assumptions C75_words_refuted.

(** Binary files: what diag writes is read back; anything shorter is refused. *)
Theorem C75_binary encode decode d n : (forall x, length (encode x) = 8%nat) -> Forall (Forall (fun x => decode (encode x) = x)) (d_vectors d) -> d_dim d = n -> square n (d_vectors d) -> (Z.of_nat n < 2 ^ 32)%Z ->
  read_matrix_bin decode (write_vectors encode d) = Ok (of_rows n n (d_vectors d)) /\
  forall k, (k < length (write_vectors encode d))%nat -> read_matrix_bin decode (firstn k (write_vectors encode d)) = Throw.
Proof. intros H1 H2 H3 H4 H5. exact (conj (binary_ok encode decode H1 d n H2 H3 H4 H5) (fun k => binary_short encode decode H1 d n k H3 H4 H5)). Qed.
Print Assumptions C75_binary.
Example C75_binary_nonvacuous : read_matrix_bin small_decode (write_vectors small_encode swapped) = Ok (of_rows 2 2 [[0; 1]; [1; 0]]).
Proof.
  apply (C75_binary small_encode small_decode swapped 2); [exact small_length | exact swapped_codes | reflexivity | split; [reflexivity | repeat constructor] | reflexivity].
Qed.
