(** C60 (diagonalisation returns eigenpairs of the Hamiltonian) and C61 (matrix products). *)
From Coq Require Import List ZArith QArith String.
From Verif Require Import Base Density_model Linalg_model Linalg_spec Linalg_diag Linalg_gemm Linalg_aux.
From mathcomp Require Import ssreflect ssrfun ssrbool eqtype ssrnat fintype bigop ssralg ssrnum.
Import GRing.Theory Num.Theory.
Local Open Scope ring_scope.

(** C60: whichever driver is chosen, the returned values and vectors are the lowest eigenpairs of the Hermitian matrix whose upper
    triangle is stored: row vectors u with u H = w u, orthonormal, in ascending order, none lower left out. *)
Theorem C60_eigenpairs (C : numClosedFieldType) (lp : lapack C) max_size complex name upper (m : fmat C) ratio saveram d :
  lapack_contract lp -> f_cols m = f_rows m -> (0 < f_rows m)%N ->
  diagonalise (2 ^ 31 - 1) lp max_size complex name upper m ratio saveram = Ok d ->
  f_rows (r_vec d) = r_count d /\ f_cols (r_vec d) = f_rows m /\ (1 <= r_count d)%N /\ (r_count d <= f_rows m)%N /\
  lowest_eigenpairs (f_rows m) (hermitian (f_el m)) (r_count d) (r_val d) (f_el (r_vec d)).
Proof. exact (@diagonalise_eigenpairs C lp max_size complex name upper m ratio saveram d). Qed.
Print Assumptions C60_eigenpairs.
Example C60_eigenpairs_case (C : numClosedFieldType) :
  lapack_contract (ex_lapack C) /\ diagonalise (2 ^ 31 - 1) (ex_lapack C) (2 ^ 60) false "dsyev" true (ex_ham C) 1 true = Ok (ex_result C).
Proof. exact (conj (ex_contract C) (ex_result_of C true)). Qed.

(** C60: if all states are computed, the matrix of eigenvectors U is unitary and U H U^+ is the diagonal matrix of the energies. *)
Theorem C60_unitary (C : numClosedFieldType) dim (H : nat -> nat -> C) w U :
  lowest_eigenpairs dim H dim w U ->
  (forall i j, (i < dim)%N -> (j < dim)%N -> \sum_(r < dim) (U r i)^* * U r j = delta C i j) /\
  (forall r s, (r < dim)%N -> (s < dim)%N -> \sum_(i < dim) (\sum_(j < dim) U r j * H j i) * (U s i)^* = w r * delta C r s).
Proof. exact (@full_unitary C dim H w U). Qed.
Print Assumptions C60_unitary.
Example C60_unitary_case (C : numClosedFieldType) :
  lowest_eigenpairs 2 (hermitian (f_el (ex_ham C))) 2 (r_val (ex_result C)) (f_el (r_vec (ex_result C))).
Proof. exact (proj2 (proj2 (proj2 (proj2 (@diagonalise_eigenpairs C _ _ _ _ _ _ _ _ _ (ex_contract C) (Logic.eq_refl : f_cols (ex_ham C) = f_rows (ex_ham C)) isT (ex_result_of C true)))))). Qed.

(** C60: the number of states: all of them, or with dsyevr and zheevr the fraction diagratio, rounded up, at least one. *)
Theorem C60_count (C : numClosedFieldType) (lp : lapack C) max_size complex name upper (m : fmat C) ratio saveram d :
  lapack_contract lp -> f_cols m = f_rows m -> (0 < f_rows m)%N ->
  diagonalise (2 ^ 31 - 1) lp max_size complex name upper m ratio saveram = Ok d ->
  (~ computes_part name -> r_count d = f_rows m) /\
  (computes_part name ->
    (r_count d = f_rows m \/ Qle (ratio * inject_Z (Z.of_nat (f_rows m))) (inject_Z (Z.of_nat (r_count d)))) /\
    (r_count d = 1%N \/ Qlt (inject_Z (Z.of_nat (r_count d) - 1)) (ratio * inject_Z (Z.of_nat (f_rows m))))).
Proof. exact (@diagonalise_count C lp max_size complex name upper m ratio saveram d). Qed.
Print Assumptions C60_count.

(** C60: if LAPACK succeeds and the documented workspace fits into memory and into its integers, so does diagonalise(). *)
Theorem C60_succeeds (C : numClosedFieldType) (lp : lapack C) max_size complex name (m : fmat C) ratio saveram :
  queries_answered lp -> accepted complex name -> f_cols m = f_rows m -> (0 < f_rows m)%N ->
  (forall r M ws, a_info (l_run lp r (f_rows m) M (data m) ws) = 0%Z) ->
  (forall r M ws, a_m (l_run lp r (f_rows m) M (data m) ws) = M) ->
  (forall r, List.Forall (fun z => (z <= Z.min max_size (2 ^ 31 - 1))%Z) (documented r (Z.of_nat (f_rows m)))) ->
  Qle 0 ratio -> Qle ratio 1 ->
  (Z.of_nat (f_rows m) * Z.of_nat (f_rows m) <= 2 ^ 31 - 1)%Z -> (2 * Z.of_nat (f_rows m) <= 2 ^ 31 - 1)%Z ->
  exists d, diagonalise (2 ^ 31 - 1) lp max_size complex name true m ratio saveram = Ok d.
Proof. exact (@diagonalise_succeeds C lp max_size complex name m ratio saveram). Qed.
Print Assumptions C60_succeeds.
Example C60_succeeds_case (C : numClosedFieldType) :
  queries_answered (ex_lapack C) /\ accepted false "dsyevr" /\ (forall r M ws, a_info (l_run (ex_lapack C) r 2 M (data (ex_ham C)) ws) = 0%Z) /\
  exists d, diagonalise (2 ^ 31 - 1) (ex_lapack C) (2 ^ 60) false "dsyevr" true (ex_ham C) 1 false = Ok d.
Proof. exact (conj (ex_queries C) (conj (or_intror (or_intror (or_intror (or_introl Logic.eq_refl)))) (conj (ex_info_ok C) (ex_run C false (or_intror (or_intror (or_intror (or_introl Logic.eq_refl)))))))). Qed.

(** C60: an unknown driver, or a matrix that is not upper triangular, is refused. *)
Theorem C60_refuses (C : numClosedFieldType) (lp : lapack C) max_size complex name upper (m : fmat C) ratio saveram :
  ~ accepted complex name \/ upper = false ->
  diagonalise (2 ^ 31 - 1) lp max_size complex name upper m ratio saveram = Throw.
Proof. exact (@diagonalise_refuses C lp max_size complex name upper m ratio saveram). Qed.
Print Assumptions C60_refuses.

(** C60, finding: with dsyevr and zheevr matrices larger than 46340 overflow the size of an array, without an error message. *)
Theorem C60_large_refuted (C : numClosedFieldType) (lp : lapack C) max_size complex name (m : fmat C) saveram :
  (46340 < Z.of_nat (f_rows m) <= 2 ^ 31 - 1)%Z -> accepted complex name -> computes_part name ->
  diagonalise (2 ^ 31 - 1) lp max_size complex name true m 1 saveram = UB.
Proof. exact (@r_variant_overflow C lp max_size complex name m saveram). Qed.
Print Assumptions C60_large_refuted.

(** C60: sorting eigenpairs keeps values and vectors together. *)
Theorem C60_sorted_pairs (C : numClosedFieldType) p (w z : nat -> C) dim M :
  Permutation.Permutation p (List.seq 0 M) ->
  (forall r s, (r <= s)%N -> (s < M)%N -> w (List.nth r p 0%N) <= w (List.nth s p 0%N)) -> (0 < dim)%N ->
  let w' := fst (sort_eigenpairs p w z dim M) in let z' := snd (sort_eigenpairs p w z dim M) in
  (forall r s, (r <= s)%N -> (s < M)%N -> w' r <= w' s) /\
  (forall r, (r < M)%N -> exists s, (s < M)%N /\ w' r = w s /\ forall j, (j < dim)%N -> z' (dim * r + j)%N = z (dim * s + j)%N) /\
  (forall s, (s < M)%N -> exists r, (r < M)%N /\ w' r = w s /\ forall j, (j < dim)%N -> z' (dim * r + j)%N = z (dim * s + j)%N).
Proof. exact (@sorted_pairs C p w z dim M). Qed.
Print Assumptions C60_sorted_pairs.

(** C61: gemm on row-major matrices and blocks of matrices: C := alpha op(A) op(B) + beta C, nothing outside the block changes. *)
Theorem C61_gemm (C : numClosedFieldType) imax alpha (A : view C) tA (B : view C) tB beta (c : view C) :
  laid_out A -> laid_out B -> laid_out c -> small imax A -> small imax B -> small imax c ->
  op_cols tA A = op_rows tB B -> v_rows c = op_rows tA A -> v_cols c = op_cols tB B ->
  exists c', gemm_rowmajor imax alpha A tA B tB beta c = Ok c' /\
    elements_become c c' (fun i j => alpha * (\sum_(l < op_cols tA A) op_el tA A i l * op_el tB B l j) + beta * v_el c i j).
Proof. exact (@gemm_correct C imax alpha A tA B tB beta c). Qed.
Print Assumptions C61_gemm.
Example C61_gemm_case (C : numClosedFieldType) :
  laid_out (ex_m C) /\ small (2 ^ 31 - 1) (ex_m C) /\ small (2 ^ 31 - 1) (ex_a C) /\ small (2 ^ 31 - 1) (ex_b C) /\
  op_cols NoTrans (ex_a C) = op_rows ConjTrans (ex_b C) /\ v_rows (ex_m C) = v_rows (ex_a C) /\ v_cols (ex_m C) = op_cols ConjTrans (ex_b C).
Proof. exact (conj isT (conj (proj1 (ex_small C)) (conj (proj1 (proj2 (ex_small C))) (conj (proj2 (proj2 (ex_small C))) (conj Logic.eq_refl (conj Logic.eq_refl Logic.eq_refl)))))). Qed.

(** C61: factors that do not fit, or sizes BLAS cannot take, end with an exception. *)
Theorem C61_refuses (C : numClosedFieldType) imax alpha (A : view C) tA (B : view C) tB beta (c : view C) :
  op_cols tA A <> op_rows tB B \/
  ((0 < v_rows c)%N /\ (0 < v_cols c)%N /\ (0 < op_cols tA A)%N /\ v_rows c = op_rows tA A /\ v_cols c = op_cols tB B /\
   (~ small imax A \/ ~ small imax B \/ ~ small imax c)) ->
  gemm_rowmajor imax alpha A tA B tB beta c = Throw.
Proof. exact (@gemm_refuses C imax alpha A tA B tB beta c). Qed.
Print Assumptions C61_refuses.

(** C61: product: M += f A B^+. *)
Theorem C61_product (C : numClosedFieldType) imax (M A B : view C) f :
  laid_out A -> laid_out B -> laid_out M -> small imax A -> small imax B -> small imax M ->
  v_cols A = v_cols B -> v_rows M = v_rows A -> v_cols M = v_rows B ->
  exists M', product_Eigen imax M f A B = Ok M' /\
    elements_become M M' (fun i j => v_el M i j + f * \sum_(l < v_cols A) v_el A i l * (v_el B j l)^*).
Proof. exact (@product_correct C imax M A B f). Qed.
Print Assumptions C61_product.

(** C61: transform: M += f A O B^+, whatever the memory of the temporary matrix held. *)
Theorem C61_transform (C : numClosedFieldType) imax junk (M A O B : view C) f :
  laid_out A -> laid_out O -> laid_out B -> laid_out M -> small imax A -> small imax O -> small imax B -> small imax M ->
  v_cols A = v_rows O -> v_cols O = v_cols B -> v_rows M = v_rows A -> v_cols M = v_rows B ->
  exists M', transform_Eigen imax junk M f A O B = Ok M' /\
    elements_become M M' (fun i j => v_el M i j + f * \sum_(b < v_cols O) (\sum_(a < v_rows O) v_el A i a * v_el O a b) * (v_el B j b)^*).
Proof. exact (@transform_correct C imax junk M A O B f). Qed.
Print Assumptions C61_transform.

(** C61: rotate and rotate_diagonal: M += f U^+ O U, with the definitions that the density-matrix theorems use. *)
Theorem C61_rotate (C : numClosedFieldType) imax junk (M U O : view C) f :
  laid_out U -> laid_out O -> laid_out M -> small imax U -> small imax O -> small imax M ->
  v_rows U = v_rows O -> v_cols O = v_rows U -> v_rows M = v_cols U -> v_cols M = v_cols U ->
  exists M' R, rotate_blas imax junk M f U O = Ok M' /\ rotate (matrix_of M) f (matrix_of U) (matrix_of O) = Ok R /\
    elements_become M M' (f_el R).
Proof. exact (@rotate_correct C imax junk M U O f). Qed.
Print Assumptions C61_rotate.
Example C61_rotate_case (C : numClosedFieldType) :
  small (2 ^ 31 - 1) (ex_a C) /\ laid_out (ex_o C) /\ v_rows (ex_a C) = v_rows (ex_o C) /\ v_cols (ex_o C) = v_rows (ex_a C) /\ v_rows (ex_t C) = v_cols (ex_a C).
Proof. exact (conj (proj1 (proj2 (ex_small C))) (conj isT (conj Logic.eq_refl (conj Logic.eq_refl Logic.eq_refl)))). Qed.
Theorem C61_rotate_diagonal (C : numClosedFieldType) imax (M U O : view C) f :
  laid_out U -> laid_out M -> small imax U -> small imax M ->
  v_rows U = v_rows O -> v_cols O = v_rows U -> v_rows M = v_cols U -> v_cols M = v_cols U ->
  exists M' R, rotate_diagonal_blas imax M f U O = Ok M' /\ rotate_diagonal (matrix_of M) f (matrix_of U) (matrix_of O) = Ok R /\
    elements_become M M' (f_el R).
Proof. exact (@rotate_diagonal_correct C imax M U O f). Qed.
Print Assumptions C61_rotate_diagonal.
