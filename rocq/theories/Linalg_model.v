(** Model of the calls of BLAS and LAPACK: /repo/c++/blas_gemm.hpp (all), /repo/c++/numerics_Eigen.hpp 97-139 (product, transform,
    rotate, rotate_diagonal), /repo/c++/diag.hpp 121-515, 601-658 (workspace sizes, the six LAPACK drivers, diagonalise()).
    Scalars are the elements of an arbitrary algebraically closed field with conjugation; rounding is not modelled.  Real scalars are the
    case of real entries.  LAPACK is an argument.  The CUDA variants are compiled out. *)
From Coq Require Import List ZArith QArith Qround String.
From mathcomp Require Import ssreflect ssrfun ssrbool eqtype ssrnat div fintype bigop ssralg ssrnum.
From Verif Require Import Base Invar_model Symmetry_model Subspaces_model Density_model.
Import ListNotations GRing.Theory Num.Theory.
Local Open Scope ring_scope.
Set Implicit Arguments.
Unset Strict Implicit.
Unset Printing Implicit Defensive.

Section Linalg.
  Variable C : numClosedFieldType.
  (** Largest value of lapack_int (linalg.hpp:10-14: int, or long with LAPACK_ILP64). *)
  Variable imax : Z.

  (** ** Products *)
  (** A row-major Eigen matrix or a block of one: element (i, j) is at data() + i * outerStride() + j.  [v_mem] is the array that holds
      the whole matrix. *)
  Record view := View { v_mem : nat -> C; v_off : nat; v_ld : nat; v_rows : nat; v_cols : nat }.
  Definition v_at (v : view) (i j : nat) : nat := (v_off v + (i * v_ld v + j))%N.
  Definition v_el (v : view) (i j : nat) : C := v_mem v (v_at v i j).
  (** data(). *)
  Definition v_data (v : view) (p : nat) : C := v_mem v (v_off v + p)%N.
  Definition v_set (v : view) (d : nat -> C) : view :=
    View (fun p => if (p < v_off v)%N then v_mem v p else d (p - v_off v)%N) (v_off v) (v_ld v) (v_rows v) (v_cols v).

  (** blas_gemm.hpp:18. *)
  Inductive trans := NoTrans | Trans | ConjTrans.
  Definition is_none (t : trans) : bool := if t is NoTrans then true else false.

  (** Element (i, l) of op(a) for a column-major array with leading dimension ld. *)
  Definition op_at (t : trans) (a : nat -> C) (ld i l : nat) : C :=
    match t with NoTrans => a (i + l * ld)%N | Trans => a (l + i * ld)%N | ConjTrans => (a (l + i * ld)%N)^* end.
  (** What the documentation of dgemm and zgemm promises: c := alpha op(a) op(b) + beta c, column-major, elements outside the m x n
      block untouched, c not read if beta = 0; too small leading dimensions stop the program (xerbla). *)
  Definition xgemm (ta tb : trans) (m n k : nat) (alpha : C) (a : nat -> C) (lda : nat) (b : nat -> C) (ldb : nat) (beta : C) (c : nat -> C) (ldc : nat) : res (nat -> C) :=
    if [|| (lda < maxn 1 (if is_none ta then m else k))%N, (ldb < maxn 1 (if is_none tb then k else n))%N | (ldc < maxn 1 m)%N] then Throw
    else Ok (fun p => if (p %% ldc < m)%N && (p %/ ldc < n)%N then
      let s := alpha * \sum_(l < k) op_at ta a lda (p %% ldc) l * op_at tb b ldb l (p %/ ldc) in
      if beta == 0 then s else s + beta * c p else c p).

  (** blas_gemm.hpp:20-24. *)
  Definition blas_int (n : nat) : res nat := if (imax <? Z.of_nat n)%Z then Throw else Ok n.

  (** blas_gemm.hpp:53-84.  The assert on the size of C is off in production. *)
  Definition gemm_rowmajor (alpha : C) (A : view) (tA : trans) (B : view) (tB : trans) (beta : C) (c : view) : res view :=
    let m := if is_none tA then v_rows A else v_cols A in
    let k := if is_none tA then v_cols A else v_rows A in
    let bk := if is_none tB then v_rows B else v_cols B in
    let n := if is_none tB then v_cols B else v_rows B in
    if k != bk then Throw
    else if ~~ ((v_rows c == m) && (v_cols c == n)) then UB
    else if (m == 0%N) || (n == 0%N) then Ok c
    else if k == 0%N then
      Ok (v_set c (fun p => if (p %% v_ld c < n)%N && (p %/ v_ld c < m)%N then (if beta == 0 then 0 else v_data c p * beta) else v_data c p))
    else
      let* mm := blas_int m in let* nn := blas_int n in let* kk := blas_int k in
      let* lda := blas_int (v_ld A) in let* ldb := blas_int (v_ld B) in let* ldc := blas_int (v_ld c) in
      let* d := xgemm tB tA nn mm kk alpha (v_data B) ldb (v_data A) lda beta (v_data c) ldc in
      Ok (v_set c d).
  (** blas_gemm.hpp:87-100. *)
  Definition gemm_nn alpha A B beta c := gemm_rowmajor alpha A NoTrans B NoTrans beta c.
  Definition gemm_nh alpha A B beta c := gemm_rowmajor alpha A NoTrans B ConjTrans beta c.
  Definition gemm_hn alpha A B beta c := gemm_rowmajor alpha A ConjTrans B NoTrans beta c.

  Definition finite_size (v : view) : bool := (v_rows v != 0%N) && (v_cols v != 0%N).
  (** A new matrix; its elements are not initialised. *)
  Definition fresh (junk : nat -> C) (rows cols : nat) : view := View junk 0 cols rows cols.

  (** numerics_Eigen.hpp:97-104. *)
  Definition product_Eigen (M : view) (factor : C) (A B : view) : res view :=
    if finite_size A && finite_size B then
      if [&& v_rows M == v_rows A, v_cols A == v_cols B & v_rows B == v_cols M] then gemm_nh factor A B 1 M else UB
    else Ok M.
  (** numerics_Eigen.hpp:106-115. *)
  Definition transform_Eigen (junk : nat -> C) (M : view) (factor : C) (A O B : view) : res view :=
    if finite_size A && finite_size B then
      if [&& v_rows M == v_rows A, v_cols A == v_rows O, v_cols O == v_cols B & v_rows B == v_cols M] then
        let* temp := gemm_nn 1 A O 0 (fresh junk (v_rows A) (v_cols O)) in
        gemm_nh factor temp B 1 M
      else UB
    else Ok M.
  (** numerics_Eigen.hpp:117-126. *)
  Definition rotate_blas (junk : nat -> C) (M : view) (factor : C) (U O : view) : res view :=
    if finite_size U then
      if [&& v_rows M == v_cols U, v_rows U == v_rows O, v_cols O == v_rows U & v_cols U == v_cols M] then
        let* temp := gemm_hn 1 U O 0 (fresh junk (v_cols U) (v_cols O)) in
        gemm_nn factor temp U 1 M
      else UB
    else Ok M.
  (** numerics_Eigen.hpp:128-139. *)
  Definition rotate_diagonal_blas (M : view) (factor : C) (U O : view) : res view :=
    if finite_size U then
      if [&& v_rows M == v_cols U, v_rows U == v_rows O, v_cols O == v_rows U & v_cols U == v_cols M] then
        let temp := View (fun p => v_el O (p %/ v_cols U) (p %/ v_cols U) * v_el U (p %/ v_cols U) (p %% v_cols U)) 0 (v_cols U) (v_rows U) (v_cols U) in
        gemm_hn factor U temp 1 M
      else UB
    else Ok M.

  (** ** Diagonalisation *)
  Inductive routine := Dsyev | Dsyevd | Dsyevr | Zheev | Zheevd | Zheevr.
  Definition partial (r : routine) : bool := match r with Dsyevr | Zheevr => true | _ => false end.

  (** diag.hpp:121-125. *)
  Definition checked_lapack_int (z : Z) : res Z := if (imax <? z)%Z then Throw else Ok z.
  (** diag.hpp:127-131: the optimal size a workspace query returns (None: not finite or less than 1).  static_cast<double> of the
      largest size_t is 2^64; a double of this value is not capped and its conversion is undefined. *)
  Definition size_max : Z := (2 ^ 64 - 1)%Z.
  Definition checked_workspace_query (v : option Z) : res Z :=
    match v with None => Throw | Some z => if (2 ^ 64 <? z)%Z then Ok size_max else if (z =? 2 ^ 64)%Z then UB else Ok z end.
  (** diag.hpp:133-140: unsigned 64-bit arithmetic. *)
  Definition u64 (z : Z) : Z := (z mod 2 ^ 64)%Z.
  Definition checked_workspace_formula (z : Z) : res Z := if (u64 z <? 1)%Z then Throw else Ok (u64 z).
  Definition max_one (z : Z) : Z := if (1 <? u64 z)%Z then u64 z else 1%Z.
  (** diag.hpp:142-153.  [cap]: the smaller of vector::max_size() and imax. *)
  Definition select_workspace_size (max_size minimum optimal : Z) (saveram : bool) : res Z :=
    let cap := Z.min max_size imax in
    if (cap <? minimum)%Z then Throw
    else checked_lapack_int (if saveram then minimum else Z.min (Z.max optimal minimum) cap).

  (** diag.hpp:159-211, jobz = 'V': the minimal sizes of WORK, RWORK, IWORK, in the order in which they are chosen. *)
  Definition minima (r : routine) (n : Z) : list (res Z) :=
    match r with
    | Dsyev => [if (n =? 0)%Z then Ok 1%Z else checked_workspace_formula (max_one (3 * n - 1))]
    | Dsyevd => [if (n <=? 1)%Z then Ok 1%Z else checked_workspace_formula (1 + 6 * n + 2 * n * n);
                    if (n <=? 1)%Z then Ok 1%Z else checked_workspace_formula (3 + 5 * n)]
    | Dsyevr => [checked_workspace_formula (max_one (26 * n)); checked_workspace_formula (max_one (10 * n))]
    | Zheev => [if (n =? 0)%Z then Ok 1%Z else checked_workspace_formula (max_one (2 * n - 1))]
    | Zheevd => [if (n <=? 1)%Z then Ok 1%Z else checked_workspace_formula (2 * n + n * n);
                    if (n <=? 1)%Z then Ok 1%Z else checked_workspace_formula (1 + 5 * n + 2 * n * n);
                    if (n <=? 1)%Z then Ok 1%Z else checked_workspace_formula (3 + 5 * n)]
    | Zheevr => [checked_workspace_formula (max_one (2 * n)); checked_workspace_formula (max_one (24 * n)); checked_workspace_formula (max_one (10 * n))]
    end.
  (** zheev takes RWORK of fixed size, diag.hpp:184-188, 396. *)
  Definition fixed_sizes (r : routine) (n : Z) : list (res Z) :=
    match r with
    | Zheev => [let* z := (if (n =? 0)%Z then Ok 1%Z else checked_workspace_formula (max_one (3 * n - 2))) in checked_lapack_int z]
    | _ => nil
    end.
  Fixpoint sizes (max_size : Z) (saveram : bool) (ms : list (res Z)) (qs : list (option Z)) : res (list Z) :=
    match ms, qs with
    | m :: ms', q :: qs' =>
        let* mn := m in let* op := checked_workspace_query q in
        let* s := select_workspace_size max_size mn op saveram in
        let* l := sizes max_size saveram ms' qs' in Ok (s :: l)
    | nil, nil => Ok nil
    | _, _ => Throw
    end.

  (** What a driver returns: INFO, the number of eigenvalues found, the eigenvalues, and the array with the eigenvectors as columns of
      length dim. *)
  Record answer := Answer { a_info : Z; a_m : nat; a_w : nat -> C; a_z : nat -> C }.
  Record lapack := Lapack {
    (** Workspace query: INFO and the optimal sizes. *)
    l_query : routine -> nat -> Z * list (option Z);
    (** routine, dimension, number of eigenvalues wanted (the lowest), array with the matrix, workspace sizes. *)
    l_run : routine -> nat -> nat -> (nat -> C) -> list Z -> answer }.

  (** eigen.hpp:266-284. *)
  Record raw_eigen := Raw { r_count : nat; r_val : nat -> C; r_vec : fmat C }.
  (** diag.hpp:213-230, 253-261.  The array of eigenvalues has dim elements. *)
  Definition copy_results (w z : nat -> C) (dim M : nat) : res raw_eigen :=
    let* _ := my_assert (M <= dim)%N in
    Ok (Raw M w (Fmat M dim (fun r j => z (dim * r + j)%N))).

  (** Row-major storage of the matrix, diag.hpp:266-268 (a column-major one is transposed first, which gives the same array). *)
  Definition data (m : fmat C) (p : nat) : C := f_el m (p %/ f_cols m) (p %% f_cols m).

  (** Number of eigenvalues wanted, diag.hpp:328-334: conversion to lapack_int, clamp (undefined if the upper limit is below the lower
      one). *)
  Definition wanted (dim : nat) (ratio : Q) : res nat :=
    if Qeq_bool ratio 1 then Ok dim
    else let c := Qceiling (ratio * inject_Z (Z.of_nat dim)) in
         if (imax <? c)%Z || (c <? - imax - 1)%Z || (dim == 0%N) then UB else Ok (Z.to_nat (Z.min (Z.max c 1) (Z.of_nat dim))).

  (** The drivers, diag.hpp:263-515: dsyevr and zheevr allocate 2*M and LDZ*M elements, computed in lapack_int. *)
  Definition driver (lp : lapack) (max_size : Z) (r : routine) (m : fmat C) (ratio : Q) (saveram : bool) : res raw_eigen :=
    let dim := f_rows m in
    let n := Z.of_nat dim in
    let* _ := checked_lapack_int n in
    let* M := (if partial r then wanted dim ratio else Ok dim) in
    let* _ := (if partial r && ((imax <? 2 * Z.of_nat M)%Z || (imax <? n * Z.of_nat M)%Z) then UB else Ok tt) in
    let* fx := mapM id (fixed_sizes r n) in
    let '(info, qs) := l_query lp r dim in
    let* _ := my_assert (info =? 0)%Z in
    let* ws := sizes max_size saveram (minima r n) qs in
    let a := l_run lp r dim M (data m) (List.app ws fx) in
    let* _ := my_assert (a_info a =? 0)%Z in
    let M' := if partial r then a_m a else dim in
    let* _ := (if partial r && (a_m a != M) then my_assert (0 < a_m a)%N else Ok tt) in
    (* more vectors than Z has room for *)
    if (M < M')%N then UB else copy_results (a_w a) (a_z a) dim M'.

  (** diag.hpp:601-658: choice of the driver; a name that is not known for the scalar type leaves d empty. *)
  Local Open Scope string_scope.
  Definition choose (complex : bool) (name : string) : res routine :=
    if complex then
      if String.eqb name "zheev" then Ok Zheev
      else if String.eqb name "zheevd" || String.eqb name "default" then Ok Zheevd
      else if String.eqb name "zheevr" then Ok Zheevr else Throw
    else
      if String.eqb name "dsyev" then Ok Dsyev
      else if String.eqb name "dsyevd" || String.eqb name "default" then Ok Dsyevd
      else if String.eqb name "dsyevr" then Ok Dsyevr else Throw.
  (** [upper]: result of is_matrix_upper(), which compares with a tolerance. *)
  Definition diagonalise (lp : lapack) (max_size : Z) (complex : bool) (name : string) (upper : bool) (m : fmat C) (ratio : Q) (saveram : bool) : res raw_eigen :=
    let* _ := my_assert upper in
    let* r := choose complex name in
    let* d := driver lp max_size r m ratio saveram in
    let* _ := my_assert (0 < r_count d)%N in
    let* _ := my_assert ((f_rows (r_vec d) <= f_rows m)%N && (f_cols (r_vec d) == f_cols m)) in
    Ok d.

  (** ** sort_eigenpairs_by_value, diag.hpp:232-251, jobz = 'V': p is any permutation that sorts the values stably (std::stable_sort
      of indices). *)
  Definition sort_eigenpairs (p : list nat) (w z : nat -> C) (dim M : nat) : (nat -> C) * (nat -> C) :=
    (fun r => if (r < M)%N then w (List.nth r p 0%N) else w r,
     fun q => if (q < M * dim)%N then z (dim * List.nth (q %/ dim) p 0%N + q %% dim)%N else z q).
End Linalg.
