(** What C60 and C61 talk about: the Hermitian matrix a Hamiltonian block stands for, eigenpairs of it, the documented contract of the
    LAPACK drivers, and matrix products in terms of elements. *)
From Coq Require Import List ZArith QArith String.
From mathcomp Require Import ssreflect ssrfun ssrbool eqtype ssrnat div fintype bigop ssralg ssrnum.
From Verif Require Import Base Density_model Linalg_model.
Import ListNotations GRing.Theory Num.Theory.
Local Open Scope ring_scope.
Set Implicit Arguments.
Unset Strict Implicit.
Unset Printing Implicit Defensive.

Section Spec.
  Variable C : numClosedFieldType.

  Definition delta (i j : nat) : C := if i == j then 1 else 0.

  (** The Hermitian matrix of which the upper triangle is given. *)
  Definition hermitian (m : nat -> nat -> C) (i j : nat) : C :=
    if (i < j)%N then m i j else if i == j then 'Re (m i i) else (m j i)^*.
  (** Documentation of dsyev etc., UPLO = 'L': A(i,j), j <= i, is the element i + j*LDA of the array. *)
  Definition lower (dim : nat) (a : nat -> C) (i j : nat) : C :=
    if (j < i)%N then a (i + j * dim)%N else if i == j then 'Re (a (i + i * dim)%N) else (a (j + i * dim)%N)^*.

  (** The rows of U are M orthonormal row vectors u with u H = w u, lowest eigenvalues first, none lower left out. *)
  Definition left_eigen (dim : nat) (H : nat -> nat -> C) (w : C) (u : nat -> C) : Prop :=
    forall i, (i < dim)%N -> \sum_(j < dim) u j * H j i = w * u i.
  Definition dot (dim : nat) (u v : nat -> C) : C := \sum_(j < dim) u j * (v j)^*.
  Record lowest_eigenpairs (dim : nat) (H : nat -> nat -> C) (M : nat) (w : nat -> C) (U : nat -> nat -> C) : Prop := {
    le_eigen : forall r, (r < M)%N -> left_eigen dim H (w r) (U r);
    le_orthonormal : forall r s, (r < M)%N -> (s < M)%N -> dot dim (U r) (U s) = delta r s;
    le_ascending : forall r s, (r <= s)%N -> (s < M)%N -> w r <= w s;
    le_lowest : forall x v, left_eigen dim H x v -> (exists i, (i < dim)%N /\ v i <> 0) -> (forall r, (r < M)%N -> dot dim v (U r) = 0) ->
      forall r, (r < M)%N -> w r <= x }.

  (** Documented minimal workspace sizes (JOBZ = 'V'), LWORK, LRWORK, LIWORK; RWORK of zheev comes last. *)
  Definition documented (r : routine) (n : Z) : list Z :=
    (match r with
     | Dsyev => [Z.max 1 (3 * n - 1)]
     | Dsyevd => if n <=? 1 then [1; 1] else [1 + 6 * n + 2 * n * n; 3 + 5 * n]
     | Dsyevr => [Z.max 1 (26 * n); Z.max 1 (10 * n)]
     | Zheev => [Z.max 1 (2 * n - 1); Z.max 1 (3 * n - 2)]
     | Zheevd => if n <=? 1 then [1; 1; 1] else [2 * n + n * n; 1 + 5 * n + 2 * n * n; 3 + 5 * n]
     | Zheevr => [Z.max 1 (2 * n); Z.max 1 (24 * n); Z.max 1 (10 * n)]
     end)%Z.
  (** The documented contract: given enough workspace, a driver that reports no error returns the wanted number of lowest eigenvalues in
      ascending order, and column r of the array Z (leading dimension dim) is the normalised eigenvector of eigenvalue r. *)
  Definition right_eigen (dim : nat) (A : nat -> nat -> C) (w : C) (z : nat -> C) : Prop :=
    forall i, (i < dim)%N -> \sum_(j < dim) A i j * z j = w * z i.
  Record lapack_contract (lp : lapack C) : Prop := {
    lc_found : forall r dim M a ws, List.Forall2 Z.le (documented r (Z.of_nat dim)) ws -> (1 <= M)%N -> (M <= dim)%N ->
      a_info (l_run lp r dim M a ws) = 0%Z -> a_m (l_run lp r dim M a ws) = M;
    lc_eigen : forall r dim M a ws, List.Forall2 Z.le (documented r (Z.of_nat dim)) ws -> (1 <= M)%N -> (M <= dim)%N ->
      let o := l_run lp r dim M a ws in a_info o = 0%Z ->
      forall s, (s < M)%N -> right_eigen dim (lower dim a) (a_w o s) (fun j => a_z o (j + s * dim)%N);
    lc_orthonormal : forall r dim M a ws, List.Forall2 Z.le (documented r (Z.of_nat dim)) ws -> (1 <= M)%N -> (M <= dim)%N ->
      let o := l_run lp r dim M a ws in a_info o = 0%Z ->
      forall s t, (s < M)%N -> (t < M)%N -> dot dim (fun j => a_z o (j + s * dim)%N) (fun j => a_z o (j + t * dim)%N) = delta s t;
    lc_ascending : forall r dim M a ws, List.Forall2 Z.le (documented r (Z.of_nat dim)) ws -> (1 <= M)%N -> (M <= dim)%N ->
      let o := l_run lp r dim M a ws in a_info o = 0%Z ->
      forall s t, (s <= t)%N -> (t < M)%N -> a_w o s <= a_w o t;
    lc_lowest : forall r dim M a ws, List.Forall2 Z.le (documented r (Z.of_nat dim)) ws -> (1 <= M)%N -> (M <= dim)%N ->
      let o := l_run lp r dim M a ws in a_info o = 0%Z ->
      forall x v, right_eigen dim (lower dim a) x v -> (exists i, (i < dim)%N /\ v i <> 0) ->
      (forall s, (s < M)%N -> dot dim v (fun j => a_z o (j + s * dim)%N) = 0) -> forall s, (s < M)%N -> a_w o s <= x }.

  (** A workspace query reports no error and a finite size of at least 1 for each of the arrays the driver takes. *)
  Definition arrays (r : routine) : nat := match r with Dsyev | Zheev => 1 | Dsyevd | Dsyevr => 2 | Zheevd | Zheevr => 3 end.
  Definition queries_answered (lp : lapack C) : Prop := forall r dim, exists zs,
    l_query lp r dim = (0%Z, List.map Some zs) /\ List.length zs = arrays r /\ List.Forall (fun z => (1 <= z < 2 ^ 64)%Z) zs.

  (** The driver names accepted in the parameter diag, and which of them can compute a part of the spectrum. *)
  Local Open Scope string_scope.
  Definition accepted (complex : bool) (name : string) : Prop :=
    if complex then List.In name ["zheev"; "zheevd"; "default"; "zheevr"] else List.In name ["dsyev"; "dsyevd"; "default"; "dsyevr"].
  Definition computes_part (name : string) : Prop := List.In name ["dsyevr"; "zheevr"].

  (** ** Products *)
  Definition op_el (t : trans) (v : view C) (i j : nat) : C :=
    match t with NoTrans => v_el v i j | Trans => v_el v j i | ConjTrans => (v_el v j i)^* end.
  Definition op_rows (t : trans) (v : view C) : nat := match t with NoTrans => v_rows v | _ => v_cols v end.
  Definition op_cols (t : trans) (v : view C) : nat := match t with NoTrans => v_cols v | _ => v_rows v end.
  (** Rows do not overlap. *)
  Definition laid_out (v : view C) : Prop := (v_cols v <= v_ld v)%N.
  (** All sizes can be passed to BLAS. *)
  Definition small (imax : Z) (v : view C) : Prop :=
    (Z.of_nat (v_rows v) <= imax /\ Z.of_nat (v_cols v) <= imax /\ Z.of_nat (v_ld v) <= imax)%Z.
  (** c' is c with new elements, given by f, and nothing else changed. *)
  Definition elements_become (c c' : view C) (f : nat -> nat -> C) : Prop :=
    [/\ v_rows c' = v_rows c, v_cols c' = v_cols c, v_ld c' = v_ld c, v_off c' = v_off c &
        (forall i j, (i < v_rows c)%N -> (j < v_cols c)%N -> v_el c' i j = f i j) /\
        (forall p, (forall i j, (i < v_rows c)%N -> (j < v_cols c)%N -> p <> v_at c i j) -> v_mem c' p = v_mem c p)].
  (** The matrix a view shows. *)
  Definition matrix_of (v : view C) : fmat C := Fmat (v_rows v) (v_cols v) (v_el v).
End Spec.
