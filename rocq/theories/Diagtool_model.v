(** Model of the tools /repo/tools/diag/diag.cc and /repo/tools/unitary/unitary.hpp with the readers and writers of matrices in
    /repo/c++/io.hpp and /repo/c++/basicio.hpp.  Real numbers without rounding; LAPACK and the representation of a double in memory are arguments. *)
From Coq Require Import List ZArith Reals Bool.
From Verif Require Import Base Interp_model.
Import ListNotations.
Local Open Scope R_scope.

(** What [F >> x] gives, again and again: numbers, or a failure ([None]), after which nothing more can be read. *)
Notation stream := (list (option R)).
Record matrix := Matrix { m_rows : nat; m_cols : nat; m_el : nat -> nat -> R }.
Fixpoint rsum (n : nat) (f : nat -> R) : R := match n with 0%nat => 0 | S k => rsum k f + f k end.

(** ** diag *)
(** diag.cc:161-165: the values up to the first failure *)
Fixpoint values (s : stream) : list R := match s with Some x :: t => x :: values t | _ => [] end.
Section Diag.
  (** LAPACK_dsyev with JOBZ = 'V', UPLO = 'L' on an array with LDA = dim: the eigenvalues and the array afterwards, or INFO <> 0. *)
  Variable dsyev : nat -> (nat -> R) -> option ((nat -> R) * (nat -> R)).
  Variable imax : Z.
  Record diagonalized := Diagonalized { d_dim : nat; d_values : list R; d_vectors : list (list R) }.
  (** diag.cc:47-97 diagonalize (the workspace is left out), 112-133 what is written *)
  Definition diagonalize (scale_factor : R) (dim : nat) (d : list R) : res diagonalized :=
    if Z.ltb imax (Z.of_nat dim) then Throw
    else
      match dsyev dim (fun p => nth p d 0) with
      | None => Throw
      | Some (w, ham) =>
          Ok {| d_dim := dim; d_values := map (fun r => w r * scale_factor) (seq 0 dim);
                d_vectors := map (fun r => map (fun j => ham (dim * r + j)%nat) (seq 0 dim)) (seq 0 dim) |}
      end.
  (** diag.cc:158-184 diag_stream *)
  Definition diag_stream (scale_factor : R) (F : stream) : res diagonalized :=
    let data := values F in
    let size := length data in
    if Nat.eqb size 0 then Throw
    else
      let N := Nat.sqrt size in
      if (Nat.eqb N 0 || negb (Nat.eqb size (N * N)))%bool then Throw else diagonalize scale_factor N data.
End Diag.

(** ** unitary *)
Definition trans (m : matrix) : matrix := Matrix (m_cols m) (m_rows m) (fun i j => m_el m j i).
(** numerics_Eigen.hpp:160-166 matrix_prod, by C61; an assertion that fails without NDEBUG stops the program. *)
Definition matrix_prod (a b : matrix) : res matrix :=
  if Nat.eqb (m_cols a) (m_rows b) then Ok (Matrix (m_rows a) (m_cols b) (fun i j => rsum (m_cols a) (fun k => m_el a i k * m_el b k j))) else UB.
Definition scaled (s : R) (m : matrix) : matrix := Matrix (m_rows m) (m_cols m) (fun i j => s * m_el m i j).
(** unitary.hpp:78-89 run; the result is what is saved *)
Definition unitary (transpose_first transpose_last : bool) (scale_factor : R) (A_ B C_ : matrix) : res matrix :=
  let A := if transpose_first then trans A_ else A_ in
  let C := if transpose_last then trans C_ else C_ in
  let* n := matrix_prod B C in
  let* M := matrix_prod A n in
  Ok (if Req_EM_T scale_factor 1 then M else scaled scale_factor M).
(** io.hpp:128-143 save_matrix: the rows of numbers *)
Definition save_matrix (chop_tol : R) (m : matrix) : list (list R) :=
  map (fun i => map (fun j => if Rltb chop_tol (Rabs (m_el m i j)) then m_el m i j else 0) (seq 0 (m_cols m))) (seq 0 (m_rows m)).

(** ** Text files *)
(** A word of a line: the numbers that [>>] finds in it one after the other, and whether it then fails in it.  A proper number is ([x], false). *)
Notation word := (list R * bool)%type.
(** A line: blank or a comment, or words. *)
Inductive text_line := Skipped | Words (ws : list word).
(** basicio.hpp:153-165 get_dims *)
Fixpoint get_dims (dim1 dim2 : nat) (l : list text_line) : res (nat * nat) :=
  match l with
  | [] => Ok (dim1, dim2)
  | Skipped :: t => get_dims dim1 dim2 t
  | Words ws :: t => let n := length ws in if (Nat.ltb 0 dim2 && negb (Nat.eqb dim2 n))%bool then Throw else get_dims (S dim1) n t
  end.
Definition word_stream (w : word) : stream := map Some (fst w) ++ if snd w then [None] else [].
(** io.hpp:90-96: the lines without the blank ones and the comments *)
Definition filtered (l : list text_line) : stream := flat_map (fun x => match x with Skipped => [] | Words ws => flat_map word_stream ws end) l.
(** basicio.hpp:143-150 read_one *)
Definition read_one (s : stream) : res (R * stream) := match s with Some x :: t => Ok (x, t) | _ => Throw end.
Fixpoint read_many (n : nat) (s : stream) : res (list R * stream) :=
  match n with 0%nat => Ok ([], s) | S k => let* (x, s1) := read_one s in let* (l, s2) := read_many k s1 in Ok (x :: l, s2) end.
Fixpoint read_rows (rows cols : nat) (s : stream) : res (list (list R) * stream) :=
  match rows with 0%nat => Ok ([], s) | S k => let* (r, s1) := read_many cols s in let* (l, s2) := read_rows k cols s1 in Ok (r :: l, s2) end.
Definition of_rows (rows cols : nat) (l : list (list R)) : matrix := Matrix rows cols (fun i j => nth j (nth i l []) 0).
(** io.hpp:69-80 read_matrix_data, 83-98 read_matrix_text *)
Definition read_matrix_text (l : list text_line) : res matrix :=
  let* (dim1, dim2) := get_dims 0 0 l in
  let* (rows, _) := read_rows dim1 dim2 (filtered l) in
  Ok (of_rows dim1 dim2 rows).

(** ** Binary files: bytes as numbers *)
Section Binary.
  (** The eight bytes of a double. *)
  Variables (encode : R -> list Z) (decode : list Z -> R).
  (** A 32-bit number, lowest byte first. *)
  Definition u32_bytes (n : nat) : list Z := let z := Z.of_nat n in [z mod 256; z / 256 mod 256; z / 65536 mod 256; z / 16777216 mod 256]%Z.
  Definition bytes_u32 (b : list Z) : nat := match b with [a; b; c; d] => Z.to_nat (a + 256 * b + 65536 * c + 16777216 * d) | _ => 0%nat end.
  (** F.read of n bytes; a short file is an error. *)
  Definition take_bytes (n : nat) (F : list Z) : res (list Z * list Z) := if Nat.leb n (length F) then Ok (firstn n F, skipn n F) else Throw.
  (** diag.cc:135-154 *)
  Definition write_vectors (d : diagonalized) : list Z := u32_bytes (d_dim d) ++ u32_bytes (d_dim d) ++ flat_map (flat_map encode) (d_vectors d).
  Fixpoint read_doubles (n : nat) (F : list Z) : res (list R * list Z) :=
    match n with 0%nat => Ok ([], F) | S k => let* (b, F1) := take_bytes 8 F in let* (l, F2) := read_doubles k F1 in Ok (decode b :: l, F2) end.
  Fixpoint read_double_rows (rows cols : nat) (F : list Z) : res (list (list R) * list Z) :=
    match rows with 0%nat => Ok ([], F) | S k => let* (r, F1) := read_doubles cols F in let* (l, F2) := read_double_rows k cols F1 in Ok (r :: l, F2) end.
  (** io.hpp:102-119 read_matrix_bin *)
  Definition read_matrix_bin (F : list Z) : res matrix :=
    let* (b1, F1) := take_bytes 4 F in
    let* (b2, F2) := take_bytes 4 F1 in
    let* (rows, _) := read_double_rows (bytes_u32 b1) (bytes_u32 b2) F2 in
    Ok (of_rows (bytes_u32 b1) (bytes_u32 b2) rows).
End Binary.
