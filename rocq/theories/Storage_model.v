(** Model of the on-disk storage of eigenspectra and density matrices:
    /repo/c++/eigen.hpp (Values, Vectors, Blocks, Eigen, DiagInfo: save and load), /repo/c++/operators.hpp (DensMatElements),
    /repo/c++/numerics_Eigen.hpp (matrix save and load), /repo/c++/workdir.hpp (file names) and
    /repo/c++/params.hpp + core.hpp (resume).
    A file is a list of bytes. boost::archive::binary_oarchive writes the memory image of each value; the archive header and
    the class-version records boost inserts (constant bytes, checked on reading) are the [hdr] bytes at the start. *)
From Coq Require Import List ZArith Bool String DecimalString.
From Verif Require Import Base Invar_model Subspaces_model.
Import ListNotations.
Local Open Scope string_scope.
Local Open Scope list_scope.
Local Open Scope Z_scope.

Definition bytes := list Z.

(** ** Reading from the archive: [None] is archive_exception(input_stream_error), thrown on a short read. *)
Definition rd (A : Type) : Type := bytes -> option (A * bytes).
Definition rret {A} (a : A) : rd A := fun b => Some (a, b).
Definition rbind {A B} (d : rd A) (k : A -> rd B) : rd B := fun b => match d b with Some (a, b') => k a b' | None => None end.
Notation "'read' x ':=' d 'in' k" := (rbind d (fun x => k)) (at level 61, x pattern, d at next level, right associativity).
Fixpoint take_bytes (n : nat) : rd bytes :=
  match n with
  | O => rret []
  | S n' => fun b => match b with [] => None | x :: b' => match take_bytes n' b' with Some (l, r) => Some (x :: l, r) | None => None end end
  end.
Fixpoint load_n {A} (n : nat) (d : rd A) : rd (list A) :=
  match n with O => rret [] | S n' => read x := d in read l := load_n n' d in rret (x :: l) end.

(** Little-endian memory image of an n-byte unsigned integer. *)
Fixpoint le_bytes (n : nat) (z : Z) : bytes := match n with O => [] | S n' => z mod 256 :: le_bytes n' (z / 256) end.
Fixpoint le_value (b : bytes) : Z := match b with [] => 0 | x :: b' => x + 256 * le_value b' end.
(** size_t *)
Definition save_size (z : Z) : bytes := le_bytes 8 z.
Definition load_size : rd Z := read b := take_bytes 8 in rret (le_value b).
(** signed n-byte integers (two's complement): int (4), long (8) *)
Definition signed (n : nat) (u : Z) : Z := let m := 256 ^ Z.of_nat n in if u <? m / 2 then u else u - m.
Definition save_int (n : nat) (z : Z) : bytes := le_bytes n (z mod 256 ^ Z.of_nat n).
Definition load_int (n : nat) : rd Z := read b := take_bytes n in rret (signed n (le_value b)).
(** bool *)
Definition save_bool (b : bool) : bytes := [if b then 1 else 0].
Definition load_bool : rd bool := read b := take_bytes 1 in rret (negb (le_value b =? 0)).

(** std::vector<T>: element count, then the elements. *)
Definition save_vec {A} (e : A -> bytes) (v : list A) : bytes := save_size (Z.of_nat (List.length v)) ++ List.concat (map e v).
Definition load_vec {A} (d : rd A) : rd (list A) := read n := load_size in load_n (Z.to_nat n) d.

(** Invar: its data vector<int> (invar.hpp:44-46). *)
Definition save_invar (J : invar) : bytes := save_vec (save_int 4) J.
Definition load_invar : rd invar := load_vec (load_int 4).

(** A floating-point (or complex) type: width in bytes and memory image. Only [x -> bytes -> x] is ever used. *)
Record scalar := { sc_type :> Type; sc_width : nat; sc_image : sc_type -> bytes; sc_of : bytes -> sc_type }.
Definition save_scalar {S : scalar} (x : S) : bytes := sc_image S x.
Definition load_scalar {S : scalar} : rd S := read b := take_bytes (sc_width S) in rret (sc_of S b).

(** EigenMatrix<S>: rows x cols, elements listed row by row. *)
Record mat (S : Type) := { mt_rows : Z; mt_cols : Z; mt_el : list (list S) }.
Arguments mt_rows {S}. Arguments mt_cols {S}. Arguments mt_el {S}.
(** numerics_Eigen.hpp:43-51 *)
Definition save_mat {S : scalar} (m : mat S) : bytes :=
  save_size (mt_rows m) ++ save_size (mt_cols m) ++ List.concat (map (fun row => List.concat (map save_scalar row)) (mt_el m)).
(** numerics_Eigen.hpp:53-65 *)
Definition load_mat {S : scalar} : rd (mat S) :=
  read r := load_size in read c := load_size in
  read el := load_n (Z.to_nat r) (load_n (Z.to_nat c) (@load_scalar S)) in
  rret {| mt_rows := r; mt_cols := c; mt_el := el |}.

Section Objects.
  Variables (F S : scalar) (nan : F).

  (** eigen.hpp:70-82 - class Values. *)
  Record values := { vl_v : list F; vl_scale : F; vl_shift : F; vl_T_shift : F; vl_abs_GS : F; vl_corrected : list F; vl_c : list F; vl_c_shift : F }.
  Definition values0 : values := {| vl_v := []; vl_scale := nan; vl_shift := nan; vl_T_shift := nan; vl_abs_GS := nan; vl_corrected := []; vl_c := []; vl_c_shift := nan |}.
  (** eigen.hpp:151-153 *)
  Definition save_values (x : values) : bytes :=
    save_vec save_scalar (vl_v x) ++ save_scalar (vl_scale x) ++ save_scalar (vl_shift x) ++ save_scalar (vl_T_shift x) ++
    save_scalar (vl_abs_GS x) ++ save_vec save_scalar (vl_corrected x) ++ save_vec save_scalar (vl_c x).
  (** eigen.hpp:154-156: overwrites the members of an existing object [x]; c_shift is not stored. *)
  Definition load_values (x : values) : rd values :=
    read v := load_vec load_scalar in read scale := load_scalar in read shift := load_scalar in read T_shift := load_scalar in
    read abs_GS := load_scalar in read corrected := load_vec load_scalar in read c := load_vec load_scalar in
    rret {| vl_v := v; vl_scale := scale; vl_shift := shift; vl_T_shift := T_shift; vl_abs_GS := abs_GS; vl_corrected := corrected; vl_c := c;
            vl_c_shift := vl_c_shift x |}.

  (** eigen.hpp:169-203 - class Vectors. *)
  Record vectors := { vc_m : mat S; vc_dim : Z }.
  Definition save_vectors (x : vectors) : bytes := save_mat (vc_m x) ++ save_size (vc_dim x).
  Definition load_vectors : rd vectors := read m := load_mat in read d := load_size in rret {| vc_m := m; vc_dim := d |}.

  (** eigen.hpp:253-260 - class Blocks. *)
  Definition save_blocks (bs : list (mat S)) : bytes := save_vec save_mat bs.
  Definition load_blocks : rd (list (mat S)) := load_vec load_mat.

  (** eigen.hpp:329-430 - class Eigen. *)
  Record eigen := { en_values : values; en_vectors : vectors; en_U : list (mat S); en_nrpost : Z; en_nrstored : Z; en_last : bool }.
  Definition eigen0 : eigen :=
    {| en_values := values0; en_vectors := {| vc_m := {| mt_rows := 0; mt_cols := 0; mt_el := [] |}; vc_dim := 0 |}; en_U := [];
       en_nrpost := -1; en_nrstored := -1; en_last := false |}.
  (** eigen.hpp:419-424 *)
  Definition save_eigen (x : eigen) : bytes :=
    save_values (en_values x) ++ save_vectors (en_vectors x) ++ save_blocks (en_U x) ++
    save_int 8 (en_nrpost x) ++ save_int 8 (en_nrstored x) ++ save_bool (en_last x).
  (** eigen.hpp:425-430 *)
  Definition load_eigen (x : eigen) : rd eigen :=
    read v := load_values (en_values x) in read m := load_vectors in read u := load_blocks in
    read np := load_int 8 in read ns := load_int 8 in read la := load_bool in
    rret {| en_values := v; en_vectors := m; en_U := u; en_nrpost := np; en_nrstored := ns; en_last := la |}.
End Objects.
Arguments vl_v {F}. Arguments vl_c_shift {F}. Arguments vl_corrected {F}. Arguments vl_c {F}.
Arguments en_values {F S}. Arguments en_vectors {F S}. Arguments en_U {F S}. Arguments en_nrpost {F S}. Arguments en_nrstored {F S}. Arguments en_last {F S}.
Arguments vc_m {S}. Arguments vc_dim {S}.

(** std::map<Invar, V>: [m[k] = v]. *)
Fixpoint map_put {V} (k : invar) (v : V) (m : list (invar * V)) : list (invar * V) :=
  match m with
  | [] => [(k, v)]
  | (k', v') :: m' => if invar_ltb k k' then (k, v) :: m else if invar_ltb k' k then (k', v') :: map_put k v m' else (k', v) :: m'
  end.

(** A map from sectors to objects: DiagInfo (objects are eigen) or DensMatElements (objects are matrices). [chunk_list] is
    the sequence of archive writes of save(): header, number of sectors, then sector label and object in turn
    (eigen.hpp:584-592, operators.hpp:107-115). *)
Section Maps.
  Context {V : Type} (hdr : bytes) (enc : V -> bytes) (dec : rd V).
  Definition chunk_list (m : list (invar * V)) : list bytes :=
    hdr :: save_size (Z.of_nat (List.length m)) :: flat_map (fun p => [save_invar (fst p); enc (snd p)]) m.
  Definition save_map (m : list (invar * V)) : bytes := List.concat (chunk_list m).
  (** eigen.hpp:604-613, operators.hpp:127-136: fills a local object. *)
  Fixpoint load_entries (n : nat) (m : list (invar * V)) : rd (list (invar * V)) :=
    match n with O => rret m | S n' => read k := load_invar in read v := dec in load_entries n' (map_put k v m) end.
  Definition load_hdr : rd unit :=
    fun b => match take_bytes (List.length hdr) b with
             | Some (h, r) => if list_eq_dec Z.eq_dec h hdr then Some (tt, r) else None
             | None => None end.
  Definition load_map : rd (list (invar * V)) := read _ := load_hdr in read n := load_size in load_entries (Z.to_nat n) [].
End Maps.

(** ** Files and the operations on them *)

(** What the environment decides at each system interaction: success, failure or death of the process; the number says how
    many of the buffered bytes reach the file during the operation (for operations without data: 0 = before the effect). *)
Inductive event := EvOk (k : nat) | EvFail (k : nat) | EvCrash (k : nat).

Record world (T : Type) := {
  w_fs : string -> option bytes;              (* directory contents *)
  w_out : option (string * bytes);            (* open output stream: file name, bytes still in its buffer *)
  w_bad : bool;                               (* stream error state *)
  w_mem : T;                                  (* the in-memory object (load) *)
  w_left : bool;                              (* an attempt to delete a temporary file failed *)
  w_ev : list event                           (* events still to come; none left = success *)
}.
Arguments w_fs {T}. Arguments w_out {T}. Arguments w_bad {T}. Arguments w_mem {T}. Arguments w_left {T}. Arguments w_ev {T}.

Inductive outcome (A : Type) := Val (a : A) | Exn | Dead.
Arguments Val {A}. Arguments Exn {A}. Arguments Dead {A}.

Definition upd (fs : string -> option bytes) (f : string) (c : option bytes) : string -> option bytes :=
  fun g => if String.eqb g f then c else fs g.

Section IO.
  Context {T : Type}.
  Definition io (A : Type) : Type := world T -> outcome A * world T.
  Definition ioret {A} (a : A) : io A := fun w => (Val a, w).
  Definition iobind {A B} (m : io A) (k : A -> io B) : io B :=
    fun w => match m w with (Val a, w') => k a w' | (Exn, w') => (Exn, w') | (Dead, w') => (Dead, w') end.
  Definition throw {A} : io A := fun w => (Exn, w).

  Definition set_fs (w : world T) fs := {| w_fs := fs; w_out := w_out w; w_bad := w_bad w; w_mem := w_mem w; w_left := w_left w; w_ev := w_ev w |}.
  Definition set_out (w : world T) o := {| w_fs := w_fs w; w_out := o; w_bad := w_bad w; w_mem := w_mem w; w_left := w_left w; w_ev := w_ev w |}.
  Definition set_bad (w : world T) b := {| w_fs := w_fs w; w_out := w_out w; w_bad := b; w_mem := w_mem w; w_left := w_left w; w_ev := w_ev w |}.
  Definition set_mem (w : world T) (m : T) : world T := {| w_fs := w_fs w; w_out := w_out w; w_bad := w_bad w; w_mem := m; w_left := w_left w; w_ev := w_ev w |}.
  Definition set_left (w : world T) b := {| w_fs := w_fs w; w_out := w_out w; w_bad := w_bad w; w_mem := w_mem w; w_left := b; w_ev := w_ev w |}.
  Definition next_event (w : world T) : event * world T :=
    match w_ev w with
    | [] => (EvOk 0, w)
    | e :: l => (e, {| w_fs := w_fs w; w_out := w_out w; w_bad := w_bad w; w_mem := w_mem w; w_left := w_left w; w_ev := l |})
    end.

  (** Transfer of the first [k] buffered bytes to the end of the file. *)
  Definition push (k : nat) (w : world T) : world T :=
    match w_out w with
    | Some (f, pend) =>
        let old := match w_fs w f with Some c => c | None => [] end in
        set_out (set_fs w (upd (w_fs w) f (Some (old ++ firstn k pend)))) (Some (f, skipn k pend))
    | None => w
    end.
  Definition push_all (w : world T) : world T := match w_out w with Some (_, pend) => push (List.length pend) w | None => w end.

  (** std::ofstream(name) (a new stream object): truncates or creates; failure sets the error state. *)
  Definition open_out (f : string) : io unit := fun w =>
    let (e, w) := next_event w in
    let w := set_bad (set_out w None) false in
    let done := set_out (set_fs w (upd (w_fs w) f (Some []))) (Some (f, [])) in
    match e with
    | EvOk _ => (Val tt, done)
    | EvFail _ => (Val tt, set_bad w true)
    | EvCrash O => (Dead, w)
    | EvCrash (S _) => (Dead, done)
    end.
  (** oa << x: the bytes go to the buffer, any number of buffered bytes may be written out; a failed write throws. *)
  Definition write (chunk : bytes) : io unit := fun w =>
    let (e, w) := next_event w in
    let w := match w_out w with Some (f, pend) => set_out w (Some (f, pend ++ chunk)) | None => w end in
    match e with EvOk k => (Val tt, push k w) | EvFail k => (Exn, push k w) | EvCrash k => (Dead, push k w) end.
  Fixpoint write_all (chunks : list bytes) : io unit :=
    match chunks with [] => ioret tt | c :: l => iobind (write c) (fun _ => write_all l) end.
  (** flush(), close(): failure sets the error state. *)
  Definition flush : io unit := fun w =>
    let (e, w) := next_event w in
    match e with EvOk _ => (Val tt, push_all w) | EvFail k => (Val tt, set_bad (push k w) true) | EvCrash k => (Dead, push k w) end.
  Definition close : io unit := fun w =>
    let (e, w) := next_event w in
    match e with
    | EvOk _ => (Val tt, set_out (push_all w) None)
    | EvFail k => (Val tt, set_bad (set_out (push k w) None) true)
    | EvCrash k => (Dead, push k w)
    end.
  (** if (!stream) throw *)
  Definition check_stream : io unit := fun w => if w_bad w then (Exn, w) else (Val tt, w).
  (** std::filesystem::rename: atomic; throws on failure. *)
  Definition rename (a b : string) : io unit := fun w =>
    let (e, w) := next_event w in
    let done := set_fs w (upd (upd (w_fs w) b (w_fs w a)) a None) in
    match e with EvOk _ => (Val tt, done) | EvFail _ => (Exn, w) | EvCrash O => (Dead, w) | EvCrash (S _) => (Dead, done) end.
  (** std::filesystem::remove(name, ec), error ignored. *)
  Definition unlink_quiet (f : string) : io unit := fun w =>
    let (e, w) := next_event w in
    let done := set_fs w (upd (w_fs w) f None) in
    match e with EvOk _ => (Val tt, done) | EvFail _ => (Val tt, set_left w true) | EvCrash O => (Dead, w) | EvCrash (S _) => (Dead, done) end.
  (** Destructor of the stream during unwinding: closes the file, errors ignored. *)
  Definition drop_stream : io unit := fun w =>
    match w_out w with
    | None => (Val tt, w)
    | Some _ => let (e, w) := next_event w in
                match e with EvOk k | EvFail k => (Val tt, set_out (push k w) None) | EvCrash k => (Dead, push k w) end
    end.
  (** Body followed by destructors if it throws. *)
  Definition guarded (body : io unit) (cleanup : io unit) : io unit := fun w =>
    match body w with
    | (Exn, w') => match cleanup w' with (Dead, w'') => (Dead, w'') | (_, w'') => (Exn, w'') end
    | r => r
    end.

  (** eigen.hpp:569-599, operators.hpp:92-122. The [bad()] test after each sector reads the error state. *)
  Definition save_file (fn : string) (chunks : list bytes) : io unit :=
    let tmp := (fn ++ ".tmp")%string in
    guarded
      (iobind (open_out tmp) (fun _ => iobind check_stream (fun _ =>
       iobind (write_all chunks) (fun _ => iobind check_stream (fun _ =>
       iobind flush (fun _ => iobind check_stream (fun _ =>
       iobind close (fun _ => iobind check_stream (fun _ => rename tmp fn)))))))))
      (iobind drop_stream (fun _ => unlink_quiet tmp)).

  (** Reading: opening fails if the file is absent or cannot be opened; any read may fail. *)
  Definition open_in (f : string) : io bytes := fun w =>
    let (e, w) := next_event w in
    let w := set_bad w false in
    match e with
    | EvOk _ => match w_fs w f with Some c => (Val c, w) | None => (Exn, w) end
    | EvFail _ => (Exn, w)
    | EvCrash _ => (Dead, w)
    end.
  Definition read_all {A} (d : rd A) (c : bytes) : io A := fun w =>
    let (e, w) := next_event w in
    match e with
    | EvOk _ => match d c with Some (a, _) => (Val a, w) | None => (Exn, w) end
    | EvFail _ => (Exn, w)
    | EvCrash _ => (Dead, w)
    end.
  (** std::remove; non-zero return on failure. *)
  Definition remove (f : string) : io bool := fun w =>
    let (e, w) := next_event w in
    let done := set_fs w (upd (w_fs w) f None) in
    match e with EvOk _ => (Val false, done) | EvFail _ => (Val true, w) | EvCrash O => (Dead, w) | EvCrash (S _) => (Dead, done) end.
  Definition close_in : io unit := fun w =>
    let (e, w) := next_event w in
    match e with EvOk _ => (Val tt, w) | EvFail _ => (Val tt, set_bad w true) | EvCrash _ => (Dead, w) end.

  (** eigen.hpp:600-620, operators.hpp:123-143. *)
  Definition load_file (fn : string) (d : rd T) (remove_files : bool) : io unit :=
    iobind (open_in fn) (fun c => iobind (read_all d c) (fun loaded =>
    iobind close_in (fun _ => iobind check_stream (fun _ =>
    iobind (if remove_files then iobind (remove fn) (fun err => if err then throw else ioret tt) else ioret tt) (fun _ =>
    fun w => (Val tt, set_mem w loaded)))))).
End IO.
Arguments io : clear implicits.

(** ** File names *)
(** std::to_string(size_t) *)
Definition to_string (n : nat) : string := NilEmpty.string_of_uint (Nat.to_uint n).
(** workdir.hpp:52-58 *)
Definition rhofn (workdir : string) (N : nat) (filename : string) : string := (workdir ++ "/" ++ filename ++ to_string N)%string.
Definition unitaryfn (workdir : string) (N : nat) : string := rhofn workdir N "unitary".

(** ** Resuming *)
(** params.hpp:606-620: the loop runs up to the value Nmax has at that time. *)
Definition last_found (fs : string -> option bytes) (workdir : string) (Ninit Nmax : nat) : option nat :=
  fold_left (fun acc N => match fs (unitaryfn workdir N) with Some _ => Some N | None => acc end) (seq Ninit (Nmax - Ninit)) None.
Definition init_laststored (resume : bool) (fs : string -> option bytes) (workdir : string) (Ninit Nmax : nat) : option nat :=
  if resume then last_found fs workdir Ninit Nmax else None.
(** params.hpp:148, 666-702: the constructor runs init_laststored() while Nmax still has its initial value 0 (Nmax is set
    afterwards, read-input.hpp:59). *)
Definition params_laststored (resume : bool) (fs : string -> option bytes) (workdir : string) (Ninit : nat) : option nat :=
  init_laststored resume fs workdir Ninit 0.
(** core.hpp:105-119: in the first (NRG) pass, is the step loaded from disk instead of being diagonalised? *)
Definition reuses (resume : bool) (laststored : option nat) (ndx : nat) : bool :=
  resume && match laststored with Some k => Nat.leb ndx k | None => false end.
