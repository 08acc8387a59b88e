(** What C68 talks about: templates of data files, and the data file that says the same thing in the basis of eigenstates. *)
From Coq Require Import List ZArith Reals Ascii String Sorted.
From Verif Require Import Base Oprecalc_model Oprecalc_spec Datafile_model Datafile_spec Instantiate_model.
Import ListNotations.
Local Open Scope string_scope.
Local Open Scope list_scope.

(** ** Real arithmetic; [top]: the largest number *)
Definition real_num (top : R) : num R := {|
  n_zero := 0%R; n_one := 1%R; n_top := top; n_add := Rplus; n_sub := Rminus; n_mul := Rmult; n_div := Rdiv;
  n_lt := fun x y => if Rlt_dec x y then true else false; n_eq := fun x y => if Req_EM_T x y then true else false;
  n_big := fun x => if Rlt_dec (/ 10 ^ 14) (Rabs x) then true else false |}.

(** ** Matrices and bases *)
Notation rmatrix := (list (list R)).
Definition entry (m : rmatrix) (a b : nat) : R := nth b (nth a m []) 0%R.
Definition total (n : nat) (f : nat -> R) : R := fold_right Rplus 0%R (map f (seq 0 n)).
Definition table (rows cols : nat) (f : nat -> nat -> R) : rmatrix := map (fun a => map (f a) (seq 0 cols)) (seq 0 rows).
Definition shape (rows cols : nat) (m : rmatrix) : Prop := List.length m = rows /\ forall row, In row m -> List.length row = cols.
Definition delta (a b : nat) : R := if Nat.eqb a b then 1%R else 0%R.
(** The rows of [vec] are an orthonormal basis of eigenvectors of [h] with the eigenvalues [val] in ascending order. *)
Definition eigenbasis (h : rmatrix) (val : list R) (vec : rmatrix) : Prop :=
  let n := List.length h in
  List.length val = n /\ shape n n vec /\ StronglySorted Rle val /\
  (forall a b, (a < n)%nat -> (b < n)%nat -> total n (fun k => entry vec a k * entry vec b k)%R = delta a b) /\
  (forall k l, (k < n)%nat -> (l < n)%nat -> total n (fun a => entry vec a k * entry vec a l)%R = delta k l) /\
  (forall a b, (a < n)%nat -> (b < n)%nat ->
     total n (fun k => total n (fun l => entry vec a k * entry h k l * entry vec b l)%R) = (delta a b * nth a val 0)%R).
(** The matrix of an operator in the bases given by the rows of [u] and [v]. *)
Definition in_basis (u m v : rmatrix) : rmatrix :=
  table (List.length u) (List.length v) (fun a b =>
    total (List.length u) (fun k => total (List.length v) (fun l => entry u a k * entry m k l * entry v b l)%R)).
Definition symmetric (h : rmatrix) : Prop := shape (List.length h) (List.length h) h /\ forall k l, entry h k l = entry h l k.

(** ** The layout of a template: lines with data, each after any number of empty lines and comments *)
Inductive noise := Empty (raw : string) | Comment (indent text : string).
Inductive noise_line : noise -> string -> Prop :=
| nl_empty b : all_blank b -> one_line b -> noise_line (Empty b) b
| nl_comment i t : all_chars (fun c => c = " "%char \/ c = tab) i -> one_line t -> noise_line (Comment i t) (i ++ String "#" t).
(** A line with data, and its text without the blank space around it. *)
Inductive data_line : string -> string -> Prop :=
| dl b1 d b2 : all_blank b1 -> all_blank b2 -> one_line (b1 ++ d ++ b2) -> starts_with (fun c => blank c = false /\ c <> "#"%char) d -> ~ ends_blank d ->
    data_line d (b1 ++ d ++ b2).
Notation chunk := (list noise * string)%type.
Inductive chunk_lines : chunk -> list string -> Prop :=
| cl nz d ls l : Forall2 noise_line nz ls -> data_line d l -> chunk_lines (nz, d) (ls ++ [l]).
(** The text consists of these lines; the last newline may be missing. *)
Inductive text_lines : list string -> string -> Prop :=
| tx_nil : text_lines [] ""
| tx_last l : l <> "" -> one_line l -> text_lines [l] l
| tx_cons l ls s : one_line l -> text_lines ls s -> text_lines (l :: ls) (l ++ String newline s).
(** How a template ends: with the file, or with the coefficients of the Wilson chain and whatever comes after. *)
Inductive ending := AtEnd (nz : list noise) | AtCoef (nz : list noise) (d : string) (others : list string).
Inductive ending_lines : ending -> list string -> Prop :=
| el_end nz ls : Forall2 noise_line nz ls -> ending_lines (AtEnd nz) ls
| el_coef nz d others ls : chunk_lines (nz, d) ls -> starts_with (fun c => In c ["z"; "Z"; "T"]%char) d -> ending_lines (AtCoef nz d others) (ls ++ others).
Definition layout (cs : list chunk) (e : ending) (s : string) : Prop :=
  exists ls le, tok_list chunk_lines cs ls /\ ending_lines e le /\ text_lines (ls ++ le) s.

(** The line consists of these words. *)
Inductive line_words : list string -> string -> Prop :=
| lw_one w : w <> "" -> all_chars (fun c => blank c = false) w -> line_words [w] w
| lw_cons w b ws s : w <> "" -> all_chars (fun c => blank c = false) w -> b <> "" -> all_blank b -> line_words ws s -> line_words (w :: ws) (w ++ b ++ s).

Section Template.
  Variables (scan_nat : string -> option (nat * string)) (scan_int : string -> option (Z * string)) (scan_R : string -> option (R * string))
    (strtod : string -> option R) (template_file : string -> res string) (evaluate : string -> res (nat * nat * rmatrix)).
  Notation elements := (list ((list Z * list Z) * rmatrix)).

  (** ** Contents of a template *)
  Inductive titem := TEnergy | TOp (t : optype) (name : string) (m : elements).
  Record template := {
    t_header : list hline;                        (* comments at the beginning *)
    t_scale : R;
    t_subspaces : list (list Z * rmatrix);        (* the Hamiltonian *)
    t_f : list elements;                          (* operators of the Wilson chain *)
    t_items : list (list string * titem);         (* other blocks, each after the comments that come with it *)
    t_comments : list string                      (* comments at the end *) }.

  (** ** The comment with the scale *)
  Definition scale_note (x : R) (t : string) : Prop :=
    exists b1 b2 w b3, t = (b1 ++ "SCALE" ++ b2 ++ w ++ b3)%string /\ all_blank b1 /\ b1 <> "" /\ all_blank b2 /\ b2 <> "" /\ shows scan_R x w /\ all_blank b3.
  Definition plain_note (t : string) : Prop := forall b r, all_blank b -> b <> "" -> starts_blank r -> t <> (b ++ "SCALE" ++ r)%string.
  (** The scale before and after some lines. *)
  Inductive scaled : option R -> list noise -> option R -> Prop :=
  | sc_nil a : scaled a [] a
  | sc_empty a b nz x : scaled a nz b -> scaled a (Empty x :: nz) b
  | sc_plain a b nz i t : plain_note t -> scaled a nz b -> scaled a (Comment i t :: nz) b
  | sc_scale a b nz i t x : scale_note x t -> scaled (Some x) nz b -> scaled a (Comment i t :: nz) b.

  (** ** Lines of the parts *)
  Definition matrix_lines (rows cols : nat) (m : rmatrix) (ds : list string) : Prop :=
    (exists name text, ds = [name] /\ starts_with (fun c => c = "o"%char) name /\ template_file name = Ok text /\ evaluate text = Ok (rows, cols, m)) \/
    (~ starts_with (fun c => c = "o"%char) (hd "" ds) /\
     Forall2 (fun row d => exists ws, line_words ws d /\ Forall2 (fun x w => strtod w = Some x) row ws) m ds).
  Definition subspace_lines (p : list Z * rmatrix) (ds : list string) : Prop :=
    exists q z d ws file text, ds = [q; z; d] /\ line_words ws q /\ Forall2 (shows scan_int) (fst p) ws /\
      shows scan_nat (List.length (snd p)) z /\ ~ starts_with (fun c => c = "+"%char \/ c = "-"%char) z /\ line_words ["DIAG"; file] d /\
      template_file file = Ok text /\ evaluate text = Ok (List.length (snd p), List.length (snd p), snd p).
  Definition dim_of (subs : list (list Z * rmatrix)) (i : list Z) : nat :=
    match find (fun p => invar_eqb (fst p) i) subs with Some p => List.length (snd p) | None => 0%nat end.
  Definition element_lines (subs : list (list Z * rmatrix)) (p : (list Z * list Z) * rmatrix) (ds : list string) : Prop :=
    exists q ds' ws, ds = q :: ds' /\ line_words ws q /\ Forall2 (shows scan_int) (fst (fst p) ++ snd (fst p)) ws /\
      matrix_lines (dim_of subs (fst (fst p))) (dim_of subs (snd (fst p))) (snd p) ds'.
  Definition block_lines (subs : list (list Z * rmatrix)) (m : elements) (ds : list string) : Prop :=
    exists z ds', ds = z :: ds' /\ shows scan_nat (List.length m) z /\ ~ starts_with (fun c => c = "+"%char \/ c = "-"%char) z /\ tok_list (element_lines subs) m ds'.
  Definition f_lines (subs : list (list Z * rmatrix)) (k : nat) (m : elements) (ds : list string) : Prop :=
    exists h ds' w1 w2, ds = h :: ds' /\ line_words ["f"; w1; w2] h /\ shows scan_nat 0%nat w1 /\ shows scan_nat k w2 /\ block_lines subs m ds'.
  Definition item_lines (subs : list (list Z * rmatrix)) (x : titem) (ds : list string) : Prop :=
    match x with
    | TEnergy => exists d, ds = ["e"; d]
    | TOp t n m => exists ds', ds = String (letter_of t) n :: ds' /\ block_lines subs m ds'
    end.

  (** ** Comments *)
  Definition noise_comments (nz : list noise) : list string := flat_map (fun x => match x with Empty _ => [] | Comment _ t => [t] end) nz.
  Definition comments (cs : list chunk) : list string := flat_map (fun c => noise_comments (fst c)) cs.
  (** Comments at the beginning are not indented. *)
  Inductive header_noise : list noise -> list hline -> Prop :=
  | hn_nil : header_noise [] []
  | hn_empty x nz l : header_noise nz l -> header_noise (Empty x :: nz) l
  | hn_text t nz l : ~ starts_with (fun c => c = "!"%char) t -> header_noise nz l -> header_noise (Comment "" t :: nz) (HText t :: l)
  | hn_version w nz l : header_noise nz l -> header_noise (Comment "" (String "!" w) :: nz) (HVersion w :: l).
  Definition ending_noise (e : ending) : list noise := match e with AtEnd nz => nz | AtCoef nz _ _ => nz end.

  (** The chunks of one part. *)
  Definition part (lines : list string -> Prop) (cs : list chunk) : Prop := lines (map snd cs).
  (** Only the first of the operators of the Wilson chain has comments. *)
  Inductive template_text (t : template) (s : string) : Prop :=
  | tt_all nz0 h w1 w2 w3 first others fchunks items e :
      header_noise nz0 (t_header t) -> line_words [w1; w2; w3] h ->
      shows scan_nat 1%nat w1 -> (exists n, shows scan_nat n w2) -> shows scan_nat (List.length (t_subspaces t)) w3 ->
      Forall2 (fun p => part (subspace_lines p)) (t_subspaces t) (first :: others) ->
      scaled None (nz0 ++ flat_map fst first) (Some (t_scale t)) ->
      Forall2 (fun km cs => part (f_lines (t_subspaces t) (fst km) (snd km)) cs) (combine (seq 0 (List.length (t_f t))) (t_f t)) fchunks ->
      (forall cs, In cs (tl fchunks) -> comments cs = []) ->
      Forall2 (fun x cs => fst x = comments cs /\ part (item_lines (t_subspaces t) (snd x)) cs) (t_items t) items ->
      t_comments t = noise_comments (ending_noise e) ->
      layout ((nz0, h) :: List.concat (first :: others) ++ List.concat fchunks ++ List.concat items) e s ->
      template_text t s.

  (** ** Templates that make sense *)
  Definition good_telements (invdim : nat) (subs : list (list Z * rmatrix)) (m : elements) : Prop :=
    NoDup (map fst m) /\ forall i j x, In ((i, j), x) m -> List.length i = invdim /\ List.length j = invdim /\ In i (map fst subs) /\ In j (map fst subs) /\ shape (dim_of subs i) (dim_of subs j) x.
  Definition good_template (Q : dparams) (t : template) : Prop :=
    good_header scan_int (t_header t) (q_symtype Q) /\ (0 < t_scale t)%R /\
    t_subspaces t <> [] /\ NoDup (map fst (t_subspaces t)) /\
    (forall i h, In (i, h) (t_subspaces t) -> List.length i = q_invdim Q /\ (1 <= List.length h)%nat /\ symmetric h) /\ (1 <= q_invdim Q)%nat /\
    List.length (t_f t) = ops_per_channel (q_symtype Q) /\ (forall m, In m (t_f t) -> good_telements (q_invdim Q) (t_subspaces t) m) /\
    (forall c tt n m, In (c, TOp tt n m) (t_items t) -> good_telements (q_invdim Q) (t_subspaces t) m) /\
    (exists c, In (c, TEnergy) (t_items t)).

  (** ** The data file that says the same *)
  Variables (read18 read16 : R -> R) (* the number that is read when 18 or 16 digits of a number have been written *).
  (** Matrix elements up to 1e-14 are not written. *)
  Definition chop (x : R) : R := if Rlt_dec (/ 10 ^ 14) (Rabs x) then x else 0%R.
  Definition basis_of (subs : list (list Z * rmatrix)) (bases : list (list R * rmatrix)) (i : list Z) : rmatrix :=
    match find (fun p => invar_eqb (fst (fst p)) i) (combine subs bases) with Some p => snd (snd p) | None => [] end.
  Definition new_elements (subs : list (list Z * rmatrix)) (bases : list (list R * rmatrix)) (m : elements) : elements :=
    map (fun p => (fst p, map (map (fun x => read18 (chop x))) (in_basis (basis_of subs bases (fst (fst p))) (snd p) (basis_of subs bases (snd (fst p)))))) m.
  Definition new_item (subs : list (list Z * rmatrix)) (bases : list (list R * rmatrix)) (ground : R) (x : titem) : item R R :=
    match x with TEnergy => IEnergy R R "" (read18 ground) | TOp t n m => IOp R R t n (new_elements subs bases m) end.
  Definition data_content (sym : string) (Nmax : nat) (t : template) (bases : list (list R * rmatrix)) (ground : R) (xi zeta : list R) : content R R := {|
    c_header := t_header t; c_symtype := sym; c_channels := 1; c_Nmax := Nmax;
    c_subspaces := map (fun p => (fst (fst p), map (fun x => read18 ((x - ground) / t_scale t)%R) (fst (snd p)))) (combine (t_subspaces t) bases);
    c_f := [map (new_elements (t_subspaces t) bases) (t_f t)];
    c_items := flat_map (fun x => map (IComment R R) (fst x) ++ [new_item (t_subspaces t) bases ground (snd x)]) (t_items t)
               ++ map (IComment R R) (t_comments t)
               ++ [ICoef R R "z" "" [[map read16 (firstn (S Nmax) xi)]; [map read16 (firstn (S Nmax) zeta)]]] |}.
  (** The lowest of all eigenvalues. *)
  Definition lowest (bases : list (list R * rmatrix)) (e : R) : Prop :=
    (exists p, In p bases /\ In e (fst p)) /\ forall p x, In p bases -> In x (fst p) -> (e <= x)%R.
End Template.
