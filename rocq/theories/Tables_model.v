(** Model of the readers of tables in text files of the tools:
    A: /repo/tools/kk/kk.hpp:66-82 read, tools/integ/integ.cc:116-133 readtable and tools/intavg/intavg.cc:90-104 load (the same code);
    B: c++/misc.hpp:199-217 readtable (resample, broaden);
    C: tools/common/io.hpp:24-35 next_data_line and tools/common/tabulated.hpp:20-125 (adapt and nrgchain);
    D: tools/tdavg/tdavg.cc:101-186 split and load.
    Streams as in Datafile_model: the text not read yet.  The conversions of digits (operator>> and atof) are arguments; a failed assert
    and exit(1) are Throw.  Messages are omitted. *)
From Coq Require Import List ZArith Ascii String Bool.
From Verif Require Import Base Oprecalc_model Datafile_model.
Import ListNotations.
Local Open Scope string_scope.
Local Open Scope list_scope.

Section Pairs.
  Variables (V : Type) (scan : string -> option (V * string)) (finite : V -> bool).
  (** A.  A failed extraction ends the loop.  Fuel: every round takes at least a character. *)
  Fixpoint read_loop (fuel : nat) (s : string) : res (list (V * V)) :=
    match fuel with
    | 0%nat => UB
    | S fuel' =>
        match s with
        | String "#" _ => read_loop fuel' (rest_of (snd (getline s)))
        | _ =>
            match scan (skip_ws s) with
            | None => Ok []
            | Some (x, s1) =>
                match scan (skip_ws s1) with
                | None => Ok []
                | Some (y, s2) => let* _ := my_assert (finite x && finite y)%bool in let* l := read_loop fuel' s2 in Ok ((x, y) :: l)
                end
            end
        end
    end.
  Definition read_pairs_A (s : string) : res (list (V * V)) := read_loop (S (String.length s)) s.
  (** intavg.cc:106-109 *)
  Definition load_intavg (s : string) : res (list (V * V)) := let* l := read_pairs_A s in if Nat.ltb (List.length l) 2 then Throw else Ok l.
  (** B *)
  Fixpoint readtable_loop (fuel : nat) (s : string) : res (list (V * V)) :=
    match fuel with
    | 0%nat => UB
    | S fuel' =>
        match skip_comments s with
        | "" => Ok []
        | s1 =>
            let* (x, s2) := read_one scan s1 in
            let* (y, s3) := read_one scan s2 in
            let* _ := my_assert (finite x && finite y)%bool in
            let* l := readtable_loop fuel' s3 in Ok ((x, y) :: l)
        end
    end.
  Definition readtable (s : string) : res (list (V * V)) := readtable_loop (S (String.length s)) s.
  (** misc.hpp:219-224 writetable, kk.hpp:84-87 write, tabulated.hpp:101-111 save_pairs.  [show]: operator<< of a number with the precision that was set. *)
  Variable show : V -> string.
  Definition writetable (l : list (V * V)) : string := String.concat "" (map (fun p => show (fst p) ++ " " ++ show (snd p) ++ String newline "")%string l).
End Pairs.

(** C. io.hpp:24-35: the next line that is not empty and does not start with '#'; [None]: the stream has failed. *)
Fixpoint next_data_line (fuel : nat) (s : string) : option (string * string) :=
  match fuel with
  | 0%nat => None
  | S fuel' =>
      match s with
      | "" => None
      | _ =>
          let (line, r) := getline s in
          match line with
          | "" => next_data_line fuel' (rest_of r)
          | String "#" _ => next_data_line fuel' (rest_of r)
          | _ => Some (line, rest_of r)
          end
      end
  end.
(** tabulated.hpp:20-37 split_fields, tdavg.cc:101-119 split: index moves over a word. *)
Fixpoint take_field (s : string) : string * string :=
  match s with "" => ("", "") | String c s' => if blank c then ("", s) else let (w, r) := take_field s' in (String c w, r) end.
Fixpoint fields_loop (fuel : nat) (s : string) : list string :=
  match fuel with
  | 0%nat => []
  | S fuel' => match s with "" => [] | _ => let (w, r) := take_field s in w :: fields_loop fuel' (skip_ws r) end
  end.
Definition split_fields (s : string) : list string := fields_loop (String.length s) (skip_ws s).

Section Lines.
  Variables (V : Type) (atof : string -> V).
  (** tabulated.hpp:39-52 load_pairs *)
  Fixpoint data_lines (fuel : nat) (s : string) : list string :=
    match fuel with
    | 0%nat => []
    | S fuel' => match next_data_line (S (String.length s)) s with None => [] | Some (line, r) => line :: data_lines fuel' r end
    end.
  Definition all_data_lines (s : string) : list string := data_lines (String.length s) s.
  Definition two_columns (line : string) : res (V * V) :=
    match split_fields line with a :: b :: _ => Ok (atof a, atof b) | _ => Throw end.
  Definition load_pairs (s : string) : res (list (V * V)) :=
    let* l := mapM two_columns (all_data_lines s) in match l with [] => Throw | _ => Ok l end.
  (** tabulated.hpp:117-125 load_values *)
  Definition load_values (s : string) : list V := map atof (all_data_lines s).

  (** tabulated.hpp:74-94 load_abs_pairs with the tests of adapt/load.hpp:46-56; std::sort orders pairs by the first and then the second. *)
  Variables (zero : V) (lt : V -> V -> bool) (neg : V -> V).
  Definition abs (x : V) : V := if lt x zero then neg x else x.
  Definition accept_sign (positive : bool) (x : V) : bool := if positive then lt zero x else lt x zero.
  Definition pair_lt (p q : V * V) : bool := (lt (fst p) (fst q) || (negb (lt (fst q) (fst p)) && lt (snd p) (snd q)))%bool.
  Fixpoint sort_insert (p : V * V) (l : list (V * V)) : list (V * V) :=
    match l with [] => [p] | q :: t => if pair_lt p q then p :: l else q :: sort_insert p t end.
  Definition sort_pairs (l : list (V * V)) : list (V * V) := fold_right sort_insert [] l.
  Fixpoint abs_rows (positive : bool) (l : list string) : res (list (V * V)) :=
    match l with
    | [] => Ok []
    | line :: t =>
        let* (x, y) := two_columns line in
        if accept_sign positive x then
          if lt y zero then Throw else let* r := abs_rows positive t in Ok ((abs x, y) :: r)
        else abs_rows positive t
    end.
  Definition load_rho (positive : bool) (s : string) : res (list (V * V)) :=
    let* l := abs_rows positive (all_data_lines s) in match l with [] => Throw | _ => Ok (sort_pairs l) end.

  (** D.  tdavg.cc:136-145, 178-182: comment lines. *)
  Fixpoint skip_hash (fuel : nat) (s : string) : string :=
    match fuel with 0%nat => s | S fuel' => match s with String "#" _ => skip_hash fuel' (rest_of (snd (getline s))) | _ => s end end.
  (** 148-172: the lines of a block; the number of columns is a global variable, 0 as long as it is not known. *)
  Fixpoint block_loop (fuel : nat) (columns : nat) (s : string) : res (list (V * list V) * nat * string) :=
    match fuel with
    | 0%nat => UB
    | S fuel' =>
        match s with
        | "" => Ok ([], columns, "")
        | String "#" _ => Ok ([], columns, s)
        | _ =>
            let (line, r) := getline s in
            match map atof (split_fields line) with
            | [] => Throw
            | T :: values =>
                let* _ := my_assert (Nat.eqb columns 0 || Nat.eqb (List.length values) columns)%bool in
                let* (x, s2) := block_loop fuel' (if Nat.eqb columns 0 then List.length values else columns) (rest_of r) in
                let (data, c) := x in Ok ((T, values) :: data, c, s2)
            end
        end
    end.
  Fixpoint blocks_loop (fuel : nat) (columns : nat) (s : string) : res (list (list (V * list V)) * nat) :=
    match fuel with
    | 0%nat => UB
    | S fuel' =>
        let* (x, s1) := block_loop (S (String.length s)) columns s in
        let (data, c) := x in
        let add (l : list (list (V * list V))) := match data with [] => l | _ => data :: l end in
        match skip_hash (String.length s1) s1 with
        | "" => Ok (add [], c)
        | s2 => let* (l, c') := blocks_loop fuel' c s2 in Ok (add l, c')
        end
    end.
  Definition load_blocks (columns : nat) (s : string) : res (list (list (V * list V)) * nat) :=
    let s := skip_hash (String.length s) s in blocks_loop (S (String.length s)) columns s.
End Lines.
