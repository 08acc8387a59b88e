(** What C71 talks about: the texts of tables. *)
From Coq Require Import List Ascii String Bool.
From Verif Require Import Oprecalc_model Oprecalc_spec Datafile_model Datafile_spec.
Import ListNotations.
Local Open Scope string_scope.
Local Open Scope list_scope.

(** The lines of a text; the last one may or may not end with a newline. *)
Inductive text_lines : list string -> string -> Prop :=
| tl_none : text_lines [] ""
| tl_last l : one_line l -> l <> "" -> text_lines [l] l
| tl_line l ls s : one_line l -> text_lines ls s -> text_lines (l :: ls) (l ++ String newline s).
Definition is_comment (l : string) : Prop := starts_with (fun c => c = "#"%char) l.
(** A line with these words. *)
Definition fields (ws : list string) (l : string) : Prop :=
  Forall (fun w => w <> "" /\ all_chars (fun c => blank c = false) w) ws /\ exists tail, joined ws l tail /\ all_blank tail.

Section Pairs.
  Variables (V : Type) (scan : string -> option (V * string)).
  (** The words of the pairs. *)
  Definition number (v : V) (w : string) : Prop := shows scan v w /\ ~ is_comment w.
  Inductive pair_words : list (V * V) -> list string -> Prop :=
  | pw_nil : pair_words [] []
  | pw_cons x y l w1 w2 ws : number x w1 -> number y w2 -> pair_words l ws -> pair_words ((x, y) :: l) (w1 :: w2 :: ws).
  (** Comment lines. *)
  Inductive comments : string -> Prop :=
  | co_nil : comments ""
  | co_line t s : one_line t -> comments s -> comments (String "#" (t ++ String newline s)).
  (** Comments, the pairs, and then [rest]. *)
  Definition table_text (l : list (V * V)) (s rest : string) : Prop :=
    exists c body ws, s = (c ++ body)%string /\ comments c /\ pair_words l ws /\ joined ws body rest.
  (** Pairs with comments and blank space anywhere between them, and then [rest]. *)
  Inductive rows_text : list (V * V) -> string -> string -> Prop :=
  | rt_end f rest : filler f -> rows_text [] (f ++ rest) rest
  | rt_row f x y l w1 w2 s mid rest : filler f -> number x w1 -> number y w2 -> joined [w1; w2] s mid -> rows_text l mid rest -> rows_text ((x, y) :: l) (f ++ s) rest.
End Pairs.

(** The rest of a table that contains nothing else: a comment without a newline at the most. *)
Definition nothing_left (s : string) : Prop := s = "" \/ exists t, s = String "#" t /\ one_line t.
(** Something that is not a number. *)
Definition not_a_number {V} (scan : string -> option (V * string)) (s : string) : Prop :=
  exists b c t, s = (b ++ String c t)%string /\ all_blank b /\ blank c = false /\ scan (String c t) = None.

(** Blocks of consecutive lines, separated by comment lines. *)
Inductive line_blocks : list string -> list (list string) -> Prop :=
| lb_nil : line_blocks [] []
| lb_comment l ls bs : is_comment l -> line_blocks ls bs -> line_blocks (l :: ls) bs
| lb_block b ls bs : b <> [] -> Forall (fun l => ~ is_comment l) b -> (ls = [] \/ exists c t, ls = c :: t /\ is_comment c) -> line_blocks ls bs -> line_blocks (b ++ ls) (b :: bs).

(** A line that counts: not empty and not a comment. *)
Definition data_line (l : string) : bool := match l with "" => false | String c _ => negb (Ascii.eqb c "#") end.
Section Rows.
  Variables (V : Type) (atof : string -> V).
  (** A line that begins with two numbers; whatever follows is ignored. *)
  Definition row_of (l : string) (p : V * V) : Prop := exists w1 w2 ws, fields (w1 :: w2 :: ws) l /\ p = (atof w1, atof w2).
  (** A line with a number and further numbers. *)
  Definition row_values (l : string) (p : V * list V) : Prop := exists w ws, fields (w :: ws) l /\ p = (atof w, map atof ws).
  (** The order of pairs: by the first, and then the second. *)
  Variable lt : V -> V -> bool.
  Definition before (p q : V * V) : Prop := lt (fst p) (fst q) = true \/ fst p = fst q /\ (lt (snd p) (snd q) = true \/ snd p = snd q).
  Definition strict_order : Prop := (forall x, lt x x = false) /\ (forall x y z, lt x y = true -> lt y z = true -> lt x z = true) /\ (forall x y, lt x y = false -> lt y x = false -> x = y).
  (** The side of the axis. *)
  Variable zero : V.
  Definition on_side (positive : bool) (x : V) : bool := if positive then lt zero x else lt x zero.
End Rows.
Definition finite_pair {V} (finite : V -> bool) (p : V * V) : Prop := finite (fst p) = true /\ finite (snd p) = true.
(** The numbers are written as words that are read as the same numbers. *)
Definition shown {V} (scan : string -> option (V * string)) (show : V -> string) (p : V * V) : Prop := number V scan (fst p) (show (fst p)) /\ number V scan (snd p) (show (snd p)).
