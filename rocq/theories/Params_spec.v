(** Specification: what a parameter file says.  Nothing here mentions the reader. *)
From Coq Require Import List Ascii String.
Import ListNotations.
Local Open Scope list_scope.

(** * Lines *)
Definition end_of_line : ascii := "010"%char.
Fixpoint unlines (ls : list (list ascii)) : list ascii := match ls with [] => [] | l :: t => l ++ end_of_line :: unlines t end.
(** The file [f] has the lines [ls]; the last one may lack its end of line. *)
Definition has_lines (f : list ascii) (ls : list (list ascii)) : Prop :=
  (forall l, In l ls -> ~ In end_of_line l) /\
  (f = unlines ls \/ exists a b, ls = a ++ [b] /\ b <> [] /\ f = unlines a ++ b).

(** * The meaning of a line *)
Definition white (c : ascii) : Prop := In (nat_of_ascii c) [9; 10; 11; 12; 13; 32].
Definition blank (s : list ascii) : Prop := forall c, In c s -> white c.
(** No white space at either end. *)
Definition trimmed (s : list ascii) : Prop := (forall c t, s = c :: t -> ~ white c) /\ (forall c t, s = t ++ [c] -> ~ white c).

Inductive meaning := Nothing | NewBlock | Setting (keyword value : list ascii).
Inductive means : list ascii -> meaning -> Prop :=
| blank_line : forall s, blank s -> means s Nothing
| comment_line : forall w t, blank w -> means (w ++ "#"%char :: t) Nothing
| block_line : forall w t, blank w -> means (w ++ "["%char :: t) NewBlock
| other_line : forall w c t, blank w -> ~ white c -> c <> "#"%char -> c <> "["%char -> c <> "="%char -> ~ In "="%char t -> means (w ++ c :: t) Nothing
| setting_line : forall w1 k w2 w3 v w4, blank w1 -> blank w2 -> blank w3 -> blank w4 -> trimmed k -> trimmed v -> ~ In "="%char k ->
    (forall t, k <> "#"%char :: t) -> (forall t, k <> "["%char :: t) ->
    means (w1 ++ k ++ w2 ++ "="%char :: w3 ++ v ++ w4) (Setting k v).

(** The line that starts block [name]. *)
Definition header (name l : list ascii) : Prop := exists w1 w2, blank w1 /\ blank w2 /\ l = w1 ++ "["%char :: name ++ "]"%char :: w2.

(** The lines of the first block [name] in a file. *)
Definition block (name : list ascii) (ls body : list (list ascii)) : Prop :=
  exists before h after, ls = before ++ h :: body ++ after /\ (forall l, In l before -> ~ header name l) /\ header name h /\
    (forall l, In l body -> ~ means l NewBlock) /\ (after = [] \/ exists l t, after = l :: t /\ means l NewBlock).

(** The settings in a list of lines, in their order. *)
Inductive settings : list (list ascii) -> list (list ascii * list ascii) -> Prop :=
| no_line : settings [] []
| skip_line : forall l ls kv, means l Nothing -> settings ls kv -> settings (l :: ls) kv
| add_line : forall l ls k v kv, means l (Setting k v) -> settings ls kv -> settings (l :: ls) ((k, v) :: kv).

(** The value that the last assignment to [k] gives. *)
Definition last_assignment (kv : list (list ascii * list ascii)) (k v : list ascii) : Prop :=
  exists a b, kv = a ++ (k, v) :: b /\ forall w, ~ In (k, w) b.

(** The same text up to upper and lower case. *)
Definition same_letter (x y : ascii) : Prop :=
  x = y \/ (65 <= nat_of_ascii x <= 90 /\ nat_of_ascii y = nat_of_ascii x + 32) \/ (65 <= nat_of_ascii y <= 90 /\ nat_of_ascii x = nat_of_ascii y + 32).
Definition same_letters (s t : list ascii) : Prop := Forall2 same_letter s t.
Definition says_true (s : list ascii) : Prop :=
  s = list_ascii_of_string "1" \/ same_letters s (list_ascii_of_string "true") \/ same_letters s (list_ascii_of_string "yes").
Definition says_false (s : list ascii) : Prop :=
  s = list_ascii_of_string "0" \/ same_letters s (list_ascii_of_string "false") \/ same_letters s (list_ascii_of_string "no").
