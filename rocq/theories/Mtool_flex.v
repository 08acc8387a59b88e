(** C78: a second description of the scanner: the rules of /repo/tools/matrix/matrix.ll:31-126 as regular expressions in the order of
    the file, and the choice that flex makes: the longest match, and among those of the same length the first rule. *)
From Coq Require Import List ZArith Bool Ascii String.
From Verif Require Import Base Params_model Template_model Template_spec Mtool_model.
Import ListNotations.
Local Open Scope list_scope.

Inductive rx := Word (w : text) | One (p : ascii -> bool) | Many (p : ascii -> bool) | Cat (a b : rx) | Alt (a b : rx) | Opt (a : rx).
Fixpoint lang (x : rx) (w : text) : Prop :=
  match x with
  | Word v => w = v
  | One p => exists c, w = [c] /\ p c = true
  | Many p => all_are p w
  | Cat a b => exists u v, w = u ++ v /\ lang a u /\ lang b v
  | Alt a b => lang a w \/ lang b w
  | Opt a => w = [] \/ lang a w
  end.
Definition oneof (l : list ascii) (c : ascii) : bool := existsb (Ascii.eqb c) l.
Definition not_newline (c : ascii) : bool := negb (Ascii.eqb c newline).
Definition alphaname : rx := Cat (One isalpha) (Many idchar).
Definition some_digits : rx := Cat (One isdigit) (Many isdigit).
Definition exponent_rx (l : list ascii) : rx := Cat (One (oneof l)) (Cat (Opt (One (oneof ["-"; "+"]%char))) some_digits).

(** What a rule does with its text. *)
Inductive deed := Ignore | Give (f : text -> tok) | Halt (t : tok) | Brace | Unbrace | Line.
Definition first_char (w : text) : tok := match w with c :: _ => TCh c | [] => TEnd end.
(** The rules: whether a rule applies only at the beginning of a line, its pattern, what it does. *)
Definition rules : list (bool * rx * deed) :=
 [(true, Cat (Word (str "#")) (Many not_newline), Ignore);
  (false, Word (str "gammaPolCh"), Give (fun _ => TKey KGamma));
  (false, Word (str "coefxi"), Give (fun _ => TKey KXi));
  (false, Word (str "coefzeta"), Give (fun _ => TKey KZeta));
  (false, Word (str "coefdelta"), Give (fun _ => TKey KDelta));
  (false, Word (str "coefkappa"), Give (fun _ => TKey KKappa));
  (false, Word (str "coefV"), Give (fun _ => TKey KV));
  (false, Word (str "parse"), Halt TInclude);
  (true, Word (str "!"), Halt TShell);
  (false, some_digits, Give TInt);
  (false, Cat (One (fun c => isdigit c && negb (Ascii.eqb c "0"))) (exponent_rx ["e"%char]), Give TNum);
  (false, Alt some_digits (Cat (Cat (Many isdigit) (Cat (Word (str ".")) (Many isdigit))) (Opt (exponent_rx ["e"; "E"]%char))), Give TNum);
  (false, One (oneof [" "; "009"]%char), Ignore);
  (false, Cat (Word (str "[")) (Cat alphaname (Word (str "]"))), Ignore);
  (false, Cat alphaname (Cat (Word (str "=")) (Cat (One isalpha) (Many not_newline))), Ignore);
  (false, alphaname, Give TName);
  (false, Word (str "$"), Halt TEnd);
  (false, Word (str "{"), Brace);
  (false, Word (str "}"), Unbrace);
  (false, Word [newline], Line);
  (false, One not_newline, Give first_char)].
(** [k]: the number of open braces. *)
Definition perform (d : deed) (w : text) (k : nat) : list tok * option nat :=
  match d with
  | Ignore => ([], Some k)
  | Give f => ([f w], Some k)
  | Halt t => ([t], None)
  | Brace => ([first_char w], Some (S k))
  | Unbrace => match k with O => ([TMismatch], None) | S k => ([first_char w], Some k) end
  | Line => match k with O => ([first_char w], Some k) | S _ => ([], Some k) end
  end.

(** Rule i applies to the beginning w of the text s; b: this is the beginning of a line. *)
Definition candidate (b : bool) (s : text) (i : nat) (d : deed) (w : text) : Prop :=
  exists anchored x r, nth_error rules i = Some (anchored, x, d) /\ (anchored = true -> b = true) /\ lang x w /\ s = w ++ r.
Definition chosen (b : bool) (s : text) (i : nat) (d : deed) (w : text) : Prop :=
  w <> [] /\ candidate b s i d w /\
  forall j e u, candidate b s j e u -> List.length u < List.length w \/ (List.length u = List.length w /\ i <= j).
Definition at_line_start (w : text) : bool := Ascii.eqb (List.last w " "%char) newline.
Inductive scanned : bool -> nat -> text -> list tok -> Prop :=
| Sc_end b k : scanned b k [] [TEnd]
| Sc_stop b k i d w r ts : chosen b (w ++ r) i d w -> perform d w k = (ts, None) -> scanned b k (w ++ r) ts
| Sc_more b k i d w r ts k' ts' : chosen b (w ++ r) i d w -> perform d w k = (ts, Some k') -> scanned (at_line_start w) k' r ts' ->
    scanned b k (w ++ r) (ts ++ ts').
