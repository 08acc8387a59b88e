(** Closed forms of coefficients: sign times a product of square roots of linear functions of single quantum numbers.
    A closed form is found by search, and accepted only if [cert_ok] confirms that it agrees with the table's expression. *)
From Coq Require Import List ZArith Bool.
From Verif Require Import Base Coef_model Coef_norm.
Import ListNotations.
Local Open Scope Z_scope.

(** [ce_shape]: where it holds, all quantum numbers at least the offset of their component; [ce_neg]: sign; [ce_flip]: a
    factor (-1)^NN; [ce_prod]: factors (a * q_n + b)^(e/2). *)
Record cert := mk_cert { ce_shape : list scomp; ce_neg : bool; ce_flip : bool; ce_prod : list (nat * Z * Z * Z) }.

Definition zsign (neg : bool) : Z := if neg then -1 else 1.

(** confirmation *)
Definition gen_of (g : list scomp) (n : nat) : option (nat * Z) := match nth_error g n with Some (SGen v m) => Some (v, m) | _ => None end.
Definition atom_in (g : list scomp) (f : nat * Z * Z * Z) : option (atom * Z) :=
  let '(n, a, b, e) := f in
  if a =? 0 then Some ((O, 0, b), e) else option_map (fun p => ((fst p, a, b + a * snd p), e)) (gen_of g n).
Definition atom_eqb (s t : atom * Z) : bool := match atom_cmp (fst s) (fst t) with Eq => snd s =? snd t | _ => false end.
Fixpoint mono_eqb (m n : mono) : bool :=
  match m, n with [], [] => true | s :: m', t :: n' => atom_eqb s t && mono_eqb m' n' | _, _ => false end.
(** every variable is used by at most one component *)
Fixpoint gens_ok (x y : bool) (g : list scomp) : bool :=
  match g with
  | [] => true
  | SGen O _ :: g' => negb x && gens_ok true y g'
  | SGen _ _ :: g' => negb y && gens_ok x true g'
  | SFix _ :: _ => false
  | SAny _ :: g' => gens_ok x y g'
  end.
Definition agrees (s : option msum) (neg : bool) (m : mono) : bool :=
  match s with Some [([[z]], n)] => (z =? zsign neg) && mono_eqb n m | _ => false end.
(** a single term left, with its constants factorised *)
Definition fnorm (g : list scomp) (odd : bool) (e : cexpr) : option msum := option_map sfactor (norm g odd e).
Definition cert_ok (e : cexpr) (c : cert) : bool :=
  gens_ok false false (ce_shape c) &&
  match mapO (atom_in (ce_shape c)) (ce_prod c) with
  | None => false
  | Some m =>
      agrees (fnorm (ce_shape c) false e) (ce_neg c) m &&
      (if no_sign e then negb (ce_flip c) else agrees (fnorm (ce_shape c) true e) (xorb (ce_flip c) (ce_neg c)) m)
  end.

(** use in a symbolic sector *)
Definition at_least (p c : scomp) : bool :=
  match c, p with
  | SAny _, _ => true
  | SGen _ m, SFix z => m <=? z
  | SGen _ m, SGen _ k => m <=? k
  | _, _ => false
  end.
Fixpoint covers (g p : list scomp) : bool :=
  match g, p with [], [] => true | c :: g', s :: p' => at_least s c && covers g' p' | _, _ => false end.
Definition mpow (e : Z) (m : mono) : mono :=
  match e with 1 => m | -1 => minv m | _ => map (fun p => (fst p, snd p * e)) m end.
(** square roots of small numbers as products *)
Definition small_root (z : Z) : option mono :=
  let a_ p := (0%nat, 0, p) in
  match z with
  | 1 => Some []
  | 2 => Some [(a_ 2, 1)]
  | 3 => Some [(a_ 3, 1)]
  | 4 => Some [(a_ 2, 2)]
  | 5 => Some [(a_ 5, 1)]
  | 6 => Some [(a_ 2, 1); (a_ 3, 1)]
  | 7 => Some [(a_ 7, 1)]
  | 8 => Some [(a_ 2, 3)]
  | 9 => Some [(a_ 3, 2)]
  | 10 => Some [(a_ 2, 1); (a_ 5, 1)]
  | 11 => Some [(a_ 11, 1)]
  | 12 => Some [(a_ 2, 2); (a_ 3, 1)]
  | 13 => Some [(a_ 13, 1)]
  | 14 => Some [(a_ 2, 1); (a_ 7, 1)]
  | 15 => Some [(a_ 3, 1); (a_ 5, 1)]
  | 16 => Some [(a_ 2, 4)]
  | 17 => Some [(a_ 17, 1)]
  | 18 => Some [(a_ 2, 1); (a_ 3, 2)]
  | 19 => Some [(a_ 19, 1)]
  | 20 => Some [(a_ 2, 2); (a_ 5, 1)]
  | 21 => Some [(a_ 3, 1); (a_ 7, 1)]
  | 22 => Some [(a_ 2, 1); (a_ 11, 1)]
  | 23 => Some [(a_ 23, 1)]
  | 24 => Some [(a_ 2, 3); (a_ 3, 1)]
  | 25 => Some [(a_ 5, 2)]
  | 26 => Some [(a_ 2, 1); (a_ 13, 1)]
  | 27 => Some [(a_ 3, 3)]
  | 28 => Some [(a_ 2, 2); (a_ 7, 1)]
  | 29 => Some [(a_ 29, 1)]
  | 30 => Some [(a_ 2, 1); (a_ 3, 1); (a_ 5, 1)]
  | 31 => Some [(a_ 31, 1)]
  | _ => None
  end.
Definition const_mono (z : Z) : option mono :=
  let (r, m) := zfactors primes z in
  if mono_wf m && nonneg_even m && peq (pconst z) (mpoly m) then Some m else None.
Definition const_root (z : Z) : option mono := match small_root z with Some m => Some m | None => option_map mhalf (const_mono z) end.
Definition atom_at (p : list scomp) (f : nat * Z * Z * Z) : option mono :=
  let '(n, a, b, e) := f in
  if a =? 0 then if 0 <? b then Some [((O, 0, b), e)] else None
  else match nth_error p n with
       | Some (SGen v c) => if (0 <=? a) && (0 <? b + a * c) then Some [((v, a, b + a * c), e)] else None
       | Some (SFix z) => option_map (mpow e) (const_root (a * z + b))
       | _ => None
       end.
Fixpoint mono_at (p : list scomp) (l : list (nat * Z * Z * Z)) : option mono :=
  match l with [] => Some [] | f :: l' => omap2 mmul (atom_at p f) (mono_at p l') end.
Definition cert_at (p : list scomp) (odd : bool) (c : cert) : option msum :=
  if covers (ce_shape c) p then option_map (fun m => [(pconst (zsign (xorb (odd && ce_flip c) (ce_neg c))), m)]) (mono_at p (ce_prod c)) else None.

(** ** Search.  Nothing below needs to be right. *)
Definition good (o : option msum) : bool := match o with Some [([[1]], _)] | Some [([[-1]], _)] => true | _ => false end.
Fixpoint first {A} (p : A -> bool) (l : list A) : option A := match l with [] => None | x :: l' => if p x then Some x else first p l' end.
Definition gshape (kinds : list (option nat)) (mx my : Z) : list scomp :=
  map (fun k => match k with None => SAny 0 | Some O => SGen O mx | Some v => SGen v my end) kinds.
Definition cands (used : bool) (hi : Z) : list Z := if used then [0; 1; 2; 3; 4; 5; 6] else [hi].
Definition comp_of (g : list scomp) (v : nat) : nat * Z :=
  match first (fun p => match snd p with SGen w _ => Nat.eqb v w | _ => false end) (List.combine (seq 0 (length g)) g) with
  | Some (n, SGen _ m) => (n, m)
  | _ => (O, 0)
  end.
Definition make_cert (kinds : list (option nat)) (e : cexpr) : option cert :=
  let ok mx my := good (fnorm (gshape kinds mx my) false e) in
  let has v := existsb (fun k => match k with Some w => Nat.eqb v w | None => false end) kinds in
  match first (fun mx => ok mx 6) (cands (has 0%nat) 0) with
  | None => None
  | Some mx =>
      match first (fun my => ok mx my) (cands (has 1%nat) 0) with
      | None => None
      | Some my =>
          let g := gshape kinds mx my in
          match fnorm g false e, fnorm g true e with
          | Some [([[z]], m)], Some [([[z']], _)] =>
              Some (mk_cert g (z =? -1) (negb (z =? z'))
                (map (fun t => let '((v, a, b), e) := t in let '(n, c) := comp_of g v in if a =? 0 then (O, 0, b, e) else (n, a, b - a * c, e)) m))
          | _, _ => None
          end
      end
  end.
