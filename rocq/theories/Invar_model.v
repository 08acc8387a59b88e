(** Model of /repo/c++/invar.hpp: sets of quantum numbers.
    Simplification: C++ [int] is modelled by [Z]; overflow of [int] is not modelled. *)
From Coq Require Import List ZArith Bool String.
From Verif Require Import Base.
Import ListNotations.
Local Open Scope Z_scope.

(** invar.hpp:28-30 - the three kinds of quantum numbers. *)
Inductive qtype := Multiplicative | Additive | Mod3.

(** invar.hpp:42-44 - [InvType data], a vector of int. *)
Definition invar := list Z.

(** invar.hpp:48-51, 157-174 - the static signature set by [initInvar]: names and types, [invdim] = length. *)
Definition signature := list (string * qtype).
Definition qntype (sg : signature) : list qtype := map snd sg.

Definition parity_ok (x : Z) : bool := (x =? 1) || (x =? -1).
Definition mod3_ok (x : Z) : bool := (0 <=? x) && (x <=? 2).

(** invar.hpp:89-107 - [Invar::combine]; [a] is *this, [b] is invar2. Reading [data[i]] past the end of *this is UB,
    [invar2.getqn(i)] asserts. C++17 evaluates the right operand of [+=] first. *)
Fixpoint combine (ts : list qtype) (a b : invar) : res invar :=
  match ts with
  | [] => Ok a
  | Additive :: ts' =>
      match b, a with
      | [], _ => Throw
      | _ :: _, [] => UB
      | y :: b', x :: a' => let* r := combine ts' a' b' in Ok (x + y :: r)
      end
  | Multiplicative :: ts' =>
      match a with
      | [] => UB
      | x :: a' => let* _ := my_assert (parity_ok x) in
                   match b with
                   | [] => Throw
                   | y :: b' => let* r := combine ts' a' b' in Ok (x * y :: r)
                   end
      end
  | Mod3 :: ts' =>
      match a with
      | [] => UB
      | x :: a' => let* _ := my_assert (mod3_ok x) in
                   match b with
                   | [] => Throw
                   | y :: b' => let* r := combine ts' a' b' in Ok (Z.rem (x + y) 3 :: r)
                   end
      end
  end.

(** invar.hpp:110-128 - [Invar::inverse]. *)
Fixpoint inverse (ts : list qtype) (a : invar) : res invar :=
  match ts with
  | [] => Ok a
  | t :: ts' =>
      match a with
      | [] => UB
      | x :: a' =>
          let* y := match t with
                    | Additive => Ok (- x)
                    | Multiplicative => let* _ := my_assert (parity_ok x) in Ok x
                    | Mod3 => let* _ := my_assert (mod3_ok x) in
                              let y := Z.rem (3 - x) 3 in
                              let* _ := my_assert (mod3_ok y) in Ok y
                    end in
          let* r := inverse ts' a' in Ok (y :: r)
      end
  end.

(** invar.hpp:83-86 - [Invar::getqn]. *)
Definition getqn (a : invar) (i : nat) : res Z :=
  match nth_error a i with Some x => Ok x | None => Throw end.

(** invar.hpp:168 - [names[n] = i++]: a later duplicate name overwrites an earlier one. *)
Fixpoint index_of (sg : signature) (n : string) (i : nat) : option nat :=
  match sg with
  | [] => None
  | (m, _) :: sg' => match index_of sg' n (S i) with
                     | Some j => Some j
                     | None => if String.eqb m n then Some i else None
                     end
  end.

(** invar.hpp:129-142 - [Invar::get]. *)
Definition get (sg : signature) (a : invar) (n : string) : res Z :=
  match index_of sg n 0 with
  | None => Throw
  | Some i => let* f := getqn a i in
              match nth_error (qntype sg) i with
              | Some Multiplicative => let* _ := my_assert (parity_ok f) in Ok f
              | Some Mod3 => let* _ := my_assert (mod3_ok f) in Ok f
              | Some Additive => Ok f
              | None => Throw
              end
  end.

(** invar.hpp:53 - default constructor: [invdim] zeros. *)
Definition invar_default (sg : signature) : invar := repeat 0 (List.length sg).

(** invar.hpp:54-57 - [explicit Invar(const InvType &d)]: [data] is still the empty vector when the assertion is
    evaluated. *)
Definition invar_of_data (d : list Z) : res invar :=
  let data : list Z := [] in
  let* _ := my_assert (Nat.eqb (List.length d) (List.length data)) in Ok d.

Fixpoint set_nth (l : list Z) (i : nat) (x : Z) : option (list Z) :=
  match l, i with
  | [], _ => None
  | _ :: t, O => Some (x :: t)
  | h :: t, S j => match set_nth t j x with Some t' => Some (h :: t') | None => None end
  end.

(** invar.hpp:143-149 - [InvertMyParity]; indexing past the end is UB. *)
Definition invert_my_parity (sg : signature) (a : invar) : res invar :=
  match index_of sg "P" 0 with
  | None => Throw
  | Some i => match nth_error a i with
              | None => UB
              | Some x => match set_nth a i (- x) with Some a' => Ok a' | None => UB end
              end
  end.

(** invar.hpp:150-154 - [InvertParity]. *)
Definition invert_parity (sg : signature) (a : invar) : res invar :=
  let* i := invar_of_data a in invert_my_parity sg i.

(** invar.hpp:79 - [operator==] on the vectors. *)
Fixpoint invar_eqb (a b : invar) : bool :=
  match a, b with
  | [], [] => true
  | x :: a', y :: b' => (x =? y) && invar_eqb a' b'
  | _, _ => false
  end.

(** invar.hpp:81 - [operator<]: std::vector's lexicographic order. *)
Fixpoint invar_ltb (a b : invar) : bool :=
  match a, b with
  | _, [] => false
  | [], _ :: _ => true
  | x :: a', y :: b' => if x <? y then true else if y <? x then false else invar_ltb a' b'
  end.
