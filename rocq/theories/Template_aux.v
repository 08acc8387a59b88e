(** Examples for C34: rational arithmetic with a value that is not a number. *)
From Coq Require Import List ZArith QArith Bool Ascii String Lia.
From Verif Require Import Base Params_model Template_model Template_spec.
Import ListNotations.
Local Open Scope list_scope.

Definition nan := option Q.
Definition lift1 (f : Q -> Q) (x : nan) : nan := match x with Some a => Some (Qred (f a)) | None => None end.
Definition lift2 (f : Q -> Q -> Q) (x y : nan) : nan := match x, y with Some a, Some b => Some (Qred (f a b)) | _, _ => None end.
Definition digit (c : ascii) : Z := (Z.of_nat (nat_of_ascii c) - 48)%Z.
(** Digits with an optional point. *)
Fixpoint read (w : text) (v : Z) (scale : option positive) : Q :=
  match w with
  | [] => match scale with Some s => v # s | None => v # 1 end
  | c :: t => if Ascii.eqb c "." then read t v (Some 1%positive) else
      read t (10 * v + digit c)%Z (match scale with Some s => Some (10 * s)%positive | None => None end)
  end.
Definition rational : arith nan := {|
  a_strtod := fun w => Some (Qred (read w 0 None)); a_finite := fun x => match x with Some _ => true | None => false end; a_pi := Some (22 # 7);
  a_sqrt := fun x => match x with Some (n # d) => if (n <? 0)%Z then None else Some (Qred (Z.sqrt n # Pos.sqrt d)) | None => None end;
  a_exp := lift1 (fun x => 1 + x); a_log := lift1 (fun x => x - 1);
  a_neg := lift1 Qopp; a_add := lift2 Qplus; a_sub := lift2 Qminus; a_mul := lift2 Qmult; a_div := lift2 Qdiv;
  a_is_zero := fun x => match x with Some q => Qeq_bool q 0 | None => false end;
  a_integral := fun x => match x with Some (n # 1) => Ok n | Some _ => Throw | None => UB end |}.
Definition ctx : context nan := {|
  variables := [(str "eps_1", Some (1 # 4))];
  channels := [{| c_xi := [Some (1 # 2); Some (1 # 3)]; c_zeta := [Some 0]; c_theta := Some (22 # 7) |}] |}.
Definition template : text := str "{ {1+2*3, -(4-5)/2, 8/2/2}, # first row" ++ newline :: str "  {Sqrt[4]*+eps_1, coefxi[1,0] - 1 - 1, gammaPolCh(1)} }".
Definition q (n : Z) (d : positive) : nan := Some (n # d).
Definition safe_rational : arith nan := {|
  a_strtod := a_strtod rational; a_finite := a_finite rational; a_pi := a_pi rational; a_sqrt := a_sqrt rational; a_exp := a_exp rational; a_log := a_log rational;
  a_neg := a_neg rational; a_add := a_add rational; a_sub := a_sub rational; a_mul := a_mul rational; a_div := a_div rational; a_is_zero := a_is_zero rational;
  a_integral := fun x => match x with Some (n # 1) => Ok n | _ => Throw end |}.
(** (1 - (2 - 3)) / (4 * 5) - f(-2, 1) *)
Definition n_ (w : string) : expr := Num (str w).
Definition sample : expr :=
  Sub (Div (Sub (n_ "1") (Sub (n_ "2") (n_ "3"))) (Mul (n_ "4") (n_ "5"))) (Call (str "coefxi") [Neg (Neg (n_ "1")); n_ "1"]).
