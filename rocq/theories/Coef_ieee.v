(** The factors of the tables with the special values of floating-point arithmetic. *)
From Coq Require Import List ZArith Reals Lra Bool.
From Verif Require Import Base Coef_model.
Import ListNotations.
Local Open Scope R_scope.

(** A double: not a number, an infinity (true: negative) or a real number.  Rounding and the sign of zero are not modelled (a zero
    divisor counts as +0). *)
Inductive dbl := NaN | Inf (neg : bool) | Fin (r : R).
Definition neg (r : R) : bool := if Rlt_dec r 0 then true else false.
Definition is0 (r : R) : bool := if Req_EM_T r 0 then true else false.
Definition isfinite (x : dbl) : bool := match x with Fin _ => true | _ => false end.
Definition dopp (x : dbl) : dbl := match x with NaN => NaN | Inf s => Inf (negb s) | Fin a => Fin (- a) end.
Definition dadd (x y : dbl) : dbl :=
  match x, y with
  | NaN, _ | _, NaN => NaN
  | Inf s, Inf t => if Bool.eqb s t then Inf s else NaN
  | Inf s, Fin _ | Fin _, Inf s => Inf s
  | Fin a, Fin b => Fin (a + b)
  end.
Definition dmul (x y : dbl) : dbl :=
  match x, y with
  | NaN, _ | _, NaN => NaN
  | Inf s, Inf t => Inf (xorb s t)
  | Inf s, Fin b | Fin b, Inf s => if is0 b then NaN else Inf (xorb s (neg b))
  | Fin a, Fin b => Fin (a * b)
  end.
Definition ddiv (x y : dbl) : dbl :=
  match x, y with
  | NaN, _ | _, NaN | Inf _, Inf _ => NaN
  | Inf s, Fin b => Inf (xorb s (neg b))
  | Fin _, Inf _ => Fin 0
  | Fin a, Fin b => if is0 b then if is0 a then NaN else Inf (neg a) else Fin (a / b)
  end.
Definition dsqrt (x : dbl) : dbl :=
  match x with
  | Fin a => if neg a then NaN else Fin (sqrt a)
  | Inf false => Inf false
  | _ => NaN
  end.
(** pow(x, k / 2.0), k not 0. *)
Definition dpow (x : dbl) (k : Z) : dbl :=
  match x with
  | NaN => NaN
  | Inf s => if Z.ltb 0 k then (if s && Z.even k && negb (Z.even (k / 2)) then Inf true else Inf false) else Fin 0
  | Fin a => if Z.even k then if Z.ltb k 0 && is0 a then Inf false else Fin (powerRZ a (k / 2))
             else if neg a then NaN else if Z.ltb k 0 && is0 a then Inf false else Fin (powerRZ (sqrt a) k)
  end.
Definition dz (o : option R) : dbl := match o with Some r => Fin r | None => NaN end.
(** Value of an expression, as [ceval] of Coef_model.v but total. *)
Fixpoint deval (q : list Z) (nn : Z) (e : cexpr) : dbl :=
  match e with
  | cA a b => dadd (deval q nn a) (deval q nn b)
  | cB a b => dadd (deval q nn a) (dopp (deval q nn b))
  | cM a b => dmul (deval q nn a) (deval q nn b)
  | cD a b => ddiv (deval q nn a) (deval q nn b)
  | cO a => dopp (deval q nn a)
  | cR a => dsqrt (deval q nn a)
  | cW a k => dpow (deval q nn a) k
  | cN _ | cQ _ _ | cV _ | cH _ | cG _ _ => dz (ceval q nn e)
  end.

(** Where [ceval] is defined the two agree. *)
Lemma ceval_deval : forall q nn e r, ceval q nn e = Some r -> deval q nn e = Fin r.
Proof.
  intros q nn e. induction e; intros r H; try (cbn [deval]; rewrite H; reflexivity); cbn [ceval] in H; cbn [deval].
  1-3: destruct (ceval q nn e1) as [a|]; [|discriminate]; destruct (ceval q nn e2) as [b|]; [|discriminate]; cbn [omap2] in H; injection H as <-;
    rewrite (IHe1 a eq_refl), (IHe2 b eq_refl); cbn; f_equal; lra.
  - destruct (ceval q nn e1) as [a|]; [|discriminate]. destruct (ceval q nn e2) as [b|]; [|discriminate]. cbn [obind] in H.
    destruct (Req_EM_T b 0) as [|N]; [discriminate|]. injection H as <-. rewrite (IHe1 a eq_refl), (IHe2 b eq_refl). cbn. unfold is0.
    destruct (Req_EM_T b 0); [contradiction|reflexivity].
  - destruct (ceval q nn e) as [a|]; [|discriminate]. cbn [option_map] in H. injection H as <-. rewrite (IHe a eq_refl). reflexivity.
  - destruct (ceval q nn e) as [a|]; [|discriminate]. cbn [obind] in H. destruct (Rle_dec 0 a) as [L|]; [|discriminate]. injection H as <-.
    rewrite (IHe a eq_refl). cbn. unfold neg. destruct (Rlt_dec a 0); [lra|reflexivity].
  - destruct (ceval q nn e) as [a|]; [|discriminate]. cbn [obind] in H. rewrite (IHe a eq_refl). cbn [dpow]. unfold is0, neg. destruct (Z.even k).
    + destruct (Z.leb_spec 0 k) as [L|L].
      * injection H as <-. destruct (Z.ltb_spec k 0); [exfalso; apply (Z.lt_irrefl 0); eapply Z.le_lt_trans; eassumption|]. reflexivity.
      * destruct (Req_EM_T a 0); [discriminate|]. injection H as <-. rewrite andb_false_r. reflexivity.
    + destruct (Z.leb_spec 0 k) as [L|L].
      * destruct (Rle_dec 0 a); [|discriminate]. injection H as <-. destruct (Rlt_dec a 0); [lra|].
        destruct (Z.ltb_spec k 0); [exfalso; apply (Z.lt_irrefl 0); eapply Z.le_lt_trans; eassumption|]. reflexivity.
      * destruct (Rlt_dec 0 a); [|discriminate]. injection H as <-. destruct (Rlt_dec a 0); [lra|]. destruct (Req_EM_T a 0); [lra|]. rewrite andb_false_r. reflexivity.
Qed.
