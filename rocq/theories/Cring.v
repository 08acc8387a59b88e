(** The standard [ring] tactic for the fields used by the models: a section over such a field C declares
    [Add Ring Cr : (field_ring C)] and calls [cnorm C; ring]. *)
From Coq Require Import Ring.
From mathcomp Require Import ssreflect ssrfun ssrbool eqtype ssrnat fintype bigop ssralg ssrnum.
Import GRing.Theory Num.Theory.
Local Open Scope ring_scope.

Lemma field_ring (C : numClosedFieldType) :
  @ring_theory (GRing.Ring.sort (Num.ClosedField.ringType C)) 0 1 +%R *%R (fun x y => x - y) -%R eq.
Proof.
  split; [exact: add0r|exact: addrC|exact: addrA|exact: mul1r|exact: mulrC|exact: mulrA|exact: mulrDl|by []|exact: subrr].
Qed.

Ltac cnorm C :=
  let R := constr:(Num.ClosedField.ringType C) in
  let V := constr:(GRing.Ring.zmodType R) in
  repeat match goal with
    | |- context [@GRing.opp ?W] => tryif constr_eq W V then fail else change (@GRing.opp W) with (@GRing.opp V)
    | |- context [@GRing.add ?W] => tryif constr_eq W V then fail else change (@GRing.add W) with (@GRing.add V)
    | |- context [GRing.zero ?W] => tryif constr_eq W V then fail else change (GRing.zero W) with (GRing.zero V)
    | |- context [@GRing.mul ?W] => tryif constr_eq W R then fail else change (@GRing.mul W) with (@GRing.mul R)
    | |- context [GRing.one ?W] => tryif constr_eq W R then fail else change (GRing.one W) with (GRing.one R)
    end;
  match goal with |- @eq _ ?x ?y => change (@eq (GRing.Ring.sort R) x y) end.
