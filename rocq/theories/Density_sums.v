(** Sums over lists (C++ maps) and a change of summation variable; loops with exceptions. *)
From Coq Require Import List ZArith Lia.
From mathcomp Require Import ssreflect ssrfun ssrbool eqtype ssrnat seq fintype bigop ssralg ssrnum.
From Verif Require Import Base Invar_model Invar_proofs Subspaces_proofs Density_model.
Import GRing.Theory Num.Theory.
Local Open Scope ring_scope.
Set Implicit Arguments.
Unset Strict Implicit.
Unset Printing Implicit Defensive.

Section Sums.
  Variable V : zmodType.

  Lemma eq_big_In (T : Type) (l : list T) (F G : T -> V) : (forall x, In x l -> F x = G x) -> \sum_(x <- l) F x = \sum_(x <- l) G x.
  Proof.
    elim: l => [|a l IH] H; first by rewrite !big_nil.
    rewrite !big_cons H; last by left. by rewrite IH // => x Hx; apply: H; right.
  Qed.
  Lemma big_zero_In (T : Type) (l : list T) (F : T -> V) : (forall x, In x l -> F x = 0) -> \sum_(x <- l) F x = 0.
  Proof. by move=> H; rewrite (eq_big_In H) big1_eq. Qed.

  Lemma big_Forall2 (A B : Type) (R : A -> B -> Prop) l l' (F : A -> V) (G : B -> V) : Forall2 R l l' -> (forall x y, R x y -> G y = F x) ->
    \sum_(y <- l') G y = \sum_(x <- l) F x.
  Proof. move=> H HR. elim: H => [|x y l1 l2 Hxy _ IH]; first by rewrite !big_nil. by rewrite !big_cons IH (HR _ _ Hxy). Qed.

  Lemma big_lmap (T U : Type) (f : T -> U) (l : list T) (F : U -> V) : \sum_(x <- List.map f l) F x = \sum_(x <- l) F (f x).
  Proof. by elim: l => [|a l IH] /=; rewrite ?big_nil // !big_cons IH. Qed.

  (** A sum that selects one key. *)
  Lemma big_pick_out (l : list invar) (K : invar) (F : invar -> V) : ~ In K l ->
    \sum_(J <- l) (if invar_eqb J K then F J else 0) = 0.
  Proof.
    move=> H. apply: big_zero_In => J HJ. case E: (invar_eqb J K) => //. move/invar_eqb_eq: E => E. by subst.
  Qed.
  Lemma big_pick (l : list invar) (K : invar) (F : invar -> V) : NoDup l -> In K l ->
    \sum_(J <- l) (if invar_eqb J K then F J else 0) = F K.
  Proof.
    elim: l => [|J l IH] Hn Hin //. inversion Hn as [|? ? Hni Hn']; subst. rewrite big_cons. case E: (invar_eqb J K).
    - move/invar_eqb_eq: E => E; subst K. by rewrite big_pick_out // addr0.
    - rewrite add0r IH //. case: Hin => // Ek. subst. by rewrite invar_eqb_refl in E.
  Qed.

  (** Change of the summation variable I -> J = f I, with inverse g, where the summand need only match where it does not vanish. *)
  Lemma reindex_keys (L1 L2 : list invar) (f g : invar -> invar) (F : invar -> invar -> V) : NoDup L1 -> NoDup L2 ->
    (forall I, In I L1 -> F I (f I) <> 0 -> In (f I) L2 /\ g (f I) = I) ->
    (forall J, In J L2 -> F (g J) J <> 0 -> In (g J) L1 /\ f (g J) = J) ->
    (forall x : V, x = 0 \/ x <> 0) ->
    \sum_(Ix <- L1) F Ix (f Ix) = \sum_(J <- L2) F (g J) J.
  Proof.
    move=> N1 N2 H1 H2 Dec.
    transitivity (\sum_(Ix <- L1) \sum_(J <- L2) (if invar_eqb J (f Ix) then F Ix J else 0)).
    { apply: eq_big_In => Ix HI. case: (Dec (F Ix (f Ix))) => Hne.
      - rewrite Hne. symmetry. apply: big_zero_In => J _. case E: (invar_eqb _ _) => //. move/invar_eqb_eq: E => ->. exact: Hne.
      - case: (H1 _ HI Hne) => Hin _. by rewrite (big_pick (fun J => F Ix J)). }
    transitivity (\sum_(J <- L2) \sum_(Ix <- L1) (if invar_eqb Ix (g J) then F Ix J else 0)).
    2:{ apply: eq_big_In => J HJ. case: (Dec (F (g J) J)) => Hne.
      - rewrite Hne. apply: big_zero_In => Ix _. case E: (invar_eqb _ _) => //. move/invar_eqb_eq: E => ->. exact: Hne.
      - case: (H2 _ HJ Hne) => Hin _. by rewrite (big_pick (fun Ix => F Ix J)). }
    rewrite exchange_big /=. apply: eq_big_In => J HJ. apply: eq_big_In => Ix HI.
    case E1: (invar_eqb J (f Ix)); case E2: (invar_eqb Ix (g J)) => //.
    - move/invar_eqb_eq: E1 => E1. subst J. case: (Dec (F Ix (f Ix))) => // Hne. case: (H1 _ HI Hne) => _ E. by rewrite E invar_eqb_refl in E2.
    - move/invar_eqb_eq: E2 => E2. subst Ix. case: (Dec (F (g J) J)) => // Hne. case: (H2 _ HJ Hne) => _ E. by rewrite E invar_eqb_refl in E1.
  Qed.

  (** Sum over the entries of a map in terms of its keys. *)
  Lemma big_lookup (A : Type) (m : list (invar * A)) (F : invar -> option A -> V) : NoDup (List.map fst m) ->
    \sum_(p <- m) F (fst p) (Some (snd p)) = \sum_(J <- List.map fst m) F J (lookup m J).
  Proof.
    move=> Hn. rewrite big_lmap. apply: eq_big_In => -[J a] Hin /=. by rewrite /lookup (find_key _ _ _ Hn Hin).
  Qed.

  Lemma big_enumerate (A : Type) (l : list A) (F : nat -> A -> V) (d : A) k :
    \sum_(p <- List.combine (List.seq k (List.length l)) l) F (fst p) (snd p) = \sum_(i < List.length l) F (k + i)%N (List.nth i l d).
  Proof.
    elim: l k => [|a l IH] k /=; first by rewrite big_nil big_ord0.
    rewrite big_cons big_ord_recl /= addn0 IH. congr (_ + _). apply: eq_bigr => i _. by rewrite addnS.
  Qed.
  Lemma big_list_ord (A : Type) (l : list A) (F : A -> V) (d : A) : \sum_(x <- l) F x = \sum_(i < List.length l) F (List.nth i l d).
  Proof.
    elim: l => [|a l IH] /=; first by rewrite big_nil big_ord0. by rewrite big_cons big_ord_recl /= IH.
  Qed.
End Sums.

Lemma lookup_In {A} (m : list (invar * A)) J a : NoDup (List.map fst m) -> In (J, a) m -> lookup m J = Some a.
Proof. move=> Hn Hin. by rewrite /lookup (find_key _ _ _ Hn Hin). Qed.
Lemma lookup_Some {A} (m : list (invar * A)) J a : lookup m J = Some a -> In (J, a) m.
Proof.
  rewrite /lookup. case E: (List.find _ m) => [[K b]|] //= [<-]. apply List.find_some in E as [Hin E]. cbn [fst] in E.
  apply invar_eqb_eq in E. by subst.
Qed.
Lemma lookup_key {A} (m : list (invar * A)) J : In J (List.map fst m) -> exists a, lookup m J = Some a.
Proof.
  move/in_map_iff => [[K a] [/= <- Hin]]. rewrite /lookup. case E: (List.find _ m) => [[L b]|] /=; first by exists b.
  exfalso. eapply List.find_none in E; last exact Hin. by rewrite /= invar_eqb_refl in E.
Qed.
Lemma lookup_None {A} (m : list (invar * A)) J : lookup m J = None -> ~ In J (List.map fst m).
Proof. move=> E /lookup_key [a]. by rewrite E. Qed.

(** A loop whose body keeps an invariant. *)
Lemma foldM_inv {A B} (P : list B -> A -> Prop) (f : A -> B -> res A) l a : P nil a ->
  (forall l1 x l2 b, l = l1 ++ x :: l2 -> P l1 b -> exists b', f b x = Ok b' /\ P (l1 ++ [:: x]) b') ->
  exists b, foldM f l a = Ok b /\ P l b.
Proof.
  move=> H0 Hs. suff: forall l2 l1 b, l = l1 ++ l2 -> P l1 b -> exists b', foldM f l2 b = Ok b' /\ P l b' by move/(_ l nil a erefl H0).
  elim=> [|x l2 IH] l1 b E Hb /=; first by exists b; rewrite E cats0.
  case: (Hs l1 x l2 b E Hb) => b' [-> Hb'] /=. apply: (IH (l1 ++ [:: x])) => //. by rewrite E -catA.
Qed.
