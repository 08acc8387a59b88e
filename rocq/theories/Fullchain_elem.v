(** Matrix elements between states of the longer chain. *)
From Coq Require Import List ZArith Lia.
From Verif Require Import Base Invar_model Symmetry_model Density_model Recalc_model Hamilton_model Linalg_model Linalg_spec
  Coef_model Fullchain_terms Fullchain_check Fullchain_model Fullchain_spec Fullchain_sums Cring.
From mathcomp Require Import ssreflect ssrfun ssrbool eqtype ssrnat seq fintype bigop ssralg ssrnum.
Import GRing.Theory Num.Theory.
Local Open Scope ring_scope.

Section Elem.
Variables (C : numClosedFieldType) (T : finType).
Implicit Types (A B : oper C T) (p q : T -> C).
Lemma elem_eq p p' A A' q q' : (forall x, p x = p' x) -> (forall x y, A x y = A' x y) -> (forall x, q x = q' x) -> elem p A q = elem p' A' q'.
Proof. move=> Hp HA Hq. apply eq_bigr => x _. apply eq_bigr => y _. by rewrite Hp HA Hq. Qed.
Lemma elem_add p A B q : elem p (addo A B) q = elem p A q + elem p B q.
Proof. rewrite /elem -big_split. apply eq_bigr => x _ /=. rewrite -big_split. apply eq_bigr => y _ /=. by rewrite /addo mulrDr mulrDl. Qed.
Lemma elem_scale p c A q : elem p (scale_by c A) q = c * elem p A q.
Proof. rewrite /elem mulr_sumr. apply eq_bigr => x _. rewrite mulr_sumr. apply eq_bigr => y _. by rewrite /scale_by !mulrA [p x * c]mulrC. Qed.
Lemma elem_zero p A q : (forall x y, A x y = 0) -> elem p A q = 0.
Proof. move=> H. apply big1 => x _. apply big1 => y _. by rewrite H mulr0 mul0r. Qed.
Lemma elem_sum {E} (l : list E) (f : E -> oper C T) p q : elem p (sum_of l f) q = \sum_(e <- l) elem p (f e) q.
Proof.
  rewrite /elem /sum_of [RHS]exchange_big. apply eq_bigr => x _ /=. rewrite [RHS]exchange_big. apply eq_bigr => y _ /=. by rewrite mulr_sumr mulr_suml.
Qed.
Lemma elem_adj p A q : elem p (adj A) q = (elem q A p)^*.
Proof.
  rewrite /elem rmorph_sum exchange_big. apply eq_bigr => x _ /=. rewrite rmorph_sum. apply eq_bigr => y _ /=.
  by rewrite /adj !rmorphM conjCK mulrC mulrA mulrAC.
Qed.
Lemma elem_hc p A q : elem p (plus_hc A) q = elem p A q + (elem q A p)^*.
Proof. by rewrite /plus_hc elem_add elem_adj. Qed.
Lemma inner_elem p q : inner p q = elem p (@unit_op C T) q.
Proof.
  apply eq_bigr => x _. rewrite (bigD1 x) //= big1; [by rewrite addr0 /unit_op eqxx mulr1|]. move=> y Hy. by rewrite /unit_op eq_sym (negbTE Hy) mulr0 mul0r.
Qed.
(** Linear combinations. *)
Lemma elem_comb {I I' : finType} (c : I -> C) (p : I -> T -> C) A (d : I' -> C) (q : I' -> T -> C) :
  elem (fun x => \sum_i c i * p i x) A (fun y => \sum_j d j * q j y) = \sum_i \sum_j c i * elem (p i) A (q j) * (d j)^*.
Proof.
  transitivity (\sum_x \sum_y \sum_i \sum_j c i * (p i x * A x y * (q j y)^*) * (d j)^*).
  - apply eq_bigr => x _. apply eq_bigr => y _. rewrite -mulrA mulr_suml. apply eq_bigr => i _. rewrite rmorph_sum mulr_sumr mulr_sumr. apply eq_bigr => j _ /=.
    rewrite rmorphM !mulrA. rewrite -[RHS]mulrA [X in _ = _ * X]mulrC. by rewrite !mulrA.
  - rewrite exchange_big. under eq_bigr => y _ do rewrite exchange_big. rewrite /= exchange_big. apply eq_bigr => i _ /=.
    under eq_bigr => y _ do rewrite exchange_big. rewrite /= exchange_big. apply eq_bigr => j _ /=.
    rewrite exchange_big /= /elem mulr_sumr mulr_suml. apply eq_bigr => x _. rewrite mulr_sumr mulr_suml. apply eq_bigr => y _. done.
Qed.
End Elem.

Section Product.
Variables (C : numClosedFieldType) (cs : coef_set) (T : finType).
Add Ring Cr : (field_ring C).
Notation site := (ordinal_finType (local_states cs)).
Notation longer := (prod_finType T site).
(** Product of a state of the shorter chain and a local state. *)
Definition pb (l : site) (f : T -> C) : longer -> C := fun x => if x.2 == l then f x.1 else 0.
Lemma sum_pair (F : longer -> C) : \sum_x F x = \sum_t \sum_l F (t, l).
Proof. rewrite pair_bigA /=. apply eq_bigr => [[t l]] _. done. Qed.
Lemma pick_site (l : site) (F : site -> C) : \sum_l' (if l' == l then F l' else 0) = F l.
Proof. rewrite (bigD1 l) //= eqxx big1 ?addr0 // => l' H. by rewrite (negbTE H). Qed.
Lemma elem_pb l f (A : oper C longer) l' g : elem (pb l f) A (pb l' g) = \sum_t \sum_t' f t * A (t, l) (t', l') * (g t')^*.
Proof.
  rewrite /elem sum_pair. apply eq_bigr => t _. rewrite (bigD1 l) //= [X in _ + X]big1 ?addr0.
  - rewrite sum_pair. apply eq_bigr => t' _. rewrite (bigD1 l') //= [X in _ + X]big1 ?addr0; [by rewrite /pb /= !eqxx|].
    move=> k Hk. by rewrite /pb /= (negbTE Hk) rmorph0 mulr0.
  - move=> k Hk. apply big1 => y _. by rewrite /pb /= (negbTE Hk) !mul0r.
Qed.
Lemma elem_even l f (A : oper C T) l' g : elem (pb l f) (old_even A) (pb l' g) = if l == l' then elem f A g else 0.
Proof. rewrite elem_pb /old_even /=. case: (l == l') => //. apply big1 => t _. apply big1 => t' _. by rewrite mulr0 mul0r. Qed.
Lemma elem_site l f (B : oper C site) l' g : elem (pb l f) (on_site B) (pb l' g) = B l l' * inner f g.
Proof.
  rewrite elem_pb /on_site /inner mulr_sumr. apply eq_bigr => t _. rewrite (bigD1 t) //= big1 ?addr0; [by rewrite eqxx mulrAC mulrC|].
  move=> t' H. by rewrite eq_sym (negbTE H) mulr0 mul0r.
Qed.
Lemma mul_odd_site (A : oper C T) (B : oper C site) x y : mulo (@old_odd C cs T A) (on_site B) x y = sign C x.2 * A x.1 y.1 * B x.2 y.2.
Proof.
  rewrite /mulo sum_pair (bigD1 y.1) //= [X in _ + X]big1 ?addr0.
  - rewrite (bigD1 x.2) //= big1 ?addr0; [by rewrite /old_odd /on_site /= !eqxx|]. move=> k Hk. by rewrite /old_odd /= eq_sym (negbTE Hk) mul0r.
  - move=> t Ht. apply big1 => k _. by rewrite /on_site /= (negbTE Ht) mulr0.
Qed.
Lemma adj_site (B : oper C site) (x y : longer) : adj (on_site B) x y = on_site (adj B) x y.
Proof. rewrite /adj /on_site eq_sym. by case: (_ == _) => //; rewrite rmorph0. Qed.
Lemma elem_odd_site l f (A : oper C T) (B : oper C site) l' g :
  elem (pb l f) (mulo (@old_odd C cs T A) (on_site B)) (pb l' g) = sign C l * B l l' * elem f A g.
Proof.
  rewrite elem_pb /elem mulr_sumr. apply eq_bigr => t _. rewrite mulr_sumr. apply eq_bigr => t' _. rewrite mul_odd_site /=.
  cnorm C. ring.
Qed.
Lemma elem_odd_adj l f (A : oper C T) (B : oper C site) l' g :
  elem (pb l f) (mulo (@old_odd C cs T A) (adj (on_site B))) (pb l' g) = sign C l * (B l' l)^* * elem f A g.
Proof.
  rewrite -(elem_odd_site l f A (adj B) l' g). apply elem_eq => // x y. apply eq_bigr => z _. by rewrite adj_site.
Qed.
End Product.
