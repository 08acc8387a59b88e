(** The operators of the added sites are fermion operators; the chain Hamiltonian is Hermitian. *)
From Coq Require Import List ZArith Lia String Permutation.
From Verif Require Import Base Invar_model Invar_spec Invar_proofs Symmetry_model Symmetry_spec Symmetry_tables Subspaces_model Subspaces_proofs Subspaces_step Density_model Density_sums Density_struct Recalc_model
  Hamilton_model Hamilton_pos Hamilton_spec Hamilton_step Linalg_model Linalg_spec Linalg_diag
  Coef_model Coef_tables Fullchain_terms Fullchain_check Fullchain_model Fullchain_spec Fullchain_facts Fullchain_struct Fullchain_sums Fullchain_elem Fullchain_match Fullchain_prog Fullchain_ham Fullchain_rot Fullchain_run Cring.
From mathcomp Require Import ssreflect ssrfun ssrbool eqtype ssrnat seq fintype bigop ssralg ssrnum.
Import GRing.Theory Num.Theory.
Local Open Scope ring_scope.

Local Opaque Fullchain_model.zC.

Section Car.
Variables (C : numClosedFieldType) (cs : coef_set) (se : setting) (m : mode).
Hypothesis (Hck : check cs se m = true).
Add Ring Cr : (field_ring C).
Notation zC := (zC C).
Notation d := (List.length (tb_In (cs_tab cs))).
Notation site := (ordinal_finType (local_states cs)).
Notation lab l := (Z.of_nat (S (nat_of_ord l))).

Lemma nth_pair {A} (l : list A) i x : List.nth_error l i = Some x -> List.In (i, x) (List.combine (List.seq 0 (List.length l)) l).
Proof.
  move=> Hi. suff G : forall k, List.In (Nat.add k i, x) (List.combine (List.seq k (List.length l)) l) by exact: (G 0%N).
  elim: l i Hi => [|a l IH] [|i] //= Hi k; [left; by case: Hi => <-; rewrite Nat.add_0_r|]. right. rewrite -Nat.add_succ_comm. exact: IH.
Qed.
Lemma car_rows i j t t' : List.nth_error (cs_irr cs) i = Some t -> List.nth_error (cs_irr cs) j = Some t' ->
  same_el (mul (rows_of t) (rows_of t') ++ mul (rows_of t') (rows_of t)) [::] = true /\
  same_el (mul (tr (rows_of t)) (rows_of t') ++ mul (rows_of t') (tr (rows_of t))) (if Nat.eqb i j then ident d else [::]) = true.
Proof.
  move=> Hi Hj. have := ck_car cs se m Hck. rewrite /check_car. cbv zeta. rewrite List.map_length => G.
  have P : forall k x, List.nth_error (cs_irr cs) k = Some x -> List.In (k, rows_of x) (List.combine (List.seq 0 (List.length (cs_irr cs))) (List.map rows_of (cs_irr cs))).
  { move=> k x Hk. rewrite -(List.map_length rows_of). apply nth_pair. exact: List.map_nth_error. }
  apply (proj1 (List.forallb_forall _ _)) with (x := (i, rows_of t)) in G; [|exact: P]. apply (proj1 (List.forallb_forall _ _)) with (x := (j, rows_of t')) in G; [|exact: P].
  cbn [fst snd] in G. by move/andP: G.
Qed.
Lemma adj_prod t t' (l l' : site) : List.In t (cs_irr cs) -> mulo (adj (create C t)) (create C t') l l' = zC (el (mul (tr (rows_of t)) (rows_of t')) (lab l) (lab l')).
Proof.
  move=> Ht. rewrite (el_mul C d).
  - apply eq_bigr => k _. by rewrite /adj !createE el_tr zC_conj.
  - move=> x y z Hin. apply List.in_map_iff in Hin. case: Hin => [[[x' y'] z'] [Eq Hin]]. injection Eq => E1 E2 E3. subst. exact: (proj2 (rows_range cs se m Hck t Ht _ _ _ Hin)).
Qed.
Lemma in_of i t : List.nth_error (cs_irr cs) i = Some t -> List.In t (cs_irr cs). Proof. exact: List.nth_error_In. Qed.
Lemma car_create i j t t' (l l' : site) : List.nth_error (cs_irr cs) i = Some t -> List.nth_error (cs_irr cs) j = Some t' ->
  anti (create C t) (create C t') l l' = 0 /\ anti (adj (create C t)) (create C t') l l' = if Nat.eqb i j then @unit_op C site l l' else 0.
Proof.
  move=> Hi Hj. have [R1 R2] := car_rows i j t t' Hi Hj. have H1 := in_of i t Hi. have H2 := in_of j t' Hj. split.
  - rewrite /anti /addo !(create_prod C cs se m Hck) // -zCD -el_app (same_elP _ _ R1) el_nil zC0. done.
  - rewrite /anti /addo adj_prod // (create_prod_adj C cs se m Hck) // -zCD -el_app (same_elP _ _ R2). case: (Nat.eqb i j); [|by rewrite el_nil zC0].
    rewrite el_ident. have -> : in_range d (lab l) = true. { have := lt_site cs l. rewrite /in_range => L. apply/andP; split; apply Z.leb_le; lia. }
    rewrite andbT /unit_op. case: eqP => [->|Hne]; [by rewrite Z.eqb_refl zC1|]. have -> : Z.eqb (lab l) (lab l') = false; [|by rewrite zC0]. apply Z.eqb_neq => X. apply Hne. apply: val_inj => /=. lia.
Qed.

(** Signs. *)
Lemma sign_sq (l : site) : sign C l * sign C l = 1.
Proof.
  have := ck_signs cs se m Hck. rewrite /check_signs. cbv zeta => /andP [G _]. rewrite !(signE C cs se m Hck) -zCM.
  have -> : (sg (signs cs) (lab l) * sg (signs cs) (lab l))%Z = 1%Z; [|by rewrite zC1]. apply (proj1 (List.forallb_forall _ _)) with (x := sg (signs cs) (lab l)) in G; [by apply Z.eqb_eq|].
  rewrite /sg. apply List.nth_In. rewrite /signs. cbv zeta. rewrite List.map_length /labels List.map_length List.seq_length. have := lt_site cs l. lia.
Qed.
Lemma sign_flip t (l l' : site) : List.In t (cs_irr cs) -> sign C l * create C t l l' = - (create C t l l' * sign C l').
Proof.
  move=> Ht. have := ck_signs cs se m Hck. rewrite /check_signs. cbv zeta => /andP [_ G]. apply (proj1 (List.forallb_forall _ _)) with (x := t) in G => //.
  rewrite createE !(signE C cs se m Hck) -!zCM -zCN. congr zC. move: (rows_of t) G => R. clear -R. elim: R => [|[[x y] z] R IH]; [by rewrite el_nil; lia|].
  move=> /andP [/Z.eqb_eq G1 G2]. have {}IH := IH G2. cbn [el fold_right]. rewrite -/(el R (lab l) (lab l')). case Ex: (Z.eqb x (lab l)); case Ey: (Z.eqb y (lab l')); cbn [andb]; try lia.
  apply Z.eqb_eq in Ex. apply Z.eqb_eq in Ey. subst x y. nia.
Qed.
Lemma sign_conj (l : site) : (sign C l)^* = sign C l.
Proof. by rewrite (signE C cs se m Hck) zC_conj. Qed.

Variable T : finType.
Notation longer := (prod_finType T site).
Lemma mul_site_odd (B : oper C site) (A : oper C T) (x y : longer) : mulo (on_site B) (@old_odd C cs T A) x y = B x.2 y.2 * (sign C y.2 * A x.1 y.1).
Proof.
  rewrite /mulo sum_pair (bigD1 x.1) //= [X in _ + X]big1 ?addr0.
  - rewrite (bigD1 y.2) //= big1 ?addr0; [by rewrite /old_odd /on_site /= !eqxx|]. move=> k Hk. by rewrite /old_odd /= (negbTE Hk) mulr0.
  - move=> t Ht. apply big1 => k _. by rewrite /on_site /= eq_sym (negbTE Ht) mul0r.
Qed.
Lemma flip_zero (s b s' a : C) : s * b = - (b * s') -> s * a * b + b * (s' * a) = 0.
Proof. move=> E. have -> : s * a * b = s * b * a by cnorm C; ring. rewrite E. rewrite mulNr mulrA addNr. done. Qed.
Lemma odd_site (A : oper C T) t (x y : longer) : List.In t (cs_irr cs) -> anti (@old_odd C cs T A) (on_site (create C t)) x y = 0.
Proof. move=> Ht. rewrite /anti /addo mul_odd_site mul_site_odd. apply flip_zero. exact: sign_flip. Qed.
Lemma flip_adj t (l l' : site) : List.In t (cs_irr cs) -> sign C l * adj (create C t) l l' = - (adj (create C t) l l' * sign C l').
Proof.
  move=> Ht. have := sign_flip t l' l Ht => E. rewrite /adj. have E' := f_equal (fun z => z^*) E. cbv beta in E'. rewrite rmorphN !rmorphM !sign_conj in E'.
  rewrite [sign C l * _]mulrC [_ * sign C l']mulrC E' opprK. done.
Qed.
Lemma odd_site_adj (A : oper C T) t (x y : longer) : List.In t (cs_irr cs) -> anti (@old_odd C cs T A) (adj (on_site (create C t))) x y = 0.
Proof.
  move=> Ht. have -> : anti (@old_odd C cs T A) (adj (on_site (create C t))) x y = anti (@old_odd C cs T A) (on_site (adj (create C t))) x y.
  { rewrite /anti /addo /mulo. congr (_ + _); apply eq_bigr => z _; by rewrite adj_site. }
  rewrite /anti /addo mul_odd_site mul_site_odd. apply flip_zero. exact: flip_adj.
Qed.
Lemma mul_odd_odd (A B : oper C T) (x y : longer) : mulo (@old_odd C cs T A) (@old_odd C cs T B) x y = old_even (mulo A B) x y.
Proof.
  rewrite /mulo sum_pair /old_even /old_odd. case Exy: (x.2 == y.2).
  - move/eqP: Exy => Exy. apply eq_bigr => t _. rewrite (bigD1 x.2) //= big1 ?addr0.
    + rewrite Exy !eqxx. have S := sign_sq y.2. move: S. move: (sign C y.2) => s S. have -> : s * A x.1 t * (s * B t y.1) = s * s * (A x.1 t * B t y.1) by cnorm C; ring. by rewrite S mul1r.
    + move=> k Hk. by rewrite eq_sym (negbTE Hk) mul0r.
  - apply big1 => t _. apply big1 => k _ /=. case E1: (x.2 == k); [|by rewrite mul0r]. move/eqP: E1 => <-. by rewrite Exy mulr0.
Qed.
Lemma odd_odd (A B : oper C T) (x y : longer) : anti (@old_odd C cs T A) (@old_odd C cs T B) x y = old_even (anti A B) x y.
Proof. rewrite /anti /addo !mul_odd_odd /old_even. case: (_ == _) => //. exact: addr0. Qed.
Lemma odd_adj (A : oper C T) (x y : longer) : adj (@old_odd C cs T A) x y = @old_odd C cs T (adj A) x y.
Proof. rewrite /adj /old_odd eq_sym. case E: (x.2 == y.2); [|exact: rmorph0]. rewrite rmorphM sign_conj. by move/eqP: E => ->. Qed.

(** Two operators of the new site. *)
Lemma mul_site_site (A B : oper C site) (x y : longer) : mulo (on_site A) (on_site B) x y = on_site (mulo A B) x y.
Proof.
  rewrite /mulo sum_pair (bigD1 x.1) //= [X in _ + X]big1 ?addr0.
  - rewrite /on_site /= eqxx. case: (_ == _) => //. apply big1 => k _. by rewrite mulr0.
  - move=> t Ht. apply big1 => k _. by rewrite /on_site /= eq_sym (negbTE Ht) mul0r.
Qed.
End Car.

(** ** The Hamiltonian is Hermitian *)
Section Herm.
Variables (C : numClosedFieldType) (cs : coef_set) (se : setting).
Notation site := (ordinal_finType (local_states cs)).
Definition herm {T : finType} (A : oper C T) : Prop := forall x y, adj A x y = A x y.
Lemma herm_add {T : finType} (A B : oper C T) : herm A -> herm B -> herm (addo A B).
Proof. move=> HA HB x y. rewrite /adj /addo rmorphD. congr (_ + _); [exact: HA|exact: HB]. Qed.
Lemma herm_sum {T : finType} {E} (l : list E) (f : E -> oper C T) : (forall e, List.In e l -> herm (f e)) -> herm (sum_of l f).
Proof. move=> Hf x y. rewrite /adj /sum_of rmorph_sum. apply sum_in => e He. exact: Hf. Qed.
Lemma herm_hc {T : finType} (A : oper C T) : herm (plus_hc A).
Proof. move=> x y. rewrite /adj /plus_hc /addo /adj rmorphD conjCK. by rewrite addrC. Qed.
Lemma herm_scale {T : finType} c (A : oper C T) : c \is Num.real -> herm A -> herm (scale_by c A).
Proof. move=> /CrealP Hc HA x y. rewrite /adj /scale_by rmorphM Hc. congr (_ * _). exact: HA. Qed.
Lemma herm_unit {T : finType} : herm (@unit_op C T).
Proof. move=> x y. rewrite /adj /unit_op eq_sym. case: (_ == _); [exact: rmorph1|exact: rmorph0]. Qed.
Lemma herm_occ t : herm (occupation C (cs := cs) t).
Proof. move=> x y. rewrite /adj /occupation /mulo rmorph_sum. apply eq_bigr => z _. by rewrite rmorphM /adj conjCK mulrC. Qed.
Variables (K : chain_coef C) (N : nat).
Hypothesis Hlev : forall z s t, List.In (z, s, t) (levels cs se) -> cval K N s \is Num.real.
Lemma herm_site : herm (@site_part C cs se K N).
Proof.
  apply herm_add; [|apply herm_add].
  - apply herm_sum => [[[z s] t]] Hin. apply herm_scale; [exact: (Hlev z s t)|]. apply herm_add; [exact: herm_occ|]. apply herm_scale; [|exact: herm_unit].
    by rewrite rpredN rpredM ?int_ofE ?zC_real // rpredV realn.
  - apply herm_sum => [[[s t] t']] _. exact: herm_hc.
  - apply herm_sum => [[[s t] t']] _. exact: herm_hc.
Qed.
Lemma herm_next (T : finType) (H : oper C T) F : herm H -> herm (next_H (cs := cs) se K N H F).
Proof.
  move=> HH. apply herm_add; [|apply herm_add; [|apply herm_add]].
  - move=> x y. rewrite /adj /old_even eq_sym. case: (_ == _); [exact: HH|exact: rmorph0].
  - apply herm_sum => [[[s t] t']] _. exact: herm_hc.
  - apply herm_sum => [[[[z s] t] t']] _. exact: herm_hc.
  - move=> x y. rewrite adj_site /on_site. case: (_ == _) => //. exact: herm_site.
Qed.
End Herm.
Lemma herm_chain (C : numClosedFieldType) cs se (K : chain_coef C) N0 (T : finType) (H : oper C T) F n : real_levels cs se K -> herm C H -> herm C (chain_ops cs se K N0 H F n).1.
Proof. move=> Hl HH. elim: n => [|n IH] //=. apply herm_next => //. exact: Hl. Qed.

(** ** All orbitals *)
Section Orbitals.
Variables (C : numClosedFieldType) (cs : coef_set) (se : setting) (m : mode).
Hypothesis (Hck : check cs se m = true).
Notation site := (ordinal_finType (local_states cs)).
Lemma anti_ext {T : finType} (A A' B B' : oper C T) : (forall x y, A x y = A' x y) -> (forall x y, B x y = B' x y) -> forall x y, anti A B x y = anti A' B' x y.
Proof. move=> HA HB x y. rewrite /anti /addo /mulo. congr (_ + _); apply eq_bigr => z _; by rewrite HA HB. Qed.
Lemma anti_sym {T : finType} (A B : oper C T) x y : anti A B x y = anti B A x y.
Proof. by rewrite /anti /addo addrC. Qed.
Lemma anti_site (T : finType) (A B : oper C site) x y : anti (on_site (T := T) A) (on_site B) x y = on_site (T := T) (anti A B) x y.
Proof. rewrite /anti /addo !mul_site_site /on_site. case: (_ == _) => //. by rewrite addr0. Qed.
Lemma nth_map {X Y} (f : X -> Y) l i y : List.nth_error (List.map f l) i = Some y -> exists x, List.nth_error l i = Some x /\ y = f x.
Proof. elim: l i => [|a l IH] [|i] //=; [move=> [<-]; by exists a|exact: IH]. Qed.
Lemma fermions_next (T : finType) (G : list (oper C T)) : fermions G ->
  fermions (List.map (old_odd (cs := cs) (T := T)) G ++ List.map (fun t => on_site (cs := cs) (T := T) (create C (cs := cs) t)) (cs_irr cs)).
Proof.
  move=> HG i j A B x y HA HB.
  have Hcase k D : List.nth_error (List.map (old_odd (cs := cs) (T := T)) G ++ List.map (fun t => on_site (cs := cs) (T := T) (create C (cs := cs) t)) (cs_irr cs)) k = Some D ->
    (Nat.lt k (List.length G) /\ exists D0, List.nth_error G k = Some D0 /\ D = old_odd D0) \/
    (Nat.le (List.length G) k /\ exists t, List.nth_error (cs_irr cs) (Nat.sub k (List.length G)) = Some t /\ D = on_site (create C t)).
  { case: (Nat.lt_ge_cases k (List.length G)) => Hk.
    - rewrite List.nth_error_app1 ?List.map_length // => E. left. split=> //. exact: nth_map E.
    - rewrite List.nth_error_app2 ?List.map_length // => E. right. split=> //. exact: nth_map E. }
  case: (Hcase _ _ HA) => [[Hi [A0 [HA0 EA]]]|[Hi [t [Ht EA]]]]; case: (Hcase _ _ HB) => [[Hj [B0 [HB0 EB]]]|[Hj [t' [Ht' EB]]]]; rewrite EA EB; clear HA HB EA EB Hcase.
  - have H1 := HG i j A0 B0 _ _ HA0 HB0. split.
    + rewrite (odd_odd C cs se m Hck) /old_even. case: (_ == _) => //. exact: (proj1 (H1 _ _)).
    + rewrite (anti_ext _ (old_odd (adj A0)) _ (old_odd B0)) => //; [|exact: (odd_adj C cs se m Hck)].
      rewrite (odd_odd C cs se m Hck) /old_even (proj2 (H1 _ _)) /unit_op. case: (Nat.eqb i j); [|by case: (_ == _)].
      rewrite -pair_eqE /pair_eq /=. by case: (x.1 == y.1); case: (x.2 == y.2).
  - have -> : Nat.eqb i j = false by apply/Nat.eqb_neq; lia. split.
    + exact: (odd_site C cs se m Hck _ _ _ _ _ (List.nth_error_In _ _ Ht')).
    + rewrite (anti_ext _ (old_odd (adj A0)) _ (on_site (create C t'))) => //; [|exact: (odd_adj C cs se m Hck)].
      exact: (odd_site C cs se m Hck _ _ _ _ _ (List.nth_error_In _ _ Ht')).
  - have -> : Nat.eqb i j = false by apply/Nat.eqb_neq; lia. split; rewrite anti_sym.
    + exact: (odd_site C cs se m Hck _ _ _ _ _ (List.nth_error_In _ _ Ht)).
    + exact: (odd_site_adj C cs se m Hck _ _ _ _ _ (List.nth_error_In _ _ Ht)).
  - have H1 l l' := car_create C cs se m Hck _ _ _ _ l l' Ht Ht'. split.
    + rewrite anti_site /on_site. case: (_ == _) => //. exact: (proj1 (H1 _ _)).
    + rewrite (anti_ext _ (on_site (adj (create C t))) _ (on_site (create C t'))) => //; [|exact: adj_site].
      rewrite anti_site /on_site (proj2 (H1 _ _)) /unit_op. have -> : Nat.eqb (Nat.sub i (List.length G)) (Nat.sub j (List.length G)) = Nat.eqb i j.
      { case E: (Nat.eqb i j); [apply/Nat.eqb_eq; move/Nat.eqb_eq: E => E; lia|apply/Nat.eqb_neq; move/Nat.eqb_neq: E => E; lia]. }
      case: (Nat.eqb i j); [|by case: (_ == _)]. rewrite -pair_eqE /pair_eq /=. by case: (x.1 == y.1); case: (x.2 == y.2).
Qed.
Lemma fermions_chain (T : finType) (G : list (oper C T)) n : fermions G -> fermions (all_orbitals cs G n).
Proof. move=> HG. elim: n => [|n IH] //=. exact: fermions_next. Qed.
Lemma orbitals_number (T : finType) (G : list (oper C T)) n : List.length (all_orbitals cs G n) = Nat.add (List.length G) (Nat.mul n (List.length (cs_irr cs))).
Proof. elim: n => [|n IH] /=; [lia|]. rewrite List.app_length !List.map_length IH. lia. Qed.
End Orbitals.
