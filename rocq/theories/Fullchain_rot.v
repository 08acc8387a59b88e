(** One step: the eigenvectors as states of the longer chain. *)
From Coq Require Import List ZArith Lia String Permutation.
From Verif Require Import Base Invar_model Invar_spec Invar_proofs Symmetry_model Symmetry_spec Symmetry_tables Subspaces_model Subspaces_proofs Subspaces_step Density_model Density_sums Density_struct Recalc_model
  Hamilton_model Hamilton_pos Hamilton_spec Hamilton_step Linalg_model Linalg_spec Linalg_diag
  Coef_model Coef_tables Fullchain_terms Fullchain_check Fullchain_model Fullchain_spec Fullchain_facts Fullchain_struct Fullchain_sums Fullchain_elem Fullchain_match Fullchain_prog Fullchain_ham Cring.
From mathcomp Require Import ssreflect ssrfun ssrbool eqtype ssrnat seq fintype bigop ssralg ssrnum.
Import GRing.Theory Num.Theory.
Local Open Scope ring_scope.

Local Opaque Fullchain_model.zC.

Section Linear.
Variables (C : numClosedFieldType) (T : finType) (A : oper C T).
Lemma elem_suml (I : finType) (f : I -> T -> C) q : elem (fun x => \sum_i f i x) A q = \sum_i elem (f i) A q.
Proof.
  rewrite /elem [RHS]exchange_big. apply eq_bigr => x _ /=. rewrite [RHS]exchange_big. apply eq_bigr => y _ /=. by rewrite !mulr_suml.
Qed.
Lemma elem_sumr (I : finType) (f : I -> T -> C) p : elem p A (fun x => \sum_i f i x) = \sum_i elem p A (f i).
Proof.
  rewrite /elem [RHS]exchange_big. apply eq_bigr => x _ /=. rewrite [RHS]exchange_big. apply eq_bigr => y _ /=. by rewrite rmorph_sum mulr_sumr.
Qed.
Lemma elem_cl c (f q : T -> C) : elem (fun x => c * f x) A q = c * elem f A q.
Proof. rewrite /elem mulr_sumr. apply eq_bigr => x _. rewrite mulr_sumr. apply eq_bigr => y _. by rewrite !mulrA. Qed.
Lemma elem_cr c (f p : T -> C) : elem p A (fun x => c * f x) = elem p A f * c^*.
Proof. rewrite /elem mulr_suml. apply eq_bigr => x _. rewrite mulr_suml. apply eq_bigr => y _. by rewrite rmorphM [_^* * _]mulrC mulrA. Qed.
End Linear.

Lemma sum_perm {C : numClosedFieldType} {E} (l l' : list E) (f : E -> C) : Permutation l l' -> \sum_(x <- l) f x = \sum_(x <- l') f x.
Proof. elim=> [|x a b _ IH|x y a|a b c _ IH1 _ IH2]; [by rewrite !big_nil|by rewrite !big_cons IH|by rewrite !big_cons addrCA|by rewrite IH1]. Qed.
Lemma sum_filter {C : numClosedFieldType} {E} (l : list E) (c : E -> bool) (f : E -> C) : (forall x, c x = false -> f x = 0) -> \sum_(x <- List.filter c l) f x = \sum_(x <- l) f x.
Proof. move=> Hf. elim: l => [|x l IH]; [by rewrite !big_nil|]. rewrite /= big_cons -IH. case Ex: (c x); [by rewrite big_cons|]. by rewrite Hf // add0r. Qed.
Lemma sum_mapped {C : numClosedFieldType} {E E'} (l : list E) (g : E -> E') (f : E' -> C) : \sum_(x <- List.map g l) f x = \sum_(x <- l) f (g x).
Proof. elim: l => [|x l IH]; [by rewrite !big_nil|]. by rewrite /= !big_cons IH. Qed.
Lemma sum_in {C : numClosedFieldType} {E} (l : list E) (f g : E -> C) : (forall e, List.In e l -> f e = g e) -> \sum_(e <- l) f e = \sum_(e <- l) g e.
Proof. elim: l => [|e l IH] H; [by rewrite !big_nil|]. rewrite !big_cons H; [|by left]. congr (_ + _). apply IH => x Hx. apply H. by right. Qed.

Section Rot.
Variables (C : numClosedFieldType) (cs : coef_set) (se : setting) (m : mode) (sh : shipped_table).
Hypotheses (Hck : check cs se m = true) (Hsh : List.In sh shipped) (Hma : matches cs sh).
Add Ring Cr : (field_ring C).
Notation zC := (zC C).
Notation d := (List.length (tb_In (cs_tab cs))).
Notation site := (ordinal_finType (local_states cs)).
Notation lab l := (Z.of_nat (S (nat_of_ord l))).
Notation anc := (anc cs).
Notation isec := (isec cs).
Variables (K : chain_coef C) (N : nat) (st : nstate C) (sc0 sc : C) (T : finType) (H : oper C T) (F : irr_table -> oper C T) (u : invar -> nat -> T -> C).
Hypotheses (Hord : in_order cs st) (Hrep : represents cs H F sc0 st u).
Notation dp := (List.map (fun p => (fst p, Z.of_nat (fst (snd p)))) (ns_prev st)).
Hypothesis Hsmall : forall J n, List.In (J, n) dp -> (0 <= n <= 1000000)%Z.
Notation D J := (dimlist cs dp J).
Notation n J := (Z.to_nat (zsum (D J))).
Notation stored := (stored_states st).

Definition eig_ok (J : invar) (e : raw_eigen C) : Prop := exists h, matrix_ok C cs se K N st sc T H F u J h /\
  [/\ f_rows (r_vec e) = r_count e, f_cols (r_vec e) = f_rows h, (1 <= r_count e <= f_rows h)%N &
      lowest_eigenpairs (f_rows h) (hermitian (f_el h)) (r_count e) (r_val e) (f_el (r_vec e))].
Variable E : invar -> raw_eigen C.
Notation v J r p := (f_el (r_vec (E J)) r p).
Definition new_state (J : invar) (r : nat) : prod_finType T site -> C :=
  fun x => \sum_(l : site) \sum_(a < stored (anc l J)) v J r (row (D J) l a) * pb C cs T l (u (anc l J) a) x.

Lemma good_D J : isec J -> good (D J).
Proof. move=> HJ. exact: (good_dims cs se m sh Hck Hsh Hma dp (dp_sec C cs st Hord) Hsmall J HJ). Qed.
Lemma sumD J (G : nat -> C) : isec J -> \sum_(p < n J) G p = \sum_(l : site) \sum_(a < stored (anc l J)) G (row (D J) l a).
Proof.
  move=> HJ. rewrite (sum_rows C _ (good_D J HJ)) D_length. apply eq_bigr => l _. by rewrite bsize_D.
Qed.
Lemma row_eq J (l : site) a (l' : site) b : isec J -> Nat.lt a (stored (anc l J)) -> Nat.lt b (stored (anc l' J)) ->
  (row (D J) l a == row (D J) l' b) = (l == l') && (a == b).
Proof.
  move=> HJ Ha Hb. have PE := pos_eq _ (good_D J HJ) l a l' b. rewrite /szn -!/(bsize _ _) !bsize_D in PE. have PE' := PE Ha Hb. clear PE. rewrite /offn -/(row (D J) l a) -/(row (D J) l' b) in PE'. apply/idP/idP.
  - move/eqP => /PE' [E1 E2]. have E1' : l = l' by apply: val_inj. subst. by rewrite !eqxx.
  - move=> /andP [/eqP E1 /eqP E2]. subst. exact: eqxx.
Qed.
Lemma elem_new A J r J' r' : elem (new_state J r) A (new_state J' r') = \sum_(l : site) \sum_(a < stored (anc l J)) \sum_(l' : site) \sum_(b < stored (anc l' J'))
  v J r (row (D J) l a) * elem (pb C cs T l (u (anc l J) a)) A (pb C cs T l' (u (anc l' J') b)) * (v J' r' (row (D J') l' b))^*.
Proof.
  rewrite /new_state elem_suml. apply eq_bigr => l _. rewrite elem_suml. apply eq_bigr => a _. rewrite elem_cl elem_sumr mulr_sumr. apply eq_bigr => l' _.
  rewrite elem_sumr mulr_sumr. apply eq_bigr => b _. by rewrite elem_cr mulrA.
Qed.
Lemma elem_same A J r r' (G : nat -> nat -> C) : isec J ->
  (forall (l : site) a (l' : site) b, Nat.lt a (stored (anc l J)) -> Nat.lt b (stored (anc l' J)) ->
     elem (pb C cs T l (u (anc l J) a)) A (pb C cs T l' (u (anc l' J) b)) = G (row (D J) l a) (row (D J) l' b)) ->
  elem (new_state J r) A (new_state J r') = \sum_(p < n J) \sum_(q < n J) v J r p * G p q * (v J r' q)^*.
Proof.
  move=> HJ Hel. rewrite elem_new (sumD J (fun p => \sum_(q < n J) v J r p * G p q * (v J r' q)^*) HJ). apply eq_bigr => l _. apply eq_bigr => a _.
  rewrite (sumD J (fun q => v J r (row (D J) l a) * G (row (D J) l a) q * (v J r' q)^*) HJ). apply eq_bigr => l' _. apply eq_bigr => b _.
  rewrite Hel //; apply/ltP; exact: ltn_ord.
Qed.
Lemma elem_differ A J r J' r' :
  (forall (l : site) a (l' : site) b, Nat.lt a (stored (anc l J)) -> Nat.lt b (stored (anc l' J')) ->
     elem (pb C cs T l (u (anc l J) a)) A (pb C cs T l' (u (anc l' J') b)) = 0) ->
  elem (new_state J r) A (new_state J' r') = 0.
Proof.
  move=> Hel. rewrite elem_new. apply big1 => l _. apply big1 => a _. apply big1 => l' _. apply big1 => b _.
  rewrite Hel ?mulr0 ?mul0r //; apply/ltP; exact: ltn_ord.
Qed.
Lemma pick_p (k : nat) (p : 'I_k) (f : nat -> C) : \sum_(q < k) (if nat_of_ord p == nat_of_ord q then f q else 0) = f p.
Proof. rewrite (bigD1 p) //= eqxx big1 ?addr0 // => q Hq. case Ep: (_ == _) => //. move/eqP: Ep => Ep. move: Hq. have -> : q = p by apply: val_inj. by rewrite eqxx. Qed.

Section Sector.
Variables (J : invar) (HJ : isec J) (HE : eig_ok J (E J)).
Lemma v_orth r r' : Nat.lt r (r_count (E J)) -> Nat.lt r' (r_count (E J)) -> \sum_(p < n J) v J r p * (v J r' p)^* = if Nat.eqb r r' then 1 else 0.
Proof.
  move=> /ltP Hr /ltP Hr'. case: HE => h [[Hn _] [_ _ _ Hle]]. rewrite -Hn. rewrite [LHS](le_orthonormal Hle Hr Hr') /delta.
  have -> : (r == r') = Nat.eqb r r'; [|done]. apply/idP/idP => [/eqP ->|/Nat.eqb_eq ->]; [exact: Nat.eqb_refl|exact: eqxx].
Qed.
End Sector.

Lemma inner_new J r J' r' : isec J -> isec J' -> eig_ok J (E J) -> Nat.lt r (r_count (E J)) -> Nat.lt r' (r_count (E J')) ->
  inner (new_state J r) (new_state J' r') = if same J J' r r' then 1 else 0.
Proof.
  move=> HJ HJ' HE Hr Hr'. rewrite inner_elem.
  have U : forall (l : site) f (l' : site) g, elem (pb C cs T l f) (@unit_op C _) (pb C cs T l' g) = if l == l' then inner f g else 0.
  { move=> l f l' g. rewrite -inner_elem /inner sum_pair. case El: (l == l').
    - move/eqP: El => El. subst l'. apply eq_bigr => t _. rewrite (bigD1 l) //= /pb /= eqxx big1 ?addr0 // => k Hk. by rewrite (negbTE Hk) mul0r.
    - apply big1 => t _. apply big1 => k _. rewrite /pb /=. case Ek: (k == l); [|by rewrite mul0r]. move/eqP: Ek => Ek. subst k. by rewrite El rmorph0 mulr0. }
  rewrite /same. case EJ: (invar_eqb J J').
  - apply invar_eqb_eq in EJ. subst J'. rewrite (elem_same _ J r r' (fun p q => if p == q then 1 else 0) HJ).
    + rewrite -(v_orth J HE r r' Hr Hr'). apply eq_bigr => p _. rewrite -(pick_p _ p (fun q => v J r p * (v J r' q)^*)). apply eq_bigr => q _. case: (_ == _); [by rewrite mulr1|by rewrite mulr0 mul0r].
    + move=> l a l' b Ha Hb. rewrite U row_eq //. case El: (l == l') => //=. move/eqP: El => El. subst l'. rewrite (rp_orth Hrep) // /same invar_eqb_refl /=.
      have -> : Nat.eqb a b = (a == b); [|done]. apply/idP/idP => [/Nat.eqb_eq ->|/eqP ->]; [exact: eqxx|exact: Nat.eqb_refl].
  - apply elem_differ => l a l' b Ha Hb. rewrite U. case El: (l == l') => //. move/eqP: El => El. subst l'. rewrite (rp_orth Hrep) // /same. case Ea: (invar_eqb _ _) => //.
    exfalso. apply invar_eqb_eq in Ea. have Hl := lt_site cs l. have EJ' := anc_inj cs se m Hck l J J' Hl HJ HJ' Ea. subst. by rewrite invar_eqb_refl in EJ.
Qed.

Lemma energy_new J r J' r' : isec J -> isec J' -> eig_ok J (E J) -> Nat.lt r (r_count (E J)) -> Nat.lt r' (r_count (E J')) ->
  elem (new_state J r) (next_H se K N H F) (new_state J' r') = if same J J' r r' then sc * r_val (E J) r + ns_total st else 0.
Proof.
  move=> HJ HJ' HE Hr Hr'. case: (HE) => h [[Hn [_ [_ Hel]]] [_ _ _ Hle]]. rewrite /same. case EJ: (invar_eqb J J').
  - have EJ' := EJ. apply invar_eqb_eq in EJ'. subst J'. rewrite (elem_same _ J r r' (fun p q => sc * hermitian (f_el h) p q + (if p == q then ns_total st else 0)) HJ).
    + transitivity (\sum_(q < n J) (sc * r_val (E J) r + ns_total st) * (v J r q * (v J r' q)^*)).
      * rewrite exchange_big. apply eq_bigr => q _ /=.
        have L := le_eigen Hle (introT ltP Hr). have Hq : (q < f_rows h)%N by rewrite Hn ltn_ord. have Lq := L q Hq. rewrite Hn in Lq.
        transitivity (sc * (\sum_(p < n J) v J r p * hermitian (f_el h) p q) * (v J r' q)^* + ns_total st * v J r q * (v J r' q)^*).
        -- rewrite -(pick_p _ q (fun p => ns_total st * v J r p * (v J r' q)^*)). rewrite mulr_sumr mulr_suml -big_split. apply eq_bigr => p _ /=. rewrite [X in if X then _ else _]eq_sym.
           case: (_ == _); [|rewrite !addr0; cnorm C; ring]. rewrite -[LHS]mul1r -[RHS]mul1r; cnorm C; ring.
        -- rewrite Lq. rewrite -[LHS]mul1r -[RHS]mul1r; cnorm C; ring.
      * rewrite -mulr_sumr (v_orth J HE) //. case: (Nat.eqb r r'); [by rewrite mulr1|by rewrite mulr0].
    + move=> l a l' b Ha Hb. rewrite Hel // EJ. done.
  - apply elem_differ => l a l' b Ha Hb. by rewrite Hel // EJ.
Qed.

(** Eigenvalues are real. *)
Lemma rev3 (a b c : C) : a * b * c = c * b * a.
Proof. cnorm C. ring. Qed.
Lemma value_real J r : isec J -> eig_ok J (E J) -> Nat.lt r (r_count (E J)) -> r_val (E J) r \is Num.real.
Proof.
  move=> HJ HE Hr. have HO := v_orth J HE r r Hr Hr. rewrite Nat.eqb_refl in HO. case: (HE) => h [[Hn [_ [Hh _]]] [_ _ _ Hle]].
  have L := le_eigen Hle (introT ltP Hr). rewrite Hn in L.
  have W : r_val (E J) r = \sum_(q < n J) \sum_(p < n J) v J r p * hermitian (f_el h) p q * (v J r q)^*.
  { rewrite -[LHS]mulr1 -HO mulr_sumr. apply eq_bigr => q _. rewrite mulrA -(L q) // mulr_suml. done. }
  apply/CrealP. rewrite {1}W rmorph_sum. under eq_bigr => q _ do rewrite rmorph_sum. rewrite exchange_big /= W. apply eq_bigr => q _. apply eq_bigr => p _ /=.
  rewrite !rmorphM conjCK Hh ?Hn; try (apply/ltP; exact: ltn_ord). exact: rev3.
Qed.

(** ** The operators of the new site *)
Definition at_row (J : invar) (r : nat) (J' : invar) (r' : nat) (e : Z * Z * option cexpr) : C :=
  match e with (i1, ip, x) => match x with Some (cN z) => zC z | _ => 0 end *
    \sum_(a < bsize (D J) (Z.to_nat (i1 - 1))) v J r (row (D J) (Z.to_nat (i1 - 1)) a) * (v J' r' (row (D J') (Z.to_nat (ip - 1)) a))^* end.
Lemma op_new t J r J' r' : List.In t (cs_irr cs) -> isec J -> isec J' ->
  elem (new_state J r) (on_site (create C t)) (new_state J' r') = if leads t J' J then \sum_(e <- it_rows t) at_row J r J' r' e else 0.
Proof.
  move=> Ht HJ HJ'. rewrite elem_new.
  (* one row of the table *)
  pose X (l : site) (l' : site) : C := \sum_(a < stored (anc l J)) \sum_(b < stored (anc l' J')) v J r (row (D J) l a) * (if same (anc l J) (anc l' J') a b then 1 else 0) * (v J' r' (row (D J') l' b))^*.
  transitivity (\sum_(l : site) \sum_(l' : site) create C t l l' * X l l').
  { apply eq_bigr => l _. rewrite exchange_big. apply eq_bigr => l' _ /=. rewrite mulr_sumr. apply eq_bigr => a _. rewrite mulr_sumr. apply eq_bigr => b _.
    rewrite elem_site (rp_orth Hrep); [|by apply/ltP; exact: ltn_ord|by apply/ltP; exact: ltn_ord]. cnorm C. ring. }
  have tr := table_rows cs se m Hck t.
  transitivity (\sum_(e <- it_rows t) match e with (i1, ip, x) => match x with Some (cN z) => zC z | _ => 0 end * (\sum_(l : site) \sum_(l' : site) (if Z.eqb i1 (lab l) && Z.eqb ip (lab l') then X l l' else 0)) end).
  { rewrite /create. under eq_bigr => l _ do (under eq_bigr => l' _ do rewrite mulr_suml; rewrite exchange_big). rewrite exchange_big /=. apply eq_bigr => [[[i1 ip] x]] _.
    rewrite mulr_sumr. apply eq_bigr => l _. rewrite mulr_sumr. apply eq_bigr => l' _. rewrite /numbered. case: (Z.eqb i1 _ && Z.eqb ip _); [|by rewrite mul0r mulr0].
    case: x => [c|]; [|by rewrite !mul0r]. case: c => *; by rewrite ?mul0r ?int_ofE. }
  have one : forall i1 ip x, List.In (i1, ip, x) (it_rows t) -> \sum_(l : site) \sum_(l' : site) (if Z.eqb i1 (lab l) && Z.eqb ip (lab l') then X l l' else 0) =
     if leads t J' J then \sum_(a < bsize (D J) (Z.to_nat (i1 - 1))) v J r (row (D J) (Z.to_nat (i1 - 1)) a) * (v J' r' (row (D J') (Z.to_nat (ip - 1)) a))^* else 0.
  { move=> i1 ip x Hin. have [_ Hm] := tr i1 ip x Ht Hin. have [y [k [Ey [Ek [Hy [Hk EI]]]]]] := moves_spec cs t ip i1 Hm.
    have Hy' : (y < local_states cs)%N by apply/ltP. have Hk' : (k < local_states cs)%N by apply/ltP. pose ly : site := Ordinal Hy'. pose lk : site := Ordinal Hk'.
    have -> : Z.to_nat (i1 - 1) = lk by change (nat_of_ord lk) with k; lia. have -> : Z.to_nat (ip - 1) = ly by change (nat_of_ord ly) with y; lia.
    rewrite (bigD1 lk) //= [X in _ + X]big1 ?addr0.
    2:{ move=> l Hl. apply big1 => l' _. case Ei: (Z.eqb i1 _) => //=. exfalso. apply Z.eqb_eq in Ei. move/eqP: Hl => Hl. apply Hl. apply: val_inj => /=. lia. }
    rewrite (bigD1 ly) //= [X in _ + X]big1 ?addr0.
    2:{ move=> l Hl. case Ei: (Z.eqb ip _); rewrite ?andbF //. exfalso. apply Z.eqb_eq in Ei. move/eqP: Hl => Hl. apply Hl. apply: val_inj => /=. lia. }
    rewrite Ek Ey !Z.eqb_refl /= /X.
    have [J1 [EJ1 [HJ1 EA]]] := moves_child cs se m Hck t k y J' Ht Hk Hy EI HJ'.
    have lead : leads t J' J = invar_eqb (anc lk J) (anc ly J').
    { rewrite /leads EJ1 /= -EA. apply/idP/idP => Eq; apply (proj1 (invar_eqb_eq _ _)) in Eq.
      - rewrite Eq. exact: invar_eqb_refl.
      - have -> := anc_inj cs se m Hck k J J1 Hk HJ HJ1 Eq. exact: invar_eqb_refl. }
    rewrite lead /same. case Eq: (invar_eqb _ _); last first.
    { apply big1 => a _. apply big1 => b _. by rewrite mulr0 mul0r. }
    apply (proj1 (invar_eqb_eq _ _)) in Eq. rewrite (bsize_D C cs st J lk : bsize (D J) k = stored (anc k J)). apply eq_bigr => a _. rewrite -Eq /=.
    rewrite -(pick_p _ a (fun b => v J r (row (D J) k a) * (v J' r' (row (D J') y b))^*)). apply eq_bigr => b _.
    have -> : Nat.eqb a b = (nat_of_ord a == nat_of_ord b). { apply/idP/idP => [/Nat.eqb_eq ->|/eqP ->]; [exact: eqxx|exact: Nat.eqb_refl]. }
    case: (_ == _); [by rewrite mulr1|by rewrite mulr0 mul0r]. }
  transitivity (\sum_(e <- it_rows t) if leads t J' J then at_row J r J' r' e else 0); [|by case: (leads t J' J) => //; apply big1].
  have : forall e, List.In e (it_rows t) -> List.In e (it_rows t) by []. move: {1 3 4}(it_rows t) => rs. elim: rs => [|[[i1 ip] x] rs IH] Hsub; [by rewrite !big_nil|].
  rewrite !big_cons IH; [|by move=> e He; apply Hsub; right]. congr (_ + _). rewrite (one i1 ip x); [|by apply Hsub; left]. rewrite /at_row. case: (leads t J' J) => //. by rewrite mulr0.
Qed.

(** ** Nothing is lost if all states are kept *)
Lemma new_at J r t (l : site) : new_state J r (t, l) = \sum_(a < stored (anc l J)) v J r (row (D J) l a) * u (anc l J) a t.
Proof.
  rewrite /new_state (bigD1 l) //= [X in _ + X]big1 ?addr0.
  - apply eq_bigr => a _. by rewrite /pb /= eqxx.
  - move=> k Hk. apply big1 => a _. by rewrite /pb /= eq_sym (negbTE Hk) mulr0.
Qed.
Lemma sector_sum J t (l : site) t' (l' : site) : isec J -> eig_ok J (E J) -> r_count (E J) = n J ->
  \sum_(r < r_count (E J)) (new_state J r (t, l))^* * new_state J r (t', l') = if l == l' then \sum_(a < stored (anc l J)) (u (anc l J) a t)^* * u (anc l J) a t' else 0.
Proof.
  move=> HJ [h [[Hn _] [_ _ _ Hle]]] Hfull. rewrite Hfull. rewrite Hfull Hn in Hle. have [Hu _] := full_unitary Hle.
  transitivity (\sum_(a < stored (anc l J)) \sum_(b < stored (anc l' J)) (u (anc l J) a t)^* * u (anc l' J) b t' * (\sum_(r < n J) (v J r (row (D J) l a))^* * v J r (row (D J) l' b))).
  { under eq_bigr => r _. { rewrite !new_at rmorph_sum mulr_suml. under eq_bigr => a _. { rewrite mulr_sumr. over. } over. }
    rewrite exchange_big. apply eq_bigr => a _. rewrite exchange_big. apply eq_bigr => b _ /=. rewrite mulr_sumr. apply eq_bigr => r _. rewrite rmorphM.
    move: (v J r (row (D J) l' b)) (u (anc l J) a t)^* (u (anc l' J) b t') (v J r (row (D J) l a))^* => x y z w /=. cnorm C. ring. }
  have lt : forall (k : site) a, Nat.lt a (stored (anc k J)) -> (row (D J) k a < n J)%N.
  { move=> k a Ha. apply/ltP. have X := pos_total _ (good_D J HJ) k a. rewrite /szn -/(bsize _ _) bsize_D D_length in X. exact: (X (lt_site cs k) Ha). }
  have lo : forall (k : nat) (a : 'I_k), Nat.lt a k by move=> k a; apply/ltP; exact: ltn_ord.
  case El: (l == l').
  - move/eqP: El => El. subst l'. apply eq_bigr => a _. rewrite -(pick_p _ a (fun b => (u (anc l J) a t)^* * u (anc l J) b t')). apply eq_bigr => b _.
    rewrite Hu; [|exact: lt|exact: lt]. rewrite /delta row_eq // eqxx. cbn [andb]. case: (nat_of_ord a == nat_of_ord b); [by rewrite mulr1|by rewrite mulr0].
  - apply big1 => a _. apply big1 => b _. rewrite Hu; [|exact: lt|exact: lt]. by rewrite /delta row_eq // El mulr0.
Qed.
Lemma complete_new tasks : NoDup tasks -> (forall J, List.In J tasks <-> isec J /\ exists i, Nat.lt i d /\ (0 < size_p dp (anc i J))%Z) ->
  (forall J, List.In J tasks -> eig_ok J (E J) /\ r_count (E J) = n J) -> complete st u ->
  forall x y, \sum_(J <- tasks) \sum_(r < r_count (E J)) (new_state J r x)^* * new_state J r y = if x == y then 1 else 0.
Proof.
  move=> Hnd Hta HE Hc [t l] [t' l'].
  pose g A := \sum_(a < stored A) (u A a t)^* * u A a t'.
  transitivity (if l == l' then \sum_(J <- tasks) g (anc l J) else 0).
  { rewrite (sum_in _ _ (fun J => if l == l' then g (anc l J) else 0)).
    - case: (l == l') => //. by apply big1.
    - move=> J HJ. have [HJs _] := proj1 (Hta J) HJ. have [H1 H2] := HE J HJ. exact: sector_sum. }
  have -> : ((t, l) == (t', l')) = (t == t') && (l == l') by [].
  rewrite andbC. case El: (l == l') => //=. rewrite -Hc.
  case: (Hord) => Hn Hs _ _.
  have st_in : forall p, List.In p (ns_prev st) -> stored (fst p) = fst (snd p).
  { move=> [A [k e]] Hin. by rewrite /stored_states (lookup_In Hn Hin). }
  transitivity (\sum_(A <- List.map fst (ns_prev st)) g A).
  2:{ rewrite sum_mapped. apply sum_in => p Hp. by rewrite /g st_in. }
  rewrite -(sum_mapped tasks (anc l)).
  pose c A := Nat.ltb 0 (stored A).
  have z0 : forall A, c A = false -> g A = 0. { move=> A /Nat.ltb_ge HA. rewrite /g. have -> : stored A = 0%N by lia. by rewrite big_ord0. }
  rewrite -(sum_filter (List.map (anc l) tasks) c g z0) -(sum_filter (List.map fst (ns_prev st)) c g z0). apply sum_perm.
  have Hl := lt_site cs l.
  apply NoDup_Permutation; [apply List.NoDup_filter|by apply List.NoDup_filter|].
  - have : forall J, List.In J tasks -> isec J by move=> J HJ; by have [? _] := proj1 (Hta J) HJ.
    move: Hnd. clear Hta HE. elim: tasks => [|J ts IH] Hnd Hss; [constructor|]. inversion Hnd as [|? ? N1 N2]; subst. cbn [List.map]. constructor.
    + move=> Hin. apply List.in_map_iff in Hin. case: Hin => J' [EJ Hin]. apply N1. have <- : J' = J; [|done]. apply (anc_inj cs se m Hck l J' J Hl) => //; apply Hss; [by right|by left].
    + apply IH => // J' HJ'. apply Hss. by right.
  - move=> A. rewrite !List.filter_In. split; case=> Hin HcA.
    + split=> //. rewrite /c /stored_states in HcA. case Elk: (lookup (ns_prev st) A) HcA => [e|] //= _. apply lookup_Some in Elk. apply List.in_map_iff. by exists (A, e).
    + split=> //. apply List.in_map_iff in Hin. case: Hin => [[A' e] [EA Hin]]. simpl in EA. subst A'. case: e Hin => k e Hin. have [HA _] := Hs _ _ _ Hin.
      have HA' : isec A := HA. have EA := anc_child cs se m Hck l A Hl HA'. apply List.in_map_iff. exists (child cs l A). split=> //. apply Hta. split; [exact: (child_sec cs se m Hck)|].
      exists l. split=> //. rewrite EA size_stored. move/Nat.ltb_lt: HcA. lia.
Qed.
End Rot.
