(** The lines of make_matrix and the terms of the Hamiltonian have the same matrix elements. *)
From Coq Require Import List ZArith Lia String.
From Verif Require Import Base Invar_model Invar_spec Invar_proofs Symmetry_model Symmetry_spec Symmetry_tables Subspaces_model Density_model Recalc_model Hamilton_model Hamilton_pos Hamilton_spec Linalg_model Linalg_spec
  Coef_model Coef_tables Fullchain_terms Fullchain_check Fullchain_model Fullchain_spec Fullchain_facts Fullchain_struct Fullchain_sums Fullchain_elem Cring.
From mathcomp Require Import ssreflect ssrfun ssrbool eqtype ssrnat seq fintype bigop ssralg ssrnum.
Import GRing.Theory Num.Theory.
Local Open Scope ring_scope.

Local Opaque Fullchain_model.zC.
Lemma mapO_cons {A B} (f : A -> option B) x l ys : mapO f (x :: l) = Some ys -> exists y ys', f x = Some y /\ mapO f l = Some ys' /\ ys = y :: ys'.
Proof. rewrite /=. case: (f x) => [y|] //=. case: (mapO f l) => [ys'|] //= [<-]. by exists y, ys'. Qed.
Lemma in_index n i : in_range n i = true -> exists k : 'I_n, i = Z.of_nat (S k).
Proof.
  move=> /andP [H1 H2]. apply Z.leb_le in H1. apply Z.leb_le in H2. have Hk : (Z.to_nat (i - 1) < n)%N by apply/ltP; lia. exists (Ordinal Hk) => /=. lia.
Qed.

Section Match.
Variables (C : numClosedFieldType) (cs : coef_set) (se : setting) (m : mode).
Hypothesis Hck : check cs se m = true.
Add Ring Cr : (field_ring C).
Notation zC := (zC C).
Let d := List.length (tb_In (cs_tab cs)).
Notation site := 'I_(local_states cs).
Notation lab l := (Z.of_nat (S (nat_of_ord l))).
Notation isec := (isec cs).
Notation anc := (anc cs).

(** ** The operators of the new site *)
Lemma lt_site (l : site) : Nat.lt l d. Proof. apply/ltP. exact: ltn_ord. Qed.
Lemma createE t (l l' : site) : create C t l l' = zC (el (rows_of t) (lab l) (lab l')).
Proof.
  rewrite /create /rows_of. elim: (it_rows t) => [|[[i j] e] r IH]; [by rewrite big_nil /= zC0|].
  rewrite big_cons IH. cbn [List.map el fold_right]. rewrite zCD. congr (_ + _). rewrite /numbered. case: (Z.eqb i _ && Z.eqb j _); [|by rewrite zC0].
  case: e => [c|]; [|by rewrite zC0]. case: c => *; rewrite ?zC0 ?int_ofE //.
Qed.
Lemma rows_range t : List.In t (cs_irr cs) -> forall x y z, List.In (x, y, z) (rows_of t) -> in_range d y = true /\ in_range d x = true.
Proof.
  move=> Ht x y z Hin. apply List.in_map_iff in Hin. case: Hin => [[[i j] e] [E Hin]]. injection E => E1 E2 E3. subst.
  have [_ Hm] := table_rows cs se m Hck t x y e Ht Hin. move: Hm. by rewrite /moves -/d => /andP [/andP [-> ->]].
Qed.
Lemma create_prod t t' (l l' : site) : List.In t (cs_irr cs) -> mulo (create C t) (create C t') l l' = zC (el (mul (rows_of t) (rows_of t')) (lab l) (lab l')).
Proof.
  move=> Ht. rewrite (el_mul C d); [|by move=> x y z Hin; case: (rows_range t Ht x y z Hin)]. apply eq_bigr => k _. by rewrite !createE.
Qed.
Lemma create_prod_adj t t' (l l' : site) : List.In t (cs_irr cs) -> mulo (create C t) (adj (create C t')) l l' = zC (el (mul (rows_of t) (tr (rows_of t'))) (lab l) (lab l')).
Proof.
  move=> Ht. rewrite (el_mul C d); [|by move=> x y z Hin; case: (rows_range t Ht x y z Hin)]. apply eq_bigr => k _. by rewrite /adj !createE el_tr zC_conj.
Qed.
Lemma occupationE t (l l' : site) : List.In t (cs_irr cs) -> occupation C t l l' = zC (el (occ t) (lab l) (lab l')).
Proof. move=> Ht. exact: create_prod_adj. Qed.
Lemma signE (l : site) : sign C l = zC (sg (signs cs) (lab l)).
Proof.
  rewrite /sg /signs /labels. cbv zeta. have -> : Z.to_nat (lab l - 1) = nat_of_ord l by lia.
  have -> : List.nth (nat_of_ord l) (List.map (sgn_of (List.map occ (cs_irr cs))) (List.map (fun k => Z.of_nat (S k)) (List.seq 0 (List.length (tb_In (cs_tab cs)))))) 0%Z = sgn_of (List.map occ (cs_irr cs)) (lab l).
  { apply List.nth_error_nth. rewrite List.map_map List.nth_error_map (List.nth_error_nth' _ 0%N); [|rewrite List.seq_length; exact: lt_site].
    rewrite List.seq_nth; [done|exact: lt_site]. }
  rewrite /sign /sgn_of.
  have G : forall ts, (forall t, List.In t ts -> List.In t (cs_irr cs)) -> \prod_(t <- ts) (1 - 2%:R * occupation C t l l) = zC (fold_right (fun o s => ((1 - 2 * el o (lab l) (lab l)) * s)%Z) 1%Z (List.map occ ts)).
  { elim=> [|t ts IH] H; [by rewrite big_nil /= zC1|]. rewrite big_cons IH; [|by move=> t' Ht'; apply H; right]. cbn [List.map fold_right].
    rewrite zCM. congr (_ * _). rewrite occupationE; [|by apply H; left]. rewrite /Z.sub zCD zC1 zCN zCM zC2. done. }
  exact: G.
Qed.

(** ** Hopping *)
Variables (K : chain_coef C) (N : nat) (st : nstate C).
Definition opel (ch fnr : Z) (J J' : invar) (a b : nat) : C :=
  match List.nth_error (ns_opch st) (Z.to_nat ch) with
  | Some fs => match List.nth_error fs (Z.to_nat fnr) with
               | Some t => match map_find2 t J J' with Some x => f_el x a b | None => 0 end
               | None => 0 end
  | None => 0 end.
Definition voff (J : invar) (l : site) (a : nat) (l' : site) (b : nat) (k : wkey) : C :=
  match k with (i, j, s, ch, fnr) => if names i l && names j l' then cval K N s * opel ch fnr (anc l J) (anc l' J) a b else 0 end.

Variables (T : finType) (F : irr_table -> oper C T) (u : invar -> nat -> T -> C).
Hypothesis Hop : forall t J r J' r', List.In t (cs_irr cs) -> Nat.lt r (stored_states st J) -> Nat.lt r' (stored_states st J') ->
      elem (u J r) (F t) (u J' r') =
        if leads t J' J then match op_matrix st t J J' with Some m => f_el m r r' | None => 0 end else 0.
Lemma op_opel t J J' a b : match op_matrix st t J J' with Some m => f_el m a b | None => 0 end = opel (it_ch t) (it_fnr t) J J' a b.
Proof. rewrite /op_matrix /opel. case: (List.nth_error _ _) => [fs|] //. by case: (List.nth_error _ _). Qed.

Lemma op_sector t (l l' : site) J J' a b : List.In t (cs_irr cs) -> isec J -> isec J' -> Nat.lt a (stored_states st (anc l J)) -> Nat.lt b (stored_states st (anc l' J')) ->
  moves cs t (lab l) (lab l') = true ->
  elem (u (anc l J) a) (F t) (u (anc l' J') b) = if invar_eqb J J' then opel (it_ch t) (it_fnr t) (anc l J) (anc l' J') a b else 0.
Proof.
  move=> Ht HJ HJ' Ha Hb Hm. rewrite Hop // op_opel. have [x [y [Ex [Ey [Hx [Hy E]]]]]] := moves_spec cs t _ _ Hm.
  have Exl : x = l by lia. have Eyl : y = l' by lia. subst x y.
  have L := moves_anc cs se m Hck t l l' J' Ht Hx Hy E HJ'. rewrite /leads L.
  have -> : invar_eqb (anc l J') (anc l J) = invar_eqb J J'; [|done].
  apply/idP/idP => H; apply invar_eqb_eq in H; apply invar_eqb_eq.
  - symmetry. exact: (anc_inj cs se m Hck l J' J Hx HJ' HJ H).
  - by rewrite H.
Qed.

Section Pair.
Variables (J J' : invar) (l : site) (a : nat) (l' : site) (b : nat).
Hypotheses (HJ : isec J) (HJ' : isec J') (Ha : Nat.lt a (stored_states st (anc l J))) (Hb : Nat.lt b (stored_states st (anc l' J'))).
Notation Xe t := (elem (u (anc l J) a) (F t) (u (anc l' J') b)).
Notation ss := (signs cs).

Definition hop_part : C :=
  \sum_(e <- hops cs se) match e with (s, t, t') => cval K N s * (sign C l * (create C t' l' l)^* * Xe t) end +
  \sum_(e <- pair_hops cs) match e with (z, s, t, t') => int_of C z * cval K N s * (sign C l * create C t' l l' * Xe t) end.

Lemma one_hop s t R : List.In t (cs_irr cs) -> (forall i1 ip z, List.In (i1, ip, z) R -> moves cs t ip i1 = true) ->
  zC 4 * (cval K N s * (zC (sg ss (lab l)) * zC (el R (lab l') (lab l)) * Xe t)) =
  if invar_eqb J J' then wsum C (voff J l a l' b) (List.map (fun r => match r with (i1, ip, z) => ((ip, i1, s, it_ch t, it_fnr t), 4 * (sg ss ip * z))%Z end) R) else 0.
Proof.
  move=> Ht. elim: R => [|[[i1 ip] z] R IH] H.
  - rewrite /= zC0 mulr0 mul0r !mulr0. by case: (invar_eqb J J'); rewrite ?wsum_nil.
  - have IH' := IH (fun i j z Hi => H i j z (or_intror Hi)). have Hm := H i1 ip z (or_introl erefl). clear IH H.
    cbn [List.map el fold_right]. fold (el R (lab l') (lab l)). rewrite zCD wsum_cons.
    have -> : zC 4 * (cval K N s * (zC (sg ss (lab l)) * (zC (if Z.eqb i1 (lab l') && Z.eqb ip (lab l) then z else 0%Z) + zC (el R (lab l') (lab l))) * Xe t)) =
       zC 4 * (cval K N s * (zC (sg ss (lab l)) * zC (if Z.eqb i1 (lab l') && Z.eqb ip (lab l) then z else 0%Z) * Xe t)) + zC 4 * (cval K N s * (zC (sg ss (lab l)) * zC (el R (lab l') (lab l)) * Xe t)).
    { rewrite -mulrDr -mulrDr. congr (_ * (_ * _)). rewrite -mulrDl. congr (_ * _). by rewrite -mulrDr. }
    rewrite IH'. case E: (Z.eqb i1 (lab l') && Z.eqb ip (lab l)).
    + move: E => /andP [E1 E2]. apply Z.eqb_eq in E1. apply Z.eqb_eq in E2. subst i1 ip. rewrite (op_sector t l l' J J' a b) //.
      case EJ: (invar_eqb J J'); [|by rewrite !mulr0 addr0]. congr (_ + _). have EJ' := proj1 (invar_eqb_eq _ _) EJ. rewrite -EJ'. cbn [fst snd voff]. rewrite /names !Z.eqb_refl [true && true]/= !zCM.
      cnorm C. ring.
    + rewrite zC0 mulr0 mul0r !mulr0 add0r. case: (invar_eqb J J') => //. rewrite /voff /names /=. by rewrite [X in if X then _ else _]andbC E mul0r add0r.
Qed.
Lemma one_pair w s t R : List.In t (cs_irr cs) -> (forall i1 ip z, List.In (i1, ip, z) R -> moves cs t i1 ip = true) ->
  zC 4 * (zC w * cval K N s * (zC (sg ss (lab l)) * zC (el R (lab l) (lab l')) * Xe t)) =
  if invar_eqb J J' then wsum C (voff J l a l' b) (List.map (fun r => match r with (i1, ip, z) => ((i1, ip, s, it_ch t, it_fnr t), 4 * (w * (sg ss i1 * z)))%Z end) R) else 0.
Proof.
  move=> Ht. elim: R => [|[[i1 ip] z] R IH] H.
  - rewrite /= zC0 mulr0 mul0r !mulr0. by case: (invar_eqb J J'); rewrite ?wsum_nil.
  - have IH' := IH (fun i j z Hi => H i j z (or_intror Hi)). have Hm := H i1 ip z (or_introl erefl). clear IH H.
    cbn [List.map el fold_right]. fold (el R (lab l) (lab l')). rewrite zCD wsum_cons.
    have -> : zC 4 * (zC w * cval K N s * (zC (sg ss (lab l)) * (zC (if Z.eqb i1 (lab l) && Z.eqb ip (lab l') then z else 0%Z) + zC (el R (lab l) (lab l'))) * Xe t)) =
       zC 4 * (zC w * cval K N s * (zC (sg ss (lab l)) * zC (if Z.eqb i1 (lab l) && Z.eqb ip (lab l') then z else 0%Z) * Xe t)) + zC 4 * (zC w * cval K N s * (zC (sg ss (lab l)) * zC (el R (lab l) (lab l')) * Xe t)).
    { rewrite -mulrDr -mulrDr. congr (_ * (_ * _)). rewrite -mulrDl. congr (_ * _). by rewrite -mulrDr. }
    rewrite IH'. case E: (Z.eqb i1 (lab l) && Z.eqb ip (lab l')).
    + move: E => /andP [E1 E2]. apply Z.eqb_eq in E1. apply Z.eqb_eq in E2. subst i1 ip. rewrite (op_sector t l l' J J' a b) //.
      case EJ: (invar_eqb J J'); [|by rewrite !mulr0 addr0]. congr (_ + _). have EJ' := proj1 (invar_eqb_eq _ _) EJ. rewrite -EJ'. cbn [fst snd voff]. rewrite /names !Z.eqb_refl [true && true]/= !zCM.
      cnorm C. ring.
    + rewrite zC0 mulr0 mul0r !mulr0 add0r. case: (invar_eqb J J') => //. rewrite /voff /names /=. by rewrite E mul0r add0r.
Qed.
Lemma wsum_flat {E} v (l0 : list E) (f : E -> wlist) : wsum C v (List.flat_map f l0) = \sum_(e <- l0) wsum C v (f e).
Proof. elim: l0 => [|e l0 IH]; [by rewrite big_nil /= wsum_nil|]. rewrite big_cons -IH /=. exact: wsum_cat. Qed.
Lemma sum_ext_in {E} (l0 : list E) (f g : E -> C) : (forall e, List.In e l0 -> f e = g e) -> \sum_(e <- l0) f e = \sum_(e <- l0) g e.
Proof. elim: l0 => [|e l0 IH] H; [by rewrite !big_nil|]. rewrite !big_cons H; [|by left]. congr (_ + _). apply IH => x Hx. apply H. by right. Qed.
Lemma sum_if {E} (l0 : list E) (f : E -> C) (c : bool) : \sum_(e <- l0) (if c then f e else 0) = if c then \sum_(e <- l0) f e else 0.
Proof. case: c => //. by apply big1. Qed.

Lemma hop_partE : zC 4 * hop_part = if invar_eqb J J' then wsum C (voff J l a l' b) (spec_off cs se ss) else 0.
Proof.
  rewrite /hop_part mulrDr /spec_off wsum_cat !mulr_sumr !wsum_flat.
  rewrite [X in X + _ = _](@sum_ext_in _ _ _ (fun h => if invar_eqb J J' then wsum C (voff J l a l' b) (match h with (s, t, t') =>
      List.map (fun r => match r with (i1, ip, z) => ((ip, i1, s, it_ch t, it_fnr t), 4 * (sg ss ip * z))%Z end) (rows_of t') end) else 0)).
  2:{ move=> [[s t] t'] Hin. have [Ht Ht'] := hops_in cs se m Hck s t t' Hin. rewrite signE createE zC_conj. apply one_hop => // i1 ip z Hr. exact: (hop_rows cs se m Hck s t t' i1 ip z Hin Hr). }
  rewrite [X in _ + X = _](@sum_ext_in _ _ _ (fun h => if invar_eqb J J' then wsum C (voff J l a l' b) (match h with (w, s, t, t') =>
      List.map (fun r => match r with (i1, ip, z) => ((i1, ip, s, it_ch t, it_fnr t), 4 * (w * (sg ss i1 * z)))%Z end) (rows_of t') end) else 0)).
  2:{ move=> [[[w s] t] t'] Hin. have [Ht Ht'] := pair_hops_in cs w s t t' Hin. rewrite signE createE int_ofE. apply one_pair => // i1 ip z Hr. exact: (pair_hop_rows cs se m Hck w s t t' i1 ip z Hin Hr). }
  rewrite !sum_if. case: (invar_eqb J J') => //. by rewrite addr0.
Qed.
End Pair.

(** ** The new site's own terms *)
Definition vloc (l l' : site) (k : wkey) : C :=
  match k with (i, j, s, c, _) => if names i l && names j l' then (if Z.eqb c 0 then cval K N s else (cval K N s)^*) else 0 end.
Lemma wsum_entries (l l' : site) s R : wsum C (vloc l l') (List.map (fun r => match r with (i, j, z) => ((i, j, s, 0, 0), 4 * z)%Z end) R) = zC 4 * (cval K N s * zC (el R (lab l) (lab l'))).
Proof.
  elim: R => [|[[i j] z] R IH]; [by rewrite wsum_nil /= zC0 !mulr0|]. cbn [List.map el fold_right]. fold (el R (lab l) (lab l')). rewrite wsum_cons IH zCD. cbn [fst snd vloc]. rewrite /names.
  case: (Z.eqb i _ && Z.eqb j _); rewrite ?zCM ?zC0 ?Z.eqb_refl; rewrite -[LHS]mul1r -[RHS]mul1r; cnorm C; ring.
Qed.
Lemma conj_scale (x : C) z : (x * zC z)^* = x^* * zC z.
Proof. by rewrite rmorphM /= zC_conj. Qed.
Lemma wsum_hc (l l' : site) s R : wsum C (vloc l l') (hc_entries s R) = zC 4 * (cval K N s * zC (el R (lab l) (lab l')) + (cval K N s * zC (el R (lab l') (lab l)))^*).
Proof.
  rewrite /hc_entries. elim: R => [|[[i j] z] R IH]; [by rewrite wsum_nil /= zC0 !mulr0 rmorph0 addr0 mulr0|].
  cbn [List.flat_map el fold_right List.app]. fold (el R (lab l) (lab l')). fold (el R (lab l') (lab l)). rewrite !wsum_cons IH !conj_scale !zCD. cbn [fst snd vloc]. rewrite /names.
  rewrite [X in _ + ((if X then _ else _) * _ + _)]andbC.
  case: (Z.eqb i (lab l) && Z.eqb j (lab l')); case: (Z.eqb i (lab l') && Z.eqb j (lab l)); rewrite ?zC0 ?zCM ?zC_conj ?Z.eqb_refl ?(erefl : Z.eqb 1 0 = false); rewrite -[LHS]mul1r -[RHS]mul1r; cnorm C; ring.
Qed.
Lemma wsum_const (l l' : site) s w : wsum C (vloc l l') (List.map (fun i => ((i, i, s, 0, 0), -2 * w)%Z) (labels d)) = cval K N s * zC (-2 * w) * (if l == l' then 1 else 0).
Proof.
  have G : forall ls, NoDup ls -> wsum C (vloc l l') (List.map (fun i => ((i, i, s, 0, 0), -2 * w)%Z) ls) = if List.existsb (fun i => Z.eqb i (lab l) && Z.eqb i (lab l')) ls then cval K N s * zC (-2 * w) else 0.
  { elim=> [|i ls IH] Hn; [by rewrite wsum_nil|]. inversion Hn as [|? ? H1 H2]; subst. cbn [List.map List.existsb]. rewrite wsum_cons IH // [(i, i, s, 0%Z, 0%Z, _).1]/= [(i, i, s, 0%Z, 0%Z, _).2]/= /vloc /names.
    case E: (Z.eqb i (lab l) && Z.eqb i (lab l')); [|by rewrite mul0r add0r]. rewrite Z.eqb_refl.
    have -> : List.existsb (fun i0 => Z.eqb i0 (lab l) && Z.eqb i0 (lab l')) ls = false; [|by rewrite addr0].
    move: E => /andP [E _]. apply Z.eqb_eq in E. subst i. case E: (List.existsb _ ls) => //. exfalso. apply H1. apply List.existsb_exists in E. case: E => x [Hx /andP [E _]]. apply Z.eqb_eq in E. by subst x. }
  rewrite G; [|exact: labels_nodup]. case E: (l == l').
  - move/eqP: E => <-. have -> : List.existsb (fun i => Z.eqb i (lab l) && Z.eqb i (lab l)) (labels d) = true; [|by rewrite mulr1].
    apply List.existsb_exists. exists (lab l). rewrite Z.eqb_refl. split=> //. apply in_labels. apply/andP; split; apply Z.leb_le; have := lt_site l; lia.
  - rewrite mulr0. case E2: (List.existsb _ _) => //. exfalso. apply List.existsb_exists in E2. case: E2 => x [_ /andP [E3 E4]]. apply Z.eqb_eq in E3. apply Z.eqb_eq in E4.
    move/eqP: E => E. apply E. apply: val_inj => /=. lia.
Qed.
Lemma half_two (a b c w e : C) : a * a * c * (b * - w * e) = a * b * (c * (- a * w) * e).
Proof. cnorm C. ring. Qed.
Lemma site_partE (l l' : site) : zC 4 * @site_part C cs se K N l l' = wsum C (vloc l l') (spec_loc cs se).
Proof.
  rewrite /site_part /addo /sum_of /spec_loc !wsum_cat !mulrDr !mulr_sumr !wsum_flat. congr (_ + (_ + _)); apply sum_ext_in.
  - move=> [[w s] t] Hin. have Ht := levels_in cs se w s t Hin. rewrite wsum_cat wsum_entries wsum_const /scale_by /unit_op occupationE // int_ofE mulrDr mulrDr. congr (_ + _).
    rewrite zC4 !zCM (_ : -2 = - (2))%Z // zCN zC2. rewrite mulrA [_ / _]mulrC. rewrite -!mulrN. 
    have H2 : (2%:R : C) != 0 by rewrite pnatr_eq0.
    transitivity (2%:R * 2%:R^-1 * (cval K N s * (- 2%:R * zC w) * (if l == l' then 1 else 0))); [exact: half_two|by rewrite mulfV // mul1r].
  - move=> [[s t] t'] Hin. have [Ht Ht'] := mixings_in cs se m Hck s t t' Hin. by rewrite wsum_hc /plus_hc /addo /adj /scale_by !create_prod_adj.
  - move=> [[s t] t'] Hin. have [Ht Ht'] := pairings_in cs s t t' Hin. rewrite wsum_hc /plus_hc /addo /scale_by /adj !create_prod // !el_tr !zC_conj. done.
Qed.
(** It only connects local states with the same ancestors. *)
Lemma site_part_zero (l l' : site) : Ind cs l <> Ind cs l' -> @site_part C cs se K N l l' = 0.
Proof.
  move=> Hne. apply: (mulfI (four_ne0 C)). rewrite site_partE mulr0.
  have H := loc_keys cs se m Hck. move: H. elim: (spec_loc cs se) => [|[[[[[i j] s] c] f] w] L IH] H; [by rewrite wsum_nil|].
  rewrite wsum_cons IH; [|by move=> *; eapply H; right; eauto]. rewrite addr0 /= /names. case E: (Z.eqb i (lab l) && Z.eqb j (lab l')); [|by rewrite mul0r].
  exfalso. move: E => /andP [E1 E2]. apply Z.eqb_eq in E1. apply Z.eqb_eq in E2. subst i j. have [_ E] := H _ _ _ _ _ _ (or_introl erefl). apply Hne. move: E. rewrite /In_of /Ind.
  have -> : Z.to_nat (lab l - 1) = l by lia. have -> : Z.to_nat (lab l' - 1) = l' by lia. done.
Qed.
End Match.
