(** One step: the matrix that is diagonalised holds the matrix elements of the longer chain's Hamiltonian. *)
From Coq Require Import List ZArith Lia String.
From Verif Require Import Base Invar_model Invar_spec Invar_proofs Symmetry_model Symmetry_spec Symmetry_tables Subspaces_model Subspaces_proofs Subspaces_step Density_model Density_sums Density_struct Recalc_model
  Hamilton_model Hamilton_pos Hamilton_spec Hamilton_step Linalg_model Linalg_spec
  Coef_model Coef_tables Fullchain_terms Fullchain_check Fullchain_model Fullchain_spec Fullchain_facts Fullchain_struct Fullchain_sums Fullchain_elem Fullchain_match Fullchain_prog Cring.
From mathcomp Require Import ssreflect ssrfun ssrbool eqtype ssrnat seq fintype bigop ssralg ssrnum.
Import GRing.Theory Num.Theory.
Local Open Scope ring_scope.

Local Opaque Fullchain_model.zC.

Lemma mapO_In {A B} (f : A -> option B) l ys : mapO f l = Some ys -> forall y, List.In y ys -> exists x, List.In x l /\ f x = Some y.
Proof.
  elim: l ys => [|x l IH] ys; [move=> [<-] y []|]. move=> H; apply mapO_cons in H; case: H => [y [ys' [E1 [E2 ->]]]] z /= [<-|Hz].
  - exists x. split=> //. by left.
  - have [x' [H1 H2]] := IH _ E2 z Hz. exists x'. split=> //. by right.
Qed.

Lemma invar_eqb_sym a b : invar_eqb a b = invar_eqb b a.
Proof. apply/idP/idP => E; apply (proj1 (invar_eqb_eq _ _)) in E; subst; apply invar_eqb_refl. Qed.
Lemma real_sum {C : numClosedFieldType} {E} (l : list E) (f : E -> C) : (forall e, List.In e l -> f e \is Num.real) -> \sum_(e <- l) f e \is Num.real.
Proof. elim: l => [|e l IH] Hf; [rewrite big_nil; exact: real0|]. rewrite big_cons. apply: rpredD; [apply Hf; by left|]. apply IH => x Hx. apply Hf. by right. Qed.

Section Ham.
Variables (C : numClosedFieldType) (cs : coef_set) (se : setting) (m : mode) (sh : shipped_table).
Hypotheses (Hck : check cs se m = true) (Hsh : List.In sh shipped) (Hma : matches cs sh).
Add Ring Cr : (field_ring C).
Notation zC := (zC C).
Notation d := (List.length (tb_In (cs_tab cs))).
Notation site := 'I_(local_states cs).
Notation lab l := (Z.of_nat (S (nat_of_ord l))).
Notation anc := (anc cs).
Notation isec := (isec cs).
Variables (K : chain_coef C) (N : nat) (st : nstate C) (sc0 sc stp : C) (T : finType) (H : oper C T) (F : irr_table -> oper C T) (u : invar -> nat -> T -> C).
Hypotheses (Hord : in_order cs st) (Hrep : represents cs H F sc0 st u) (Hstp : sc * stp = sc0) (Hpos : 0 < sc) (Hpos0 : 0 < sc0).
Hypothesis Hlev : forall z s t, List.In (z, s, t) (levels cs se) -> cval K N s \is Num.real.
Notation dp := (List.map (fun p => (fst p, Z.of_nat (fst (snd p)))) (ns_prev st)).
Hypothesis Hsmall : forall J n, List.In (J, n) dp -> (0 <= n <= 1000000)%Z.
Notation D J := (dimlist cs dp J).
Notation stored := (stored_states st).
Notation energy := (energy st).

Lemma sc_real : sc^* = sc. Proof. apply/CrealP. exact: gtr0_real. Qed.
Lemma sc_ne0 : sc != 0. Proof. exact: lt0r_neq0. Qed.
Lemma dp_nodup : NoDup (List.map fst dp). Proof. rewrite List.map_map. by case: Hord. Qed.
Lemma dp_sec J n : List.In (J, n) dp -> isec J /\ (0 <= n)%Z.
Proof.
  move=> Hin. apply List.in_map_iff in Hin. case: Hin => [[J' [k e]] [E Hin]]. injection E => E1 E2. simpl in *. subst J' n. case: Hord => _ HS _ _. have [HJ _] := HS _ _ _ Hin. split; [exact: HJ|lia].
Qed.
Lemma size_stored A : size_p dp A = Z.of_nat (stored A).
Proof.
  rewrite /size_p find_dp /stored_states /lookup. by case: (List.find _ _) => [[J [n e]]|].
Qed.
Lemma bsize_D J (l : site) : bsize (D J) l = stored (anc l J).
Proof. rewrite /bsize nth_dimlist; [|exact: lt_site]. rewrite size_stored. lia. Qed.
Lemma D_length J : List.length (D J) = d. Proof. exact: dimlist_length. Qed.

(** ** Elements of the longer chain's Hamiltonian between products *)
Notation hp := (hop_part C cs se K N T F u).
Lemma elem_next J J' (l : site) a (l' : site) b : isec J -> isec J' -> Nat.lt a (stored (anc l J)) -> Nat.lt b (stored (anc l' J')) ->
  elem (pb C cs T l (u (anc l J) a)) (next_H se K N H F) (pb C cs T l' (u (anc l' J') b)) =
  if invar_eqb J J' then
    (if (l == l') && Nat.eqb a b then sc0 * energy (anc l J) a + ns_total st else 0) + (hp J J' l a l' b + (hp J' J l' b l a)^* + (if Nat.eqb a b then @site_part C cs se K N l l' else 0))
  else 0.
Proof.
  move=> HJ HJ' Ha Hb.
  have Hl := lt_site cs l. have Hl' := lt_site cs l'.
  rewrite /next_H 3!elem_add elem_even elem_site 2!elem_sum inner_elem -inner_elem (rp_orth Hrep) //.
  have Esum : \sum_(e <- hops cs se) elem (pb C cs T l (u (anc l J) a)) (match e with (s, t, t') => plus_hc (scale_by (cval K N s) (mulo (old_odd (F t)) (adj (on_site (create C t'))))) end) (pb C cs T l' (u (anc l' J') b)) +
    (\sum_(e <- pair_hops cs) elem (pb C cs T l (u (anc l J) a)) (match e with (z, s, t, t') => plus_hc (scale_by (int_of C z * cval K N s) (mulo (old_odd (F t)) (on_site (create C t')))) end) (pb C cs T l' (u (anc l' J') b))) =
    hp J J' l a l' b + (hp J' J l' b l a)^*.
  { rewrite /hop_part rmorphD !rmorph_sum addrACA -!big_split /=. congr (_ + _); apply eq_bigr.
    - move=> [[s t] t'] _ /=. by rewrite elem_hc !elem_scale !elem_odd_adj.
    - move=> [[[z s] t] t'] _ /=. by rewrite elem_hc !elem_scale !elem_odd_site. }
  rewrite [X in _ + X = _]addrA Esum.
  case EJ: (invar_eqb J J').
  - have EJ' := proj1 (invar_eqb_eq _ _) EJ. subst J'. congr (_ + (_ + _)).
    + case El: (l == l') => //. move/eqP: El => El. subst l'. rewrite (rp_energy Hrep) // /same invar_eqb_refl. done.
    + rewrite /same. case Eab: (Nat.eqb a b); [|by rewrite andbF mulr0]. rewrite andbT. case E: (invar_eqb (anc l J) (anc l' J)); [by rewrite mulr1|]. rewrite mulr0.
      symmetry. apply (site_part_zero C cs se m Hck) => EI. have E' : anc l J = anc l' J by rewrite /Fullchain_facts.anc EI. rewrite E' invar_eqb_refl in E. done.
  - have HneJ : J <> J' by move=> E; subst; rewrite invar_eqb_refl in EJ.
    have Hop := rp_op Hrep.
    have h1 := hop_partE C cs se m Hck K N st T F u Hop J J' l a l' b HJ HJ' Ha Hb. rewrite EJ in h1.
    have h2 := hop_partE C cs se m Hck K N st T F u Hop J' J l' b l a HJ' HJ Hb Ha. rewrite invar_eqb_sym EJ in h2.
    have -> : hp J J' l a l' b = 0 by apply: (mulfI (four_ne0 C)); rewrite h1 mulr0.
    have -> : hp J' J l' b l a = 0 by apply: (mulfI (four_ne0 C)); rewrite h2 mulr0.
    rewrite rmorph0 !add0r.
    have -> : (if l == l' then elem (u (anc l J) a) H (u (anc l' J') b) else 0) = 0.
    { case El: (l == l') => //. move/eqP: El => El. subst l'. rewrite (rp_energy Hrep) // /same. case E: (invar_eqb _ _) => //. exfalso. apply HneJ. apply invar_eqb_eq in E. exact: (anc_inj cs se m Hck l J J'). }
    rewrite add0r /same. case E: (invar_eqb (anc l J) (anc l' J')); [|by rewrite mulr0]. apply invar_eqb_eq in E.
    rewrite (site_part_zero C cs se m Hck); [by rewrite mul0r|]. move=> EI. apply HneJ. apply: (anc_inj cs se m Hck l J J') => //. by rewrite E /Fullchain_facts.anc EI.
Qed.

(** ** The matrix *)
Lemma spectra_ok : spectra C (ns_prev st).
Proof.
  case: Hord => H1 H2 _ _. split=> // A n e Hin. split; [by have [_ ?] := H2 _ _ _ Hin|].
  have := Hsmall A (Z.of_nat n). move=> X. apply X. apply List.in_map_iff. by exists (A, (n, e)).
Qed.
Lemma prev_mult A x : List.In (A, x) (ns_prev st) -> multiplet (sh_sym sh) A.
Proof. move=> Hin. rewrite (m_sym cs sh Hma). apply (isec_multiplet cs se m Hck). case: x Hin => n e Hin. case: Hord => _ H2 _ _. by have [? _] := H2 _ _ _ Hin. Qed.

Definition matrix_ok (J : invar) (h : fmat C) : Prop :=
  f_rows h = Z.to_nat (zsum (D J)) /\ f_cols h = f_rows h /\ 
  (forall p q, Nat.lt p (f_rows h) -> Nat.lt q (f_rows h) -> (hermitian (f_el h) q p)^* = hermitian (f_el h) p q) /\
  (forall J' (l : site) a (l' : site) b, isec J' -> Nat.lt a (stored (anc l J)) -> Nat.lt b (stored (anc l' J')) ->
    elem (pb C cs T l (u (anc l J) a)) (next_H se K N H F) (pb C cs T l' (u (anc l' J') b)) =
    if invar_eqb J J' then sc * hermitian (f_el h) (row (D J) l a) (row (D J) l' b) + (if Nat.eqb (row (D J) l a) (row (D J) l' b) then ns_total st else 0) else 0).

Lemma site_real (l : site) : @site_part C cs se K N l l \is Num.real.
Proof.
  have hc : forall x : C, x + x^* \is Num.real by move=> x; apply/CrealP; rewrite rmorphD conjCK addrC.
  rewrite /site_part /addo /sum_of. rewrite rpredD //; [|rewrite rpredD //].
  - apply real_sum => [[[z s] t]] Hin.
    rewrite /scale_by /unit_op eqxx mulr1. rewrite rpredM //; [exact: (Hlev z s t)|]. rewrite rpredD // ?rpredN.
    + rewrite (occupationE C cs se m Hck); [exact: zC_real|exact: levels_in Hin].
    + rewrite rpredM // ?int_ofE ?zC_real // rpredV realn. done.
  - apply real_sum => [[[s t] t']] _. exact: hc.
  - apply real_sum => [[[s t] t']] _. exact: hc.
Qed.

Lemma calls_acceptable calls J : isec J -> calls_of K (cs_channels cs) N m = Some calls -> forall c, List.In c calls -> acceptable C (D J) (anclist cs J) (ns_opch st) c.
Proof.
  move=> HJ. rewrite /calls_of. case E1: (mapO _ (mo_off m)) => [ca|] //. case E2: (mapO _ (mo_diag m)) => [cb|] //. case E3: (mapO _ (mo_dof m)) => [cc|] // [<-] c.
  have bn : forall i, in_range d i = true -> block_number (D J) i.
  { move=> i /andP [h1 h2]. apply Z.leb_le in h1. apply Z.leb_le in h2. rewrite /block_number D_length. lia. }
  have idx : forall i (x : nat), i = Z.of_nat (S x) -> Z.to_nat (i - 1) = x by move=> i x ->; lia.
  have bs : forall x, Nat.lt x d -> bsize (D J) x = stored (anc x J).
  { move=> x Hx. have Hx' : (x < local_states cs)%N by apply/ltP. exact: (bsize_D J (Ordinal Hx')). }
  move=> Hc. apply List.in_app_or in Hc. case: Hc => [Hc|Hc]; [|apply List.in_app_or in Hc; case: Hc => Hc].
  - have [[[[[[i j] ch] fnr] n] e] [Hin E]] := mapO_In _ _ _ E1 c Hc. have [Hne [t [Ht [Ec [Ef Hm]]]]] := off_lines cs se m Hck i j ch fnr n e Hin.
    move: E. rewrite /off_call. case: (both _ _) => [x|] // [<-]. rewrite /acceptable.
    have [x0 [y0 [Ex [Ey [Hx [Hy EI]]]]]] := moves_spec cs t i j Hm. have Hm' := Hm. move: Hm' => /andP [/andP [R1 R2] _].
    split; [exact: bn|]. split; [exact: bn|]. split=> //. rewrite /nonempty (idx _ _ Ex) (idx _ _ Ey) !bs // => P1 P2. split; [by exists x|].
    case: Hord => _ _ _ Hop. have L := moves_anc cs se m Hck t x0 y0 J Ht Hx Hy EI HJ.
    have [mm [Em [Er Ecl]]] := Hop t (anc x0 J) (anc y0 J) Ht ltac:(by rewrite /leads L invar_eqb_refl) P1 P2.
    exists mm. rewrite -Em /op_block /op_matrix Ec Ef (idx _ _ Ex) (idx _ _ Ey) !nth_anclist //.
  - have [[[[i ch] n] e] [Hin E]] := mapO_In _ _ _ E2 c Hc. have R := diag_lines cs se m Hck i ch n e Hin.
    move: E. rewrite /diag_call. case: (const_val _ _) => [x|] //. case: (coef_at _ _ _ _ _) => [y|] // [<-]. exact: bn.
  - have [[[[[i j] ch] n] e] [Hin E]] := mapO_In _ _ _ E3 c Hc. have [R1 [R2 EI]] := dof_lines cs se m Hck i j ch n e Hin.
    move: E. rewrite /dof_call. case: (both _ _) => [x|] // [<-]. split; [exact: bn|]. split; [exact: bn|]. move=> _ _ _.
    have [x0 Ex] := in_index _ _ R1. have [y0 Ey] := in_index _ _ R2. rewrite (idx _ _ Ex) (idx _ _ Ey) !bs; try exact: lt_site.
    rewrite /Fullchain_facts.anc. move: EI. rewrite /In_of /Ind (idx _ _ Ex) (idx _ _ Ey) => ->. done.
Qed.

Lemma matrices : exists calls, calls_of K (cs_channels cs) N m = Some calls /\
  forall J, isec J -> exists h, hamiltonian (cs_sym cs) d (cs_tab cs) sc stp (multiplicity cs) (ns_prev st) (ns_opch st) J calls = Ok h /\ matrix_ok J h.
Proof.
  have [calls [Ecalls _]] := calls_sum C cs se m Hck K N st sc sc_real sc_ne0 (Ind cs 0). exists calls. split=> // J HJ.
  have HJa : admissible (ts (sh_sym sh)) J by rewrite (m_sym cs sh Hma); exact: (isec_adm cs se m Hck).
  have X := hamiltonian_ok C sh sc stp (multiplicity cs) (ns_prev st) (ns_opch st) J Hsh HJa spectra_ok prev_mult calls.
  rewrite (m_sym cs sh Hma) (m_tab cs sh Hma) (m_combs cs sh Hma) in X. case: X => [D' [A' [X1 [X2 [XL [X3 X4]]]]]].
  rewrite (ancestors_is cs se m sh Hck Hsh Hma J HJ) in X1. injection X1 => EA. subst A'.
  rewrite (subdims_is cs se m sh Hck Hsh Hma dp dp_sec Hsmall J HJ) in X2. injection X2 => ED. subst D'. clear X1 X2.
  have [h Eh] := proj2 X3 (calls_acceptable calls J HJ Ecalls). exists h. split=> //. have [Hr [Hc [Hup [Hcov Hform]]]] := X4 h Eh.
  have G := good_dims cs se m sh Hck Hsh Hma dp dp_sec Hsmall J HJ.
  have calls_s : forall (l : site) a (l' : site) b, Nat.lt a (stored (anc l J)) -> Nat.lt b (stored (anc l' J)) ->
    sc * sum_terms C sc (multiplicity cs) (anclist cs J) (ns_opch st) calls l a l' b = hp J J l a l' b + (hp J J l' b l a)^* + (if Nat.eqb a b then @site_part C cs se K N l l' else 0).
  { move=> l a l' b Ha Hb. apply: (mulfI (four_ne0 C)). have [calls' [E' S]] := calls_sum C cs se m Hck K N st sc sc_real sc_ne0 J. rewrite Ecalls in E'. injection E' => E''. subst calls'.
    rewrite mulrCA S. have Hop := rp_op Hrep.
    have h1 := hop_partE C cs se m Hck K N st T F u Hop J J l a l' b HJ HJ Ha Hb. have h2 := hop_partE C cs se m Hck K N st T F u Hop J J l' b l a HJ HJ Hb Ha.
    rewrite invar_eqb_refl in h1 h2. rewrite -h1 -h2 rmorphM zC_conj [RHS]mulrDr [X in _ = X + _]mulrDr. congr (_ + _). case: (Nat.eqb a b); [|by rewrite mulr0]. by rewrite (site_partE C cs se m Hck). }
  have old : forall (l : site) a, old_energy C (anclist cs J) (ns_prev st) l a = energy (anc l J) a by move=> l a; rewrite /old_energy nth_anclist //; exact: lt_site.
  have Hc' : forall (l : site) a (l' : site) b, Nat.lt a (stored (anc l J)) -> Nat.lt b (stored (anc l' J)) ->
    sc * completed C h (row (D J) l a) (row (D J) l' b) = (if (l == l') && Nat.eqb a b then sc0 * energy (anc l J) a else 0) + (hp J J l a l' b + (hp J J l' b l a)^* + (if Nat.eqb a b then @site_part C cs se K N l l' else 0)).
  { move=> l a l' b Ha Hb. rewrite Hform ?D_length; try exact: lt_site; try by rewrite bsize_D. rewrite mulrDr calls_s //. congr (_ + _).
    have -> : Nat.eqb l l' = (l == l') by apply/idP/idP => [/Nat.eqb_eq E|/eqP ->]; [apply/eqP; exact: val_inj|exact: Nat.eqb_refl].
    case: (_ && _); [|by rewrite mulr0]. by rewrite old mulrA Hstp. }
  have reD : forall p, Nat.lt p (f_rows h) -> f_el h p p \is Num.real.
  { move=> p Hp. have [l [a [Hl [Ha ->]]]] := Hcov p Hp. rewrite D_length in Hl. have Hl' : (l < local_states cs)%N by apply/ltP. set l0 := Ordinal Hl'.
    have Ha' : Nat.lt a (stored (anc l0 J)) by rewrite -bsize_D.
    have E := Hc' l0 a l0 a Ha' Ha'. rewrite eqxx Nat.eqb_refl /= in E.
    have -> : f_el h (row (D J) l a) (row (D J) l a) = completed C h (row (D J) l a) (row (D J) l a) by rewrite /completed Nat.leb_refl.
    have R : sc * completed C h (row (D J) l a) (row (D J) l a) \is Num.real.
    { rewrite E. apply: rpredD; [apply: rpredM; [exact: gtr0_real|by case: Hord => _ _ /(_ (anc l J) a) [? _] _]|]. apply: rpredD; [|exact: site_real].
      apply/CrealP. by rewrite rmorphD conjCK addrC. }
    have -> : completed C h (row (D J) l a) (row (D J) l a) = sc^-1 * (sc * completed C h (row (D J) l a) (row (D J) l a)) by rewrite mulrA mulVf ?mul1r // sc_ne0.
    apply: rpredM => //. rewrite rpredV. exact: gtr0_real. }
  have herm : forall p q, Nat.lt p (f_rows h) -> Nat.lt q (f_rows h) -> hermitian (f_el h) p q = completed C h p q.
  { move=> p q Hp Hq. rewrite /hermitian /completed. case E1: (p < q)%N.
    - have -> : Nat.leb p q = true by apply Nat.leb_le; move/ltP: E1; lia. done.
    - case E2: (p == q).
      + move/eqP: E2 => E2. subst q. rewrite Nat.leb_refl. apply/Creal_ReP. exact: reD.
      + have -> : Nat.leb p q = false; [|done]. apply Nat.leb_gt. move/negbT: E1; rewrite -leqNgt => /leP E1. move/eqP: E2 => E2. lia. }
  split; [lia|]. split; [lia|]. split.
  - move=> p q Hp Hq. rewrite /hermitian [q == p]eq_sym. case: (ltngtP p q) => Epq.
    + by rewrite conjCK.
    + done.
    + subst q. apply/CrealP. exact: Creal_Re.
  - move=> J' l a l' b HJ' Ha Hb. rewrite elem_next //. case EJ: (invar_eqb J J') => //. apply invar_eqb_eq in EJ. subst J'.
    have P1 : Nat.lt (row (D J) l a) (f_rows h) by have := pos_total _ G l a; rewrite /szn -/(bsize _ _) bsize_D D_length => /(_ (lt_site cs l) Ha); rewrite /offn -/(row (D J) l a); lia.
    have P2 : Nat.lt (row (D J) l' b) (f_rows h) by have := pos_total _ G l' b; rewrite /szn -/(bsize _ _) bsize_D D_length => /(_ (lt_site cs l') Hb); rewrite /offn -/(row (D J) l' b); lia.
    rewrite herm // Hc' // [RHS]addrAC. congr (_ + _).
    have -> : Nat.eqb (row (D J) l a) (row (D J) l' b) = (l == l') && Nat.eqb a b.
    { have PE := pos_eq _ G l a l' b. rewrite /szn -!/(bsize _ _) !bsize_D in PE. have PE' := PE Ha Hb. clear PE. rewrite /offn -/(row (D J) l a) -/(row (D J) l' b) in PE'. apply/idP/idP.
      - move/Nat.eqb_eq => /PE' [E1 E2]. have E1' : l = l' by apply: val_inj. subst. by rewrite eqxx Nat.eqb_refl.
      - move=> /andP [/eqP E1 /Nat.eqb_eq E2]. subst. exact: Nat.eqb_refl. }
    case: (_ && _) => //. by rewrite addr0.
Qed.
End Ham.
