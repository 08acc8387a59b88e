(** The lines of make_matrix as matrix elements. *)
From Coq Require Import List ZArith Lia String.
From Verif Require Import Base Invar_model Invar_spec Invar_proofs Symmetry_model Symmetry_spec Symmetry_tables Subspaces_model Density_model Recalc_model Hamilton_model Hamilton_pos Hamilton_spec Linalg_model Linalg_spec
  Coef_model Coef_tables Fullchain_terms Fullchain_check Fullchain_model Fullchain_spec Fullchain_facts Fullchain_struct Fullchain_sums Fullchain_elem Fullchain_match Cring.
From mathcomp Require Import ssreflect ssrfun ssrbool eqtype ssrnat seq fintype bigop ssralg ssrnum.
Import GRing.Theory Num.Theory.
Local Open Scope ring_scope.

Local Opaque Fullchain_model.zC.

Lemma sum_terms_cat (C : numClosedFieldType) (sc : C) spin A (o : opch_t C) c1 c2 i a j b :
  sum_terms C sc spin A o (c1 ++ c2) i a j b = sum_terms C sc spin A o c1 i a j b + sum_terms C sc spin A o c2 i a j b.
Proof. elim: c1 => [|c c1 IH] /=; [by rewrite add0r|]. change (cat c1 c2) with (List.app c1 c2) in *. rewrite IH. by rewrite addrA. Qed.

Section Prog.
Variables (C : numClosedFieldType) (cs : coef_set) (se : setting) (m : mode).
Hypothesis Hck : check cs se m = true.
Add Ring Cr : (field_ring C).
Notation zC := (zC C).
Let d := List.length (tb_In (cs_tab cs)).
Notation site := 'I_(local_states cs).
Notation lab l := (Z.of_nat (S (nat_of_ord l))).
Notation chs := (Z.of_nat (cs_channels cs)).
Variables (K : chain_coef C) (N : nat) (st : nstate C) (sc : C).
Hypotheses (Hreal : sc^* = sc) (Hsc : sc != 0).
Variable (J : invar).
Notation A := (anclist cs J).
Notation opch := (ns_opch st).
Notation spin := (multiplicity cs).
Notation voff := (voff C cs K N st J).
Notation vloc := (vloc C cs K N).
Notation total := (sum_terms C sc spin A opch).

Lemma sym_coef name ch s : sym_of chs name ch = Some s -> coef_at K (cs_channels cs) name N ch = Some (zC (twice name) * cval K N s).
Proof.
  rewrite /sym_of /coef_at /twice.
  have X : forall t, String.eqb name t = true -> name = t by move=> t; apply String.eqb_eq.
  Ltac hit X E := apply X in E; rewrite E; case=> <-; rewrite [String.eqb _ _]/= zC1 mul1r.
  case E1: (String.eqb name "xi"); [by hit X E1|]. case E2: (String.eqb name "xiUP"); [by hit X E2|]. rewrite [false || false]/=.
  case E3: (String.eqb name "xiDOWN"); [by hit X E3|]. case E4: (String.eqb name "xiUPDO"); [by hit X E4|]. case E5: (String.eqb name "xiDOUP"); [by hit X E5|].
  case E6: (String.eqb name "xiR"); [by hit X E6|]. case E7: (String.eqb name "kappa"); [by hit X E7|].
  case E8: (String.eqb name "zeta"); [by hit X E8|]. case E9: (String.eqb name "zetaUP"); [by hit X E9|]. case E10: (String.eqb name "zetaUP half"); [by hit X E10|].
  rewrite [false || false || false]/=. case E11: (String.eqb name "zetaDOWN"); [by hit X E11|]. case E12: (String.eqb name "zetaDOWN half"); [by hit X E12|]. rewrite [false || false]/=.
  case E13: (String.eqb name "zetaDOUP"); [by hit X E13|]. case E14: (String.eqb name "zetaR"); [by hit X E14|].
  case E15: (String.eqb name "2*delta") => //. case=> <-. by rewrite zC2.
Qed.

Lemma omap2_inv {X Y Z : Type} (f : X -> Y -> Z) (a : option X) (b : option Y) (z : Z) : omap2 f a b = Some z -> exists x y, a = Some x /\ b = Some y /\ z = f x y.
Proof. case: a => [x|] //; case: b => [y|] //= [<-]. by exists x, y. Qed.

Lemma op_block_site i j ch fnr (l l' : site) : names i l = true -> names j l' = true ->
  op_block C A opch i j ch fnr = match List.nth_error opch ch with
    | Some fs => match List.nth_error fs fnr with Some t => map_find2 t (anc cs l J) (anc cs l' J) | None => None end | None => None end.
Proof.
  rewrite /names => /Z.eqb_eq -> /Z.eqb_eq ->. rewrite /op_block. have -> : Z.to_nat (lab l - 1) = l by lia. have -> : Z.to_nat (lab l' - 1) = l' by lia.
  rewrite !nth_anclist //; exact: lt_site.
Qed.

Lemma off_sum ls : forall L, mapO (fun l : off_line => match l with (i, j, ch, fnr, n, e) => omap2 (fun s q => ((i, j, s, ch, fnr), Z.mul q (twice n))) (sym_of chs n ch) (quad e) end) ls = Some L ->
  exists cl, mapO (off_call K (cs_channels cs) N) ls = Some cl /\ forall (l : site) a (l' : site) b,
    sc * (zC 4 * total cl l a l' b) = wsum C (voff l a l' b) L + (wsum C (voff l' b l a) L)^*.
Proof.
  elim: ls => [|[[[[[i j] ch] fnr] n] e] ls IH] L.
  - move=> [<-]. exists [::]. split=> // l a l' b. by rewrite !wsum_nil /= !mulr0 rmorph0 addr0.
  - move=> H; apply mapO_cons in H; case: H => [y [ys [Ey [Eys ->]]]]. have [cl [Ecl Hcl]] := IH ys Eys. apply omap2_inv in Ey. case: Ey => s [q [Es [Eq ->]]].
    have [x [Ex Hx]] := quad_val C e q Eq. have Es' := sym_coef n ch s Es. exists (COffdiag i j (Z.to_nat ch) (Z.to_nat fnr) (Some (x * (zC (twice n) * cval K N s))) :: cl).
    split; [by rewrite /= Ex Es' Ecl|]. move=> l a l' b. rewrite !wsum_cons.
    change (total (COffdiag i j (Z.to_nat ch) (Z.to_nat fnr) (Some (x * (zC (twice n) * cval K N s))) :: cl) l a l' b)
      with (term C sc spin A opch (COffdiag i j (Z.to_nat ch) (Z.to_nat fnr) (Some (x * (zC (twice n) * cval K N s)))) l a l' b + total cl l a l' b).
    rewrite mulrDr mulrDr Hcl rmorphD addrACA. congr (_ + _).
    rewrite /term /plus_adjoint mulrDr mulrDr.
    have G : forall (k : site) x0 (k' : site) y0, sc * (zC 4 * (if names i k && names j k' then
        match op_block C A opch i j (Z.to_nat ch) (Z.to_nat fnr) with Some mm => x * (zC (twice n) * cval K N s) / sc * f_el mm x0 y0 | None => 0 end else 0)) = voff k x0 k' y0 (i, j, s, ch, fnr) * zC (q * twice n).
    { move=> k x0 k' y0. rewrite /Fullchain_match.voff. case E1: (names i k); case E2: (names j k'); rewrite [_ && _]/=; rewrite ?mulr0 ?mul0r //.
      rewrite (op_block_site i j _ _ k k' E1 E2) /opel. case: (List.nth_error opch _) => [fs|]; [|by rewrite !mulr0 mul0r]. case: (List.nth_error fs _) => [tt|]; [|by rewrite !mulr0 mul0r].
      case: (map_find2 _ _ _) => [mm|]; [|by rewrite !mulr0 mul0r]. rewrite zCM -Hx.
      transitivity (sc * sc^-1 * (zC 4 * x * (zC (twice n) * cval K N s) * f_el mm x0 y0)); [cnorm C; ring|]. rewrite mulfV // mul1r. cnorm C. ring. }
    congr (_ + _); [exact: G|]. rewrite -G !rmorphM /= Hreal zC_conj. done.
Qed.

Lemma diag_sum ls : forall L, mapO (fun l : diag_line => match l with (i, ch, n, e) =>
      omap2 (fun s q => ((i, i, s, 0%Z, 0%Z), (twice n * (q - (if is_half n then 1 else 2) * Z.of_nat spin))%Z)) (sym_of chs n ch) (quad e) end) ls = Some L ->
  exists cl, mapO (diag_call K (cs_channels cs) N) ls = Some cl /\ forall (l : site) a (l' : site) b,
    sc * (zC 4 * total cl l a l' b) = if Nat.eqb a b then wsum C (vloc l l') L else 0.
Proof.
  elim: ls => [|[[[i ch] n] e] ls IH] L.
  - move=> [<-]. exists [::]. split=> // l a l' b. rewrite !wsum_nil /= !mulr0. by case: (Nat.eqb a b).
  - move=> H; apply mapO_cons in H; case: H => [y [ys [Ey [Eys ->]]]]. have [cl [Ecl Hcl]] := IH ys Eys. apply omap2_inv in Ey. case: Ey => s [q [Es [Eq ->]]].
    have [x [Ex Hx]] := quad_val C e q Eq. have Es' := sym_coef n ch s Es. exists (CDiag i x (zC (twice n) * cval K N s) (half_of C n) :: cl).
    split; [by rewrite /= Ex Es' Ecl|]. move=> l a l' b. rewrite !wsum_cons.
    change (total (CDiag i x (zC (twice n) * cval K N s) (half_of C n) :: cl) l a l' b)
      with (term C sc spin A opch (CDiag i x (zC (twice n) * cval K N s) (half_of C n)) l a l' b + total cl l a l' b).
    rewrite mulrDr mulrDr Hcl. case Eab: (Nat.eqb a b); last by rewrite /term Eab !andbF !mulr0 addr0.
    congr (_ + _). cbn [fst snd Fullchain_match.vloc term]. rewrite Eab andbT Z.eqb_refl.
    have -> : names i l && Nat.eqb l l' = names i l && names i l'.
    { rewrite /names. case E: (Z.eqb i (lab l)) => //=. apply Z.eqb_eq in E. subst i. apply/idP/idP.
      - move/Nat.eqb_eq => ->. exact: Z.eqb_refl.
      - move/Z.eqb_eq => H. apply Nat.eqb_eq. lia. }
    case: (names i l && names i l'); [|by rewrite !mulr0 mul0r].
    have Hh : zC 4 * (half_of C n * (spin%:R / 2%:R)) = zC ((if is_half n then 1 else 2) * Z.of_nat spin)%Z.
    { have H2 : (2%:R : C) != 0 by rewrite pnatr_eq0. rewrite zCM zC4. have -> : zC (Z.of_nat spin) = spin%:R by rewrite (zC_nat C (Z.of_nat spin) spin 0) ?subr0 //; lia.
      have -> : zC (if is_half n then 1 else 2)%Z = 2%:R * half_of C n.
      { rewrite /half_of -/(is_half n). case: (is_half n); [by rewrite zC1 mul1r mulfV|by rewrite zC2 mulr1]. }
      transitivity (2%:R / 2%:R * (2%:R * half_of C n * spin%:R)); [|by rewrite mulfV // mul1r].
      move: (half_of C n) (spin%:R : C) (2%:R^-1 : C) (2%:R : C) => u v w z. cnorm C. ring. }
    rewrite zCM /Z.sub zCD zCN -Hh -Hx.
    transitivity (sc * sc^-1 * (zC 4 * (zC (twice n) * cval K N s * (x - half_of C n * (spin%:R / 2%:R))))).
    + move: (x - half_of C n * (spin%:R / 2%:R)) => w. cnorm C. ring.
    + rewrite mulfV // mul1r. move: (half_of C n * (spin%:R / 2%:R)) => w. cnorm C. ring.
Qed.

Lemma dof_sum ls : forall L, mapO (fun l : dof_line => match l with (i, j, ch, n, e) =>
      omap2 (fun s q => if Z.ltb i j then [:: ((i, j, s, 0%Z, 0%Z), Z.mul q (twice n)); ((j, i, s, 1%Z, 0%Z), Z.mul q (twice n))]
                        else if Z.eqb i j then [:: ((i, j, s, 0%Z, 0%Z), Z.mul q (twice n))] else [::]) (sym_of chs n ch) (quad e) end) ls = Some L ->
  exists cl, mapO (dof_call K (cs_channels cs) N) ls = Some cl /\ forall (l : site) a (l' : site) b,
    sc * (zC 4 * total cl l a l' b) = if Nat.eqb a b then wsum C (vloc l l') (List.concat L) else 0.
Proof.
  elim: ls => [|[[[[i j] ch] n] e] ls IH] L.
  - move=> [<-]. exists [::]. split=> // l a l' b. rewrite !wsum_nil /= !mulr0. by case: (Nat.eqb a b).
  - move=> H; apply mapO_cons in H; case: H => [y [ys [Ey [Eys ->]]]]. have [cl [Ecl Hcl]] := IH ys Eys. apply omap2_inv in Ey. case: Ey => s [q [Es [Eq ->]]].
    have [x [Ex Hx]] := quad_val C e q Eq. have Es' := sym_coef n ch s Es. exists (CDiagOff i j (x * (zC (twice n) * cval K N s)) :: cl).
    split; [by rewrite /= Ex Es' Ecl|]. move=> l a l' b. cbn [List.concat]. rewrite wsum_cat.
    change (total (CDiagOff i j (x * (zC (twice n) * cval K N s)) :: cl) l a l' b)
      with (term C sc spin A opch (CDiagOff i j (x * (zC (twice n) * cval K N s))) l a l' b + total cl l a l' b).
    rewrite mulrDr mulrDr Hcl.
    have Q : sc * (zC 4 * (x * (zC (twice n) * cval K N s) / sc)) = cval K N s * zC (q * twice n).
    { rewrite zCM -Hx. transitivity (sc * sc^-1 * (zC 4 * x * (zC (twice n) * cval K N s))); [cnorm C; ring|]. rewrite mulfV // mul1r. cnorm C. ring. }
    have Q' : sc * (zC 4 * (x * (zC (twice n) * cval K N s) / sc)^*) = (cval K N s)^* * zC (q * twice n).
    { rewrite -(conj_scale C (cval K N s)) -Q !rmorphM /= Hreal !zC_conj. done. }
    have Eba : Nat.eqb b a = Nat.eqb a b := Nat.eqb_sym b a.
    case Eab: (Nat.eqb a b).
    + congr (_ + _). cbn [term]. case: (Z.ltb i j).
      * rewrite /plus_adjoint Eba Eab !andbT !wsum_cons wsum_nil addr0. cbn [fst snd Fullchain_match.vloc]. rewrite Z.eqb_refl (erefl : Z.eqb 1 0 = false) mulrDr mulrDr. congr (_ + _).
        -- case: (names i l && names j l'); [exact: Q|by rewrite !mulr0 mul0r].
        -- rewrite andbC. case: (names j l && names i l'); [exact: Q'|by rewrite rmorph0 !mulr0 mul0r].
      * case: (Z.eqb i j); [|by rewrite wsum_nil !mulr0]. rewrite Eab andbT wsum_cons wsum_nil addr0. cbn [fst snd Fullchain_match.vloc]. rewrite Z.eqb_refl.
        case: (names i l && names j l'); [exact: Q|by rewrite !mulr0 mul0r].
    + rewrite addr0. cbn [term]. case: (Z.ltb i j); [|case: (Z.eqb i j)]; rewrite ?/plus_adjoint ?Eba ?Eab ?andbF ?rmorph0 ?addr0 ?mulr0 //.
Qed.

Lemma calls_sum : exists calls, calls_of K (cs_channels cs) N m = Some calls /\ forall (l : site) a (l' : site) b,
  sc * (zC 4 * total calls l a l' b) = wsum C (voff l a l' b) (spec_off cs se (signs cs)) + (wsum C (voff l' b l a) (spec_off cs se (signs cs)))^* +
    (if Nat.eqb a b then wsum C (vloc l l') (spec_loc cs se) else 0).
Proof.
  have [La [Lb [Lc [E1 [E2 [E3 [W1 W2]]]]]]] := ck_weights cs se m Hck.
  have [ca [Ea Ha]] := off_sum _ _ E1. have [cb [Eb Hb]] := diag_sum _ _ E2. have [cc [Ec Hc]] := dof_sum _ _ E3.
  exists (ca ++ cb ++ cc). split; [by rewrite /calls_of Ea Eb Ec|]. move=> l a l' b. rewrite !sum_terms_cat 2!mulrDr 2!mulrDr Ha Hb Hc.
  rewrite (same_buckets_sum C _ _ _ _ W1) (same_buckets_sum C (voff l' b l a) _ _ _ W1). congr (_ + _).
  case: (Nat.eqb a b); [|by rewrite addr0]. by rewrite -(same_buckets_sum C _ _ _ _ W2) wsum_cat.
Qed.
End Prog.
