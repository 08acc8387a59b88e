(** Proofs about the construction of the Hamiltonian matrix. *)
From Coq Require Import List ZArith Lia.
From Verif Require Import Base Invar_model Symmetry_model Subspaces_model Subspaces_proofs Density_model Recalc_model Hamilton_model Hamilton_pos
  Hamilton_spec Cring.
From mathcomp Require Import ssreflect ssrfun ssrbool eqtype ssrnat seq fintype bigop ssralg ssrnum.
Import GRing.Theory Num.Theory.
Local Open Scope ring_scope.

Section Proofs.
Variable C : numClosedFieldType.
Variables (scale : C) (spin : nat) (d : list Z) (anc : list invar) (opch : opch_t C).
Hypothesis Hd : good d.
Let tot := Z.to_nat (zsum d).

Definition whole (h : fmat C) : Prop := f_rows h = tot /\ f_cols h = tot /\ upper C h.
Definition valid (i a : nat) : Prop := Nat.lt i (List.length d) /\ Nat.lt a (bsize d i).
Definition rng (i : nat) : Z * Z := (Z.of_nat (offn d i), Z.of_nat (Nat.add (offn d i) (szn d i))).

Lemma inside_rng r i : inside r (rng i) = true <-> Nat.le (offn d i) r /\ Nat.lt r (Nat.add (offn d i) (szn d i)).
Proof.
  rewrite /inside /rng /=. split.
  - move=> /andP [H1 H2]. apply Z.leb_le in H1. apply Z.ltb_lt in H2. lia.
  - move=> [H1 H2]. apply/andP. split; [apply Z.leb_le|apply Z.ltb_lt]; lia.
Qed.
Lemma inside_row i a k : valid i a -> inside (row d i a) (rng k) = Nat.eqb i k.
Proof.
  move=> [_ Ha]. have P := pos_block d Hd i a k Ha.
  case E : (Nat.eqb i k).
  - apply Nat.eqb_eq in E. apply/inside_rng. have := proj2 P E. rewrite /row. fold (offn d i). lia.
  - apply Nat.eqb_neq in E. apply/negP => /inside_rng. move=> [H1 H2]. apply E. apply P. rewrite /row in H1 H2. fold (offn d i) in H1, H2. lia.
Qed.
Lemma row_sub i a : Nat.sub (row d i a) (Z.to_nat (fst (rng i))) = a.
Proof. rewrite /row /rng /= Nat2Z.id. fold (offn d i). lia. Qed.
Lemma rng_total i : Nat.lt i (List.length d) -> Z.leb (snd (rng i)) (Z.of_nat tot) = true.
Proof. move=> H. apply Z.leb_le. rewrite /rng /=. have := off_total d Hd i H. rewrite /tot. lia. Qed.

Lemma add_sub_ok (h : fmat C) i j el : whole h -> Nat.lt i (List.length d) -> Nat.lt j (List.length d) ->
  exists h', add_sub h (rng i) (rng j) el = Ok h' /\ f_rows h' = tot /\ f_cols h' = tot /\
    (forall k a l b, valid k a -> valid l b ->
       f_el h' (row d k a) (row d l b) = f_el h (row d k a) (row d l b) + if Nat.eqb k i && Nat.eqb l j then el a b else 0) /\
    ((Nat.lt i j \/ (i = j /\ forall a b, Nat.lt b a -> el a b = 0)) -> upper C h').
Proof.
  move=> [H1 [H2 H3]] Hi Hj. rewrite /add_sub H1 H2 !rng_total //=. eexists. split; [reflexivity|]. split; [done|]. split; [done|]. split.
  - move=> k a l b Hk Hl /=. rewrite (inside_row _ _ _ Hk) (inside_row _ _ _ Hl).
    case E1 : (Nat.eqb k i); case E2 : (Nat.eqb l j) => /=; rewrite ?addr0 //.
    apply Nat.eqb_eq in E1. apply Nat.eqb_eq in E2. subst k l. have := row_sub i a. have := row_sub j b. rewrite /rng /= => -> ->. done.
  - move=> HH r c Hrc /=. case E : (inside r (rng i) && inside c (rng j)); [|exact (H3 _ _ Hrc)].
    move: E => /andP [/inside_rng [G1 G2] /inside_rng [G3 G4]]. case: HH => [HH|[E HH]].
    + have := off_mono d Hd _ _ HH. lia.
    + subst j. rewrite (H3 _ _ Hrc) add0r. apply HH. rewrite Nat2Z.id. lia.
Qed.

Lemma add_diag_ok (h : fmat C) i x : whole h -> Nat.lt i (List.length d) ->
  exists h', add_diag h (rng i) x = Ok h' /\ whole h' /\
    (forall k a l b, valid k a -> valid l b ->
       f_el h' (row d k a) (row d l b) = f_el h (row d k a) (row d l b) + if [&& Nat.eqb k i, Nat.eqb k l & Nat.eqb a b] then x else 0).
Proof.
  move=> [H1 [H2 H3]] Hi. rewrite /add_diag H1 H2 !rng_total //=. eexists. split; [reflexivity|]. split.
  - split; [done|]. split; [done|]. move=> r c Hrc /=. replace (Nat.eqb r c) with false; [|symmetry; apply Nat.eqb_neq; lia].
    rewrite andbF. exact (H3 _ _ Hrc).
  - move=> k a l b Hk Hl /=. rewrite (inside_row _ _ _ Hk). case E1 : (Nat.eqb k i) => /=; [|by rewrite addr0].
    have P := pos_eq d Hd k a l b (proj2 Hk) (proj2 Hl).
    case E : (Nat.eqb (row d k a) (row d l b)).
    + apply Nat.eqb_eq in E. destruct (proj1 P E) as [-> ->]. by rewrite !Nat.eqb_refl.
    + case E2 : (Nat.eqb k l); case E3 : (Nat.eqb a b) => /=; rewrite ?addr0 //.
      apply Nat.eqb_eq in E2. apply Nat.eqb_eq in E3. apply Nat.eqb_neq in E. subst. by [].
Qed.

(** The completed matrix in terms of block indices. *)
Lemma row_leb k a l b : valid k a -> valid l b -> Nat.leb (row d k a) (row d l b) = Nat.ltb k l || (Nat.eqb k l && Nat.leb a b).
Proof.
  move=> [_ Ha] [_ Hb]. have P := pos_le d Hd k a l b Ha Hb.
  case E : (Nat.leb (row d k a) (row d l b)); symmetry.
  - apply Nat.leb_le in E. apply P in E. apply/orP. destruct E as [E|[E1 E2]].
    + left. apply Nat.ltb_lt. lia.
    + right. apply/andP. split; [apply Nat.eqb_eq|apply Nat.leb_le]; auto.
  - apply Nat.leb_gt in E. apply/negP => /orP [G|/andP [G1 G2]].
    + apply Nat.ltb_lt in G. have := proj2 P (or_introl G). rewrite /row in E. fold (offn d k) in E. fold (offn d l) in E. lia.
    + apply Nat.eqb_eq in G1. apply Nat.leb_le in G2. have := proj2 P (or_intror (conj G1 G2)). rewrite /row in E. fold (offn d k) in E. fold (offn d l) in E. lia.
Qed.

Lemma names_idx i1 k : block_number d i1 -> names i1 k = Nat.eqb k (Z.to_nat (i1 - 1)).
Proof.
  move=> [H1 H2]. rewrite /names. case E : (Nat.eqb k (Z.to_nat (i1 - 1))).
  - apply Nat.eqb_eq in E. apply Z.eqb_eq. lia.
  - apply Nat.eqb_neq in E. apply Z.eqb_neq. lia.
Qed.
Lemma idx_lt i1 : block_number d i1 -> Nat.lt (Z.to_nat (i1 - 1)) (List.length d).
Proof. move=> [H1 H2]. lia. Qed.
Lemma idx_Z i1 : block_number d i1 -> Z.of_nat (Z.to_nat (i1 - 1)) = (i1 - 1)%Z.
Proof. move=> [H1 H2]. lia. Qed.
Lemma part_rng i1 : block_number d i1 -> part_mma d i1 = Ok (rng (Z.to_nat (i1 - 1))).
Proof.
  move=> H. rewrite /part_mma (mma_index d Hd i1 H) -{1}(idx_Z _ H). exact (view_ok d Hd _ (idx_lt _ H)).
Qed.
Lemma view_rng i1 : block_number d i1 -> view_mma d i1 = Ok (rng (Z.to_nat (i1 - 1))).
Proof.
  move=> H. rewrite /view_mma (mma_index d Hd i1 H) -{1}(idx_Z _ H). exact (view_ok d Hd _ (idx_lt _ H)).
Qed.
Lemma rmax_idx i1 : block_number d i1 -> rmax d (i1 - 1) = Ok (Z.of_nat (bsize d (Z.to_nat (i1 - 1)))).
Proof. move=> H. rewrite -{1}(idx_Z _ H). exact (rmax_ok d Hd _ (idx_lt _ H)). Qed.
Lemma off_idx i1 : block_number d i1 -> offset d (i1 - 1) = Ok (Z.of_nat (offn d (Z.to_nat (i1 - 1)))).
Proof. move=> H. rewrite -{1}(idx_Z _ H). exact (offset_ok d Hd _ (idx_lt _ H)). Qed.
Lemma bn_bool i1 : reflect (block_number d i1) (Z.leb 1 i1 && Z.leb i1 (Z.of_nat (List.length d))).
Proof. apply: (iffP andP) => [[H1 H2]|[H1 H2]]; [apply Z.leb_le in H1; apply Z.leb_le in H2; split; lia|split; apply Z.leb_le; lia]. Qed.

Lemma contributes_ok i1 j1 : block_number d i1 -> block_number d j1 -> i1 <> j1 ->
  offdiag_contributes d i1 j1 = Ok (Nat.ltb 0 (bsize d (Z.to_nat (i1 - 1))) && Nat.ltb 0 (bsize d (Z.to_nat (j1 - 1)))).
Proof.
  move=> Hi Hj Hne. rewrite /offdiag_contributes.
  move/bn_bool: (Hi) => /andP [-> ->]. move/bn_bool: (Hj) => /andP [-> ->] /=.
  replace (Z.eqb i1 j1) with false by (symmetry; apply Z.eqb_neq; auto). cbn [negb my_assert bind].
  rewrite /exists_block (mma_index d Hd i1 Hi) (mma_index d Hd j1 Hj) (rmax_idx _ Hi) (rmax_idx _ Hj). cbn [bind].
  have E : forall n, Z.ltb 0 (Z.of_nat n) = Nat.ltb 0 n.
  { move=> n. apply/idP/idP => [H|H]; [apply Nat.ltb_lt; apply Z.ltb_lt in H; lia|apply Z.ltb_lt; apply Nat.ltb_lt in H; lia]. }
  rewrite !E. by case: (Nat.ltb 0 _).
Qed.

Definition adds (h h' : fmat C) (T : nat -> nat -> nat -> nat -> C) : Prop :=
  whole h' /\ forall i a j b, valid i a -> valid j b -> completed C h' (row d i a) (row d j b) = completed C h (row d i a) (row d j b) + T i a j b.

Lemma adds_zero h T : whole h -> (forall i a j b, valid i a -> valid j b -> T i a j b = 0) -> adds h h T.
Proof. move=> Hw HT. split; [done|]. move=> i a j b H1 H2. by rewrite HT // addr0. Qed.

(** A block strictly above the diagonal. *)
Lemma adds_block h i j el : whole h -> Nat.lt i j -> Nat.lt j (List.length d) ->
  exists h', add_sub h (rng i) (rng j) el = Ok h' /\
    adds h h' (plus_adjoint C (fun k a l b => if Nat.eqb k i && Nat.eqb l j then el a b else 0)).
Proof.
  move=> Hw Hij Hj. have Hi : Nat.lt i (List.length d) by lia.
  have [h' [E [E1 [E2 [E3 E4]]]]] := add_sub_ok h i j el Hw Hi Hj.
  exists h'. split; [done|]. split; [split; [done|split; [done|apply E4; by left]]|].
  move=> k a l b Hk Hl. rewrite /completed /plus_adjoint (row_leb _ _ _ _ Hk Hl).
  case E5 : (Nat.ltb k l || (Nat.eqb k l && Nat.leb a b)).
  - rewrite E3 //. replace (Nat.eqb l i && Nat.eqb k j) with false; [by rewrite rmorph0 addr0|].
    symmetry. apply/negP => /andP [G1 G2]. apply Nat.eqb_eq in G1. apply Nat.eqb_eq in G2. subst.
    move: E5 => /orP [G|/andP [G _]]; [apply Nat.ltb_lt in G|apply Nat.eqb_eq in G]; lia.
  - rewrite E3 // rmorphD. replace (Nat.eqb k i && Nat.eqb l j) with false; [by rewrite add0r|].
    symmetry. apply/negP => /andP [G1 G2]. apply Nat.eqb_eq in G1. apply Nat.eqb_eq in G2. subst.
    move/negP: E5. apply. apply/orP. left. apply Nat.ltb_lt. lia.
Qed.

Lemma ltb_Z i1 j1 : block_number d i1 -> block_number d j1 -> Z.ltb i1 j1 = Nat.ltb (Z.to_nat (i1 - 1)) (Z.to_nat (j1 - 1)).
Proof.
  move=> [H1 H2] [H3 H4]. apply/idP/idP => H; [apply Nat.ltb_lt; apply Z.ltb_lt in H; lia|apply Z.ltb_lt; apply Nat.ltb_lt in H; lia].
Qed.

Lemma valid_nonempty i1 i a : block_number d i1 -> names i1 i -> valid i a -> nonempty d i1.
Proof. move=> H. rewrite (names_idx _ _ H) => G. apply Nat.eqb_eq in G. subst i. rewrite /nonempty. move=> [_ Ha]. lia. Qed.

Lemma offdiag_adds h i1 j1 ch fnr x : whole h -> acceptable C d anc opch (COffdiag i1 j1 ch fnr x) ->
  exists h', offdiag scale d anc opch i1 j1 ch fnr x h = Ok h' /\ adds h h' (term C scale spin anc opch (COffdiag i1 j1 ch fnr x)).
Proof.
  move=> Hw [Hi [Hj [Hne Hacc]]]. rewrite /offdiag contributes_ok //. cbn [bind].
  case E : (Nat.ltb 0 _ && Nat.ltb 0 _).
  - move: E => /andP [G1 G2]. apply Nat.ltb_lt in G1. apply Nat.ltb_lt in G2.
    have [[y ->] [m [Em [Er Ec]]]] := Hacc G1 G2.
    rewrite /offdiag_impl. move/bn_bool: (Hi) => /andP [-> ->]. move/bn_bool: (Hj) => /andP [-> ->]. cbn [andb my_assert bind].
    move: (Em). rewrite /op_block. case: (List.nth_error opch ch) => [fs|//]. case: (List.nth_error fs fnr) => [mm|//].
    case: (List.nth_error anc (Z.to_nat (i1 - 1))) => [Ii|//]. case: (List.nth_error anc (Z.to_nat (j1 - 1))) => [Ij|//] ->.
    rewrite (rmax_idx _ Hi) (rmax_idx _ Hj). cbn [bind]. rewrite Er Ec !Z.eqb_refl. cbn [andb my_assert bind].
    rewrite (part_rng _ Hi) (part_rng _ Hj). cbn [bind]. rewrite (ltb_Z _ _ Hj Hi).
    case E2 : (Nat.ltb (Z.to_nat (j1 - 1)) (Z.to_nat (i1 - 1))).
    + apply Nat.ltb_lt in E2.
      have [h' [E3 [Hw' H']]] := adds_block h _ _ (fun a b => (y / scale)^* * (f_el m b a)^*) Hw E2 (idx_lt _ Hi).
      exists h'. split; [exact E3|]. split; [done|]. move=> k a l b Hk Hl. rewrite H' //. congr (_ + _).
      rewrite /term /plus_adjoint !(names_idx _ _ Hi) !(names_idx _ _ Hj) Em [RHS]addrC. congr (_ + _).
      * rewrite andbC. case: (_ && _); [|by rewrite rmorph0]. by rewrite [RHS]rmorphM.
      * rewrite andbC. case: (_ && _); [|by rewrite rmorph0]. by rewrite rmorphM !conjCK.
    + apply Nat.ltb_ge in E2. have E4 : Nat.lt (Z.to_nat (i1 - 1)) (Z.to_nat (j1 - 1)) by case: Hi; case: Hj; lia.
      have [h' [E3 [Hw' H']]] := adds_block h _ _ (fun a b => (y / scale) * f_el m a b) Hw E4 (idx_lt _ Hj).
      exists h'. split; [exact E3|]. split; [done|]. move=> k a l b Hk Hl. rewrite H' //. congr (_ + _).
      by rewrite /term /plus_adjoint !(names_idx _ _ Hi) !(names_idx _ _ Hj) Em.
  - exists h. split; [done|]. apply adds_zero; [done|]. move=> k a l b Hk Hl. rewrite /term /plus_adjoint.
    have F : forall k a l b, valid k a -> valid l b -> names i1 k && names j1 l = false.
    { move=> k0 a0 l0 b0 Hk0 Hl0. apply/negP => /andP [G1 G2]. move/negP: E. apply. apply/andP.
      split; apply Nat.ltb_lt; [exact (valid_nonempty _ _ _ Hi G1 Hk0)|exact (valid_nonempty _ _ _ Hj G2 Hl0)]. }
    by rewrite (F _ _ _ _ Hk Hl) (F _ _ _ _ Hl Hk) rmorph0 addr0.
Qed.

Lemma diag_adds h i1 number zeta f : whole h -> acceptable C d anc opch (CDiag i1 number zeta f) ->
  exists h', diag_shift scale spin d i1 number zeta f h = Ok h' /\ adds h h' (term C scale spin anc opch (CDiag i1 number zeta f)).
Proof.
  move=> Hw Hi. rewrite /diag_shift. move/bn_bool: (Hi) => ->. cbn [my_assert bind]. rewrite (view_rng _ Hi). cbn [bind].
  case E : (Z.ltb _ _).
  - have [h' [E1 [Hw' H']]] := add_diag_ok h _ (zeta * (number - f * (spin%:R / 2%:R)) / scale) Hw (idx_lt _ Hi).
    exists h'. split; [exact E1|]. split; [done|]. move=> k a l b Hk Hl.
    rewrite /completed (row_leb _ _ _ _ Hk Hl) /term (names_idx _ _ Hi).
    case E5 : (Nat.ltb k l || (Nat.eqb k l && Nat.leb a b)); [by rewrite H'|].
    rewrite H' // rmorphD. congr (_ + _).
    have -> : [&& Nat.eqb k (Z.to_nat (i1 - 1)), Nat.eqb k l & Nat.eqb a b] = false.
    { apply/negP => /and3P [_ G1 G2]. move/negP: E5. apply. apply/orP. right. rewrite G1 /=. apply Nat.eqb_eq in G2. subst. apply Nat.leb_refl. }
    have -> : [&& Nat.eqb l (Z.to_nat (i1 - 1)), Nat.eqb l k & Nat.eqb b a] = false; [|by rewrite rmorph0].
    apply/negP => /and3P [_ G1 G2]. move/negP: E5. apply. apply/orP. right. rewrite Nat.eqb_sym G1 /=. apply Nat.eqb_eq in G2. subst. apply Nat.leb_refl.
  - exists h. split; [done|]. apply adds_zero; [done|]. move=> k a l b Hk Hl. rewrite /term.
    replace (names i1 k) with false; [done|]. symmetry. apply/negP => G. have := valid_nonempty _ _ _ Hi G Hk. rewrite /nonempty.
    rewrite /rng /= in E. apply Z.ltb_ge in E. rewrite /bsize. fold (szn d (Z.to_nat (i1 - 1))). lia.
Qed.

Lemma diagoff_adds h i1 j1 x : whole h -> acceptable C d anc opch (CDiagOff i1 j1 x) ->
  exists h', diag_offdiag scale d i1 j1 x h = Ok h' /\ adds h h' (term C scale spin anc opch (CDiagOff i1 j1 x)).
Proof.
  move=> Hw [Hi [Hj Hacc]]. rewrite /diag_offdiag. move/bn_bool: (Hi) => /andP [-> ->]. move/bn_bool: (Hj) => /andP [-> ->]. cbn [andb my_assert bind].
  case E0 : (Z.ltb j1 i1).
  { exists h. split; [done|]. apply adds_zero; [done|]. move=> *. rewrite /term. apply Z.ltb_lt in E0.
    replace (Z.ltb i1 j1) with false; [|symmetry; apply Z.ltb_ge; lia]. replace (Z.eqb i1 j1) with false; [done|]. symmetry. apply Z.eqb_neq. lia. }
  apply Z.ltb_ge in E0. rewrite (off_idx _ Hi) (off_idx _ Hj) (rmax_idx _ Hi) (rmax_idx _ Hj). cbn [bind].
  case E : (Z.ltb 0 _ && Z.ltb 0 _); cbn [negb].
  - move: E => /andP [G1 G2]. apply Z.ltb_lt in G1. apply Z.ltb_lt in G2.
    have Es := Hacc E0 ltac:(rewrite /nonempty; lia) ltac:(rewrite /nonempty; lia). rewrite Es Z.eqb_refl. cbn [my_assert bind]. rewrite -{1}Es.
    have TS : forall k1, block_number d k1 -> (Z.of_nat (offn d (Z.to_nat (k1 - 1))), to_size (Z.of_nat (offn d (Z.to_nat (k1 - 1))) + Z.of_nat (bsize d (Z.to_nat (k1 - 1))))) = rng (Z.to_nat (k1 - 1)).
    { move=> k1 Hk1. rewrite /rng. f_equal. rewrite /to_size. rewrite Z.mod_small; [rewrite /bsize; fold (szn d (Z.to_nat (k1 - 1))); lia|].
      rewrite /bsize. fold (szn d (Z.to_nat (k1 - 1))). rewrite -Nat2Z.inj_add -(off_S d Hd) (off_Z d Hd).
      split; [apply firstn_nonneg; auto|apply small; auto]. }
    rewrite (TS _ Hi) (TS _ Hj).
    case E1 : (Z.eqb i1 j1).
    + apply Z.eqb_eq in E1. subst j1.
      have [h' [E3 [A1 [A2 [A3 A4]]]]] := add_sub_ok h _ _ (fun a b => if Nat.eqb a b then x / scale else 0) Hw (idx_lt _ Hi) (idx_lt _ Hi).
      exists h'. split; [exact E3|]. have U : upper C h'.
      { apply A4. right. split; [done|]. move=> a b Hab. replace (Nat.eqb a b) with false; [done|]. symmetry. apply Nat.eqb_neq. lia. }
      split; [by split|]. move=> k a l b Hk Hl. rewrite /completed (row_leb _ _ _ _ Hk Hl) /term Z.ltb_irrefl Z.eqb_refl !(names_idx _ _ Hi).
      case E5 : (Nat.ltb k l || (Nat.eqb k l && Nat.leb a b)).
      * rewrite A3 //. congr (_ + _). case: (Nat.eqb k _) => //=. by case: (Nat.eqb l _).
      * rewrite A3 // rmorphD. congr (_ + _).
        have F1 : [&& Nat.eqb k (Z.to_nat (i1 - 1)), Nat.eqb l (Z.to_nat (i1 - 1)) & Nat.eqb a b] = false.
        { apply/negP => /and3P [G3 G4 G5]. move/negP: E5. apply. apply/orP. right. apply Nat.eqb_eq in G3. apply Nat.eqb_eq in G4. apply Nat.eqb_eq in G5.
          subst. rewrite Nat.eqb_refl /=. apply Nat.leb_refl. }
        rewrite F1. have -> : (if Nat.eqb l (Z.to_nat (i1 - 1)) && Nat.eqb k (Z.to_nat (i1 - 1)) then if Nat.eqb b a then x / scale else 0 else 0) = 0 :> C; [|by rewrite rmorph0].
        rewrite (Nat.eqb_sym b a). move: F1. case: (Nat.eqb k _) => //=; case: (Nat.eqb l _) => //=. by move=> ->.
    + apply Z.eqb_neq in E1. have E4 : Nat.lt (Z.to_nat (i1 - 1)) (Z.to_nat (j1 - 1)) by case: Hi; case: Hj; lia.
      have [h' [E3 [Hw' H']]] := adds_block h _ _ (fun a b => if Nat.eqb a b then x / scale else 0) Hw E4 (idx_lt _ Hj).
      exists h'. split; [exact E3|]. split; [done|]. move=> k a l b Hk Hl. rewrite H' //. congr (_ + _).
      rewrite /term. replace (Z.ltb i1 j1) with true by (symmetry; apply Z.ltb_lt; lia).
      rewrite /plus_adjoint !(names_idx _ _ Hi) !(names_idx _ _ Hj).
      have Q : forall (u v w : bool), (if u && v then if w then x / scale else 0 else 0) = (if [&& u, v & w] then x / scale else 0) :> C by move=> [] [] [].
      by rewrite !Q.
  - exists h. split; [done|]. apply adds_zero; [done|]. move=> k a l b Hk Hl. rewrite /term.
    have F : forall k a l b, valid k a -> valid l b -> [&& names i1 k, names j1 l & Nat.eqb a b] = false.
    { move=> k0 a0 l0 b0 Hk0 Hl0. apply/negP => /and3P [G1 G2 _]. move/negP: E. apply. apply/andP.
      have := valid_nonempty _ _ _ Hi G1 Hk0. have := valid_nonempty _ _ _ Hj G2 Hl0. rewrite /nonempty => Q1 Q2.
      split; apply Z.ltb_lt; lia. }
    case: (Z.ltb i1 j1); [by rewrite /plus_adjoint (F _ _ _ _ Hk Hl) (F _ _ _ _ Hl Hk) rmorph0 addr0|].
    case: (Z.eqb i1 j1); [by rewrite (F _ _ _ _ Hk Hl)|done].
Qed.

Lemma call_adds h c : whole h -> acceptable C d anc opch c ->
  exists h', run_call scale spin d anc opch h c = Ok h' /\ adds h h' (term C scale spin anc opch c).
Proof. case: c => [i j ch fnr x|i n z f|i j x] Hw Ha; [exact: offdiag_adds|exact: diag_adds|exact: diagoff_adds]. Qed.

Lemma calls_add calls h : whole h -> (forall c, List.In c calls -> acceptable C d anc opch c) ->
  exists h', make_matrix scale spin d anc opch calls h = Ok h' /\ adds h h' (sum_terms C scale spin anc opch calls).
Proof.
  elim: calls h => [|c calls IH] h Hw Ha.
  - exists h. split; [done|]. by apply adds_zero.
  - have [h1 [E1 [W1 A1]]] := call_adds h c Hw (Ha c (or_introl erefl)).
    have [h2 [E2 [W2 A2]]] := IH h1 W1 (fun c' Hc => Ha c' (or_intror Hc)).
    exists h2. split; [by rewrite /make_matrix /= E1 /=|]. split; [done|]. move=> i a j b Hi Hj. rewrite A2 // A1 //= addrA //.
Qed.

(** Lines that cannot be carried out end the run. *)
Lemma call_inv h c h' : whole h -> run_call scale spin d anc opch h c = Ok h' -> acceptable C d anc opch c.
Proof.
  move=> Hw. case: c => [i1 j1 ch fnr x|i1 n z f|i1 j1 x] /=.
  - rewrite /offdiag /offdiag_contributes.
    case E1 : (_ && _) => //=. rewrite -!andbA in E1. move: E1 => /and4P [G1 G2 G3 G4].
    have Hi : block_number d i1 by apply/bn_bool; rewrite G1. have Hj : block_number d j1 by apply/bn_bool; rewrite G3.
    case E2 : (Z.eqb i1 j1) => //=. apply Z.eqb_neq in E2. move=> H. split; [done|]. split; [done|]. split; [done|]. move=> N1 N2. move: H.
    rewrite /exists_block (mma_index d Hd i1 Hi) (mma_index d Hd j1 Hj) (rmax_idx _ Hi) (rmax_idx _ Hj). cbn [bind].
    replace (Z.ltb 0 _) with true by (symmetry; apply Z.ltb_lt; rewrite /nonempty in N1; lia). cbn [bind].
    replace (Z.ltb 0 _) with true by (symmetry; apply Z.ltb_lt; rewrite /nonempty in N2; lia). cbn [bind].
    rewrite /offdiag_impl G1 G2 G3 G4. cbn [andb my_assert bind]. case: x => [y|//]. rewrite /op_block.
    case: (List.nth_error opch ch) => [fs|//]. case: (List.nth_error fs fnr) => [mm|//].
    case: (List.nth_error anc (Z.to_nat (i1 - 1))) => [Ii|//]. case: (List.nth_error anc (Z.to_nat (j1 - 1))) => [Ij|//].
    case: (map_find2 mm Ii Ij) => [mat|//]. rewrite (rmax_idx _ Hi) (rmax_idx _ Hj). cbn [bind].
    case E3 : (_ && _) => //= _. move: E3 => /andP [Q1 Q2]. apply Z.eqb_eq in Q1. apply Z.eqb_eq in Q2.
    split; [by exists y|]. exists mat. split; [done|]. split; lia.
  - rewrite /diag_shift. case E1 : (_ && _) => //= _. by apply/bn_bool.
  - rewrite /diag_offdiag. case E1 : (_ && _) => //=. move: E1 => /and4P [G1 G2 G3 G4].
    have Hi : block_number d i1 by apply/bn_bool; rewrite G1. have Hj : block_number d j1 by apply/bn_bool; rewrite G3.
    move=> H. split; [done|]. split; [done|]. move=> L N1 N2. move: H.
    replace (Z.ltb j1 i1) with false by (symmetry; apply Z.ltb_ge; lia).
    rewrite (off_idx _ Hi) (off_idx _ Hj) (rmax_idx _ Hi) (rmax_idx _ Hj). cbn [bind].
    replace (Z.ltb 0 _) with true by (symmetry; apply Z.ltb_lt; rewrite /nonempty in N1; lia).
    replace (Z.ltb 0 _) with true by (symmetry; apply Z.ltb_lt; rewrite /nonempty in N2; lia). cbn [andb negb].
    case E3 : (Z.eqb _ _) => //= _. apply Z.eqb_eq in E3. lia.
Qed.
Lemma calls_inv calls h h' : whole h -> make_matrix scale spin d anc opch calls h = Ok h' -> forall c, List.In c calls -> acceptable C d anc opch c.
Proof.
  elim: calls h => [|c calls IH] h Hw //= H. rewrite /make_matrix /= in H.
  case E : (run_call scale spin d anc opch h c) H => [h1| |] //= H.
  have Ha := call_inv _ _ _ Hw E. have [h2 [E2 [W2 _]]] := call_adds h c Hw Ha. rewrite E in E2. injection E2 => E3. subst h2.
  move=> c' [<-|Hc]; [done|]. exact (IH h1 W2 H c' Hc).
Qed.
End Proofs.
