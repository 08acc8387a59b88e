(** Sums used for C65: integers as scalars, weighted sums, integer matrices, sums over the rows of a sector. *)
From Coq Require Import List ZArith Lia.
From Verif Require Import Base Invar_model Symmetry_model Subspaces_model Subspaces_proofs Density_model Recalc_model Hamilton_model Hamilton_pos Hamilton_spec Linalg_model Linalg_spec
  Coef_model Fullchain_terms Fullchain_check Fullchain_model Fullchain_spec Cring.
From mathcomp Require Import ssreflect ssrfun ssrbool eqtype ssrnat seq fintype bigop ssralg ssrnum.
Import GRing.Theory Num.Theory.
Local Open Scope ring_scope.

Section Sums.
Variable C : numClosedFieldType.
Add Ring Cr : (field_ring C).
Notation zC := (zC C).
Ltac cring := rewrite -[LHS]mul1r -[RHS]mul1r; cnorm C; ring.

Lemma zC_nat (z : Z) (a b : nat) : z = (Z.of_nat a - Z.of_nat b)%Z -> zC z = a%:R - b%:R.
Proof.
  move=> E. rewrite /Fullchain_model.zC. have H : (Z.to_nat z + b = Z.to_nat (- z) + a)%coq_nat by lia.
  have H' : (Z.to_nat z)%:R + b%:R = (Z.to_nat (- z))%:R + a%:R :> C by rewrite -!natrD; congr (_%:R).
  apply/eqP. rewrite subr_eq -[X in _ == X]addrA [X in _ + X]addrC addrA eq_sym subr_eq. apply/eqP. rewrite H'. exact: addrC.
Qed.
Lemma zC_split (z : Z) : exists a b : nat, z = (Z.of_nat a - Z.of_nat b)%Z.
Proof. exists (Z.to_nat z), (Z.to_nat (- z)). lia. Qed.
Lemma zC0 : zC 0 = 0. Proof. by rewrite (@zC_nat 0%Z 0 0) // subrr. Qed.
Lemma zC1 : zC 1 = 1. Proof. by rewrite (@zC_nat 1%Z 1 0) // subr0. Qed.
Lemma zCD a b : zC (a + b) = zC a + zC b.
Proof.
  have [a1 [a2 Ea]] := zC_split a. have [b1 [b2 Eb]] := zC_split b. rewrite (@zC_nat a a1 a2) // (@zC_nat b b1 b2) // (@zC_nat (a + b)%Z (Nat.add a1 b1) (Nat.add a2 b2)); [|lia].
  change (Nat.add a1 b1) with (a1 + b1)%N. change (Nat.add a2 b2) with (a2 + b2)%N. rewrite !natrD. cring.
Qed.
Lemma zCM a b : zC (a * b) = zC a * zC b.
Proof.
  have [a1 [a2 Ea]] := zC_split a. have [b1 [b2 Eb]] := zC_split b. rewrite (@zC_nat a a1 a2) // (@zC_nat b b1 b2) //.
  rewrite (@zC_nat (a * b)%Z (Nat.add (Nat.mul a1 b1) (Nat.mul a2 b2)) (Nat.add (Nat.mul a1 b2) (Nat.mul a2 b1))); [|lia].
  change Nat.add with addn. change Nat.mul with muln. rewrite !natrD !natrM. cring.
Qed.
Lemma zCN a : zC (- a) = - zC a.
Proof. have [a1 [a2 Ea]] := zC_split a. rewrite (@zC_nat a a1 a2) // (@zC_nat (- a)%Z a2 a1); [|lia]. by rewrite opprB. Qed.
Lemma zC_conj a : (zC a)^* = zC a. Proof. by rewrite /Fullchain_model.zC rmorphB !rmorph_nat. Qed.
Lemma zC_real a : zC a \is Num.real. Proof. by rewrite /Fullchain_model.zC rpredB // realn. Qed.
Lemma zC_pos p : zC (Zpos p) = (Pos.to_nat p)%:R. Proof. by rewrite (@zC_nat (Zpos p) (Pos.to_nat p) 0) ?subr0 //; lia. Qed.
Lemma int_ofE z : int_of C z = zC z.
Proof. case: z => [|p|p] /=; [by rewrite zC0|by rewrite zC_pos|]. by rewrite -(zC_pos p) -zCN. Qed.
Lemma zC_ne0 p : zC (Zpos p) != 0. Proof. rewrite zC_pos pnatr_eq0 -lt0n. apply/ltP. lia. Qed.
Lemma four_ne0 : (zC 4 : C) != 0. Proof. exact: zC_ne0. Qed.
Lemma zC2 : zC 2 = 2%:R. Proof. exact: zC_pos. Qed.
Lemma zC4 : zC 4 = 2%:R * 2%:R :> C. Proof. by rewrite zC_pos -natrM. Qed.

(** Four times a constant. *)
Lemma quad_val e q : quad e = Some q -> exists x, const_val C e = Some x /\ zC 4 * x = zC q.
Proof.
  case: e => [c|] //. case: c => //.
  - move=> z [<-]. exists (zC z). split=> //. by rewrite -zCM.
  - move=> n p. rewrite /quad. case: p => [p|[p|[p|p|]|]|] // [<-]; eexists; (split; [reflexivity|]).
    + rewrite mulrCA mulfV ?zC_ne0 // mulr1. done.
    + have -> : zC 4 = zC 2 * zC 2 by rewrite -zCM. rewrite -mulrA [X in _ * X]mulrCA mulfV ?zC_ne0 // mulr1. by rewrite -zCM.
    + by rewrite zC1 invr1 mulr1 -zCM.
Qed.

(** ** Weighted sums *)
Lemma csym_eqbP a b : csym_eqb a b = true <-> a = b.
Proof. case: a => x; case: b => y /=; split=> // H; try (apply Z.eqb_eq in H; by rewrite H); injection H => ->; exact: Z.eqb_refl. Qed.
Lemma wkey_eqbP a b : wkey_eqb a b = true <-> a = b.
Proof.
  case: a => [[[[i j] s] c] f]; case: b => [[[[i' j'] s'] c'] f'] /=. split.
  - case E1: (Z.eqb i i') => //. case E2: (Z.eqb j j') => //. case E3: (csym_eqb s s') => //. case E4: (Z.eqb c c') => // E5.
    apply Z.eqb_eq in E1, E2, E4, E5. apply csym_eqbP in E3. by subst.
  - move=> [-> -> -> -> ->]. have E : csym_eqb s' s' = true by apply csym_eqbP. by rewrite !Z.eqb_refl E.
Qed.
Definition wsum (v : wkey -> C) (L : wlist) : C := \sum_(p <- L) v p.1 * zC p.2.
Lemma wsum_cons v p L : wsum v (p :: L) = v p.1 * zC p.2 + wsum v L. Proof. by rewrite /wsum big_cons. Qed.
Lemma wsum_cat v L M : wsum v (L ++ M) = wsum v L + wsum v M. Proof. by rewrite /wsum big_cat. Qed.
Lemma wsum_nil v : wsum v [::] = 0. Proof. by rewrite /wsum big_nil. Qed.
Lemma pick_key (f : wkey -> C) ks k0 : NoDup ks -> List.In k0 ks -> \sum_(k <- ks) (if wkey_eqb k0 k then f k else 0) = f k0.
Proof.
  elim: ks => [|k ks IH] // Hn Hin. inversion Hn as [|? ? H1 H2]; subst. rewrite big_cons. case E: (wkey_eqb k0 k).
  - apply wkey_eqbP in E. subst k0. have Z : forall l : list wkey, ~ List.In k l -> \sum_(j <- l) (if wkey_eqb k j then f j else 0) = 0.
    { clear. elim=> [|a l IH] H; [by rewrite big_nil|]. rewrite big_cons IH; [|move=> X; apply H; by right].
      case E: (wkey_eqb k a); [|by rewrite addr0]. exfalso. apply H. left. symmetry. by apply wkey_eqbP. }
    rewrite Z //. exact: addr0.
  - rewrite add0r. apply IH => //. case: Hin => [Ek|Hin] //. subst k0. have T : wkey_eqb k k = true by apply wkey_eqbP. congruence.
Qed.
Lemma wsum_weight v ks L : NoDup ks -> (forall p, List.In p L -> List.In p.1 ks) -> wsum v L = \sum_(k <- ks) v k * zC (weight k L).
Proof.
  move=> Hn. elim: L => [|p L IH] H.
  - rewrite wsum_nil. symmetry. apply big1 => k _. by rewrite /= zC0 mulr0.
  - rewrite wsum_cons IH; [|by move=> q Hq; apply H; right].
    rewrite -(@pick_key (fun k => v k * zC p.2) ks p.1 Hn); [|by apply H; left]. rewrite -big_split. apply eq_bigr => k _ /=.
    rewrite zCD [RHS]mulrDr. congr (_ + _). case: (wkey_eqb _ _) => //. by rewrite zC0 mulr0.
Qed.
Lemma wkey_dec (a b : wkey) : {a = b} + {a <> b}.
Proof. case E: (wkey_eqb a b); [left; by apply wkey_eqbP|right=> H; apply wkey_eqbP in H; congruence]. Qed.
Lemma same_weights_sum v a b : same_weights a b = true -> wsum v a = wsum v b.
Proof.
  move=> H. rewrite /same_weights in H. have G := proj1 (List.forallb_forall _ _) H. clear H.
  set ks := List.nodup wkey_dec (List.map fst (a ++ b)).
  have Hn : NoDup ks by apply NoDup_nodup.
  have Ka : forall p, List.In p a -> List.In p.1 ks by move=> p Hp; apply List.nodup_In; apply: List.in_map; apply List.in_or_app; left.
  have Kb : forall p, List.In p b -> List.In p.1 ks by move=> p Hp; apply List.nodup_In; apply: List.in_map; apply List.in_or_app; right.
  rewrite (wsum_weight v ks a Hn Ka) (wsum_weight v ks b Hn Kb).
  have E : forall k, List.In k ks -> weight k a = weight k b.
  { move=> k Hk. apply List.nodup_In in Hk. apply List.in_map_iff in Hk. case: Hk => p [<- Hp]. apply Z.eqb_eq. exact: G p Hp. }
  clearbody ks. clear Ka Kb Hn. elim: ks E => [|k ks IH] E; [by rewrite !big_nil|]. rewrite !big_cons E; [|by left]. congr (_ + _). apply IH => j Hj. apply E. by right.
Qed.
Lemma in_labels n i : in_range n i = true <-> List.In i (labels n).
Proof.
  rewrite /in_range /labels. split.
  - move=> /andP [H1 H2]. apply Z.leb_le in H1. apply Z.leb_le in H2. apply List.in_map_iff. exists (Z.to_nat (i - 1)). split; [lia|]. apply List.in_seq. lia.
  - move=> H. apply List.in_map_iff in H. case: H => k [<- Hk]. apply List.in_seq in Hk. apply/andP; split; apply Z.leb_le; lia.
Qed.
Lemma labels_nodup n : NoDup (labels n).
Proof. apply FinFun.Injective_map_NoDup; [move=> x y; lia|]. exact: List.seq_NoDup. Qed.
Lemma wsum_buckets v n L : (forall p, List.In p L -> in_range n (krow p.1) = true) -> wsum v L = \sum_(i <- labels n) wsum v (bucket i L).
Proof.
  elim: L => [|p L IH] H.
  - rewrite wsum_nil. symmetry. by apply big1.
  - rewrite wsum_cons IH; [|by move=> q Hq; apply H; right].
    have Hin : List.In (krow p.1) (labels n) by apply in_labels; apply H; left.
    have P : forall ls, NoDup ls -> List.In (krow p.1) ls -> v p.1 * zC p.2 + \sum_(i <- ls) wsum v (bucket i L) = \sum_(i <- ls) wsum v (bucket i (p :: L)).
    { have Q : forall ls, ~ List.In (krow p.1) ls -> \sum_(i <- ls) wsum v (bucket i L) = \sum_(i <- ls) wsum v (bucket i (p :: L)).
      { elim=> [|j ls IHl] Hj; [by rewrite !big_nil|]. rewrite !big_cons IHl; [|by move=> X; apply Hj; right]. congr (_ + _). rewrite /bucket /=.
        case E: (Z.eqb _ _) => //. exfalso. apply Hj. left. symmetry. by apply Z.eqb_eq. }
      elim=> [|j ls IHl] Hn Hj //. inversion Hn as [|? ? H1 H2]; subst. rewrite !big_cons. case E: (Z.eqb (krow p.1) j).
      - have Ej := proj1 (Z.eqb_eq _ _) E. subst j. rewrite (Q ls H1) addrA. congr (_ + _). rewrite /bucket /= E. by rewrite wsum_cons.
      - case: Hj => [Ej|Hj]; [subst j; by rewrite Z.eqb_refl in E|]. rewrite addrCA (IHl H2 Hj). congr (_ + _). rewrite /bucket /= E. done. }
    exact: P (labels_nodup n) Hin.
Qed.
Lemma same_buckets_sum v n a b : same_in_buckets n a b = true -> wsum v a = wsum v b.
Proof.
  rewrite /same_in_buckets => /andP [/andP [Ha Hb] H]. rewrite (wsum_buckets v n a (proj1 (List.forallb_forall _ _) Ha)) (wsum_buckets v n b (proj1 (List.forallb_forall _ _) Hb)).
  have G := proj1 (List.forallb_forall _ _) H. elim: (labels n) G => [|i ls IH] G; [by rewrite !big_nil|]. rewrite !big_cons. congr (_ + _).
  - apply same_weights_sum. apply G. by left.
  - apply IH => j Hj. apply G. by right.
Qed.

(** ** Integer matrices *)
Lemma el_app a b i j : el (a ++ b) i j = (el a i j + el b i j)%Z.
Proof. elim: a => [|[[x y] z] a IH] //=. change (cat a b) with (List.app a b) in *. rewrite IH. lia. Qed.
Lemma el_nil i j : el [::] i j = 0%Z. Proof. done. Qed.
Lemma el_tr a i j : el (tr a) i j = el a j i.
Proof. elim: a => [|[[x y] z] a IH] //=. by rewrite IH andbC. Qed.
Lemma el_zero a i j : (forall x y z, List.In (x, y, z) a -> ~ (x = i /\ y = j)) -> el a i j = 0%Z.
Proof.
  elim: a => [|[[x y] z] a IH] H //=. rewrite IH; [|by move=> x' y' z' Hi; apply (H x' y' z'); right]. case E: (Z.eqb x i && Z.eqb y j) => //.
  exfalso. move: E => /andP [E1 E2]. apply Z.eqb_eq in E1. apply Z.eqb_eq in E2. by apply (H x y z); [left|].
Qed.
Lemma same_elP a b : same_el a b = true -> forall i j, el a i j = el b i j.
Proof.
  rewrite /same_el => H i j. have G := proj1 (List.forallb_forall _ _) H.
  case E: (List.existsb (fun r => match r with (x, y, _) => Z.eqb x i && Z.eqb y j end) (a ++ b)).
  - apply List.existsb_exists in E. case: E => [[[x y] z] [Hin E]]. move: E => /andP [E1 E2]. apply Z.eqb_eq in E1. apply Z.eqb_eq in E2. subst. apply Z.eqb_eq. exact: (G _ Hin).
  - have N : forall x y z, List.In (x, y, z) (a ++ b) -> ~ (x = i /\ y = j).
    { move=> x y z Hin [Ex Ey]. subst. have : List.existsb (fun r => match r with (x, y, _) => Z.eqb x i && Z.eqb y j end) (a ++ b) = true; [|congruence].
      apply List.existsb_exists. exists (i, j, z). by rewrite !Z.eqb_refl. }
    rewrite !el_zero //; move=> x y z Hin; apply (N x y z); apply List.in_or_app; auto.
Qed.
Lemma el_ident n i j : el (ident n) i j = (if Z.eqb i j && in_range n i then 1 else 0)%Z.
Proof.
  rewrite /ident. have G : forall ls, NoDup ls -> el (List.map (fun i => (i, i, 1%Z)) ls) i j = (if Z.eqb i j then if List.existsb (Z.eqb i) ls then 1 else 0 else 0)%Z.
  { elim=> [|k ls IH] Hn /=; [by case: (Z.eqb i j)|]. inversion Hn as [|? ? H1 H2]; subst. rewrite IH //. case E: (Z.eqb i j).
    - apply Z.eqb_eq in E. subst j. case E1: (Z.eqb k i) => /=.
      + apply Z.eqb_eq in E1. subst k. rewrite Z.eqb_refl /=. case E2: (List.existsb _ ls) => //. exfalso. apply H1. apply List.existsb_exists in E2. case: E2 => x [Hx E2]. apply Z.eqb_eq in E2. by subst.
      + by rewrite Z.eqb_sym E1.
    - case E1: (Z.eqb k i) => //=. case E2: (Z.eqb k j) => //=. apply Z.eqb_eq in E1. apply Z.eqb_eq in E2. subst. by rewrite Z.eqb_refl in E. }
  rewrite G; [|exact: labels_nodup]. case: (Z.eqb i j) => //=. case E: (in_range n i).
  - have E' := proj1 (in_labels _ _) E. have -> : List.existsb (Z.eqb i) (labels n) = true; [|done]. apply List.existsb_exists. exists i. by rewrite Z.eqb_refl.
  - case E2: (List.existsb _ _) => //. apply List.existsb_exists in E2. case: E2 => x [Hx E2]. apply Z.eqb_eq in E2. subst x. apply in_labels in Hx. congruence.
Qed.
Lemma el_mul_row i j x b k l : el (List.flat_map (fun s => match (i, j, x), s with (i, j, x), (k, l, y) => if Z.eqb j k then [:: (i, l, Z.mul x y)] else [::] end) b) k l
  = (if Z.eqb i k then x * el b j l else 0)%Z.
Proof.
  elim: b => [|[[u w] y] b IH] //=; [by case: (Z.eqb i k); lia|].
  rewrite el_app IH (Z.eqb_sym u j). case: (Z.eqb j u) => /=; case: (Z.eqb i k) => /=; try (case: (Z.eqb w l)); lia.
Qed.
Lemma el_mul (n : nat) a b i l : (forall x y z, List.In (x, y, z) a -> in_range n y = true) ->
  zC (el (mul a b) i l) = \sum_(k < n) zC (el a i (Z.of_nat (S k))) * zC (el b (Z.of_nat (S k)) l).
Proof.
  elim: a => [|[[x y] z] a IH] H.
  - rewrite /= zC0. symmetry. apply big1 => k _. by rewrite ?zC0 mul0r.
  - have -> : mul ((x, y, z) :: a) b = List.app (List.flat_map (fun s => match (x, y, z), s with (i, j, x), (k, l, y) => if Z.eqb j k then [:: (i, l, Z.mul x y)] else [::] end) b) (mul a b) by [].
    rewrite el_app zCD IH; [|by move=> x' y' z' Hi; apply (H x' y' z'); right]. rewrite el_mul_row.
    have Ry : in_range n y = true by apply (H x y z); left.
    move: Ry => /andP [R1 R2]. apply Z.leb_le in R1. apply Z.leb_le in R2.
    have Hk : (Z.to_nat (y - 1) < n)%N by apply/ltP; lia.
    have -> : zC (if Z.eqb x i then z * el b y l else 0)%Z = \sum_(k < n) zC (if Z.eqb x i && Z.eqb y (Z.of_nat (S k)) then z else 0)%Z * zC (el b (Z.of_nat (S k)) l).
    { rewrite (bigD1 (Ordinal Hk)) //= big1.
      - have -> : Z.eqb y (Z.pos (Pos.of_succ_nat (Z.to_nat (y - 1)))) = true by apply Z.eqb_eq; lia. rewrite andbT addr0 -zCM.
        have -> : Z.pos (Pos.of_succ_nat (Z.to_nat (y - 1))) = y by lia. by case: (Z.eqb x i).
      - move=> k Hne. case E: (Z.eqb y _); [|by rewrite andbF zC0 mul0r]. exfalso. apply Z.eqb_eq in E. move/eqP: Hne => Hne. apply Hne. apply: val_inj => /=. lia. }
    rewrite -big_split. apply eq_bigr => k _ /=. by rewrite -mulrDl -zCD.
Qed.

(** ** Rows of a sector *)
Lemma sum_add (m n : nat) (G : nat -> C) : \sum_(p < Nat.add m n) G p = \sum_(p < m) G p + \sum_(p < n) G (Nat.add m p).
Proof. change (Nat.add m n) with (m + n)%N. by rewrite big_split_ord. Qed.
Lemma sum_rows_upto (d : list Z) (Hd : good d) (G : nat -> C) k : \sum_(p < offn d k) G p = \sum_(l < k) \sum_(a < bsize d l) G (row d l a).
Proof.
  elim: k => [|k IH]; [by rewrite /offn /= !big_ord0|]. rewrite (off_S d Hd) sum_add IH big_ord_recr /=. congr (_ + _).
Qed.
Lemma sum_rows (d : list Z) (Hd : good d) (G : nat -> C) : \sum_(p < Z.to_nat (zsum d)) G p = \sum_(l < List.length d) \sum_(a < bsize d l) G (row d l a).
Proof. rewrite -(sum_rows_upto d Hd). by rewrite /offn List.firstn_all. Qed.
End Sums.
