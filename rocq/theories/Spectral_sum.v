(** Sum rules of the full-density-matrix spectral functions of scalar operators. *)
From Coq Require Import List ZArith Lia Permutation Ring.
From Verif Require Import Cring Base Invar_model Invar_spec Invar_proofs Symmetry_model Symmetry_spec Symmetry_tables Symmetry_proofs
  Subspaces_model Subspaces_spec Subspaces_proofs Subspaces_step Density_struct Density_model Density_spec Density_sums Density_proofs Density_chain Density_fdm Density_expect
  Spectral_model Spectral_spec Spectral_proofs.
From mathcomp Require Import ssreflect ssrfun ssrbool eqtype ssrnat seq choice fintype bigop ssralg order ssrnum matrix.
Import GRing.Theory Num.Theory.
Local Open Scope ring_scope.
Set Implicit Arguments.
Unset Strict Implicit.
Unset Printing Implicit Defensive.

(** Orthonormal rows of a square matrix: the columns are orthonormal too. *)
Lemma columns_of_rows (C : numClosedFieldType) (T : finType) (n : nat) (f : 'I_n -> T -> C) : #|T| = n ->
  (forall a b, \sum_t (f a t)^* * f b t = (a == b)%:R) -> forall t t', \sum_(a < n) (f a t)^* * f a t' = (t == t')%:R.
Proof.
  move=> En. subst n. move=> H t t'.
  pose M : 'M[C]_#|T| := \matrix_(a, k) f a (enum_val k).
  pose Mh : 'M[C]_#|T| := \matrix_(k, a) (f a (enum_val k))^*.
  have E : M *m Mh = 1%:M.
  { apply/matrixP => a b. rewrite !mxE. rewrite (reindex_onto enum_rank enum_val) /=; last by move=> k _; exact: enum_valK.
    rewrite -[RHS](_ : (b == a)%:R = _); last by rewrite eq_sym. rewrite -H. apply: eq_big => [x|x _]; first by rewrite enum_rankK eqxx.
    by rewrite !mxE enum_rankK mulrC. }
  have /matrixP /(_ (enum_rank t) (enum_rank t')) := mulmx1C E. rewrite !mxE => E2.
  have -> : (t == t') = (enum_rank t == enum_rank t') by rewrite (inj_eq enum_rank_inj).
  rewrite -E2. apply: eq_bigr => a _. by rewrite !mxE !enum_rankK.
Qed.

Lemma big_list_nat {A} (l : list A) (F : A -> nat) (d : A) : (\sum_(x <- l) F x = \sum_(i < List.length l) F (List.nth i l d))%N.
Proof. elim: l => [|a l IH] /=; first by rewrite big_nil big_ord0. by rewrite big_cons big_ord_recl /= IH. Qed.

Section Complete.
  Variable C : numClosedFieldType.
  Notation nthU e p := (List.nth p (e_U e) (nil_mat C)).
  Lemma complete e : orthonormal_rows e -> square e -> forall (p q : nat) (s t : nat), (p < List.length (e_U e))%N -> (q < List.length (e_U e))%N ->
    (s < f_cols (nthU e p))%N -> (t < f_cols (nthU e q))%N ->
    \sum_(a < e_nrstored e) (f_el (nthU e p) a s)^* * f_el (nthU e q) a t = ((p == q) && (s == t))%:R.
  Proof.
    move=> Ho Hs p q s t Hp Hq Hst Htt.
    pose k := List.length (e_U e). pose T := {i : 'I_k & 'I_(f_cols (nthU e i))}.
    pose f (a : 'I_(e_nrstored e)) (x : T) : C := f_el (nthU e (tag x)) a (tagged x).
    have Hc : #|[finType of T]| = e_nrstored e.
    { rewrite -Hs card_tagged sumnE big_map big_enum /=. rewrite (big_list_nat _ _ (nil_mat C)) /=. apply: eq_bigr => i _. by rewrite card_ord. }
    have H : forall a b, \sum_x (f a x)^* * f b x = (a == b)%:R.
    { move=> a b. have E := Ho a b (ltn_ord a) (ltn_ord b). rewrite (_ : (a == b) = (nat_of_ord a == nat_of_ord b)) // -E.
      rewrite (big_list_ord _ _ (nil_mat C)) sig_big_dep /=. apply: eq_big => // -[i j] _ //. }
    have := columns_of_rows Hc H (Tagged (fun i : 'I_k => 'I_(f_cols (nthU e i))) (Ordinal Hst : 'I_(f_cols (nthU e (Ordinal Hp : 'I_k))))) (Tagged (fun i : 'I_k => 'I_(f_cols (nthU e i))) (Ordinal Htt : 'I_(f_cols (nthU e (Ordinal Hq : 'I_k))))).
    move=> ->. congr (nat_of_bool _)%:R. apply/eqP/andP.
    - move=> E. have E1 := congr1 (fun x : T => (val (tag x), val (tagged x))) E. case: E1 => -> ->. by rewrite !eqxx.
    - case=> /eqP E1 /eqP E2. subst q t. by rewrite (bool_irrelevance Hq Hp) (bool_irrelevance Htt Hst).
  Qed.
End Complete.

(** Sums over a complete set of vectors distributed over blocks. *)
Lemma block_pairing (C : numClosedFieldType) (K n : nat) (c : nat -> nat) (u : nat -> nat -> nat -> C) (x y : nat -> nat -> C) :
  (forall p q s t, (p < K)%N -> (q < K)%N -> (s < c p)%N -> (t < c q)%N -> \sum_(a < n) (u p a s)^* * u q a t = ((p == q) && (s == t))%:R) ->
  \sum_(a < n) (\sum_(i < K) \sum_(s < c i) (u i a s)^* * x i s) * (\sum_(i < K) \sum_(s < c i) u i a s * y i s) = \sum_(i < K) \sum_(s < c i) x i s * y i s.
Proof.
  move=> H.
  transitivity (\sum_(a < n) \sum_(i < K) \sum_(s < c i) \sum_(k < K) \sum_(t < c k) ((u i a s)^* * u k a t) * (x i s * y k t)).
  { apply: eq_bigr => a _. rewrite mulr_suml. apply: eq_bigr => i _. rewrite mulr_suml. apply: eq_bigr => s _. rewrite mulr_sumr. apply: eq_bigr => k _.
    rewrite mulr_sumr. apply: eq_bigr => t _. by rewrite mulrACA. }
  rewrite exchange_big /=. apply: eq_bigr => i _. rewrite exchange_big /=. apply: eq_bigr => s _. rewrite exchange_big /=.
  rewrite (bigD1 i) //= [X in _ + X]big1 ?addr0.
  - rewrite exchange_big /= (bigD1 s) //= [X in _ + X]big1 ?addr0.
    + by rewrite -mulr_suml H // !eqxx mul1r.
    + move=> t Ht. rewrite -mulr_suml H // eqxx /=. by rewrite eq_sym (negbTE Ht : (nat_of_ord t == s) = false) mul0r.
  - move=> k Hk. rewrite exchange_big /=. apply: big1 => t _. rewrite -mulr_suml H //. by rewrite eq_sym (negbTE Hk : (nat_of_ord k == i) = false) mul0r.
Qed.

Section Carried.
  Variable C : numClosedFieldType.
  Variable sh : shipped_table.
  Hypothesis Hsh : In sh shipped.
  Variables (prev cur : backsubs) (diag : diaginfo C).
  Hypothesis Hs : sound sh prev.
  Hypothesis Hreg : regular_step sh prev cur diag.
  Notation combs := (sh_combs sh).
  Variable kf : invar -> nat.
  Hypothesis Hkf : forall J b, In (J, b) prev -> kf J = b_kept b.

  Lemma U_complete J e : In (J, e) diag -> square e -> forall p q s t, (p < combs)%N -> (q < combs)%N -> (s < rm cur J p)%N -> (t < rm cur J q)%N ->
    \sum_(a < e_nrstored e) (f_el (Ub diag J p) a s)^* * f_el (Ub diag J q) a t = ((p == q) && (s == t))%:R.
  Proof.
    move=> He Hsq p q s t Hp Hq Hst Htt. case: (Hs) => S1 [S2 S3].
    have HJ : In J (List.map fst cur) by rewrite -(diag_keys Hreg); apply/in_map_iff; exists (J, e).
    case: (lookup_key HJ) => c Ec. have Hc := lookup_Some Ec. case: (cur_sector Hsh S1 S2 S3 Hreg Hc) => _ [Hl _].
    have [Hmap Ho] : List.map (fun u => Z.of_nat (f_cols u)) (e_U e) = b_rmax c /\ orthonormal_rows e.
    { case: Hreg => st [infos [_ [_ [_ [_ [_ /(_ J e c He Hc)]]]]]] [_ [Hm [_ Ho]]]. by split. }
    have HlU : List.length (e_U e) = combs by rewrite -(List.map_length (fun u => Z.of_nat (f_cols u))) Hmap Hl.
    have [_ [_ Cp]] := Ub_ok Hsh S1 S2 S3 Hreg He Hp. have [_ [_ Cq]] := Ub_ok Hsh S1 S2 S3 Hreg He Hq.
    have EU : forall i, Ub diag J i = List.nth i (e_U e) (nil_mat C) by move=> i; rewrite /Ub (lookup_In (diag_nodup Hreg) He).
    rewrite !EU in Cp Cq *. rewrite complete ?HlU // ?Cp ?Cq //.
  Qed.
  Lemma kf_rm J (i : 'I_combs) : In J (List.map fst cur) -> rm cur J i <> 0%N -> kf (an sh i J) = rm cur J i.
  Proof.
    case: (Hs) => S1 [S2 S3] HJ Hne. case: (rm_anc Hsh S1 S2 S3 Hreg HJ (ltn_ord i) Hne) => /in_map_iff [[K b] [/= E Hb]] <-.
    rewrite -E in Hb *. by rewrite (kp_In S1 Hb); apply: Hkf.
  Qed.

  Lemma image_dagger_times A B J e a b : In (J, e) diag -> square e ->
    \sum_(j < e_nrstored e) (Density_proofs.image sh cur diag A J j b)^* * Density_proofs.image sh cur diag B J j a
    = Density_proofs.image sh cur diag (dagger_times kf A B) J b a.
  Proof.
    move=> He Hsq. rewrite /Density_proofs.image.
    have HJ : In J (List.map fst cur) by rewrite -(diag_keys Hreg); apply/in_map_iff; exists (J, e).
    pose x (i s : nat) := \sum_(r < rm cur J i) (A (an sh i J) s r)^* * f_el (Ub diag J i) b r.
    pose y (i s : nat) := \sum_(r < rm cur J i) B (an sh i J) s r * (f_el (Ub diag J i) a r)^*.
    transitivity (\sum_(j < e_nrstored e) (\sum_(i < combs) \sum_(s < rm cur J i) (f_el (Ub diag J i) j s)^* * x i s) * (\sum_(i < combs) \sum_(s < rm cur J i) f_el (Ub diag J i) j s * y i s)).
    { apply: eq_bigr => j _. congr (_ * _).
      - rewrite rmorph_sum. apply: eq_bigr => i _. rewrite rmorph_sum. apply: eq_bigr => s _. rewrite rmorph_sum /x mulr_sumr. apply: eq_bigr => r _.
        by rewrite !rmorphM /= conjCK mulrA.
      - apply: eq_bigr => i _. apply: eq_bigr => s _. rewrite /y mulr_sumr. apply: eq_bigr => r _. by rewrite mulrA. }
    rewrite (@block_pairing C combs (e_nrstored e) (fun i => rm cur J i) (fun i => f_el (Ub diag J i)) x y (U_complete He Hsq)). apply: eq_bigr => i _. rewrite /dagger_times.
    case: (posnP (rm cur J i)) => [->|Hpos]; first by rewrite !big_ord0.
    rewrite (kf_rm HJ) //; last by move=> E; rewrite E in Hpos.
    transitivity (\sum_(r < rm cur J i) \sum_(r' < rm cur J i) \sum_(s < rm cur J i) f_el (Ub diag J i) b r * ((A (an sh i J) s r)^* * B (an sh i J) s r') * (f_el (Ub diag J i) a r')^*).
    - rewrite /x /y. under eq_bigr do rewrite mulr_suml. rewrite exchange_big /=. apply: eq_bigr => r _.
      under eq_bigr do rewrite mulr_sumr. rewrite exchange_big /=. apply: eq_bigr => r' _. apply: eq_bigr => s _.
      by rewrite !mulrA; congr (_ * _ * _); rewrite mulrC.
    - apply: eq_bigr => r _. apply: eq_bigr => r' _. by rewrite mulr_sumr mulr_suml.
  Qed.
  Lemma image_times_dagger A B J e a b : In (J, e) diag -> square e ->
    \sum_(i < e_nrstored e) Density_proofs.image sh cur diag B J b i * (Density_proofs.image sh cur diag A J a i)^*
    = Density_proofs.image sh cur diag (times_dagger kf A B) J b a.
  Proof.
    move=> He Hsq. rewrite /Density_proofs.image.
    have HJ : In J (List.map fst cur) by rewrite -(diag_keys Hreg); apply/in_map_iff; exists (J, e).
    pose x (i r : nat) := \sum_(s < rm cur J i) f_el (Ub diag J i) b s * B (an sh i J) s r.
    pose y (i r : nat) := \sum_(s < rm cur J i) (f_el (Ub diag J i) a s * A (an sh i J) s r)^*.
    transitivity (\sum_(j < e_nrstored e) (\sum_(i < combs) \sum_(s < rm cur J i) (f_el (Ub diag J i) j s)^* * x i s) * (\sum_(i < combs) \sum_(s < rm cur J i) f_el (Ub diag J i) j s * y i s)).
    { apply: eq_bigr => j _. congr (_ * _).
      - apply: eq_bigr => i _. rewrite exchange_big /=. apply: eq_bigr => s _. rewrite /x mulr_sumr. apply: eq_bigr => r _. by rewrite mulrC.
      - rewrite rmorph_sum. apply: eq_bigr => i _. rewrite rmorph_sum /=. under eq_bigr do rewrite rmorph_sum /=. rewrite exchange_big /=. apply: eq_bigr => s _.
        rewrite /y mulr_sumr. apply: eq_bigr => r _. by rewrite [in LHS]rmorphM /= conjCK mulrC. }
    rewrite (@block_pairing C combs (e_nrstored e) (fun i => rm cur J i) (fun i => f_el (Ub diag J i)) x y (U_complete He Hsq)). apply: eq_bigr => i _. rewrite /times_dagger.
    case: (posnP (rm cur J i)) => [->|Hpos]; first by rewrite !big_ord0.
    rewrite (kf_rm HJ) //; last by move=> E; rewrite E in Hpos.
    transitivity (\sum_(s < rm cur J i) \sum_(s' < rm cur J i) \sum_(r < rm cur J i) f_el (Ub diag J i) b s * (B (an sh i J) s r * (A (an sh i J) s' r)^*) * (f_el (Ub diag J i) a s')^*).
    - rewrite /x /y. under eq_bigr do rewrite mulr_suml. rewrite exchange_big /=. apply: eq_bigr => s _.
      under eq_bigr do rewrite mulr_sumr. rewrite exchange_big /=. apply: eq_bigr => s' _. apply: eq_bigr => r _.
      by rewrite rmorphM /= -!mulrA; congr (_ * (_ * _)); rewrite mulrC.
    - apply: eq_bigr => s _. apply: eq_bigr => s' _. by rewrite mulr_sumr mulr_suml.
  Qed.
End Carried.

(** *** Totals of one sector *)
Section Totals.
  Variable C : numClosedFieldType.
  Add Ring Cr : (field_ring C).

  Lemma big_perm_list {T} (l l' : list T) (F : T -> C) : Permutation l l' -> \sum_(x <- l) F x = \sum_(x <- l') F x.
  Proof. elim=> [|x m m' _ IH|x y m|m m' m'' _ -> _ ->] //; rewrite !big_cons ?IH // addrCA. by []. Qed.
  Lemma big_app {T} (l l' : list T) (F : T -> C) : \sum_(x <- (l ++ l')%list) F x = \sum_(x <- l) F x + \sum_(x <- l') F x.
  Proof. elim: l => [|x l IH] /=; first by rewrite big_nil add0r. by rewrite !big_cons IH addrA. Qed.
  Lemma big_lfilter {T} (l : list T) (P : T -> bool) (F : T -> C) : \sum_(x <- List.filter P l) F x = \sum_(x <- l) (if P x then F x else 0).
  Proof. elim: l => [|x l IH] /=; first by rewrite !big_nil. rewrite big_cons. case: (P x); by rewrite ?big_cons IH ?add0r. Qed.
  Lemma big_lseq k n (F : nat -> C) : \sum_(x <- List.seq k n) F x = \sum_(i < n) F (k + i)%N.
  Proof. elim: n k => [|n IH] k /=; first by rewrite big_nil big_ord0. rewrite big_cons IH big_ord_recl addn0. congr (_ + _). apply: eq_bigr => i _. by rewrite /= addSn addnS. Qed.
  Lemma big_all_pairs n m (F : nat * nat -> C) : \sum_(x <- all_pairs n m) F x = \sum_(j < n) \sum_(i < m) F (nat_of_ord j, nat_of_ord i).
  Proof.
    rewrite /all_pairs -loop2_prod /loop2. transitivity (\sum_(j <- List.seq 0 n) \sum_(i <- List.seq 0 m) F (j, i)).
    - elim: (List.seq 0 n) => [|j l IH] /=; first by rewrite !big_nil. by rewrite big_app IH big_cons big_lmap.
    - rewrite big_lseq. apply: eq_bigr => j _. by rewrite big_lseq.
  Qed.
  Lemma big_transitions n k (F : nat -> nat -> C) : (k <= n)%N ->
    \sum_(x <- transitions n n k k) F (fst x) (snd x) = \sum_(j < n) \sum_(i < n) F j i - \sum_(j < k) \sum_(i < k) F j i.
  Proof.
    move=> Hk. rewrite /transitions big_lfilter big_all_pairs /=. apply/eqP. rewrite eq_sym subr_eq eq_sym. apply/eqP.
    rewrite (big_ord_widen n (fun j => \sum_(i < k) F j i) Hk) [X in _ + X]big_mkcond /= -big_split /=. apply: eq_bigr => j _.
    case: ifP => Hj /=; last by rewrite addr0.
    rewrite (big_ord_widen n (fun i => F j i) Hk) [X in _ + X]big_mkcond /= -big_split /=. apply: eq_bigr => i _.
    by case: (i < k)%N; rewrite /= ?addr0 ?add0r.
  Qed.

  (** Trace of a product with the density matrix of a shell. *)
  Lemma shell_trace n k (rho : nat -> nat -> C) w (O : nat -> nat -> C) : (k <= n)%N ->
    \sum_(r < n) \sum_(s < n) shell_matrix k rho w r s * O s r = \sum_(r < k) \sum_(s < k) rho r s * O s r + \sum_(k <= i < n) w i * O i i.
  Proof.
    move=> Hk. rewrite (big_ord_widen n (fun r => \sum_(s < k) rho r s * O s r) Hk) big_geq_mkord [X in X + _]big_mkcond [X in _ + X]big_mkcond /= -big_split /=.
    apply: eq_bigr => r _. case: (ltnP r k) => Hr.
    - rewrite addr0. exact: (@sum_shell_row C n k rho w (fun s => O s r) r Hk Hr).
    - rewrite add0r. exact: (@sum_shell_row_D C n k rho w (fun s => O s r) r Hr (ltn_ord r)).
  Qed.

  Lemma greater_sum n m f E E' A B R : \sum_(j < m) \sum_(i < n) snd (@greater C f E E' n A B R (nat_of_ord j, nat_of_ord i)) =
    f * \sum_(r < n) \sum_(s < n) R r s * \sum_(j < m) (A j s)^* * B j r.
  Proof.
    rewrite /greater /=. under eq_bigr do rewrite -mulr_sumr. rewrite -mulr_sumr. congr (_ * _).
    rewrite exchange_big /= [RHS]exchange_big /=. apply: eq_bigr => i _. under [in RHS]eq_bigr do rewrite mulr_sumr. rewrite [RHS]exchange_big /=.
    apply: eq_bigr => j _. rewrite mulr_sumr. apply: eq_bigr => l _. cnorm C. ring.
  Qed.
  Lemma lesser_sum n m s0 f E E' A B R : \sum_(j < n) \sum_(i < m) snd (@lesser C s0 f E E' n A B R (nat_of_ord j, nat_of_ord i)) =
    f * (- s0 * \sum_(r < n) \sum_(s < n) R r s * \sum_(i < m) B s i * (A r i)^*).
  Proof.
    rewrite /lesser /=. under eq_bigr do rewrite -mulr_sumr -mulr_sumr. rewrite -!mulr_sumr. congr (_ * (_ * _)).
    apply: eq_bigr => r _. under [in RHS]eq_bigr do rewrite mulr_sumr. rewrite [RHS]exchange_big /=.
    apply: eq_bigr => j _. rewrite mulr_sumr. apply: eq_bigr => l _. cnorm C. ring.
  Qed.

  Lemma sector_gt n k f E E' A B rho w : (k <= n)%N ->
    \sum_(x <- transitions n n k k) snd (@greater C f E E' n A B (shell_matrix k rho w) x) =
    f * (\sum_(r < k) \sum_(s < k) rho r s * (\sum_(j < n) (A j s)^* * B j r) + \sum_(k <= i < n) w i * (\sum_(j < n) (A j i)^* * B j i)
      - \sum_(r < k) \sum_(s < k) rho r s * (\sum_(j < k) (A j s)^* * B j r)).
  Proof.
    move=> Hk. pose G j i := snd (@greater C f E E' n A B (shell_matrix k rho w) (j, i)).
    transitivity (\sum_(x <- transitions n n k k) G (fst x) (snd x)); first by apply: eq_bigr => -[j i] _.
    rewrite big_transitions // /G greater_sum (@shell_trace n k rho w (fun s r => \sum_(j < n) (A j s)^* * B j r)) //. rewrite mulrBr. congr (_ - _).
    rewrite -(greater_sum k k f E E' A B rho). apply: eq_bigr => j _. apply: eq_bigr => i _. rewrite /greater /=.
    by rewrite (@sum_shell_col C n k rho w (B j) i Hk (ltn_ord i)).
  Qed.
  Lemma sector_ls n k s0 f E E' A B rho w : (k <= n)%N ->
    \sum_(x <- transitions n n k k) snd (@lesser C s0 f E E' n A B (shell_matrix k rho w) x) =
    f * (- s0 * (\sum_(r < k) \sum_(s < k) rho r s * (\sum_(i < n) B s i * (A r i)^* ) + \sum_(k <= j < n) w j * (\sum_(i < n) B j i * (A j i)^* )
      - \sum_(r < k) \sum_(s < k) rho r s * (\sum_(i < k) B s i * (A r i)^* ))).
  Proof.
    move=> Hk. pose G j i := snd (@lesser C s0 f E E' n A B (shell_matrix k rho w) (j, i)).
    transitivity (\sum_(x <- transitions n n k k) G (fst x) (snd x)); first by apply: eq_bigr => -[j i] _.
    rewrite big_transitions // /G lesser_sum (@shell_trace n k rho w (fun s r => \sum_(i < n) B s i * (A r i)^* )) // !mulrBr. congr (_ - _).
    rewrite -(lesser_sum k k s0 f E E' A B rho). apply: eq_bigr => j _. apply: eq_bigr => i _. rewrite /lesser /=.
    by rewrite (@sum_shell_row C n k rho w (fun l => B l i) j Hk (ltn_ord j)).
  Qed.
End Totals.

(** *** The whole chain *)
Section Chain.
  Variable C : numClosedFieldType.
  Variable sh : shipped_table.
  Notation sy := (sh_sym sh).
  Notation combs := (sh_combs sh).
  Notation mmC := (mm C sh).
  Add Ring Cr : (field_ring C).
  Variables (near : C -> C -> bool) (checkrho : bool) (tiny : C -> bool).
  Hypothesis near_refl : forall x, near x x.
  Variables (Ninit Nmax : nat) (df : nat -> diaginfo C) (sa : nat -> backsubs) (store : nat -> thermosubs C) (wn : nat -> C).
  Hypothesis Hfp : first_pass sh Ninit Nmax df sa.
  Hypothesis Hfd : fdm_data Ninit Nmax df sa store wn.
  Variables (bz : C -> C) (wnf : nat -> C) (E : nat -> invar -> nat -> C).
  Hypothesis Hcd : complete_data sh Ninit Nmax df sa store wn bz wnf E.
  Variable l : list (nat * densmat C).
  Hypothesis El : prepare_rhoFDM sy combs (sh_tab sh) near checkrho df sa store wn tiny Ninit Nmax = Ok l.
  Let Hsh : In sh shipped := proj1 Hfp.
  Notation lastN N := (N == (Nmax - 1)%N).

  Lemma saved N rho : In (N, rho) l -> weighted_matrix sh Nmax (sa N) (store N) (later_weight Nmax wn N) N rho.
  Proof.
    case: (prepare_rhoFDM_ok Hsh checkrho tiny near_refl Hfp Hfd) => l' [E' [_ H]]. move: E'. rewrite El => -[EL]. rewrite EL. exact: H.
  Qed.
  Lemma store_nodup N : (Ninit <= N < Nmax)%N -> NoDup (List.map fst (store N)).
  Proof. move=> HN. case: Hfd => H _. rewrite (H _ HN). by case: (first_pass_sound Hsh Hfp HN). Qed.
  Lemma nodup_fun {T} (m : list (invar * T)) J a b : NoDup (List.map fst m) -> In (J, a) m -> In (J, b) m -> a = b.
  Proof. move=> Hn Ha Hb. have := lookup_In Hn Ha. by rewrite (lookup_In Hn Hb) => -[]. Qed.

  Lemma saved_matrix N rho J x : (Ninit <= N < Nmax)%N -> In (N, rho) l -> In (J, x) (store N) ->
    exists M, lookup rho J = Some M /\ f_cols M = f_rows M /\ f_rows M = (if lastN N then th_dim x else th_kept x).
  Proof.
    move=> HN Hin Hx. case: (saved Hin) => _ [Hn [Hk Hm]]. have HJ : In J (List.map fst rho).
    { rewrite Hk. case: Hfd => H _. rewrite -(H _ HN). by apply/in_map_iff; exists (J, x). }
    case: (lookup_key HJ) => M EM. exists M. split=> //. case: (Hm _ _ (lookup_Some EM)) => Hr [Hc _]. split=> //.
    case: ifP Hr => _.
    - move=> [x' [Hx' ->]]. by rewrite (nodup_fun (store_nodup HN) Hx Hx').
    - move=> [b [Hb ->]]. case: Hcd => H _. case: (H _ _ _ HN Hx) => _ [Hb' _]. exact: Hb'.
  Qed.
  Lemma saved_keys N rho : (Ninit <= N < Nmax)%N -> In (N, rho) l -> NoDup (List.map fst rho) /\ List.map fst rho = List.map fst (store N).
  Proof. move=> HN Hin. case: (saved Hin) => _ [Hn [Hk _]]. split=> //. rewrite Hk. by case: Hfd => H _; rewrite (H _ HN). Qed.

  Lemma expectation_store N rho O : (Ninit <= N < Nmax)%N -> In (N, rho) l ->
    expectation sy rho O = \sum_(p <- store N) mmC (fst p) * match lookup rho (fst p) with
      | Some M => \sum_(r < f_rows M) \sum_(s < f_rows M) f_el M r s * O (fst p) s r | None => 0 end.
  Proof.
    move=> HN Hin. case: (saved_keys HN Hin) => Hn Hk. rewrite /expectation.
    rewrite (big_lookup (fun J o => mmC J * match o with Some M => \sum_(r < f_rows M) \sum_(s < f_rows M) f_el M r s * O J s r | None => 0 end) Hn).
    by rewrite Hk big_lmap.
  Qed.
  Definition weight N (x : thermosub C) (i : nat) : C := wn N * th_boltz x i / Zsum sh store N.
  Lemma Zsum_spec N : (Ninit <= N < Nmax)%N ->
    \sum_(p <- store N) \sum_(discarded_from (lastN N) (snd p) <= i < th_dim (snd p)) zc C (degeneracy sy (fst p)) * th_boltz (snd p) i = Zsum sh store N.
  Proof. move=> HN. apply: eq_big_In => -[J x] Hin /=. by rewrite (min_spec Hfd HN Hin). Qed.
  Lemma thermal_store N O : (Ninit <= N < Nmax)%N ->
    Density_spec.thermal sy (lastN N) (store N) (wn N) O = \sum_(p <- store N) mmC (fst p) * \sum_(discarded_from (lastN N) (snd p) <= i < th_dim (snd p)) weight N (snd p) i * O (fst p) i i.
  Proof.
    move=> HN. rewrite /Density_spec.thermal (Zsum_spec HN) mulr_sumr mulr_suml. apply: eq_bigr => p _. rewrite !mulr_sumr mulr_suml. apply: eq_bigr => i _.
    rewrite /weight /mm. cnorm C. ring.
  Qed.

  Lemma shell_total N rho (O O' : invar -> nat -> nat -> C) : (Ninit <= N < Nmax)%N -> In (N, rho) l ->
    \sum_(p <- store N) mmC (fst p) * match lookup rho (fst p) with
      | Some M => \sum_(r < discarded_from (lastN N) (snd p)) \sum_(s < discarded_from (lastN N) (snd p)) f_el M r s * O (fst p) s r
          + \sum_(discarded_from (lastN N) (snd p) <= i < th_dim (snd p)) weight N (snd p) i * O (fst p) i i
          - \sum_(r < discarded_from (lastN N) (snd p)) \sum_(s < discarded_from (lastN N) (snd p)) f_el M r s * O' (fst p) s r
      | None => 0 end
    = shell_average sy (lastN N) rho (store N) (wn N) O - (if lastN N then 0 else expectation sy rho O').
  Proof.
    move=> HN Hin. rewrite /shell_average (thermal_store _ HN) !(expectation_store _ HN Hin).
    case: (boolP (lastN N)) => HL.
    - rewrite add0r subr0. apply: eq_big_In => -[J x] Hx /=. case: (saved_matrix HN Hin Hx) => M [-> _]. congr (_ * _). by rewrite !big_ord0 add0r subr0.
    - rewrite -big_split -sumrN -big_split /=. apply: eq_big_In => -[J x] Hx /=. case: (saved_matrix HN Hin Hx) => M [-> [_ ->]]. by rewrite (negbTE HL) !mulrDr mulrN.
  Qed.

  Lemma sector_average N (calc : args C -> res (list (peak C))) (T : args C -> list (peak C)) A B :
    (forall p, In p (store N) -> calc (scalar_args sy (E N) A B p) = Ok (T (scalar_args sy (E N) A B p))) ->
    exists ps, shell_peaks sy calc (E N) A B (store N) = Ok ps /\ total_weight ps = \sum_(p <- store N) total_weight (T (scalar_args sy (E N) A B p)).
  Proof.
    move=> H. rewrite /shell_peaks. elim: (store N) H => [|p m IH] H /=.
    - exists nil. by rewrite /total_weight !big_nil.
    - rewrite H /=; last by left. case: IH => [q Hq|ps [-> Eps]]; first by apply: H; right. eexists. split; first by reflexivity.
      by rewrite /total_weight big_app big_cons -Eps.
  Qed.

  Lemma scalar_fits N J x A B : (Ninit <= N < Nmax)%N -> In (J, x) (store N) -> fits (scalar_args sy (E N) A B (J, x)).
  Proof. move=> HN Hx. case: Hcd => H _. by case: (H _ _ _ HN Hx) => Hk _. Qed.
  Lemma scalar_matrix N rho J x A B : (Ninit <= N < Nmax)%N -> In (N, rho) l -> In (J, x) (store N) ->
    exists M, lookup rho J = Some M /\ matrix_for rho J (a_i (scalar_args sy (E N) A B (J, x))) M.
  Proof.
    move=> HN Hin Hx. case: (saved_matrix HN Hin Hx) => M [EM [Hc Hr]]. exists M. split=> //. split=> //. split=> //=. rewrite Hr.
    case: Hfd => _ [H _]. by case: (H _ _ _ HN Hx) => _ [-> _].
  Qed.
  Lemma refined_spec N J x A B : (Ninit <= N < Nmax)%N -> In (J, x) (store N) -> refined (a_i (scalar_args sy (E N) A B (J, x))) = discarded_from (lastN N) x.
  Proof. move=> HN Hx. rewrite /refined /discarded_from /=. case: Hfd => _ [H _]. by case: (H _ _ _ HN Hx) => _ [-> _]. Qed.
  Lemma weights_spec N J x A B i : (Ninit <= N < Nmax)%N -> In (J, x) (store N) ->
    weights bz (wnf N) (a_i (scalar_args sy (E N) A B (J, x))) i = weight N x i.
  Proof. move=> HN Hx. rewrite /weights /weight /=. case: Hcd => _ H. by rewrite (H _ _ _ _ HN Hx) (Zsum_spec HN). Qed.
  Lemma dim_spec N J x : (Ninit <= N < Nmax)%N -> In (J, x) (store N) -> dim_of (store N) J = th_dim x /\ kept_of (store N) J = th_kept x.
  Proof. move=> HN Hx. by rewrite /dim_of /kept_of (lookup_In (store_nodup HN) Hx). Qed.
  Lemma total_map {T} (f : T -> peak C) m : total_weight (List.map f m) = \sum_(x <- m) snd (f x).
  Proof. by rewrite /total_weight big_lmap. Qed.
  Lemma from_le N J x : (Ninit <= N < Nmax)%N -> In (J, x) (store N) -> (discarded_from (lastN N) x <= th_dim x)%N.
  Proof. move=> HN Hx. rewrite /discarded_from. case: ifP => // _. case: Hcd => H _. by case: (H _ _ _ HN Hx). Qed.
  Lemma shell_matrix_ext k rho (w w' : nat -> C) : (forall i, w i = w' i) -> forall i j, shell_matrix k rho w i j = shell_matrix k rho w' i j.
  Proof. move=> H i j. by rewrite /shell_matrix H. Qed.

  Lemma shell_gt N rho A B : (Ninit <= N < Nmax)%N -> In (N, rho) l ->
    exists ps, shell_peaks sy (fun a => calc_FDMgt bz a rho (wnf N)) (E N) A B (store N) = Ok ps /\
      total_weight ps = shell_average sy (lastN N) rho (store N) (wn N) (dagger_times (dim_of (store N)) A B)
        - (if lastN N then 0 else expectation sy rho (dagger_times (kept_of (store N)) A B)).
  Proof.
    move=> HN Hin. pose mat J := match lookup rho J with Some M => M | None => nil_mat C end.
    pose T (a : args C) := List.map (G_peak bz a (wnf N) (mat (a_Ii a))) (fdm_pairs a).
    case: (@sector_average N (fun a => calc_FDMgt bz a rho (wnf N)) T A B) => [[J x] Hx|ps [E1 E2]].
    { have [M [EM Hm]] := scalar_matrix A B HN Hin Hx. have Hf := scalar_fits A B HN Hx. rewrite (FDMgt_list bz (wnf N) Hf Hm) /T /mat /= EM. by []. }
    exists ps. split=> //. rewrite E2 -(shell_total _ _ HN Hin). apply: eq_big_In => -[J x] Hx. cbn [fst snd].
    have [M [EM Hm]] := scalar_matrix A B HN Hin Hx. have Hf := scalar_fits A B HN Hx. rewrite EM /T /mat [a_Ii _]/= EM.
    rewrite total_map (big_perm_list _ (fdm_pairs_transitions Hf)) !(refined_spec A B HN Hx).
    rewrite [s_all _]/= /G_peak (refined_spec A B HN Hx) /=.
    case: (dim_spec HN Hx) => Ed Ek. rewrite sector_gt ?(from_le HN Hx) //. rewrite /dagger_times Ed Ek. congr (_ * (_ + _ - _)).
    - apply: eq_bigr => i _. congr (_ * _). exact: (weights_spec A B i HN Hx).
    - rewrite /discarded_from. case: ifP => _ //. by rewrite !big_ord0.
  Qed.
  Lemma shell_ls gt N rho A B : (Ninit <= N < Nmax)%N -> In (N, rho) l ->
    exists ps, shell_peaks sy (fun a => calc_FDMls gt bz a rho (wnf N)) (E N) A B (store N) = Ok ps /\
      total_weight ps = - statistics C gt * (shell_average sy (lastN N) rho (store N) (wn N) (times_dagger (dim_of (store N)) A B)
        - (if lastN N then 0 else expectation sy rho (times_dagger (kept_of (store N)) A B))).
  Proof.
    move=> HN Hin. pose mat J := match lookup rho J with Some M => M | None => nil_mat C end.
    pose T (a : args C) := List.map (L_peak gt bz a (wnf N) (mat (a_Ij a))) (fdm_pairs a).
    case: (@sector_average N (fun a => calc_FDMls gt bz a rho (wnf N)) T A B) => [[J x] Hx|ps [E1 E2]].
    { have [M [EM Hm]] := scalar_matrix A B HN Hin Hx. have Hf := scalar_fits A B HN Hx. rewrite (FDMls_list gt bz (wnf N) Hf Hm) /T /mat /= EM. by []. }
    exists ps. split=> //. rewrite E2 -(shell_total _ _ HN Hin) mulr_sumr. apply: eq_big_In => -[J x] Hx. cbn [fst snd].
    have [M [EM Hm]] := scalar_matrix A B HN Hin Hx. have Hf := scalar_fits A B HN Hx. rewrite EM /T /mat [a_Ij _]/= EM.
    rewrite total_map (big_perm_list _ (fdm_pairs_transitions Hf)) !(refined_spec A B HN Hx).
    rewrite [s_all _]/= /L_peak.
    have -> : refined (a_j (scalar_args sy (E N) A B (J, x))) = discarded_from (lastN N) x by exact: (refined_spec A B HN Hx).
    rewrite /=.
    case: (dim_spec HN Hx) => Ed Ek. rewrite sector_ls ?(from_le HN Hx) //. rewrite /times_dagger Ed Ek mulrCA. congr (_ * (_ * (_ + _ - _))).
    - apply: eq_bigr => i _. congr (_ * _). exact: (weights_spec A B i HN Hx).
    - rewrite /discarded_from. case: ifP => _ //. by rewrite !big_ord0.
  Qed.

  (** The products of the kept parts at step N are the products at step N+1. *)
  Lemma expectation_ext N rho (O O' : invar -> nat -> nat -> C) : (Ninit <= N < Nmax)%N -> In (N, rho) l ->
    (forall J x a b, In (J, x) (store N) -> O J a b = O' J a b) -> expectation sy rho O = expectation sy rho O'.
  Proof.
    move=> HN Hin H. rewrite !(expectation_store _ HN Hin). apply: eq_big_In => -[J x] Hx /=. congr (_ * _). case: (lookup rho J) => // M.
    apply: eq_bigr => r _. apply: eq_bigr => s _. congr (_ * _). exact: H Hx.
  Qed.
  Lemma thermal_ext N (O O' : invar -> nat -> nat -> C) : (Ninit <= N < Nmax)%N ->
    (forall J x a b, In (J, x) (store N) -> O J a b = O' J a b) -> Density_spec.thermal sy (lastN N) (store N) (wn N) O = Density_spec.thermal sy (lastN N) (store N) (wn N) O'.
  Proof.
    move=> HN H. rewrite !(thermal_store _ HN). apply: eq_big_In => -[J x] Hx /=. congr (_ * _). apply: eq_bigr => i _. congr (_ * _). exact: H Hx.
  Qed.

  Lemma step_expectation N r rp (O O' : invar -> nat -> nat -> C) : (Ninit < N < Nmax)%N -> In (N, r) l -> In ((N - 1)%N, rp) l ->
    (forall J x a b, In (J, x) (store N) -> O J a b = carried sh (df N) O' J a b) ->
    expectation sy rp O' = shell_average sy (lastN N) r (store N) (wn N) O.
  Proof.
    move=> HN Hr Hrp H. case: (prepare_rhoFDM_expect Hsh near_refl Hfp Hfd El) => H1 H2. rewrite (H2 _ _ _ HN Hr Hrp).
    have HN' : (Ninit <= N < Nmax)%N by case/andP: HN => /ltnW -> ->.
    rewrite /shell_average (thermal_ext HN' H). rewrite (expectation_ext HN' Hr H).
    case: (boolP (lastN N)) => HL //. rewrite addr0 add0r. move/eqP: HL => HL. rewrite [in LHS]HL HL in Hr * => {H}. rewrite -(H1 _ _ Hr). by [].
  Qed.

  Variables (A B : nat -> invar -> nat -> nat -> C).
  Hypothesis HA : followed sh Ninit Nmax df A.
  Hypothesis HB : followed sh Ninit Nmax df B.

  Lemma step_facts N J x : (Ninit < N < Nmax)%N -> In (J, x) (store N) ->
    sound sh (sa (N - 1)%N) /\ regular_step sh (sa (N - 1)%N) (sa N) (df N) /\ (forall K b, In (K, b) (sa (N - 1)%N) -> kept_of (store (N - 1)%N) K = b_kept b) /\
    exists e, In (J, e) (df N) /\ square e /\ dim_of (store N) J = e_nrstored e /\ In J (List.map fst (sa N)).
  Proof.
    move=> HN Hx. case/andP: (HN) => HN1 HN2. have HN' : (Ninit <= N < Nmax)%N by rewrite ltnW.
    have HNp : (Ninit <= N - 1 < Nmax)%N.
    { case: N HN1 HN2 {HN Hx HN'} => // m H1 H2. rewrite subn1 /=. by rewrite -ltnS H1 /= ltnW. }
    have Hreg : regular_step sh (sa (N - 1)%N) (sa N) (df N) by case: Hfp => _ [_ [_ [_ [_ H]]]]; apply: H.
    have HJ : In J (List.map fst (sa N)). { case: Hfd => H _. rewrite -(H _ HN'). by apply/in_map_iff; exists (J, x). }
    split; first exact: (first_pass_sound Hsh Hfp HNp). split=> //. split.
    - move=> K b Hb. have HK : In K (List.map fst (store (N - 1)%N)). { case: Hfd => H _. rewrite (H _ HNp). by apply/in_map_iff; exists (K, b). }
      case/in_map_iff: HK => -[K' y] [/= EK Hy]. subst K'. case: (dim_spec HNp Hy) => _ ->. case: Hcd => H _. case: (H _ _ _ HNp Hy) => _ [Hb' _]. by rewrite (Hb' _ Hb).
    - rewrite -(diag_keys Hreg) in HJ. case/in_map_iff: (HJ) => -[K e] [/= EK He]. subst K. exists e. case: Hcd => H _. case: (H _ _ _ HN' Hx) => _ [_ He'].
      case: (He' _ HN1 He) => Hsq Ed. case: (dim_spec HN' Hx) => -> _. split=> //. split=> //. split=> //. by rewrite -(diag_keys Hreg).
  Qed.
  Lemma dagger_step N J x a b : (Ninit < N < Nmax)%N -> In (J, x) (store N) ->
    dagger_times (dim_of (store N)) (A N) (B N) J a b = carried sh (df N) (dagger_times (kept_of (store (N - 1)%N)) (A (N - 1)%N) (B (N - 1)%N)) J a b.
  Proof.
    move=> HN Hx. case: (step_facts HN Hx) => Hs [Hreg [Hk [e [He [Hsq [Ed HJ]]]]]]. rewrite -(image_carried Hsh _ _ _ Hs Hreg HJ).
    rewrite -(image_dagger_times Hsh Hs Hreg Hk _ _ _ _ He Hsq) /dagger_times Ed. apply: eq_bigr => j _.
    by rewrite !(image_carried Hsh _ _ _ Hs Hreg HJ) HA // HB.
  Qed.
  Lemma times_step N J x a b : (Ninit < N < Nmax)%N -> In (J, x) (store N) ->
    times_dagger (dim_of (store N)) (A N) (B N) J a b = carried sh (df N) (times_dagger (kept_of (store (N - 1)%N)) (A (N - 1)%N) (B (N - 1)%N)) J a b.
  Proof.
    move=> HN Hx. case: (step_facts HN Hx) => Hs [Hreg [Hk [e [He [Hsq [Ed HJ]]]]]]. rewrite -(image_carried Hsh _ _ _ Hs Hreg HJ).
    rewrite -(image_times_dagger Hsh Hs Hreg Hk _ _ _ _ He Hsq) /times_dagger Ed. apply: eq_bigr => j _.
    by rewrite !(image_carried Hsh _ _ _ Hs Hreg HJ) HA // HB.
  Qed.

  (** Telescoping over the steps. *)
  Lemma telescope (t T K : nat -> C) : (Ninit < Nmax)%N -> (forall N, (Ninit <= N < Nmax)%N -> t N = T N - (if lastN N then 0 else K N)) ->
    (forall N, (Ninit < N < Nmax)%N -> K (N - 1)%N = T N) -> \sum_(Ninit <= N < Nmax) t N = T Ninit.
  Proof.
    move=> Hlt Ht HK. have EM : Nmax = (Nmax - 1).+1 by rewrite subn1 prednK //; apply: leq_ltn_trans Hlt.
    have Hle : (Ninit <= Nmax - 1)%N by rewrite -ltnS -EM.
    rewrite EM big_nat_recr //=. rewrite Ht; last by rewrite Hle /= {2}EM ltnSn.
    rewrite eqxx subr0.
    rewrite (eq_big_nat _ _ (F2 := fun N => - T N.+1 - - T N)); last first.
    { move=> N /andP [H1 H2]. have H3 : (N.+1 < Nmax)%N by rewrite {1}EM ltnS. rewrite Ht; last by rewrite H1 ltnW.
      rewrite (ltn_eqF H2) opprK addrC. congr (_ + _). have := HK N.+1. rewrite subn1 /= => -> //. by rewrite H3 ltnS H1. }
    rewrite telescope_sumr // opprK addrC addrA addrN add0r. by [].
  Qed.
  Lemma saved_all N : (Ninit <= N < Nmax)%N -> exists rho, In (N, rho) l.
  Proof.
    move=> HN. case: (prepare_rhoFDM_ok Hsh checkrho tiny near_refl Hfp Hfd) => l' [E' [H _]]. move: E'. rewrite El => -[EL]. subst l'.
    have : In N (List.map fst l). { rewrite H -List.in_rev List.in_seq. case/andP: HN => /leP H1 /ltP H2. rewrite -minusE. lia. }
    by case/in_map_iff => -[K r] [/= -> Hr]; exists r.
  Qed.
  Lemma first_range : (Ninit < Nmax)%N /\ (Ninit <= Ninit < Nmax)%N.
  Proof. case: Hfp => _ [H _]. by rewrite leqnn. Qed.

  Lemma sum_rule (calc : densmat C -> nat -> args C -> res (list (peak C))) (c : C) (O Ok' : nat -> invar -> nat -> nat -> C) :
    (forall N rho, (Ninit <= N < Nmax)%N -> In (N, rho) l -> exists ps, shell_peaks sy (calc rho N) (E N) (A N) (B N) (store N) = Ok ps /\
       total_weight ps = c * (shell_average sy (lastN N) rho (store N) (wn N) (O N) - (if lastN N then 0 else expectation sy rho (Ok' N)))) ->
    (forall N J x a b, (Ninit < N < Nmax)%N -> In (J, x) (store N) -> O N J a b = carried sh (df N) (Ok' (N - 1)%N) J a b) ->
    forall peaks rho0, (forall N rho, (Ninit <= N < Nmax)%N -> In (N, rho) l -> shell_peaks sy (calc rho N) (E N) (A N) (B N) (store N) = Ok (peaks N)) ->
      In (Ninit, rho0) l -> \sum_(Ninit <= N < Nmax) total_weight (peaks N) = c * shell_average sy (lastN Ninit) rho0 (store Ninit) (wn Ninit) (O Ninit).
  Proof.
    move=> H HO peaks rho0 Hp H0. case: first_range => Hlt HN0.
    pose mat N := match List.find (fun p => fst p == N) l with Some p => snd p | None => nil end.
    have Hmat : forall N, (Ninit <= N < Nmax)%N -> In (N, mat N) l.
    { move=> N HN. rewrite /mat. case Ef: (List.find _ l) => [[K r]|].
      - have [Hin /eqP /= <-] := List.find_some _ _ Ef. by [].
      - case: (saved_all HN) => r Hr. have := List.find_none _ _ Ef _ Hr. by rewrite /= eqxx. }
    have Hu : forall rho, In (Ninit, rho) l -> rho = mat Ninit.
    { move=> rho Hr. case: (prepare_rhoFDM_ok Hsh checkrho tiny near_refl Hfp Hfd) => l' [E' [H' _]]. move: E'. rewrite El => -[EL]. subst l'.
      have Hnd : NoDup (List.map fst l) by rewrite H'; apply: List.NoDup_rev; exact: List.seq_NoDup.
      have Hm := Hmat _ HN0. move: (mat Ninit) Hr Hm => r'. clear -Hnd. elim: l Hnd => [|[K k] m IH] //= Hnd. inversion Hnd as [|? ? Hni Hnd']; subst.
      move=> [[E1 E2]|H1] [[E3 E4]|H2]; subst => //; try by exfalso; apply: Hni; apply/in_map_iff; eexists; split; last eassumption.
      exact: IH. }
    rewrite (Hu _ H0).
    rewrite (@telescope _ (fun N => c * shell_average sy (lastN N) (mat N) (store N) (wn N) (O N)) (fun N => c * expectation sy (mat N) (Ok' N))) //.
    - move=> N HN. case: (H _ _ HN (Hmat _ HN)) => ps [E1 E2]. move: E1. rewrite (Hp _ _ HN (Hmat _ HN)) => -[->]. rewrite E2 mulrBr. congr (_ - _).
      by case: ifP; rewrite ?mulr0.
    - move=> N HN. case/andP: (HN) => HN1 HN2. have HN' : (Ninit <= N < Nmax)%N by rewrite ltnW.
      have HNp : (Ninit <= N - 1 < Nmax)%N.
      { case: N HN1 HN2 {HN HN'} => // m H1 H2. rewrite subn1 /=. by rewrite -ltnS H1 /= ltnW. }
      congr (_ * _). apply: (step_expectation HN (Hmat _ HN') (Hmat _ HNp)) => J x a b Hx. exact: HO Hx.
  Qed.

  Lemma fdm_gt_sum : forall peaks rho0, (forall N rho, (Ninit <= N < Nmax)%N -> In (N, rho) l -> shell_peaks sy (fun a => calc_FDMgt bz a rho (wnf N)) (E N) (A N) (B N) (store N) = Ok (peaks N)) ->
    In (Ninit, rho0) l -> \sum_(Ninit <= N < Nmax) total_weight (peaks N) = shell_average sy (lastN Ninit) rho0 (store Ninit) (wn Ninit) (dagger_times (dim_of (store Ninit)) (A Ninit) (B Ninit)).
  Proof.
    move=> peaks rho0 Hp H0. rewrite (@sum_rule (fun rho N a => calc_FDMgt bz a rho (wnf N)) 1 (fun N => dagger_times (dim_of (store N)) (A N) (B N))
      (fun N => dagger_times (kept_of (store N)) (A N) (B N)) _ _ peaks rho0) ?mul1r //.
    - move=> N rho HN Hin. case: (shell_gt (A N) (B N) HN Hin) => ps [E1 E2]. exists ps. by rewrite mul1r.
    - move=> N J x a b HN Hx. exact: (dagger_step a b HN Hx).
  Qed.
  Lemma fdm_ls_sum gt : forall peaks rho0, (forall N rho, (Ninit <= N < Nmax)%N -> In (N, rho) l -> shell_peaks sy (fun a => calc_FDMls gt bz a rho (wnf N)) (E N) (A N) (B N) (store N) = Ok (peaks N)) ->
    In (Ninit, rho0) l -> \sum_(Ninit <= N < Nmax) total_weight (peaks N) = - statistics C gt * shell_average sy (lastN Ninit) rho0 (store Ninit) (wn Ninit) (times_dagger (dim_of (store Ninit)) (A Ninit) (B Ninit)).
  Proof.
    move=> peaks rho0 Hp H0. rewrite (@sum_rule (fun rho N a => calc_FDMls gt bz a rho (wnf N)) (- statistics C gt) (fun N => times_dagger (dim_of (store N)) (A N) (B N))
      (fun N => times_dagger (kept_of (store N)) (A N) (B N)) _ _ peaks rho0) //.
    - move=> N rho HN Hin. exact: (shell_ls gt (A N) (B N) HN Hin).
    - move=> N J x a b HN Hx. exact: (times_step a b HN Hx).
  Qed.
End Chain.
