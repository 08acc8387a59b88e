(** The full density matrix. *)
From Coq Require Import List ZArith Lia.
From Verif Require Import Base Invar_model Invar_spec Invar_proofs Symmetry_model Symmetry_spec Symmetry_tables Symmetry_proofs
  Subspaces_model Subspaces_spec Subspaces_proofs Subspaces_step Density_struct Density_model Density_spec Density_sums Density_proofs Density_chain.
From mathcomp Require Import ssreflect ssrfun ssrbool eqtype ssrnat seq fintype bigop ssralg order ssrnum.
Import GRing.Theory Num.Theory.
Local Open Scope ring_scope.
Set Implicit Arguments.
Unset Strict Implicit.
Unset Printing Implicit Defensive.

Section Fdm.
  Variable C : numClosedFieldType.
  Variable sh : shipped_table.
  Hypothesis Hsh : In sh shipped.
  Notation sy := (sh_sym sh).
  Notation t := (sh_tab sh).
  Notation combs := (sh_combs sh).
  Notation mmC := (mm C sh).
  Variables (near : C -> C -> bool) (checkrho : bool) (tiny : C -> bool).
  Hypothesis near_refl : forall x, near x x.
  Variables (Ninit Nmax : nat) (df : nat -> diaginfo C) (sa : nat -> backsubs) (store : nat -> thermosubs C) (wn : nat -> C).
  Hypothesis Hfp : first_pass sh Ninit Nmax df sa.
  Hypothesis Hfd : fdm_data Ninit Nmax df sa store wn.

  (** A positive matrix over the sectors of step N that fits the stored vectors. *)
  Definition good (N : nat) (rho : densmat C) : Prop :=
    NoDup (List.map fst rho) /\ (forall J, In J (List.map fst rho) -> In J (List.map fst (sa N))) /\
    forall J M, In (J, M) rho -> f_cols M = f_rows M /\ hermitian (f_rows M) (f_el M) /\ positive (f_rows M) (f_el M) /\
      forall e, (Ninit < N < Nmax)%N -> In (J, e) (df N) -> (f_rows M <= e_nrstored e)%N.

  Lemma good_fits N rho : (Ninit < N < Nmax)%N -> good N rho -> fits (sa N) (df N) rho.
  Proof. move=> HN [H1 [H2 H3]]. split=> //. split=> //. move=> J M e /H3 [E [_ [_ H]]] He. split=> //. exact: H. Qed.
  Lemma good_trace N rho : (Ninit <= N < Nmax)%N -> good N rho -> dm_trace sy rho = Ok (full_trace sy rho).
  Proof.
    move=> HN [_ [H2 H3]]. apply: dm_trace_eval => // J M Hin. split; last by case: (H3 _ _ Hin) => _ [].
    have : In J (List.map fst (sa N)) by apply: H2; apply/in_map_iff; exists (J, M).
    move=> /in_map_iff [[K b] [/= <- Hb]]. case: (first_pass_sound Hsh Hfp HN) => _ [H _]. exact: (H _ _ Hb).
  Qed.

  Lemma store_sector N J x : (Ninit <= N < Nmax)%N -> In (J, x) (store N) -> multiplet sy J.
  Proof.
    move=> HN Hin. have : In J (List.map fst (sa N)).
    { case: Hfd => H _. rewrite -(H _ HN). by apply/in_map_iff; exists (J, x). }
    move=> /in_map_iff [[K b] [/= <- Hb]]. case: (first_pass_sound Hsh Hfp HN) => _ [H _]. exact: (H _ _ Hb).
  Qed.

  Definition Zsum (N : nat) : C := \sum_(p <- store N) \sum_(th_min (snd p) <= i < th_dim (snd p)) mmC (fst p) * th_boltz (snd p) i.
  Lemma ZnDN_eval N : (Ninit <= N < Nmax)%N -> ZnDN sy (store N) = Ok (Zsum N).
  Proof.
    move=> HN. rewrite /ZnDN (foldM_sum (F := fun p => \sum_(th_min (snd p) <= i < th_dim (snd p)) mmC (fst p) * th_boltz (snd p) i)); first by rewrite add0r.
    move=> acc [J x] Hin /=. by case: (mm_ok C Hsh (store_sector HN Hin)) => m [-> [-> _]].
  Qed.
  Lemma Zsum_ge0 N : (Ninit <= N < Nmax)%N -> 0 <= Zsum N.
  Proof.
    move=> HN. case: Hfd => _ [H _]. rewrite /Zsum. have : forall p, In p (store N) -> In p (store N) by []. move: {-2}(store N) => l.
    elim: l => [|[J x] l IH] Hl; first by rewrite big_nil. rewrite big_cons /=. apply: addr_ge0; last by apply: IH => p Hp; apply: Hl; right.
    apply: sumr_ge0 => i _. apply: mulr_ge0; first by apply: mm_ge0. case: (H N J x HN); first by apply: Hl; left. by move=> Hp _; apply: Order.POrderTheory.ltW.
  Qed.
  Lemma min_spec N J x : (Ninit <= N < Nmax)%N -> In (J, x) (store N) -> th_min x = discarded_from (N == (Nmax - 1)%N) x.
  Proof. case: Hfd => _ [H _] HN Hin. case: (H N J x HN Hin) => _ [E _]. by rewrite /th_min E. Qed.
  Lemma Zsum_zero N : (Ninit <= N < Nmax)%N -> Zsum N = 0 -> wn N = 0.
  Proof.
    move=> HN HZ. case: (Hfd) => _ [H [Hw _]]. case: (Hw N HN) => _; apply. move=> J x Hin. rewrite -(min_spec HN Hin).
    case: leqP => // Hlt. exfalso. move: HZ. apply/eqP. rewrite lt0r_neq0 //.
    rewrite /Zsum. have : forall p, In p (store N) -> In p (store N) by []. move: Hin. move: {-3}(store N) => l Hin Hl.
    have Hge : forall l', (forall p, In p l' -> In p (store N)) -> 0 <= \sum_(p <- l') \sum_(th_min (snd p) <= i < th_dim (snd p)) mmC (fst p) * th_boltz (snd p) i.
    { elim=> [|[J' x'] l' IH'] Hl'; first by rewrite big_nil. rewrite big_cons /=. apply: addr_ge0; last by apply: IH' => p Hp; apply: Hl'; right.
      apply: sumr_ge0 => i _. apply: mulr_ge0; first by apply: mm_ge0. case: (H N J' x' HN); first by apply: Hl'; left. by move=> Hp _; apply: Order.POrderTheory.ltW. }
    elim: l Hin Hl => [|[K y] l IH] //= Hin Hl. rewrite big_cons /=. case: Hin => [[E1 E2]|Hin].
    - subst K y. apply: ltr_paddr; first by apply: Hge => p Hp; apply: Hl; right.
      have Hin : In (J, x) (store N) by apply: Hl; left.
      case: (H N J x HN Hin) => Hp _. case: (mm_ok C Hsh (store_sector HN Hin)) => m [_ [_ [_ Hm]]].
      rewrite big_ltn //. apply: ltr_paddr; last by apply: mulr_gt0.
      by apply: sumr_ge0 => i _; apply: mulr_ge0; apply: Order.POrderTheory.ltW.
    - apply: ltr_paddl; last by apply: IH => // p Hp; apply: Hl; right.
      have := Hge [:: (K, y)]. rewrite big_cons big_nil addr0 /=. apply. by move=> p [<-|[]]; apply: Hl; left.
  Qed.

  Lemma init_FDM_ok N : (Ninit <= N < Nmax)%N -> exists rho, init_rho_FDM sy near checkrho store wn tiny N = Ok rho /\ good N rho /\
    full_trace sy rho = wn N /\ forall J M, In (J, M) rho -> diagonal M.
  Proof.
    move=> HN. rewrite /init_rho_FDM ZnDN_eval //=. set rho := List.map _ _.
    case: (Hfd) => F1 [F2 [F3 F4]].
    have Hgood : good N rho.
    { split; last split.
      - rewrite /rho List.map_map /=. rewrite (F1 N HN). by case: (first_pass_sound Hsh Hfp HN).
      - move=> J. by rewrite /rho List.map_map /= (F1 N HN).
      - move=> J M /in_map_iff [[K x] [[<- <-] Hin]] /=. case: (F2 N K x HN Hin) => Hp [_ He]. split=> //.
        have Hd : forall i, 0 <= th_boltz x i * wn N / Zsum N.
        { move=> i. apply: divr_ge0; last exact: Zsum_ge0. apply: mulr_ge0; first by apply: Order.POrderTheory.ltW. by case: (F3 N HN). }
        split; last split.
        + move=> i j Hi Hj /=. case: (eqVneq i j) => [->|Hne].
          * case: ifP => _; last by rewrite conjC0. symmetry. apply/CrealP. exact: ger0_real.
          * by rewrite /= !andbF conjC0.
        + move=> v. apply: sumr_ge0 => i _. rewrite (bigD1 i) //= eqxx big1 ?addr0.
          * rewrite mulrAC. apply: mulr_ge0; first by rewrite mulrC mul_conjC_ge0. by case: ifP.
          * move=> j Hj. rewrite (_ : (nat_of_ord i == j) = false) ?andbF ?mulr0 ?mul0r //. by rewrite eq_sym; apply/negbTE.
        + move=> e /andP [HNi _] Hin'. exact: He. }
    have Htr : full_trace sy rho = wn N.
    { case: (eqVneq (Zsum N) 0) => [HZ|HZ].
      - rewrite (Zsum_zero HN HZ) /full_trace big_lmap. apply: big_zero_In => p _ /=. rewrite big1 ?mulr0 // => i _. by rewrite HZ eqxx.
      - transitivity (wn N * Zsum N / Zsum N); last by rewrite mulfK.
        rewrite {1}/Zsum mulr_sumr mulr_suml /full_trace big_lmap. apply: eq_big_In => -[J x] Hin /=.
        rewrite [in RHS]mulr_sumr [in RHS]mulr_suml [in LHS]mulr_sumr [in RHS]big_geq_mkord [in RHS]big_mkcond /=. apply: eq_bigr => i _. rewrite HZ eqxx /= ltn_ord andbT.
        case: ifP => _; last by rewrite mulr0. rewrite -/(mmC J) !mulrA. congr (_ / _). by rewrite -[RHS]mulrA [RHS]mulrC. }
    have Hdiag : forall J M, In (J, M) rho -> diagonal M.
    { move=> J M /in_map_iff [[K x] [[_ <-] Hin]] a b Ha Hb Hne /=. by rewrite (negbTE Hne) !andbF. }
    rewrite (good_trace HN Hgood) Htr /= subrr mul0r near_refl. exists rho. by case: ifP.
  Qed.

  Lemma fdm_iterN_ok N rho : (Ninit < N < Nmax)%N -> good N rho -> full_trace sy rho = later_weight Nmax wn N ->
    exists rp, fdm_iterN sy combs t near checkrho df sa store wn tiny (N == (Nmax - 1)%N) N rho = Ok rp /\
      good (N - 1)%N rp /\ full_trace sy rp = \sum_(N <= k < Nmax) wn k /\ List.map fst rp = List.map fst (sa (N - 1)%N) /\
      forall J M, In (J, M) rp -> exists b, In (J, b) (sa (N - 1)%N) /\ f_rows M = b_kept b.
  Proof.
    move=> HN Hg Htr. case/andP: (HN) => HN1 HN2.
    have HNr : (Ninit <= N < Nmax)%N by rewrite ltnW.
    have HNp : (Ninit <= N - 1 < Nmax)%N. { case: N HN1 HN2 {HN Hg Htr HNr} => // m H1 H2. rewrite subn1 /=. by rewrite -ltnS H1 /= ltnW. }
    case: (first_pass_sound Hsh Hfp HNp) => S1 [S2 S3].
    have Hreg : regular_step sh (sa (N - 1)%N) (sa N) (df N) by case: Hfp => _ [_ [_ [_ [_ H]]]]; apply: H.
    rewrite /fdm_iterN.
    have [rhoD [ED HD]] : exists rhoD, (if N == (Nmax - 1)%N then Ok [::] else init_rho_FDM sy near checkrho store wn tiny N) = Ok rhoD /\
      (N != (Nmax - 1)%N -> good N rhoD /\ full_trace sy rhoD = wn N /\ forall J M, In (J, M) rhoD -> diagonal M).
    { case: eqP => _; first by exists [::]. case: (init_FDM_ok HNr) => r [E [G1 [G2 G3]]]. by exists r. }
    rewrite ED /=. set last := (N == (Nmax - 1)%N) in HD *.
    have HfD : ~~ last -> fits (sa N) (df N) rhoD /\ forall J M, In (J, M) rhoD -> diagonal M.
    { by move=> Hl; case: (HD Hl) => G1 [_ G3]; split=> //; apply: good_fits HN _. }
    case: (@loop_result C (sa (N - 1)%N) (fdm_sector sy combs t last (df N) rho rhoD (sa N))
      (fun J r s => back sh (sa N) (df N) rho J r s + (if last then 0 else back sh (sa N) (df N) rhoD J r s))) => [Ix b Hin|rp [E Hr]].
    { exact: (fdm_sector_eval Hsh S1 S2 S3 Hreg (good_fits HN Hg) HfD). }
    exists rp. split; first by []. have Hk : List.map fst rp = List.map fst (sa (N - 1)%N) by apply: (Forall2_keys Hr) => x y [_ []].
    split; last split; last split=> //; last first.
    - move=> J M Hin. case: (Forall2_In_r Hr Hin) => -[K b] [Hb [_ [/= EK [Er _]]]]. subst K. by exists b.
    - rewrite /full_trace (big_Forall2 (F := fun p => mmC (fst p) * (\sum_(r < b_kept (snd p)) back sh (sa N) (df N) rho (fst p) r r) +
        (if last then 0 else mmC (fst p) * (\sum_(r < b_kept (snd p)) back sh (sa N) (df N) rhoD (fst p) r r))) Hr).
      + rewrite big_split /= (back_trace Hsh S1 S2 S3 Hreg (good_fits HN Hg)) -/(full_trace sy rho) Htr /later_weight -/last.
        case: (boolP last) => Hl.
        * rewrite big1_eq addr0. rewrite /last in Hl. rewrite (eqP Hl). rewrite big_ltn ?big_geq ?addr0 //.
          -- by rewrite subn1 prednK //; apply: leq_trans HN2.
          -- by rewrite -(eqP Hl).
        * case: (HfD Hl) => Hf2 _. rewrite (back_trace Hsh S1 S2 S3 Hreg Hf2). case: (HD Hl) => _ [Hw _]. rewrite -/(full_trace sy rhoD) Hw.
          rewrite [in RHS]big_ltn //. by rewrite addrC.
      + move=> [J b] [K M] [_ [/= -> [-> [_ El]]]]. case: (boolP last) El => Hl El.
        * rewrite addr0. congr (_ * _). apply: eq_bigr => i _. by rewrite El // addr0.
        * rewrite -mulrDr -big_split /=. congr (_ * _). apply: eq_bigr => i _. by rewrite El.
    - split; first by rewrite Hk. split; first by move=> J; rewrite Hk.
      move=> J M Hin. case: (Forall2_In_r Hr Hin) => -[K b] [Hb [_ [/= EK [Er [Ec El]]]]]. subst K. split; first by rewrite Ec. rewrite Er.
      have HJ : In J (List.map fst (sa (N - 1)%N)) by apply/in_map_iff; exists (J, b).
      have Hh1 : forall K N0, In (K, N0) rho -> hermitian (f_rows N0) (f_el N0) by case: Hg => _ [_ G] K N0 /G [_ []].
      have Hp1 : forall K N0, In (K, N0) rho -> positive (f_rows N0) (f_el N0) by case: Hg => _ [_ G] K N0 /G [_ [_ []]].
      split; last split.
      + move=> i j Hi Hj. rewrite !El // rmorphD /=. congr (_ + _); first exact: back_hermitian.
        case: (boolP last) => Hl; first by rewrite conjC0. apply: back_hermitian. case: (HD Hl) => -[_ [_ G]] _ K N0 /G [_ []] //.
      + move=> v. rewrite (_ : \sum_(i < b_kept b) \sum_(j < b_kept b) (v i)^* * f_el M i j * v j =
          \sum_(i < b_kept b) \sum_(j < b_kept b) (v i)^* * back sh (sa N) (df N) rho J i j * v j +
          \sum_(i < b_kept b) \sum_(j < b_kept b) (v i)^* * (if last then 0 else back sh (sa N) (df N) rhoD J i j) * v j).
        * apply: addr_ge0; first exact: (@back_positive C sh Hsh _ (sa N) (df N) S2 rho J (b_kept b) HJ Hp1 v).
          case: (boolP last) => Hl; first by rewrite big1 // => i _; rewrite big1 // => j _; rewrite mulr0 mul0r.
          apply: (@back_positive C sh Hsh _ (sa N) (df N) S2 rhoD J (b_kept b) HJ _ v). case: (HD Hl) => -[_ [_ G]] _ K N0 /G [_ [_ []]] //.
        * rewrite -big_split /=. apply: eq_bigr => i _. rewrite -big_split /=. apply: eq_bigr => j _. by rewrite El // mulrDr mulrDl.
      + move=> e HNN He. case: (Hfp) => _ [_ [_ [_ [_ H]]]]. case: (H _ HNN) => st [infos [_ [_ [_ [_ [_ /(_ J e b He Hb)]]]]]] [Hle _]. exact: Hle.
  Qed.
  Lemma later_pos N : (Ninit <= N < Nmax)%N -> 0 < \sum_(N <= k < Nmax) wn k.
  Proof.
    case: Hfd => _ [_ [H3 H4]] /andP [H1 H2]. have E : Nmax = (Nmax - 1).+1 by rewrite subn1 prednK //; apply: leq_trans H2.
    rewrite E big_nat_recr /=; last by rewrite -ltnS -E. apply: ltr_paddl => //. rewrite big_nat_cond. apply: sumr_ge0 => k /andP [/andP [K1 K2] _].
    case: (H3 k) => //. rewrite (leq_trans H1 K1) /= E. exact: ltnW.
  Qed.

  Lemma calc_fdm_loop_ok n rho : (Ninit + n < Nmax)%N -> good (Ninit + n) rho -> full_trace sy rho = later_weight Nmax wn (Ninit + n) ->
    exists l, calc_fdm_loop sy combs t near checkrho df sa store wn tiny Ninit Nmax n rho = Ok l /\ List.map fst l = List.rev (List.seq Ninit n) /\
      forall N r, In (N, r) l -> good N r /\ full_trace sy r = \sum_(N.+1 <= k < Nmax) wn k /\ List.map fst r = List.map fst (sa N) /\
        forall J M, In (J, M) r -> exists b, In (J, b) (sa N) /\ f_rows M = b_kept b.
  Proof.
    elim: n rho => [|n IH] rho HN Hg Htr; first by exists nil.
    rewrite rev_seq_S [calc_fdm_loop _ _ _ _ _ _ _ _ _ _ _ _ _ _]/=.
    have HNr : (Ninit < Ninit + n.+1 < Nmax)%N by rewrite HN andbT addnS ltnS leq_addr.
    have E1 : (Ninit + n.+1 - 1 = Ninit + n)%N by rewrite addnS subn1.
    case: (fdm_iterN_ok HNr Hg Htr); rewrite E1 => rp [-> [Gp [Tp [Kp Sp]]]] /=.
    have HNp : (Ninit <= Ninit + n < Nmax)%N. { rewrite leq_addr /=. apply: leq_ltn_trans HN. by rewrite addnS. }
    have Hpos : 0 < \sum_(Ninit + n.+1 <= k < Nmax) wn k by apply: later_pos; rewrite leq_addr.
    have -> : (if checkrho then let* tr := dm_trace sy rp in my_assert ((\sum_(Ninit + n.+1 <= k < Nmax) wn k != 0) &&
       near ((tr - \sum_(Ninit + n.+1 <= k < Nmax) wn k) / (\sum_(Ninit + n.+1 <= k < Nmax) wn k)) 0) else Ok tt) = Ok tt.
    { case: checkrho => //. by rewrite (good_trace HNp Gp) Tp /= subrr mul0r near_refl (lt0r_neq0 Hpos). }
    case: (IH rp) => //=; first by case/andP: HNp.
    - rewrite Tp /later_weight -addnS. case: eqP => // E. exfalso. have H0 : (0 < Nmax)%N by apply: leq_ltn_trans HN. move: HN. by rewrite addnS E subn1 prednK ?ltnn.
    - move=> l [-> [El Hl]] /=. eexists. split; first by []. split; first by rewrite /= El.
      move=> N r [[<- <-]|/Hl] //. by rewrite -addnS.
  Qed.

  Lemma prepare_rhoFDM_ok : exists l, prepare_rhoFDM sy combs t near checkrho df sa store wn tiny Ninit Nmax = Ok l /\
    List.map fst l = List.rev (List.seq Ninit (Nmax - Ninit)) /\
    forall N r, In (N, r) l -> weighted_matrix sh Nmax (sa N) (store N) (later_weight Nmax wn N) N r.
  Proof.
    case: (Hfp) => _ [Hlt _]. have [n En] : exists n, Nmax = (Ninit + n).+1. { exists (Nmax - Ninit - 1)%N. rewrite -addnS subn1 prednK ?subnKC ?subn_gt0 //. exact: ltnW. }
    have E1 : (Nmax - 1 = Ninit + n)%N by rewrite En subn1.
    have E2 : (Nmax - 1 - Ninit = n)%N by rewrite E1 addKn.
    have E3 : (Nmax - Ninit = n.+1)%N by rewrite En -addnS addKn.
    rewrite /prepare_rhoFDM E2 E3 E1 rev_seq_S. have HN : (Ninit <= Ninit + n < Nmax)%N by rewrite leq_addr En ltnSn.
    case: (init_FDM_ok HN) => rho [E [Hg [Ht Hd]]]. rewrite E /=.
    have Htl : full_trace sy rho = later_weight Nmax wn (Ninit + n) by rewrite /later_weight E1 eqxx.
    case: (calc_fdm_loop_ok (n := n) _ Hg Htl); first by case/andP: HN.
    move=> l [-> [El Hl]] /=. eexists. split; first by []. split; first by rewrite /= El.
    move=> N r [[<- <-]|Hin].
    - split=> //. split; first by case: Hg. split.
      + move: E. rewrite /init_rho_FDM ZnDN_eval //=. set rho' := List.map _ _. have <- : List.map fst rho' = List.map fst (sa (Ninit + n)%N).
        { case: Hfd => <- // _. by rewrite /rho' List.map_map. }
        case: ifP => _; last by move=> [<-]. case: (dm_trace _ _) => //= tr. case: ifP => _; first by move=> [<-]. by case: (tiny _) => //= -[<-].
      + move=> J M HJ. case: (Hg) => _ [_ /(_ J M HJ)] [H1 [H2 [H3 _]]]. split=> //. rewrite E1 eqxx.
        move: HJ E. rewrite /init_rho_FDM ZnDN_eval //=. set rho' := List.map _ _. move=> HJ E. have Er : rho' = rho.
        { move: E. case: ifP => _; last by move=> [<-]. case: (dm_trace _ _) => //= tr. case: ifP => _; first by move=> [<-]. by case: (tiny _) => //= -[<-]. }
        move: HJ. rewrite -Er => /in_map_iff [[K x] [[<- <-] Hx]]. by exists x.
    - have HNl : (Ninit <= N < Ninit + n)%N.
      { have : In N (List.map fst l) by apply/in_map_iff; exists (N, r). rewrite El -List.in_rev List.in_seq => -[/leP -> /ltP H]. exact: H. }
      have Hne : (N == (Nmax - 1)%N) = false. { rewrite E1. apply/negbTE/eqP => EN. move: HNl. by rewrite EN ltnn andbF. }
      case: (Hl _ _ Hin) => -[G1 [G2 G3]] [Tr [Kr Sr]]. split; first by rewrite Tr /later_weight Hne. split=> //. split=> //.
      move=> J M HJ. case: (G3 J M HJ) => H1 [H2 [H3 _]]. split=> //. rewrite Hne. exact: Sr.
  Qed.
End Fdm.
