(** Expectation values of scalar operators along the back-propagation. *)
From Coq Require Import List ZArith Lia.
From Verif Require Import Base Invar_model Invar_spec Invar_proofs Symmetry_model Symmetry_spec Symmetry_tables Symmetry_proofs
  Subspaces_model Subspaces_spec Subspaces_proofs Subspaces_step Density_struct Density_model Density_spec Density_sums Density_proofs Density_chain Density_fdm.
From mathcomp Require Import ssreflect ssrfun ssrbool eqtype ssrnat seq fintype bigop ssralg order ssrnum.
Import GRing.Theory Num.Theory.
Local Open Scope ring_scope.
Set Implicit Arguments.
Unset Strict Implicit.
Unset Printing Implicit Defensive.

Lemma length_combine_eq {A B} (l : list A) (l' : list B) : List.length l = List.length l' -> List.length (List.combine l l') = List.length l.
Proof. move=> H. by rewrite List.combine_length -H Nat.min_id. Qed.

Lemma AC_weight (C : numClosedFieldType) (m b w z a : C) : m * (b * w / z * a) = w * (m * b * a) / z.
Proof. rewrite !mulrA [LHS]mulrAC. congr (_ / _). by rewrite -[w * m * b]mulrA [w * _]mulrC. Qed.

Section Expect.
  Variable C : numClosedFieldType.
  Variable sh : shipped_table.
  Hypothesis Hsh : In sh shipped.
  Notation sy := (sh_sym sh).
  Notation t := (sh_tab sh).
  Notation combs := (sh_combs sh).
  Notation mmC := (mm C sh).

  Lemma image_carried prev cur (diag : diaginfo C) A J b a : sound sh prev -> regular_step sh prev cur diag -> In J (List.map fst cur) ->
    Density_proofs.image sh cur diag A J b a = carried sh diag A J b a.
  Proof.
    move=> [S1 [S2 S3]] Hreg HJ. rewrite /carried.
    have HJd : In J (List.map fst diag) by rewrite (diag_keys Hreg).
    case: (lookup_key HJd) => e Ee. rewrite Ee. have He := lookup_Some Ee.
    case: (lookup_key HJ) => c Ec. have Hc := lookup_Some Ec. case: (cur_sector Hsh S1 S2 S3 Hreg Hc) => -[HJa _] [Hl _].
    case: (shipped_ok sh Hsh) => L1 [L2 [A1 A2]]. rewrite ancestors_pure //.
    have HlU : List.length (e_U e) = combs.
    { case: Hreg => st [infos [_ [_ [_ [_ [_ /(_ J e c He Hc)]]]]]] [_ [Hmap _]]. by rewrite -(List.map_length (fun u => Z.of_nat (f_cols u))) Hmap Hl. }
    rewrite (big_list_ord _ _ (combp (ts sy) nil J, nil_mat C)) length_combine_eq; last by rewrite List.map_length HlU.
    rewrite List.map_length L1 /Density_proofs.image. apply: eq_bigr => i _.
    rewrite List.combine_nth; last by rewrite List.map_length HlU.
    have HU := Ub_ok Hsh S1 S2 S3 Hreg He (ltn_ord i). case: HU => E1 [_ E2].
    have -> : List.nth i (e_U e) (nil_mat C) = Ub diag J i by rewrite /Ub (lookup_In (diag_nodup Hreg) He).
    cbn [fst snd]. rewrite (List.map_nth (fun d => combp (ts sy) d J)) E2 //.
  Qed.

  Lemma expect_back prev cur (diag : diaginfo C) rho A rp : sound sh prev -> regular_step sh prev cur diag -> fits cur diag rho ->
    Forall2 (fun p q => In p prev /\ fst q = fst p /\ f_rows (snd q) = b_kept (snd p) /\ f_cols (snd q) = b_kept (snd p) /\
        forall r s, (r < b_kept (snd p))%N -> f_el (snd q) r s = back sh cur diag rho (fst p) r s) prev rp ->
    expectation sy rp A = expectation sy rho (carried sh diag A).
  Proof.
    move=> Hs Hreg Hf Hr. case: (Hs) => S1 [S2 S3]. rewrite /expectation.
    rewrite (big_Forall2 (F := fun p => mmC (fst p) * \sum_(r < b_kept (snd p)) \sum_(s < b_kept (snd p)) back sh cur diag rho (fst p) r s * A (fst p) s r) Hr).
    - rewrite (back_expect Hsh S1 S2 S3 Hreg A Hf). apply: eq_big_In => -[J M] Hin. congr (_ * _). apply: eq_bigr => r _. apply: eq_bigr => s _.
      congr (_ * _). apply: (image_carried _ _ _ Hs Hreg). case: Hf => _ [H _]. apply: H. by apply/in_map_iff; exists (J, M).
    - move=> [J b] [K M] [_ [/= -> [-> [_ El]]]]. congr (_ * _). apply: eq_bigr => r _. apply: eq_bigr => s _. by rewrite El.
  Qed.

  Variables (near : C -> C -> bool) (checkrho : bool).
  Hypothesis near_refl : forall x, near x x.

  Lemma dm_iterN_expect prev cur (diag : diaginfo C) rho rp A : sound sh prev -> regular_step sh prev cur diag -> density_matrix sh cur rho ->
    dm_iterN sy combs t diag rho cur prev = Ok rp -> expectation sy rp A = expectation sy rho (carried sh diag A).
  Proof.
    move=> Hs Hreg Hd E. have Hf := dm_fits Hs Hreg Hd. case: (Hs) => S1 [S2 S3].
    case: (@loop_result C prev (dm_sector sy combs t diag rho cur) (back sh cur diag rho)) => [Ix b Hin|rp' [E' Hr]].
    { exact: (dm_sector_eval Hsh S1 S2 S3 Hreg). }
    move: E. rewrite /dm_iterN E' => -[<-]. exact: (expect_back _ Hs Hreg Hf Hr).
  Qed.

  Lemma calc_dm_loop_expect Ninit Nmax (df : nat -> diaginfo C) sa : first_pass sh Ninit Nmax df sa -> forall n rho, (Ninit + n < Nmax)%N ->
    density_matrix sh (sa (Ninit + n)%N) rho -> forall l, calc_dm_loop sy combs t near checkrho df sa Ninit n rho = Ok l ->
    forall N, (Ninit < N <= Ninit + n)%N -> exists r rp, In (N, r) ((Ninit + n, rho)%N :: l) /\ In ((N - 1)%N, rp) l /\
      forall A, expectation sy rp A = expectation sy r (carried sh (df N) A).
  Proof.
    move=> Hfp. have Hs := first_pass_sound Hsh Hfp. case: (Hfp) => [_ [Hlt [Hn [Hm [Hb Hr]]]]]. elim=> [|n IH] rho HN Hd l.
    { move=> _ N. by rewrite addn0 => /andP [H1 H2]; move: (leq_ltn_trans H2 H1); rewrite ltnn. }
    rewrite [calc_dm_loop _ _ _ _ _ _ _ _ _ _]/=.
    have E1 : (Ninit + n.+1 - 1 = Ninit + n)%N by rewrite addnS subn1. rewrite E1.
    have Hreg : regular_step sh (sa (Ninit + n)%N) (sa (Ninit + n.+1)%N) (df (Ninit + n.+1)%N).
    { rewrite -E1. apply: Hr. rewrite HN andbT addnS ltnS. exact: leq_addr. }
    have Hsp : sound sh (sa (Ninit + n)%N). { apply: Hs. rewrite leq_addr /=. apply: leq_ltn_trans HN. by rewrite addnS. }
    case: (dm_iterN_ok Hsh Hsp Hreg Hd) => rp [Erp [Hdp _]]. rewrite Erp /=.
    case: (if checkrho then _ else _) => //= -[]. case El: (calc_dm_loop _ _ _ _ _ _ _ _ _ _) => [l'| |] //= -[<-].
    move=> N HNN. case: (eqVneq N (Ninit + n.+1)%N) => [->|Hne].
    - exists rho, rp. split; first by left. split; first by rewrite E1; left. move=> A. exact: (dm_iterN_expect _ Hsp Hreg Hd Erp).
    - have HN' : (Ninit < N <= Ninit + n)%N. { case/andP: HNN => -> H. rewrite -ltnS -addnS. by rewrite ltn_neqAle Hne. }
      case: (IH rp _ Hdp l' El N HN') => [|r [rq [H1 [H2 H3]]]]; first by apply: leq_ltn_trans HN; rewrite addnS.
      exists r, rq. split; first by right. by split; first right.
  Qed.

  Lemma prepare_rho_expect Ninit Nmax (df : nat -> diaginfo C) sa keepsec d l : first_pass sh Ninit Nmax df sa -> last_step (sa (Nmax - 1)%N) keepsec d ->
    prepare_rho sy combs t near checkrho df sa Ninit Nmax keepsec d = Ok l ->
    forall N r rp, (Ninit < N < Nmax)%N -> In (N, r) l -> In ((N - 1)%N, rp) l -> forall A, expectation sy rp A = expectation sy r (carried sh (df N) A).
  Proof.
    move=> Hfp Hls E. case: (Hfp) => _ [Hlt _]. have Hs := first_pass_sound Hsh Hfp.
    have HN : (Ninit <= Nmax - 1 < Nmax)%N. { case: Nmax Hlt {Hfp Hls Hs E} => // m. by rewrite ltnS subn1 /= => ->; rewrite ltnSn. }
    have Hnd : NoDup (List.map fst l).
    { case: (prepare_rho_ok Hsh checkrho near_refl Hfp Hls) => l' [E' [H _]]. move: E. rewrite E' => -[<-]. rewrite H. apply: List.NoDup_rev. exact: List.seq_NoDup. }
    have Huniq : forall N r r', In (N, r) l -> In (N, r') l -> r = r'.
    { clear -Hnd. elim: l Hnd => [|[K k] l IH] //= Hnd N r r'. inversion Hnd as [|? ? Hni Hnd']; subst.
      move=> [[E1 E2]|H1] [[E3 E4]|H2]; subst => //; try by exfalso; apply: Hni; apply/in_map_iff; eexists; split; last eassumption.
      exact: (IH Hnd' N). }
    case: (init_rho_ok Hsh checkrho near_refl (Hs _ HN) Hls) => rho [E1 [Hd _]]. move: E. rewrite /prepare_rho E1 /= /calc_densitymatrix.
    case: (if checkrho then _ else _) => //= -[]. case El: (calc_dm_loop _ _ _ _ _ _ _ _ _ _) => [l'| |] //= -[EL].
    have EN : (Ninit + (Nmax - 1 - Ninit) = Nmax - 1)%N by apply: subnKC; case/andP: HN.
    move=> N r rp /andP [N1 N2] Hin Hinp A.
    case: (calc_dm_loop_expect Hfp (n := (Nmax - 1 - Ninit)%N) (rho := rho) _ _ El (N := N)); rewrite ?EN //.
    - by case/andP: HN.
    - rewrite N1 /= leq_subRL ?add1n //. exact: leq_ltn_trans N2.
    - move=> r0 [rp0 [H1 [H2 H3]]]. rewrite EL in H1. have H2' : In ((N - 1)%N, rp0) l by rewrite -EL; right.
      rewrite (Huniq _ _ _ Hin H1) (Huniq _ _ _ Hinp H2'). exact: H3.
  Qed.

  (** Full density matrix: one step adds the thermal state of the discarded multiplets of step N. *)
  Lemma fdm_iterN_expect tiny Ninit Nmax (df : nat -> diaginfo C) sa store wn N rho rp A : first_pass sh Ninit Nmax df sa -> fdm_data Ninit Nmax df sa store wn ->
    (Ninit < N < Nmax)%N -> good Ninit Nmax df sa N rho ->
    fdm_iterN sy combs t near checkrho df sa store wn tiny (N == (Nmax - 1)%N) N rho = Ok rp ->
    exists rhoD, init_rho_FDM sy near checkrho store wn tiny N = Ok rhoD /\
      expectation sy rp A = expectation sy rho (carried sh (df N) A) + (if N == (Nmax - 1)%N then 0 else expectation sy rhoD (carried sh (df N) A)).
  Proof.
    move=> Hfp Hfd HN Hg E. case/andP: (HN) => HN1 HN2.
    have HNr : (Ninit <= N < Nmax)%N by rewrite ltnW.
    have HNp : (Ninit <= N - 1 < Nmax)%N. { case: N HN1 HN2 {HN Hg E HNr} => // m H1 H2. rewrite subn1 /=. by rewrite -ltnS H1 /= ltnW. }
    have Hs := first_pass_sound Hsh Hfp HNp. case: (Hs) => S1 [S2 S3].
    have Hreg : regular_step sh (sa (N - 1)%N) (sa N) (df N) by case: Hfp => _ [_ [_ [_ [_ H]]]]; apply: H.
    case: (init_FDM_ok Hsh checkrho tiny near_refl Hfp Hfd HNr) => rhoD [ED [GD [_ DD]]]. exists rhoD. split=> //.
    move: E. rewrite /fdm_iterN ED. set last := (N == (Nmax - 1)%N). have Hf := good_fits HN Hg. have HfD := good_fits HN GD.
    set rD := (if last then [::] else rhoD). have -> : (if last then Ok [::] else Ok rhoD) = Ok rD by rewrite /rD; case: ifP.
    rewrite /=. have HrD : ~~ last -> rD = rhoD by rewrite /rD => /negbTE ->.
    case: (@loop_result C (sa (N - 1)%N) (fdm_sector sy combs t last (df N) rho rD (sa N))
      (fun J r s => back sh (sa N) (df N) rho J r s + (if last then 0 else back sh (sa N) (df N) rD J r s))) => [Ix b Hin|rp' [E' Hr]].
    { apply: (fdm_sector_eval Hsh S1 S2 S3 Hreg Hf) => // Hl. by rewrite HrD. }
    rewrite E' => -[<-].
    rewrite /expectation (big_Forall2 (F := fun p => mmC (fst p) * (\sum_(r < b_kept (snd p)) \sum_(s < b_kept (snd p)) back sh (sa N) (df N) rho (fst p) r s * A (fst p) s r) +
      (if last then 0 else mmC (fst p) * (\sum_(r < b_kept (snd p)) \sum_(s < b_kept (snd p)) back sh (sa N) (df N) rhoD (fst p) r s * A (fst p) s r))) Hr).
    - have Hc : forall q, fits (sa N) (df N) q -> \sum_(p <- sa (N - 1)%N) mmC (fst p) * (\sum_(r < b_kept (snd p)) \sum_(s < b_kept (snd p)) back sh (sa N) (df N) q (fst p) r s * A (fst p) s r) = expectation sy q (carried sh (df N) A).
      { move=> q Hq. rewrite (back_expect Hsh S1 S2 S3 Hreg A Hq). apply: eq_big_In => -[J M] Hin. congr (_ * _). apply: eq_bigr => r _. apply: eq_bigr => s _.
        congr (_ * _). apply: (image_carried _ _ _ Hs Hreg). case: Hq => _ [H _]. apply: H. by apply/in_map_iff; exists (J, M). }
      rewrite big_split /= Hc //. congr (_ + _). case: (boolP last) => Hl; first by rewrite big1_eq. by rewrite Hc.
    - move=> [J b] [K M] [_ [/= -> [-> [_ El]]]]. case: (boolP last) El HrD => Hl El HrD.
      + rewrite addr0. congr (_ * _). apply: eq_bigr => r _. apply: eq_bigr => s _. by rewrite El // addr0.
      + rewrite -mulrDr -big_split /=. congr (_ * _). apply: eq_bigr => r _. rewrite -big_split /=. apply: eq_bigr => s _. by rewrite El // HrD // mulrDl.
  Qed.
  Lemma init_FDM_form tiny Ninit Nmax (df : nat -> diaginfo C) sa store wn N rho : first_pass sh Ninit Nmax df sa -> fdm_data Ninit Nmax df sa store wn ->
    (Ninit <= N < Nmax)%N -> init_rho_FDM sy near checkrho store wn tiny N = Ok rho ->
    rho = List.map (fun p => (fst p, fdm_matrix wn N (Zsum sh store N) (snd p))) (store N).
  Proof.
    move=> Hfp Hfd HN. rewrite /init_rho_FDM (ZnDN_eval Hsh Hfp Hfd HN) /=.
    case: ifP => _; last by move=> [<-]. case: (dm_trace _ _) => //= tr. case: ifP => _; first by move=> [<-]. by case: (tiny _) => //= -[<-].
  Qed.

  Lemma thermal_eval tiny Ninit Nmax (df : nat -> diaginfo C) sa store wn N rho A : first_pass sh Ninit Nmax df sa -> fdm_data Ninit Nmax df sa store wn ->
    (Ninit <= N < Nmax)%N -> init_rho_FDM sy near checkrho store wn tiny N = Ok rho ->
    expectation sy rho A = thermal sy (N == (Nmax - 1)%N) (store N) (wn N) A.
  Proof.
    move=> Hfp Hfd HN /(init_FDM_form Hfp Hfd HN) ->. rewrite /expectation big_lmap /thermal.
    have EZ : \sum_(p <- store N) \sum_(discarded_from (N == (Nmax - 1)%N) (snd p) <= i < th_dim (snd p)) zc C (degeneracy sy (fst p)) * th_boltz (snd p) i = Zsum sh store N.
    { apply: eq_big_In => -[J x] Hin /=. by rewrite (min_spec Hfd HN Hin). }
    rewrite EZ.
    case: (eqVneq (Zsum sh store N) 0) => [HZ|HZ].
    - rewrite [in RHS]HZ invr0 mulr0. apply: big_zero_In => p _ /=. rewrite big1 ?mulr0 // => r _. rewrite big1 // => s _.
      by rewrite HZ eqxx mul0r.
    - rewrite mulr_sumr mulr_suml. apply: eq_big_In => -[J x] Hin /=. rewrite -(min_spec Hfd HN Hin).
      rewrite [in RHS]big_geq_mkord [in RHS]mulr_sumr [in RHS]mulr_suml [in LHS]mulr_sumr [in RHS]big_mkcond /=. apply: eq_bigr => i _.
      rewrite (bigD1 i) //= HZ eqxx ltn_ord andbT big1 ?addr0.
      + rewrite /=. case: ifP => _; last by rewrite mul0r mulr0. exact: AC_weight.
      + move=> j Hj. by rewrite (_ : (nat_of_ord i == j) = false) ?andbF ?mul0r // eq_sym; apply/negbTE.
  Qed.

  Lemma calc_fdm_loop_expect tiny Ninit Nmax (df : nat -> diaginfo C) sa store wn : first_pass sh Ninit Nmax df sa -> fdm_data Ninit Nmax df sa store wn ->
    forall n rho, (Ninit + n < Nmax)%N -> good Ninit Nmax df sa (Ninit + n) rho -> full_trace sy rho = later_weight Nmax wn (Ninit + n) ->
    forall l, calc_fdm_loop sy combs t near checkrho df sa store wn tiny Ninit Nmax n rho = Ok l ->
    forall N, (Ninit < N <= Ninit + n)%N -> exists r rp, In (N, r) ((Ninit + n, rho)%N :: l) /\ In ((N - 1)%N, rp) l /\
      forall A, expectation sy rp A = expectation sy r (carried sh (df N) A) + (if N == (Nmax - 1)%N then 0 else thermal sy false (store N) (wn N) (carried sh (df N) A)).
  Proof.
    move=> Hfp Hfd. elim=> [|n IH] rho HN Hg Htr l.
    { move=> _ N. by rewrite addn0 => /andP [H1 H2]; move: (leq_ltn_trans H2 H1); rewrite ltnn. }
    rewrite [calc_fdm_loop _ _ _ _ _ _ _ _ _ _ _ _ _ _]/=.
    have HNr : (Ninit < Ninit + n.+1 < Nmax)%N by rewrite HN andbT addnS ltnS leq_addr.
    have E1 : (Ninit + n.+1 - 1 = Ninit + n)%N by rewrite addnS subn1.
    case: (fdm_iterN_ok Hsh checkrho tiny near_refl Hfp Hfd HNr Hg Htr); rewrite E1 => rp [Erp [Gp [Tp [Kp Sp]]]]. rewrite Erp /=.
    case: (if checkrho then _ else _) => //= -[]. case El: (calc_fdm_loop _ _ _ _ _ _ _ _ _ _ _ _ _ _) => [l'| |] //= -[<-].
    move=> N HNN. case: (eqVneq N (Ninit + n.+1)%N) => [->|Hne].
    - exists rho, rp. split; first by left. split; first by rewrite E1; left. move=> A.
      case: (fdm_iterN_expect A Hfp Hfd HNr Hg Erp) => rhoD [ED ->]. congr (_ + _). case E: (_ == _) => //.
      rewrite -E. apply: (thermal_eval _ Hfp Hfd _ ED). case/andP: HNr => H1 ->. by rewrite ltnW.
    - have HN' : (Ninit < N <= Ninit + n)%N. { case/andP: HNN => -> H. rewrite -ltnS -addnS. by rewrite ltn_neqAle Hne. }
      case: (IH rp _ Gp _ l' El N HN') => [| |r [rq [H1 [H2 H3]]]].
      + by apply: leq_ltn_trans HN; rewrite addnS.
      + rewrite Tp /later_weight -addnS. case: eqP => // E. exfalso. have H0 : (0 < Nmax)%N by apply: leq_ltn_trans HN. move: HN. by rewrite addnS E subn1 prednK ?ltnn.
      + exists r, rq. split; first by right. by split; first right.
  Qed.

  Lemma prepare_rhoFDM_expect tiny Ninit Nmax (df : nat -> diaginfo C) sa store wn l : first_pass sh Ninit Nmax df sa -> fdm_data Ninit Nmax df sa store wn ->
    prepare_rhoFDM sy combs t near checkrho df sa store wn tiny Ninit Nmax = Ok l ->
    (forall r A, In ((Nmax - 1)%N, r) l -> expectation sy r A = thermal sy true (store (Nmax - 1)%N) (wn (Nmax - 1)%N) A) /\
    forall N r rp, (Ninit < N < Nmax)%N -> In (N, r) l -> In ((N - 1)%N, rp) l -> forall A,
      expectation sy rp A = expectation sy r (carried sh (df N) A) + (if N == (Nmax - 1)%N then 0 else thermal sy false (store N) (wn N) (carried sh (df N) A)).
  Proof.
    move=> Hfp Hfd E. case: (Hfp) => _ [Hlt _].
    have HN : (Ninit <= Nmax - 1 < Nmax)%N. { case: Nmax Hlt {Hfp Hfd E} => // m. by rewrite ltnS subn1 /= => ->; rewrite ltnSn. }
    have Hnd : NoDup (List.map fst l).
    { case: (prepare_rhoFDM_ok Hsh checkrho tiny near_refl Hfp Hfd) => l' [E' [H _]]. move: E. rewrite E' => -[<-]. rewrite H. apply: List.NoDup_rev. exact: List.seq_NoDup. }
    have Huniq : forall N r r', In (N, r) l -> In (N, r') l -> r = r'.
    { clear -Hnd. elim: l Hnd => [|[K k] l IH] //= Hnd N r r'. inversion Hnd as [|? ? Hni Hnd']; subst.
      move=> [[E1 E2]|H1] [[E3 E4]|H2]; subst => //; try by exfalso; apply: Hni; apply/in_map_iff; eexists; split; last eassumption.
      exact: (IH Hnd' N). }
    case: (init_FDM_ok Hsh checkrho tiny near_refl Hfp Hfd HN) => rho [E1 [Hg [Ht Hd]]]. move: E. rewrite /prepare_rhoFDM E1 /=.
    have EN : (Ninit + (Nmax - 1 - Ninit) = Nmax - 1)%N by apply: subnKC; case/andP: HN.
    case El: (calc_fdm_loop _ _ _ _ _ _ _ _ _ _ _ _ _ _) => [l'| |] //= -[EL]. split.
    - move=> r A Hin. have H0 : In ((Nmax - 1)%N, rho) l by rewrite -EL; left. rewrite (Huniq _ _ _ Hin H0) (thermal_eval _ Hfp Hfd HN E1). by rewrite eqxx.
    - move=> N r rp /andP [N1 N2] Hin Hinp A.
      case: (calc_fdm_loop_expect Hfp Hfd (n := (Nmax - 1 - Ninit)%N) (rho := rho) _ _ _ El (N := N)); rewrite ?EN //.
      + by case/andP: HN.
      + by rewrite /later_weight eqxx.
      + rewrite N1 /= leq_subRL ?add1n //. exact: leq_ltn_trans N2.
      + move=> r0 [rp0 [H1 [H2 H3]]]. rewrite EL in H1. have H2' : In ((N - 1)%N, rp0) l by rewrite -EL; right.
        rewrite (Huniq _ _ _ Hin H1) (Huniq _ _ _ Hinp H2'). exact: H3.
  Qed.
End Expect.
