(** The refinement of the mesh of the tool [bw]. *)
From Coq Require Import List ZArith Reals Lra Lia Bool Sorting Permutation.
From Verif Require Import Base Interp_model Bw_model Bw_spec Bw_lists.
Import ListNotations.
Local Open Scope list_scope.
Local Open Scope R_scope.

Notation pt := (R * R)%type.
Lemma geo_pos x y : 0 < x -> x < y -> x < sqrt (x * y) < y.
Proof.
  intros Hx Hy. split.
  - rewrite <- (sqrt_square x) at 1 by lra. apply sqrt_lt_1; nra.
  - rewrite <- (sqrt_square y) at 2 by lra. apply sqrt_lt_1; nra.
Qed.
Lemma geo_neg x y : y < 0 -> x < y -> x < - sqrt (x * y) < y.
Proof. intros Hy Hx. pose proof (geo_pos (- y) (- x) ltac:(lra) ltac:(lra)) as H. replace (- y * - x) with (x * y) in H by ring. lra. Qed.
Lemma between_in lo x hi : lo < x < hi -> between lo x hi = [x].
Proof. intros [H1 H2]. unfold between. apply Rltb_spec in H1, H2. now rewrite H1, H2. Qed.
Lemma wanted_ok dyn (p2 p1 p0 : pt) : wanted dyn (fst p2) (snd p2) (fst p1) (snd p1) (fst p0) (snd p0) = true <-> badly_predicted dyn p2 p1 p0.
Proof.
  unfold wanted, badly_predicted. set (pr := snd p1 + (snd p2 - snd p1) / (fst p2 - fst p1) * (fst p0 - fst p1)). destruct (Req_EM_T (snd p0) 0) as [E | E].
  - rewrite E, Rabs_R0, Rmult_0_r. destruct (Req_EM_T pr 0) as [E' | E']; cbn [negb].
    + rewrite E', Rminus_0_r, Rabs_R0. split; [discriminate | lra].
    + split; [intros _; apply Rabs_pos_lt; lra | reflexivity].
  - rewrite Rltb_spec. unfold Rdiv at 1. rewrite Rabs_mult, Rabs_inv. assert (P : 0 < Rabs (snd p0)) by now apply Rabs_pos_lt. split; intros H.
    + apply (Rmult_lt_compat_r _ _ _ P) in H. rewrite Rmult_assoc, Rinv_l in H by lra. lra.
    + apply (Rmult_lt_reg_r _ _ _ P). rewrite Rmult_assoc, Rinv_l by lra. lra.
Qed.

Fixpoint refn (dyn : R) (p2 p1 : pt) (l : list pt) : list R :=
  match l with
  | [] => []
  | p0 :: t => (if wanted dyn (fst p2) (snd p2) (fst p1) (snd p1) (fst p0) (snd p0) then [- sqrt (fst p0 * fst p1)] else []) ++ fst p0 :: refn dyn p1 p0 t
  end.
Fixpoint refp (dyn : R) (p2 p1 : pt) (l : list pt) : list R :=
  match l with
  | [] => []
  | p0 :: t => (if wanted dyn (fst p2) (snd p2) (fst p1) (snd p1) (fst p0) (snd p0) then [sqrt (fst p0 * fst p1)] else []) ++ fst p0 :: refp dyn p1 p0 t
  end.
Lemma neg_ok dyn p2 p1 l (T : list pt) : StronglySorted Rlt (map fst (p1 :: l)) -> Forall (fun p : pt => fst p < 0) l -> Forall (fun p : pt => 0 < fst p) T ->
  refine_neg dyn p2 p1 (l ++ T) = refn dyn p2 p1 l.
Proof.
  revert p2 p1. induction l as [| p0 l IH]; intros p2 p1 S1 Hl HT.
  - destruct T as [| h T]; [reflexivity |]. inversion_clear HT as [| ? ? H1 H2]. cbn [app refine_neg]. assert (E : Rltb (fst h) 0 = false) by (apply Rltb_false; lra). now rewrite E.
  - inversion_clear Hl as [| ? ? H1 H2]. cbn [map] in S1. inversion_clear S1 as [| ? ? S2 S3]. inversion_clear S3 as [| ? ? S4 S5]. cbn [app refine_neg refn]. assert (E : Rltb (fst p0) 0 = true) by now apply Rltb_spec. rewrite E.
    rewrite IH by assumption. pose proof (geo_neg (fst p1) (fst p0) H1 S4) as G. rewrite (Rmult_comm (fst p0)), between_in by assumption. reflexivity.
Qed.
Lemma pos_ok dyn p2 p1 l (T : list pt) : StronglySorted Rgt (map fst (p1 :: l)) -> Forall (fun p : pt => 0 < fst p) l -> Forall (fun p : pt => fst p < 0) T -> T <> [] ->
  refine_pos dyn p2 p1 (l ++ T) = refp dyn p2 p1 l.
Proof.
  revert p2 p1. induction l as [| p0 l IH]; intros p2 p1 S1 Hl HT HT0.
  - destruct T as [| h T]; [reflexivity |]. inversion_clear HT as [| ? ? H1 H2]. cbn [app refine_pos]. assert (E : Rltb 0 (fst h) = false) by (apply Rltb_false; lra). rewrite E. now destruct T.
  - inversion_clear Hl as [| ? ? H1 H2]. cbn [map] in S1. inversion_clear S1 as [| ? ? S2 S3]. inversion_clear S3 as [| ? ? S4 S5]. specialize (IH p1 p0 S2 H2 HT HT0). cbn [app refp]. rewrite <- IH. assert (E : Rltb 0 (fst p0) = true) by now apply Rltb_spec.
    pose proof (geo_pos (fst p0) (fst p1) H1 S4) as G. destruct (l ++ T) as [| h t] eqn:El; [destruct l; [cbn in El; contradiction | discriminate] |]. change (refine_pos dyn p2 p1 (p0 :: h :: t)) with
      (if Rltb 0 (fst p0) then (if wanted dyn (fst p2) (snd p2) (fst p1) (snd p1) (fst p0) (snd p0) then between (fst p0) (sqrt (fst p0 * fst p1)) (fst p1) else []) ++ fst p0 :: refine_pos dyn p1 p0 (h :: t) else []).
    rewrite E, between_in by assumption. reflexivity.
Qed.
Lemma refn_sorted dyn p2 p1 l : StronglySorted Rlt (map fst (p1 :: l)) -> Forall (fun p : pt => fst p < 0) l -> Sorted Rlt (fst p1 :: refn dyn p2 p1 l).
Proof.
  revert p2 p1. induction l as [| p0 l IH]; intros p2 p1 S1 Hl; [repeat constructor |]. inversion_clear Hl as [| ? ? H1 H2]. cbn [map] in S1. inversion_clear S1 as [| ? ? S2 S3]. inversion_clear S3 as [| ? ? S4 S5].
  specialize (IH p1 p0 S2 H2). pose proof (geo_neg (fst p1) (fst p0) H1 S4) as G. rewrite (Rmult_comm (fst p1)) in G. cbn [refn]. destruct (wanted _ _ _ _ _ _ _); cbn [app].
  - constructor; [constructor; [assumption | constructor; lra] | constructor; lra].
  - constructor; [assumption | constructor; lra].
Qed.
Lemma refp_sorted dyn p2 p1 l : StronglySorted Rgt (map fst (p1 :: l)) -> Forall (fun p : pt => 0 < fst p) l -> Sorted Rgt (fst p1 :: refp dyn p2 p1 l).
Proof.
  revert p2 p1. induction l as [| p0 l IH]; intros p2 p1 S1 Hl; [repeat constructor |]. inversion_clear Hl as [| ? ? H1 H2]. cbn [map] in S1. inversion_clear S1 as [| ? ? S2 S3]. inversion_clear S3 as [| ? ? S4 S5].
  specialize (IH p1 p0 S2 H2). pose proof (geo_pos (fst p0) (fst p1) H1 S4) as G. cbn [refp]. destruct (wanted _ _ _ _ _ _ _); cbn [app].
  - constructor; [constructor; [assumption | constructor; red; lra] | constructor; red; lra].
  - constructor; [assumption | constructor; red; lra].
Qed.
Lemma refn_in dyn p2 p1 l x : In x (refn dyn p2 p1 l) <-> In x (map fst l) \/ exists l1 a b c t, p2 :: p1 :: l = l1 ++ a :: b :: c :: t /\ badly_predicted dyn a b c /\ x = - sqrt (fst b * fst c).
Proof.
  revert p2 p1. induction l as [| p0 l IH]; intros p2 p1.
  - cbn [refn map In]. split; [intros [] |]. intros [[] | (l1 & a & b & c & t & E & _)]. apply (f_equal (@List.length pt)) in E. rewrite app_length in E. cbn in E. lia.
  - cbn [refn map In]. rewrite in_app_iff. cbn [In]. rewrite IH. split.
    + intros [H | [H | [H | (l1 & a & b & c & t & E & W & X)]]].
      * destruct (wanted _ _ _ _ _ _ _) eqn:W; [| destruct H]. destruct H as [H | []]. right. exists [], p2, p1, p0, l. split; [reflexivity |]. split; [now apply wanted_ok |]. rewrite <- H. f_equal. f_equal. ring.
      * left. left. exact H.
      * left. right. exact H.
      * right. exists (p2 :: l1), a, b, c, t. split; [cbn; now rewrite <- E | auto].
    + intros [[H | H] | (l1 & a & b & c & t & E & W & X)]; auto. destruct l1 as [| h l1].
      * cbn [app] in E. assert (Ea : a = p2) by congruence. assert (Eb : b = p1) by congruence. assert (Ec : c = p0) by congruence. subst a b c. apply wanted_ok in W. rewrite W. left. left. rewrite X. f_equal. f_equal. ring.
      * right. right. right. exists l1, a, b, c, t. split; [cbn [app] in E; congruence | auto].
Qed.
Lemma refp_in dyn p2 p1 l x : In x (refp dyn p2 p1 l) <-> In x (map fst l) \/ exists l1 a b c t, p2 :: p1 :: l = l1 ++ a :: b :: c :: t /\ badly_predicted dyn a b c /\ x = sqrt (fst b * fst c).
Proof.
  revert p2 p1. induction l as [| p0 l IH]; intros p2 p1.
  - cbn [refp map In]. split; [intros [] |]. intros [[] | (l1 & a & b & c & t & E & _)]. apply (f_equal (@List.length pt)) in E. rewrite app_length in E. cbn in E. lia.
  - cbn [refp map In]. rewrite in_app_iff. cbn [In]. rewrite IH. split.
    + intros [H | [H | [H | (l1 & a & b & c & t & E & W & X)]]].
      * destruct (wanted _ _ _ _ _ _ _) eqn:W; [| destruct H]. destruct H as [H | []]. right. exists [], p2, p1, p0, l. split; [reflexivity |]. split; [now apply wanted_ok |]. rewrite <- H. f_equal. ring.
      * left. left. exact H.
      * left. right. exact H.
      * right. exists (p2 :: l1), a, b, c, t. split; [cbn; now rewrite <- E | auto].
    + intros [[H | H] | (l1 & a & b & c & t & E & W & X)]; auto. destruct l1 as [| h l1].
      * cbn [app] in E. assert (Ea : a = p2) by congruence. assert (Eb : b = p1) by congruence. assert (Ec : c = p0) by congruence. subst a b c. apply wanted_ok in W. rewrite W. left. left. rewrite X. f_equal. ring.
      * right. right. right. exists l1, a, b, c, t. split; [cbn [app] in E; congruence | auto].
Qed.

(** ** Splitting at zero *)
Lemma split_zero (d : list pt) : StronglySorted Rlt (map fst d) -> ~ In 0 (map fst d) -> exists N P, d = N ++ P /\ Forall (fun p : pt => fst p < 0) N /\ Forall (fun p : pt => 0 < fst p) P.
Proof.
  induction d as [| p d IH]; intros H H0; [exists [], []; repeat constructor |]. cbn [map] in *. inversion_clear H as [| ? ? H1 H2]. destruct (Rlt_dec (fst p) 0) as [C | C].
  - destruct IH as (N & P & E & HN & HP); [assumption | intros X; apply H0; right; exact X |]. exists (p :: N), P. split; [now rewrite E | split; [constructor |]; assumption].
  - assert (C' : 0 < fst p) by (destruct (Req_dec (fst p) 0) as [E | E]; [exfalso; apply H0; left; exact E | lra]). exists [], (p :: d). split; [reflexivity |]. split; [constructor |]. constructor; [assumption |]. apply Forall_forall. intros q Hq. rewrite Forall_forall in H2. pose proof (H2 (fst q) (in_map fst d q Hq)). lra.
Qed.
Lemma ss_app {A} (Rel : A -> A -> Prop) l1 l2 : StronglySorted Rel (l1 ++ l2) -> StronglySorted Rel l1 /\ StronglySorted Rel l2 /\ forall x y, In x l1 -> In y l2 -> Rel x y.
Proof.
  induction l1 as [| h t IH]; cbn [app]; intros H; [repeat split; [constructor | assumption | intros ? ? []] |]. inversion_clear H as [| ? ? H1 H2]. destruct (IH H1) as (A1 & A2 & A3). rewrite Forall_app in H2. destruct H2 as [B1 B2]. repeat split; [constructor; assumption | assumption |].
  intros x y [<- | Hx] Hy; [rewrite Forall_forall in B2; auto | auto].
Qed.
Lemma ss_app_intro {A} (Rel : A -> A -> Prop) l1 l2 : StronglySorted Rel l1 -> StronglySorted Rel l2 -> (forall x y, In x l1 -> In y l2 -> Rel x y) -> StronglySorted Rel (l1 ++ l2).
Proof.
  induction 1 as [| h t H1 IH H2]; cbn [app]; intros H3 H4; [assumption |]. constructor; [apply IH; [assumption | intros; apply H4; [right |]; assumption] |]. apply Forall_app. split; [assumption |]. apply Forall_forall. intros; apply H4; [left; reflexivity | assumption].
Qed.
Lemma ss_rev l : StronglySorted Rlt l -> StronglySorted Rgt (rev l).
Proof.
  induction 1 as [| h t H1 IH H2]; cbn [rev]; [constructor |]. apply ss_app_intro; [assumption | repeat constructor |]. intros x y Hx [<- | []]. apply in_rev in Hx. rewrite Forall_forall in H2. red. auto.
Qed.
Lemma tail_of (N P L t : list pt) p : N ++ P = L ++ p :: t -> fst p < 0 -> Forall (fun p : pt => 0 < fst p) P -> exists t', N = L ++ p :: t' /\ t = t' ++ P.
Proof.
  revert L. induction N as [| h N IH]; intros L E Hp HP.
  - cbn [app] in E. rewrite E in HP. apply Forall_app in HP. destruct HP as [_ HP]. inversion_clear HP. lra.
  - destruct L as [| k L]; cbn [app] in E.
    + exists N. assert (h = p /\ t = N ++ P) as [-> ->] by (split; congruence). auto.
    + destruct (IH L ltac:(congruence) Hp HP) as (t' & E1 & E2). exists t'. split; [cbn; rewrite <- E1; congruence | assumption].
Qed.
Lemma head_of (N P L t : list pt) p : N ++ P = L ++ p :: t -> 0 < fst p -> Forall (fun p : pt => fst p < 0) N -> exists L', P = L' ++ p :: t /\ L = N ++ L'.
Proof.
  revert L. induction N as [| h N IH]; intros L E Hp HN; [exists L; auto |]. inversion_clear HN as [| ? ? H1 H2]. destruct L as [| k L]; cbn [app] in E.
  - assert (h = p) by congruence. subst. lra.
  - destruct (IH L ltac:(congruence) Hp H2) as (L' & E1 & E2). exists L'. split; [assumption |]. cbn. rewrite <- E2. congruence.
Qed.

Section Refine.
  Variables (debug : bool) (dyn : R) (m a : list R).
  Hypothesis Hlen : List.length a = List.length m.
  Hypothesis Hsort : StronglySorted Rlt m.
  Hypothesis Hzero : ~ In 0 m.
  Hypothesis Hsix : (6 <= List.length m)%nat.
  Hypothesis Hneg : exists x y, x < y < 0 /\ In x m /\ In y m.
  Hypothesis Hpos : exists x y, 0 < x < y /\ In x m /\ In y m.
  Lemma keys_combine : map fst (combine m a) = m.
  Proof. clear - Hlen. revert a Hlen. induction m as [| h t IH]; intros a Hlen; [reflexivity |]. destruct a as [| k a']; [discriminate |]. cbn. rewrite IH; [reflexivity | now injection Hlen]. Qed.
  Lemma refine_ok : exists m', refine_mesh debug dyn m a = Ok m' /\ StronglySorted Rlt m' /\ (forall x, In x m' <-> In x m \/ refinement dyn (combine m a) x) /\
    forall x, In x m' -> x <> 0 /\ exists lo hi, In lo m /\ In hi m /\ lo <= x <= hi.
  Proof.
    unfold refine_mesh, cassert. assert (E6 : (6 <=? List.length m)%nat = true) by now apply Nat.leb_le. rewrite E6. rewrite andb_false_r. cbn [bind].
    pose proof keys_combine as K. set (d := combine m a) in *. rewrite <- K in Hsort, Hzero. destruct (split_zero d Hsort Hzero) as (N & P & E & HN & HP). clearbody d. rewrite <- K in Hneg, Hpos. clear Hsix E6 Hlen.
    assert (LN : exists p0 p1 t, N = p0 :: p1 :: t).
    { destruct Hneg as (x & y & Hxy & Hx & Hy). rewrite E, map_app in Hx, Hy. assert (Q : forall z, z < 0 -> In z (map fst N ++ map fst P) -> In z (map fst N)). { intros z Hz Hi. apply in_app_iff in Hi. destruct Hi as [Hi | Hi]; [assumption |]. apply in_map_iff in Hi. destruct Hi as (p & Ep & Hp). rewrite Forall_forall in HP. specialize (HP p Hp). lra. }
      apply Q in Hx; [| lra]. apply Q in Hy; [| lra]. destruct N as [| p0 [| p1 t]]; [destruct Hx | | eauto]. destruct Hx as [Hx | []], Hy as [Hy | []]. lra. }
    assert (LP : exists q0 q1 t, P = rev t ++ [q1; q0]).
    { destruct Hpos as (x & y & Hxy & Hx & Hy). rewrite E, map_app in Hx, Hy. assert (Q : forall z, 0 < z -> In z (map fst N ++ map fst P) -> In z (map fst P)). { intros z Hz Hi. apply in_app_iff in Hi. destruct Hi as [Hi | Hi]; [| assumption]. apply in_map_iff in Hi. destruct Hi as (p & Ep & Hp). rewrite Forall_forall in HN. specialize (HN p Hp). lra. }
      apply Q in Hx; [| lra]. apply Q in Hy; [| lra]. rewrite <- (rev_involutive P) in *. destruct (rev P) as [| q0 [| q1 t]]; [destruct Hx | |]. { destruct Hx as [Hx | []], Hy as [Hy | []]. lra. } exists q0, q1, t. cbn [rev]. now rewrite <- app_assoc. }
    destruct LN as (p0 & p1 & up & EN), LP as (q0 & q1 & down & EP).
    assert (Er : rev d = q0 :: q1 :: down ++ rev N). { rewrite E, EP, !rev_app_distr, rev_involutive. cbn [rev app]. reflexivity. }
    assert (Ed : d = p0 :: p1 :: up ++ P) by (rewrite E, EN; reflexivity). set (Ref := refinement dyn d). rewrite Er, Ed.
    rewrite E, map_app in Hsort. apply ss_app in Hsort. destruct Hsort as (SN & SP & _). rewrite EN in SN, HN. pose proof (Forall_inv HN) as N0. pose proof (Forall_inv (Forall_inv_tail HN)) as N1. pose proof (Forall_inv_tail (Forall_inv_tail HN)) as N2. cbn beta in N0, N1. cbn [map] in SN. inversion_clear SN as [| ? ? S1 S2]. pose proof (Forall_inv S2) as S3.
    assert (SP' : StronglySorted Rgt (map fst (q0 :: q1 :: down))). { assert (EQ : map fst (q0 :: q1 :: down) = rev (map fst P)) by (rewrite EP, <- map_rev, rev_app_distr, rev_involutive; reflexivity). rewrite EQ. now apply ss_rev. }
    assert (HP' : Forall (fun p : pt => 0 < fst p) (q0 :: q1 :: down)). { assert (EQ : q0 :: q1 :: down = rev P) by (rewrite EP, rev_app_distr, rev_involutive; reflexivity). rewrite EQ. now apply Forall_rev. }
    pose proof (Forall_inv HP') as P0. pose proof (Forall_inv (Forall_inv_tail HP')) as P1. pose proof (Forall_inv_tail (Forall_inv_tail HP')) as P2. cbn beta in P0, P1. cbn [map] in SP'. inversion_clear SP' as [| ? ? T1 T2]. pose proof (Forall_inv T2) as T3.
    rewrite (neg_ok dyn p0 p1 up P S1 N2 HP). rewrite (pos_ok dyn q0 q1 down (rev N) T1 P2); [| apply Forall_rev; rewrite EN; assumption | rewrite EN; intros C; apply (f_equal (@List.length pt)) in C; rewrite rev_length in C; discriminate].
    pose proof (geo_neg (fst p0) (fst p1) N1 S3) as G1. pose proof (geo_pos (fst q1) (fst q0) P1 T3) as G2. rewrite (between_in (fst p0)) by assumption. rewrite (Rmult_comm (fst q0)), (between_in (fst q1)) by assumption.
    eexists. split; [reflexivity |]. cbn [app].
    set (LNN := fst p0 :: - sqrt (fst p0 * fst p1) :: fst p1 :: refn dyn p0 p1 up). set (LPP := fst q0 :: sqrt (fst q1 * fst q0) :: fst q1 :: refp dyn q0 q1 down).
    match goal with |- context [sort ?l] => change l with (LNN ++ LPP) end.
    assert (Q1 : StronglySorted Rlt LNN). { apply Sorted_StronglySorted; [intros x y z; lra |]. pose proof (refn_sorted dyn p0 p1 up S1 N2) as QQ. unfold LNN. constructor; [constructor; [assumption | constructor; lra] | constructor; lra]. }
    assert (Q2 : StronglySorted Rgt LPP). { apply Sorted_StronglySorted; [intros x y z; unfold Rgt; lra |]. pose proof (refp_sorted dyn q0 q1 down T1 P2) as QQ. unfold LPP. constructor; [constructor; [assumption | constructor; red; lra] | constructor; red; lra]. }
    assert (I1 : forall x, In x LNN <-> In x (map fst N) \/ x = - sqrt (fst p0 * fst p1) \/ exists l1 a b c t, N = l1 ++ a :: b :: c :: t /\ badly_predicted dyn a b c /\ x = - sqrt (fst b * fst c)).
    { intros x. unfold LNN. rewrite EN. cbn [In map]. rewrite refn_in. intuition (subst; auto 10). }
    assert (I2 : forall x, In x LPP <-> In x (map fst (q0 :: q1 :: down)) \/ x = sqrt (fst q1 * fst q0) \/ exists l1 a b c t, q0 :: q1 :: down = l1 ++ a :: b :: c :: t /\ badly_predicted dyn a b c /\ x = sqrt (fst b * fst c)).
    { intros x. unfold LPP. cbn [In map]. rewrite refp_in. intuition (subst; auto 10). }
    assert (B1 : forall x, In x LNN -> x < 0). { intros x Hx. apply I1 in Hx. destruct Hx as [Hx | [-> | (l1 & a0 & b & c & t & EE & _ & ->)]]; [apply in_map_iff in Hx; destruct Hx as (p & <- & Hp); rewrite EN in Hp; rewrite Forall_forall in HN; apply HN; assumption | lra |].
      rewrite EN in EE. rewrite EE in HN. apply Forall_app in HN. destruct HN as [_ HN']. pose proof (Forall_inv (Forall_inv_tail HN')) as X1. pose proof (Forall_inv (Forall_inv_tail (Forall_inv_tail HN'))) as X2. cbn beta in X1, X2. assert (0 < sqrt (fst b * fst c)) by (apply sqrt_lt_R0; nra). lra. }
    assert (B2 : forall x, In x LPP -> 0 < x). { intros x Hx. apply I2 in Hx. destruct Hx as [Hx | [-> | (l1 & a0 & b & c & t & EE & _ & ->)]]; [apply in_map_iff in Hx; destruct Hx as (p & <- & Hp); rewrite Forall_forall in HP'; apply HP'; assumption | apply sqrt_lt_R0; nra |].
      rewrite EE in HP'. apply Forall_app in HP'. destruct HP' as [_ HN']. pose proof (Forall_inv (Forall_inv_tail HN')) as X1. pose proof (Forall_inv (Forall_inv_tail (Forall_inv_tail HN'))) as X2. cbn beta in X1, X2. apply sqrt_lt_R0; nra. }
    assert (ND : NoDup (LNN ++ LPP)). { assert (X : StronglySorted Rlt (LNN ++ rev LPP)). { apply ss_app_intro; [assumption | |]. - clear - Q2. induction Q2 as [| h t H1 IH H2]; cbn [rev]; [constructor |]. apply ss_app_intro; [assumption | repeat constructor |]. intros x y Hx [<- | []]. apply in_rev in Hx. rewrite Forall_forall in H2. apply Rgt_lt. auto. - intros x y Hx Hy. apply in_rev in Hy. specialize (B1 x Hx). specialize (B2 y Hy). lra. }
      apply strict_nodup in X. eapply Permutation_NoDup; [| exact X]. apply Permutation_app_head. symmetry. apply Permutation_rev. }
    destruct (sort_strict _ ND) as [F1 F2]. split; [exact F1 |]. split; cycle 1.
    { intros x Hx. apply F2 in Hx. split; [apply in_app_iff in Hx; destruct Hx as [Hx | Hx]; [apply B1 in Hx | apply B2 in Hx]; lra |]. rewrite <- K. apply in_app_iff in Hx.
      assert (SNN : StronglySorted Rlt (map fst N)) by (rewrite EN; cbn [map]; constructor; assumption).
      assert (KK : forall p : pt, In p N \/ In p (q0 :: q1 :: down) -> In (fst p) (map fst d)). { intros p Hp. apply in_map. rewrite E, in_app_iff. destruct Hp as [Hp | Hp]; [now left | right]. rewrite EP, in_app_iff, <- in_rev. cbn [In] in Hp |- *. tauto. }
      destruct Hx as [Hx | Hx]; [apply I1 in Hx | apply I2 in Hx]; destruct Hx as [Hx | [-> | (l1 & a0 & b & c & t & EE & _ & ->)]].
      - apply in_map_iff in Hx. destruct Hx as (p & <- & Hp). exists (fst p), (fst p). repeat split; try lra; apply KK; auto.
      - exists (fst p0), (fst p1). repeat split; try lra; apply KK; left; rewrite EN; cbn; auto.
      - exists (fst b), (fst c). assert (Q : fst b < fst c /\ fst c < 0). { split; [rewrite EE, map_app in SNN; apply ss_app in SNN; destruct SNN as (_ & SNN & _); cbn [map] in SNN; inversion_clear SNN as [| ? ? X1 X2]; inversion_clear X1 as [| ? ? Y1 Y2]; apply (Forall_inv Y2) |]. rewrite EN in EE. rewrite EE in HN. apply Forall_app in HN. destruct HN as [_ HN']. apply (Forall_inv (Forall_inv_tail (Forall_inv_tail HN'))). }
        pose proof (geo_neg (fst b) (fst c) ltac:(tauto) ltac:(tauto)) as G. repeat split; try lra; apply KK; left; rewrite EE; apply in_app_iff; right; cbn; auto.
      - apply in_map_iff in Hx. destruct Hx as (p & <- & Hp). exists (fst p), (fst p). repeat split; try lra; apply KK; auto.
      - exists (fst q1), (fst q0). repeat split; try lra; apply KK; right; cbn; auto.
      - exists (fst c), (fst b). assert (SPP : StronglySorted Rgt (map fst (q0 :: q1 :: down))) by (cbn [map]; constructor; assumption).
        assert (Q : fst c < fst b /\ 0 < fst c). { split; [rewrite EE, map_app in SPP; apply ss_app in SPP; destruct SPP as (_ & SPP & _); cbn [map] in SPP; inversion_clear SPP as [| ? ? X1 X2]; inversion_clear X1 as [| ? ? Y1 Y2]; apply Rgt_lt, (Forall_inv Y2) |]. rewrite EE in HP'. apply Forall_app in HP'. destruct HP' as [_ HN']. apply (Forall_inv (Forall_inv_tail (Forall_inv_tail HN'))). }
        pose proof (geo_pos (fst c) (fst b) ltac:(tauto) ltac:(tauto)) as G. rewrite (Rmult_comm (fst b)). repeat split; try lra; apply KK; right; rewrite EE; apply in_app_iff; right; cbn; auto. }
    intros x. rewrite F2, in_app_iff, I1, I2.
    assert (KP : In x (map fst (q0 :: q1 :: down)) <-> In x (map fst P)). { rewrite EP, map_app. cbn [map]. rewrite in_app_iff. cbn [In]. rewrite map_rev, <- in_rev. tauto. }
    assert (KD : In x (map fst d) <-> In x (map fst N) \/ In x (map fst P)) by (rewrite E, map_app, in_app_iff; tauto).
    unfold Ref. rewrite <- K. clear I1 I2 F1 F2 ND Q1 Q2 B1 B2.
    split.
    - intros [[H | [-> | (l1 & a0 & b & c & t & EE & W & ->)]] | [H | [-> | (l1 & a0 & b & c & t & EE & W & ->)]]].
      + left. tauto.
      + right. left. exists p0, p1, (up ++ P). auto.
      + right. right. right. left. exists l1, a0, b, c, (t ++ P). split; [rewrite E, EE, <- app_assoc; reflexivity |]. split; [| auto]. rewrite EN in EE. rewrite EE in HN. apply Forall_app in HN. destruct HN as [_ HN']. apply (Forall_inv (Forall_inv_tail (Forall_inv_tail HN'))).
      + left. tauto.
      + right. right. left. exists q0, q1, (N ++ rev down). split; [rewrite E, EP, <- app_assoc; reflexivity |]. now rewrite Rmult_comm.
      + right. right. right. right. exists (N ++ rev t), c, b, a0, (rev l1). split; [| split; [| auto]].
        * assert (EQ : P = rev (q0 :: q1 :: down)) by (cbn [rev]; rewrite <- app_assoc; exact EP). rewrite E, EQ, EE, rev_app_distr. cbn [rev]. rewrite <- !app_assoc. reflexivity.
        * rewrite EE in HP'. apply Forall_app in HP'. destruct HP' as [_ HN']. apply (Forall_inv (Forall_inv_tail (Forall_inv_tail HN'))).
    - intros [H | [(p & q & t & EE & ->) | [(p & q & t & EE & ->) | [(l & a2 & a1 & a0 & t & EE & H0 & W & ->) | (l & a0 & a1 & a2 & t & EE & H0 & W & ->)]]]].
      + tauto.
      + left. right. left. rewrite Ed in EE. assert (p = p0 /\ q = p1) as [-> ->] by (split; congruence). reflexivity.
      + right. right. left. assert (EE' : rev d = p :: q :: rev t) by (rewrite EE, rev_app_distr; reflexivity). rewrite Er in EE'. assert (p = q0 /\ q = q1) as [-> ->] by (split; congruence). now rewrite Rmult_comm.
      + left. right. right. rewrite E in EE. change (l ++ a2 :: a1 :: a0 :: t) with (l ++ [a2; a1] ++ a0 :: t) in EE. rewrite app_assoc in EE. destruct (tail_of N P (l ++ [a2; a1]) t a0 EE H0 HP) as (t' & E1 & E2). exists l, a2, a1, a0, t'. rewrite <- app_assoc in E1. auto.
      + right. right. right. rewrite E in EE. destruct (head_of N P l (a1 :: a2 :: t) a0 EE H0 ltac:(rewrite EN; assumption)) as (L' & E1 & E2). exists (rev t), a2, a1, a0, (rev L'). split; [| auto].
        assert (EQ : q0 :: q1 :: down = rev P) by (rewrite EP, rev_app_distr, rev_involutive; reflexivity). rewrite EQ, E1, rev_app_distr. cbn [rev]. rewrite <- !app_assoc. reflexivity.
  Qed.
End Refine.
