(** Proofs about annotated.dat and custom. *)
From Coq Require Import List ZArith Reals Bool String Lia Lra Permutation Sorted.
From Verif Require Import Interp_model Interp_proofs Annotated_model Annotated_spec.
Import ListNotations.
Local Open Scope list_scope.
Local Open Scope R_scope.

(** ** Degenerate energies *)
Lemma sign_zero x : sign x = 0%Z <-> x = 0.
Proof.
  unfold sign. destruct (Rltb 0 x) eqn:E1; [apply Rltb_true in E1; split; [discriminate | lra] |]. destruct (Rltb x 0) eqn:E2; [apply Rltb_true in E2; split; [discriminate | lra] |].
  apply Rltb_false in E1, E2. split; [lra | reflexivity].
Qed.
Lemma fcmp_degenerate x y tol : my_fcmp x y tol = 0%Z <-> degenerate tol x y.
Proof.
  unfold my_fcmp, degenerate. destruct (_ && _)%bool eqn:E0.
  - apply andb_true_iff in E0 as [E0 E4]. apply andb_true_iff in E0 as [E0 E3]. apply andb_true_iff in E0 as [E1 E2]. apply Rleb_true in E1, E2, E3, E4. split; [left; lra | reflexivity].
  - clear E0. destruct (Rltb (Rabs x) tol && Rltb (Rabs y) tol)%bool eqn:E1.
    + apply andb_true_iff in E1 as [E1 E2]. apply Rltb_true in E1, E2. tauto.
    + destruct (Rltb (Rabs (x - y)) _) eqn:E2; [apply Rltb_true in E2; tauto |]. apply Rltb_false in E2. rewrite sign_zero. split; [left; lra |]. intros [H | [[H1 H2] | H]]; [lra | | lra].
      apply Rltb_true in H1, H2. rewrite H1, H2 in E1. discriminate.
Qed.
Lemma fcmp_eqb x y tol : Z.eqb (my_fcmp x y tol) 0 = true <-> degenerate tol x y.
Proof. rewrite Z.eqb_eq. apply fcmp_degenerate. Qed.
Lemma fcmp_neqb x y tol : Z.eqb (my_fcmp x y tol) 0 = false <-> ~ degenerate tol x y.
Proof. rewrite <- fcmp_eqb. destruct (Z.eqb _ _); split; congruence. Qed.
Lemma degenerate_refl tol x : degenerate tol x x.
Proof. now left. Qed.
Lemma degenerate_below tol x y z : 0 <= x -> x <= y -> y <= z -> degenerate tol z x -> degenerate tol y x.
Proof.
  intros Hx Hy Hz. unfold degenerate. rewrite !Rabs_pos_eq by lra. intros [H | [H | H]]; [left; lra | right; left; lra |]. destruct (Req_dec y x) as [E | E]; [now left |]. right. right.
  destruct (Rle_dec tol 1); [nra |]. nra.
Qed.
Lemma degenerate_above tol x y z : 0 <= tol -> 0 <= x -> x <= y -> y <= z -> degenerate tol z x -> degenerate tol z y.
Proof. intros Ht Hx Hy Hz. unfold degenerate. rewrite !Rabs_pos_eq by lra. intros [H | [H | H]]; [left; lra | right; left; lra |]. right. right. nra. Qed.

(** ** Sorting *)
Definition level_le (p q : level) : Prop := fst p < fst q \/ (fst p = fst q /\ qn_le (snd p) (snd q)).
Lemma qn_le_trans a : forall b c, qn_le a b -> qn_le b c -> qn_le a c.
Proof.
  induction a as [|x a IH]; intros [|y b] [|z c]; cbn; try tauto. intros [H1 | [-> H1]] [H2 | [-> H2]]; [left; lia | now left | now left |]. right. split; [reflexivity |]. now apply (IH b).
Qed.
Lemma qn_ltb_true a : forall b, invar_ltb a b = true -> qn_le a b.
Proof.
  induction a as [|x a IH]; intros [|y b]; cbn; try tauto; try discriminate. destruct (Z.ltb_spec x y); [now left |]. destruct (Z.ltb_spec y x); [discriminate |]. intros E. right. split; [lia | now apply IH].
Qed.
Lemma qn_ltb_false a : forall b, invar_ltb a b = false -> qn_le b a.
Proof.
  induction a as [|x a IH]; intros [|y b]; cbn; try tauto; try discriminate. destruct (Z.ltb_spec x y); [discriminate |]. destruct (Z.ltb_spec y x); [now left |]. intros E. right. split; [lia | now apply IH].
Qed.
Lemma level_le_trans p q r : level_le p q -> level_le q r -> level_le p r.
Proof. intros [H1 | [E1 H1]] [H2 | [E2 H2]]; unfold level_le; [left; lra | left; lra | left; lra |]. right. split; [lra | now apply (qn_le_trans _ (snd q))]. Qed.
Lemma level_ltb_true p q : level_ltb p q = true -> level_le p q.
Proof.
  unfold level_ltb, level_le. destruct (Rltb (fst p) (fst q)) eqn:E; [apply Rltb_true in E; tauto |]. destruct (Rltb (fst q) (fst p)) eqn:E'; [discriminate |]. apply Rltb_false in E, E'. intros H. right. split; [lra | now apply qn_ltb_true].
Qed.
Lemma level_ltb_false p q : level_ltb p q = false -> level_le q p.
Proof.
  unfold level_ltb, level_le. destruct (Rltb (fst p) (fst q)) eqn:E; [discriminate |]. destruct (Rltb (fst q) (fst p)) eqn:E'; [apply Rltb_true in E'; tauto |]. apply Rltb_false in E, E'. intros H. right. split; [lra | now apply qn_ltb_false].
Qed.
Lemma insert_perm {A} lt (x : A) l : Permutation (insert_by lt x l) (x :: l).
Proof. induction l as [|y t IH]; cbn; [reflexivity |]. destruct (lt y x); [| reflexivity]. etransitivity; [apply perm_skip, IH | apply perm_swap]. Qed.
Lemma sort_perm {A} lt (l : list A) : Permutation (sort_by lt l) l.
Proof. induction l as [|x t IH]; cbn; [reflexivity |]. etransitivity; [apply insert_perm | now apply perm_skip]. Qed.
Lemma insert_sorted p l : StronglySorted level_le l -> StronglySorted level_le (insert_by level_ltb p l).
Proof.
  induction 1 as [|q t Hs IH Hq]; cbn; [repeat constructor |]. destruct (level_ltb q p) eqn:E.
  - constructor; [assumption |]. apply Forall_forall. intros r Hr. apply (Permutation_in _ (insert_perm level_ltb p t)) in Hr as [<- | Hr]; [now apply level_ltb_true |]. rewrite Forall_forall in Hq. now apply Hq.
  - apply level_ltb_false in E. constructor; [now constructor |]. constructor; [assumption |]. eapply Forall_impl; [| exact Hq]. intros r Hr. now apply (level_le_trans p q r).
Qed.
Lemma sort_listed diag : listed diag (sort_by level_ltb (flat_map (fun s => map (fun e => (e, fst s)) (snd s)) diag)).
Proof.
  rewrite flat_map_concat_map. split; [apply sort_perm |]. fold level_le. change (List.concat _) with (levels diag). induction (levels diag) as [|p t IH]; cbn; [constructor |]. now apply insert_sorted.
Qed.
Lemma insert_string s l : ordered l -> ordered (insert_by String.ltb s l).
Proof.
  assert (L : forall a b, String.ltb a b = true -> String.leb a b = true). { intros a b. unfold String.ltb, String.leb. now destruct (String.compare a b). }
  assert (N : forall a b, String.ltb a b = false -> String.leb b a = true). { intros a b. unfold String.ltb, String.leb. rewrite (String.compare_antisym b a). now destruct (String.compare a b). }
  unfold ordered. induction 1 as [|x t Hs IH Hx]; cbn; [repeat constructor |]. destruct (String.ltb x s) eqn:E.
  - constructor; [assumption |]. destruct t as [|y t]; cbn; [constructor; auto |]. destruct (String.ltb y s); constructor; auto. now inversion Hx.
  - constructor; [now constructor | constructor; auto].
Qed.
Lemma sort_strings l : ordered (sort_by String.ltb l).
Proof. induction l as [|s t IH]; cbn; [constructor | now apply insert_string]. Qed.

(** ** The number of levels *)
Section Dump.
  Variables (P : settings) (scale total_energy : R) (mult : list Z -> nat) (to_string : list Z -> string).
  Let tol := grouptol P.
  Lemma further_spec rest : forall p0, let k := further P (fst p0) rest in (k <= List.length rest)%nat /\
    (forall i p q, (i < k)%nat -> nth_error (p0 :: rest) i = Some p -> nth_error rest i = Some q -> degenerate tol (fst q) (fst p)) /\
    (forall p q, nth_error (p0 :: rest) k = Some p -> nth_error rest k = Some q -> ~ degenerate tol (fst q) (fst p)).
  Proof.
    induction rest as [|r t IH]; intros p0 k; unfold k; cbn [further].
    - split; [apply le_n |]. split; [intros i p q Hi; lia |]. intros p q _. discriminate.
    - destruct (Z.eqb _ 0) eqn:E.
      + apply fcmp_eqb in E. destruct (IH r) as (H1 & H2 & H3). cbn [List.length]. split; [lia |]. split.
        * intros [|i] p q Hi Hp Hq; cbn in Hp, Hq; [injection Hp as <-; injection Hq as <-; assumption |]. apply (H2 i); [lia | assumption | assumption].
        * intros p q Hp Hq. apply H3; assumption.
      + apply fcmp_neqb in E. split; [lia |]. split; [intros i p q Hi; lia |]. intros p q Hp Hq. cbn in Hp, Hq. injection Hp as <-. injection Hq as <-. assumption.
  Qed.
  Lemma dump_length_ok l : (0 < dumpannotated P)%nat -> l <> [] -> complete_clusters (dumpannotated P) tol l (dump_length P l).
  Proof.
    intros Hn Hl. unfold complete_clusters, dump_length. rewrite (Nat.min_comm (dumpannotated P)). set (m := Nat.min (List.length l) (dumpannotated P)).
    assert (Hlen : (0 < List.length l)%nat) by (destruct l; [contradiction | cbn; lia]). assert (Hm : (0 < m <= List.length l)%nat) by (unfold m; lia).
    set (p0 := nth (m - 1) l (0%R, [])). assert (Hp0 : nth_error l (m - 1) = Some p0) by (apply nth_error_nth'; lia).
    assert (N1 : forall i, nth_error (skipn m l) i = nth_error l (m + i)). { intros i. clearbody m. clear. revert l. induction m as [|k IH]; intros [|a l]; cbn; try reflexivity; [now destruct i | apply IH]. }
    assert (N2 : forall i, nth_error (p0 :: skipn m l) i = nth_error l (m + i - 1)). { intros [|i]; cbn [nth_error]; [rewrite Nat.add_0_r; now symmetry |]. rewrite N1. f_equal. lia. }
    destruct (further_spec (skipn m l) p0) as (H1 & H2 & H3). rewrite skipn_length in H1. split; [lia |]. split.
    - intros k p q Hk Hp Hq. apply (H2 (k - m)%nat); [lia | rewrite N2; now replace (m + (k - m) - 1)%nat with (k - 1)%nat by lia | rewrite N1; now replace (m + (k - m))%nat with k by lia].
    - intros p q Hp Hq. apply H3; [now rewrite N2 | now rewrite N1].
  Qed.

  (** ** The groups *)
  Lemma group_split e0 l : exists r, l = group_of P e0 l ++ r /\ Forall (fun p => degenerate tol (fst p) e0) (group_of P e0 l) /\ match r with [] => True | q :: _ => ~ degenerate tol (fst q) e0 end.
  Proof.
    induction l as [|p t IH]; cbn; [exists []; auto |]. destruct (Z.eqb _ 0) eqn:E.
    - apply fcmp_eqb in E. destruct IH as (r & Hr & Hf & Hq). exists r. cbn. rewrite <- Hr. auto.
    - apply fcmp_neqb in E. exists (p :: t). cbn. auto.
  Qed.
  Lemma fold_left_sum l : forall a, fold_left Nat.add l a = (a + list_sum l)%nat.
  Proof. induction l as [|x t IH]; intros a; cbn [fold_left]; [cbn; lia |]. rewrite IH. change (list_sum (x :: t)) with (x + list_sum t)%nat. lia. Qed.
  Definition line_of (g : list level) (x : line) : Prop := exists e qn d, x = Group e qn d /\ describes (scaled_energy P scale total_energy) mult to_string g e qn d.
  Lemma group_line_ok p t : line_of (p :: t) (group_line P scale total_energy mult to_string (fst p) (p :: t)).
  Proof.
    unfold line_of, group_line. do 3 eexists. split; [reflexivity |]. exists p, t. split; [reflexivity |]. split; [reflexivity |]. split; [apply sort_perm |]. split; [apply sort_strings |]. now rewrite fold_left_sum.
  Qed.
  Lemma dump_groups_ok fuel : forall l, (List.length l <= fuel)%nat -> exists gs, List.concat gs = l /\ Forall2 line_of gs (dump_groups P scale total_energy mult to_string fuel l) /\
    forall g1 p t g2, gs = g1 ++ (p :: t) :: g2 -> Forall (fun q => degenerate tol (fst q) (fst p)) (p :: t) /\ match List.concat g2 with [] => True | q :: _ => ~ degenerate tol (fst q) (fst p) end.
  Proof.
    induction fuel as [|fuel IH]; intros [|p l] Hl; cbn [List.length] in Hl; try lia; cbn [dump_groups]; try (exists []; split; [reflexivity | split; [constructor | intros [|] ? ? ?; discriminate]]).
    destruct (group_split (fst p) (p :: l)) as (r & Hr & Hf & Hq). assert (Hg : exists t, group_of P (fst p) (p :: l) = p :: t). { cbn. rewrite (proj2 (fcmp_eqb (fst p) (fst p) (grouptol P)) (degenerate_refl _ _)). eauto. }
    destruct Hg as [t Hg]. rewrite Hg in *. rewrite Hr. rewrite skipn_app, skipn_all, Nat.sub_diag. cbn [skipn app]. injection Hr as Hr. destruct (IH r) as (gs & Hc & H2 & H3). { rewrite Hr, app_length in Hl. lia. }
    exists ((p :: t) :: gs). cbn [List.concat]. rewrite Hc. split; [reflexivity |]. split; [constructor; [apply group_line_ok | assumption] |].
    intros [|g g1] q u g2 E; cbn in E.
    - injection E as <- <- <-. split; [assumption |]. now rewrite Hc.
    - injection E as _ E. now apply (H3 g1 q u g2).
  Qed.
  Lemma sorted_energy l : StronglySorted level_le l -> StronglySorted (fun p q : level => fst p <= fst q) l.
  Proof. induction 1 as [|p t Hs IH Hp]; constructor; [assumption |]. eapply Forall_impl; [| exact Hp]. intros q [H | [H _]]; lra. Qed.
  Lemma sorted_app {A} (T : A -> A -> Prop) l1 l2 : StronglySorted T (l1 ++ l2) -> StronglySorted T l1 /\ StronglySorted T l2 /\ forall x y, In x l1 -> In y l2 -> T x y.
  Proof.
    induction l1 as [|a l1 IH]; cbn; [intros H; repeat split; [constructor | assumption | intros x y []] |]. intros H. inversion H as [|? ? H1 H2]; subst. destruct (IH H1) as (S1 & S2 & S3). rewrite Forall_app in H2. destruct H2 as [F1 F2]. repeat split.
    - now constructor.
    - assumption.
    - intros x y [<- | Hx] Hy; [rewrite Forall_forall in F2; now apply F2 | now apply S3].
  Qed.
  (** The dump. *)
  Theorem dump_none diag : dump P scale total_energy mult to_string diag = None <-> dumpannotated P = 0%nat.
  Proof.
    unfold dump. destruct (Nat.eqb_spec (dumpannotated P) 0) as [E | E]; [tauto |]. split; [| contradiction]. destruct (sort_by _ _); discriminate.
  Qed.
  Theorem dump_states diag : (0 < dumpannotated P)%nat -> dumpgroups P = false -> levels diag <> [] ->
    exists l len, listed diag l /\ complete_clusters (dumpannotated P) tol l len /\
      dump P scale total_energy mult to_string diag = Some (map (fun p => State (scaled_energy P scale total_energy (fst p)) (snd p)) (firstn len l)).
  Proof.
    intros Hn Hg Hl. unfold dump. destruct (Nat.eqb_spec (dumpannotated P) 0) as [E | _]; [lia |]. pose proof (sort_listed diag) as HL. set (l := sort_by level_ltb _) in *.
    exists l, (dump_length P l). assert (Hne : l <> []). { intros E. destruct HL as [Hp _]. rewrite E in Hp. apply Permutation_nil in Hp. contradiction. }
    split; [assumption |]. split; [now apply dump_length_ok |]. rewrite Hg. destruct l; [contradiction | reflexivity].
  Qed.
  Theorem dump_grouped diag : (0 < dumpannotated P)%nat -> dumpgroups P = true -> levels diag <> [] -> 0 <= tol -> (forall p, In p (levels diag) -> 0 <= fst p) ->
    exists l len gs lines, listed diag l /\ complete_clusters (dumpannotated P) tol l len /\ dump P scale total_energy mult to_string diag = Some lines /\
      List.concat gs = firstn len l /\ Forall2 line_of gs lines /\
      forall g1 p t g2, gs = g1 ++ (p :: t) :: g2 -> (forall q, In q (p :: t) -> degenerate tol (fst q) (fst p)) /\ forall q, In q (List.concat g2 ++ skipn len l) -> ~ degenerate tol (fst q) (fst p).
  Proof.
    intros Hn Hg Hl Ht Hpos. unfold dump. destruct (Nat.eqb_spec (dumpannotated P) 0) as [E | _]; [lia |]. pose proof (sort_listed diag) as HL. set (l := sort_by level_ltb _) in *.
    assert (Hne : l <> []). { intros E. destruct HL as [Hp _]. rewrite E in Hp. apply Permutation_nil in Hp. contradiction. }
    pose proof (dump_length_ok l Hn Hne) as Hc. set (len := dump_length P l) in *. destruct (dump_groups_ok (List.length (firstn len l)) (firstn len l) (le_n _)) as (gs & G1 & G2 & G3).
    exists l, len, gs, (dump_groups P scale total_energy mult to_string (List.length (firstn len l)) (firstn len l)). split; [assumption |]. split; [assumption |]. split; [rewrite Hg; fold len; destruct l; [contradiction | reflexivity] |]. split; [assumption |]. split; [assumption |].
    intros g1 p t g2 E. destruct (G3 g1 p t g2 E) as [F1 F2]. split; [now apply Forall_forall |].
    assert (S : StronglySorted (fun a b : level => fst a <= fst b) (List.concat g1 ++ (p :: t) ++ List.concat g2 ++ skipn len l)).
    { replace (List.concat g1 ++ (p :: t) ++ List.concat g2 ++ skipn len l) with l; [apply sorted_energy; apply (proj2 HL) |]. rewrite <- (firstn_skipn len l) at 1. rewrite <- G1, E, concat_app. cbn [List.concat]. now rewrite <- !app_assoc. }
    apply sorted_app in S as (_ & S & _). assert (P0 : 0 <= fst p). { apply Hpos. apply (Permutation_in _ (proj1 HL)). rewrite <- (firstn_skipn len l). apply in_or_app. left. rewrite <- G1, E, concat_app. cbn. apply in_or_app. right. now left. }
    assert (M : forall (x q : level) rest, (forall a, In a rest -> fst q <= fst a) -> fst p <= fst q -> ~ degenerate tol (fst q) (fst p) -> In x (q :: rest) -> ~ degenerate tol (fst x) (fst p)).
    { intros x q rest Ha Hq Hd [<- | Hx] D; [contradiction |]. apply Hd. apply (degenerate_below tol (fst p) (fst q) (fst x)); auto. }
    assert (Sp : forall q, In q (List.concat g2 ++ skipn len l) -> fst p <= fst q). { intros q Hq. apply sorted_app in S as (_ & _ & S). apply S; [now left | assumption]. }
    apply sorted_app in S as (Spt & S & Sx). destruct (List.concat g2) as [|q r] eqn:Ec.
    - cbn [app] in *. intros x Hx. destruct (skipn len l) as [|q r] eqn:Es; [destruct Hx |]. inversion S as [|? ? _ Hf]; subst. apply (M x q r); auto; [intros a Ha; rewrite Forall_forall in Hf; now apply Hf | apply Sp; now left |].
      (* the level after the last dumped one *)
      assert (Hq : nth_error l len = Some q). { rewrite <- (firstn_skipn len l), Es. assert (Hlen : List.length (firstn len l) = len) by (apply firstn_length_le; apply Hc). rewrite nth_error_app2 by lia. now rewrite Hlen, Nat.sub_diag. }
      assert (Hl2 : exists u, nth_error l (len - 1) = Some u /\ In u (p :: t)).
      { rewrite concat_app in G1. cbn [List.concat] in G1. rewrite Ec, app_nil_r in G1. destruct (exists_last (l := p :: t) ltac:(discriminate)) as (w & u & Eu). exists u. split; [| rewrite Eu; apply in_or_app; right; now left].
        assert (Hlen : List.length (firstn len l) = len) by (apply firstn_length_le; apply Hc). rewrite <- (firstn_skipn len l). assert (Hpos' : (0 < len)%nat). { rewrite <- Hlen, <- G1, app_length. cbn. lia. }
        rewrite nth_error_app1 by lia. rewrite <- G1, Eu, app_assoc. rewrite nth_error_app2; rewrite <- G1, Eu, app_assoc, app_length in Hlen; cbn in Hlen; [| lia]. now replace (len - 1 - _)%nat with 0%nat by lia. }
      destruct Hl2 as (u & Hu & Hin). intros D. apply (proj2 (proj2 Hc) u q Hu Hq). apply (degenerate_above tol (fst p) (fst u) (fst q)); auto; [destruct Hin as [<- | Hin]; [lra |]; inversion Spt as [|? ? _ Hf']; subst; rewrite Forall_forall in Hf'; now apply Hf' | apply Sx; [assumption | now left]].
    - intros x Hx. cbn [app] in *. inversion S as [|? ? _ Hf]; subst. apply (M x q (r ++ skipn len l)); auto; [intros a Ha; rewrite Forall_forall in Hf; now apply Hf | apply Sp; now left].
  Qed.
End Dump.

(** All states are counted when all levels are written. *)
Definition degeneracy_of (x : line) : nat := match x with Group _ _ d => d | State _ _ => 0%nat end.
Lemma total_app mult a b : total mult (a ++ b) = (total mult a + total mult b)%nat.
Proof. unfold total. now rewrite map_app, list_sum_app. Qed.
Lemma total_perm mult a b : Permutation a b -> total mult a = total mult b.
Proof.
  induction 1 as [| x l l' H IH | x y l | l l' l'' H1 IH1 H2 IH2]; [reflexivity | | | congruence].
  - change (total mult (x :: l)) with (mult (snd x) + total mult l)%nat. change (total mult (x :: l')) with (mult (snd x) + total mult l')%nat. lia.
  - change (total mult (y :: x :: l)) with (mult (snd y) + (mult (snd x) + total mult l))%nat. change (total mult (x :: y :: l)) with (mult (snd x) + (mult (snd y) + total mult l))%nat. lia.
Qed.
Theorem all_counted P scale total_energy mult to_string diag : (List.length (levels diag) <= dumpannotated P)%nat -> dumpgroups P = true -> levels diag <> [] ->
  exists lines, dump P scale total_energy mult to_string diag = Some lines /\ list_sum (map degeneracy_of lines) = total mult (levels diag).
Proof.
  intros Hn Hg Hl. unfold dump. assert (Hlen : (0 < List.length (levels diag))%nat) by (destruct (levels diag); [contradiction | cbn; lia]). destruct (Nat.eqb_spec (dumpannotated P) 0) as [E | _]; [lia |].
  pose proof (sort_listed diag) as HL. set (l := sort_by level_ltb _) in *. pose proof (Permutation_length (proj1 HL)) as Hll. assert (Hne : l <> []) by (destruct l; [cbn in Hll; lia | discriminate]).
  destruct (dump_length_ok P l ltac:(lia) Hne) as (Hc & _). replace (firstn (dump_length P l) l) with l by (symmetry; apply firstn_all2; lia). rewrite Hg.
  exists (dump_groups P scale total_energy mult to_string (List.length l) l). split; [destruct l; [contradiction | reflexivity] |]. destruct (dump_groups_ok P scale total_energy mult to_string (List.length l) l (le_n _)) as (gs & G1 & G2 & _).
  rewrite <- (total_perm mult _ _ (proj1 HL)). set (lines := dump_groups _ _ _ _ _ _ _) in *. clearbody lines. rewrite <- G1. clear -G2. induction G2 as [|g x gs lines (e & qn & d & -> & p & t & _ & _ & _ & _ & ->) G2 IH]; [reflexivity |]. cbn [List.concat map degeneracy_of]. rewrite total_app, <- IH. reflexivity.
Qed.
Theorem energies P scale total_energy e : dumpEscale P <> 0 ->
  (dumpabs P = false -> dumpscaled P = true -> scaled_energy P scale total_energy e = Some (e / dumpEscale P)) /\
  (dumpabs P = false -> dumpscaled P = false -> scaled_energy P scale total_energy e = Some (e * scale / dumpEscale P)) /\
  (dumpabs P = true -> dumpscaled P = false -> scaled_energy P scale total_energy e = Some ((e * scale + total_energy) / dumpEscale P)).
Proof.
  intros H. unfold scaled_energy, rdiv. destruct (Req_EM_T (dumpEscale P) 0); [contradiction |]. repeat split; intros -> ->; f_equal; field; assumption.
Qed.

(** ** custom *)
Section Expv.
  Context {V : Type} (zero : V).
  Lemma look_assign name k v (m : list (string * V)) : look name (assign k v m) = if String.eqb k name then Some v else look name m.
  Proof.
    induction m as [|[a w] t IH]; cbn; [reflexivity |]. destruct (String.eqb_spec a k) as [-> | Hak]; cbn; [now destruct (String.eqb k name) |]. rewrite IH. destruct (String.eqb_spec a name) as [-> | Ha]; [| reflexivity].
    destruct (String.eqb_spec k name); [now subst | reflexivity].
  Qed.
  Lemma look_fold (l : list (string * V)) : forall (m : list (string * V)) name v, NoDup (map fst l) -> In (name, v) l -> look name (fold_left (fun m p => assign (fst p) (snd p) m) l m) = Some v.
  Proof.
    assert (K : forall l (m : list (string * V)) name, ~ In name (map fst l) -> look name (fold_left (fun m (p : string * V) => assign (fst p) (snd p) m) l m) = look name m).
    { clear l. induction l as [|[k w] t IH]; intros m name Hn; cbn in *; [reflexivity |]. rewrite IH by tauto. rewrite look_assign. destruct (String.eqb_spec k name); [subst; tauto | reflexivity]. }
    induction l as [|[k w] t IH]; intros m name v Hd Hin; [destruct Hin |]. cbn in Hd |- *. inversion Hd as [|? ? H1 H2]; subst. destruct Hin as [E | Hin]; [| now apply IH]. injection E as -> ->. rewrite K by assumption. rewrite look_assign. now rewrite String.eqb_refl.
  Qed.
  Lemma measure_all ops opsg (m : list (string * V)) name v : NoDup (fields_of ops opsg) -> In (name, v) (ops ++ opsg) -> look name (measure ops opsg m) = Some v.
  Proof.
    intros Hd Hin. unfold measure. rewrite <- fold_left_app. apply look_fold; [| assumption]. unfold fields_of in Hd. now rewrite map_app.
  Qed.
  Lemma values_all l : forall m : list (string * V), (forall name v, In (name, v) l -> look name m = Some v) -> field_values zero (map fst l) m = (map snd l, m).
  Proof.
    induction l as [|[k w] t IH]; intros m H; [reflexivity |]. cbn. unfold subscript. rewrite (H k w (or_introl eq_refl)). rewrite IH; [reflexivity |]. intros name v Hin. apply H. now right.
  Qed.
  Theorem custom_ok ops opsg (m : list (string * V)) : NoDup (fields_of ops opsg) -> fst (custom_row zero ops opsg m) = map snd (ops ++ opsg).
  Proof.
    intros Hd. unfold custom_row. replace (fields_of ops opsg) with (map fst (ops ++ opsg)) by (unfold fields_of; apply map_app). rewrite values_all; [reflexivity |]. intros name v. now apply measure_all.
  Qed.
  Lemma values_length fields : forall m : list (string * V), List.length (fst (field_values zero fields m)) = List.length fields.
  Proof.
    induction fields as [|f t IH]; intros m; [reflexivity |]. cbn. destruct (subscript zero f m) as [v m']. specialize (IH m'). destruct (field_values zero t m'). cbn in *. now rewrite IH.
  Qed.
  Theorem columns ops opsg (m : list (string * V)) : field_numbers (fields_of ops opsg) = seq 1 (List.length (field_names (fields_of ops opsg))) /\ field_names (fields_of ops opsg) = "T"%string :: map fst (ops ++ opsg) /\
    List.length (fst (custom_row zero ops opsg m)) = List.length (fields_of ops opsg).
  Proof.
    split; [| split; [unfold field_names, fields_of; now rewrite map_app | apply values_length]]. unfold field_numbers, field_names. cbn [List.length seq]. f_equal. now rewrite seq_shift.
  Qed.
End Expv.
Theorem same_name {V : Type} (zero v w : V) name m : fst (custom_row zero [(name, v)] [(name, w)] m) = [w; w].
Proof.
  unfold custom_row, measure, fields_of. cbn. unfold subscript. assert (E : look name (assign name w (assign name v m)) = Some w) by (rewrite look_assign; now rewrite String.eqb_refl). now rewrite E, E.
Qed.
