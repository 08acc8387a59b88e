(** Proofs about the splitting clean-up. *)
From Coq Require Import List ZArith Lia Bool Permutation Sorted.
From Verif Require Import Base Truncation_model Truncation_spec Truncation_proofs.
Import ListNotations.
Local Open Scope Z_scope.

Lemma find_key_app m1 m2 k : find_key (m1 ++ m2) k = match find_key m1 k with Some v => Some v | None => find_key m2 k end.
Proof.
  unfold find_key. induction m1 as [|[a b] t IH]; simpl; auto. destruct (a =? k); auto.
Qed.

Lemma find_insert m k v x : find_key (insert_key m k v) x =
  match find_key m x with Some w => Some w | None => if k =? x then Some v else None end.
Proof.
  unfold insert_key. destruct (find_key m k) eqn:E.
  - destruct (find_key m x) eqn:E2; auto. destruct (Z.eqb_spec k x); auto. subst. congruence.
  - rewrite find_key_app. destruct (find_key m x); auto. unfold find_key. simpl. destruct (k =? x); auto.
Qed.

Lemma cluster_splitting_true l : cluster_splitting l = true <-> exists x y, In x l /\ In y l /\ x <> y.
Proof.
  induction l as [|a t IH]; simpl.
  - split; [discriminate|]. intros (x & _ & [] & _).
  - rewrite orb_true_iff, IH, existsb_exists. split.
    + intros [(y & Hy & E)|(x & y & Hx & Hy & E)].
      * exists a, y. repeat split; auto. apply negb_true_iff, Z.eqb_neq in E. auto.
      * exists x, y. auto.
    + intros (x & y & Hx & Hy & E).
      destruct (Z.eq_dec x a) as [->|Hxa].
      * left. exists y. destruct Hy as [->|Hy]; [congruence|]. split; auto. apply negb_true_iff, Z.eqb_neq. auto.
      * left. destruct Hx as [->|Hx]; [congruence|]. exists x. split; auto. apply negb_true_iff, Z.eqb_neq. auto.
Qed.

Lemma fold_insert_find h t : forall m x,
  find_key (fold_left (fun m y => if negb (y =? h) then insert_key m y h else m) t m) x =
  match find_key m x with
  | Some w => Some w
  | None => if existsb (fun y => y =? x) t && negb (x =? h) then Some h else None
  end.
Proof.
  induction t as [|a t IH]; intros m x; simpl.
  - destruct (find_key m x); auto.
  - rewrite IH. destruct (Z.eqb_spec a h) as [->|Ha]; simpl.
    + destruct (find_key m x); auto. destruct (Z.eqb_spec h x) as [->|]; simpl; auto.
      rewrite Z.eqb_refl. simpl. rewrite andb_false_r. auto.
    + rewrite find_insert. destruct (find_key m x); auto. destruct (Z.eqb_spec a x) as [->|]; simpl; auto.
      destruct (Z.eqb_spec x h); [congruence|]. auto.
Qed.

(** [process_cluster] maps exactly the members other than the head to the head. *)
Lemma process_cluster_find h t m x :
  find_key (process_cluster (h :: t) m) x =
  match find_key m x with
  | Some w => Some w
  | None => if existsb (fun y => y =? x) t && negb (x =? h) then Some h else None
  end.
Proof.
  unfold process_cluster. destruct ((1 <? len (h :: t)) && cluster_splitting (h :: t)) eqn:E.
  - apply fold_insert_find.
  - destruct (find_key m x); auto.
    destruct (existsb (fun y => y =? x) t && negb (x =? h)) eqn:E2; auto. exfalso.
    apply andb_true_iff in E2. destruct E2 as [E2 E3]. apply existsb_exists in E2. destruct E2 as (y & Hy & Ey).
    apply Z.eqb_eq in Ey. subst y. apply negb_true_iff, Z.eqb_neq in E3.
    apply andb_false_iff in E. destruct E as [E|E].
    + apply Z.ltb_ge in E. unfold len in E. simpl in E. destruct t; simpl in *; [tauto|lia].
    + assert (cluster_splitting (h :: t) = true); [|congruence].
      apply cluster_splitting_true. exists x, h. simpl; auto.
Qed.

Definition keys_below (m : list (Z * Z)) (b : Z) : Prop := forall k, b <= k -> find_key m k = None.

Lemma replace_process h t m : keys_below m h -> (forall y, In y t -> h <= y) ->
  forall x, In x (h :: t) -> replace (process_cluster (h :: t) m) x = h.
Proof.
  intros Hm Ht x Hx. unfold replace. rewrite process_cluster_find.
  assert (h <= x) by (destruct Hx as [->|Hx]; [lia|auto]).
  rewrite Hm by auto.
  destruct (Z.eqb_spec x h) as [->|Hne]; [rewrite andb_false_r; auto|].
  destruct Hx as [->|Hx]; [congruence|].
  assert (existsb (fun y => y =? x) t = true) as -> by (apply existsb_exists; exists x; split; auto; apply Z.eqb_refl).
  auto.
Qed.

Lemma keys_below_process h t m b : keys_below m h -> h < b -> (forall y, In y t -> y < b) -> keys_below (process_cluster (h :: t) m) b.
Proof.
  intros Hm Hb Ht k Hk. rewrite process_cluster_find, Hm by lia.
  destruct (existsb (fun y => y =? k) t) eqn:E; auto. apply existsb_exists in E. destruct E as (y & Hy & Ey).
  apply Z.eqb_eq in Ey. subst. specialize (Ht _ Hy). lia.
Qed.

Lemma cluster_loop_correct eps : 0 < eps -> forall rest e0 t m,
  keys_below m e0 -> (forall y, In y t -> e0 <= y < e0 + eps) ->
  StronglySorted Z.le rest -> (forall x y, In x (e0 :: t) -> In y rest -> x <= y) ->
  let m' := cluster_loop eps e0 (e0 :: t) rest m in
  (forall x, x < e0 -> find_key m' x = find_key m x) /\
  (forall x, In x (e0 :: t) -> replace m' x = e0) /\
  (forall x, In x (e0 :: t ++ rest) -> e0 <= replace m' x) /\
  good_map eps (e0 :: t ++ rest) (replace m').
Proof.
  intros Heps. induction rest as [|z r IH]; intros e0 t m Hm Ht HS HO.
  - cbn [cluster_loop]. cbv zeta. rewrite app_nil_r.
    assert (HR : forall x, In x (e0 :: t) -> replace (process_cluster (e0 :: t) m) x = e0).
    { apply replace_process; auto. intros y Hy. specialize (Ht y Hy). lia. }
    assert (HF : forall x, x < e0 -> find_key (process_cluster (e0 :: t) m) x = find_key m x).
    { intros x Hx. rewrite process_cluster_find. destruct (find_key m x); auto.
      destruct (existsb (fun y => y =? x) t) eqn:E; auto. apply existsb_exists in E. destruct E as (y & Hy & Ey).
      apply Z.eqb_eq in Ey. subst. specialize (Ht _ Hy). lia. }
    split; [exact HF|]. split; [exact HR|]. split; [intros x Hx; rewrite (HR x Hx); lia|].
    constructor.
    + intros x Hx. rewrite (HR x Hx). left; auto.
    + intros x Hx. rewrite (HR x Hx). destruct Hx as [<-|Hx]; [lia|]. apply Ht; auto.
    + intros x Hx. rewrite (HR x Hx). apply HR. left; auto.
    + intros x y Hx Hy _. rewrite (HR x Hx), (HR y Hy). lia.
    + intros x y Hx Hy. rewrite (HR x Hx), (HR y Hy). lia.
  - inversion HS as [|? ? HS' Hz]; subst. rewrite Forall_forall in Hz.
    cbn [cluster_loop]. destruct (Z.leb_spec eps (z - e0)) as [Hbig|Hsmall].
    + (* new cluster *)
      set (m1 := process_cluster (e0 :: t) m).
      assert (Hm1 : keys_below m1 z).
      { apply keys_below_process; auto; [lia|]. intros y Hy. specialize (Ht y Hy). lia. }
      destruct (IH z [] m1 Hm1) as (H1 & H2 & H3 & H4).
      { intros y []. }
      { auto. }
      { intros x y [<-|[]] Hy. auto. }
      cbv zeta. set (m' := cluster_loop eps z [z] r m1) in *. simpl in H3, H4.
      assert (HR1 : forall x, In x (e0 :: t) -> replace m1 x = e0).
      { apply replace_process; auto. intros y Hy. specialize (Ht y Hy). lia. }
      assert (Hlt : forall x, In x (e0 :: t) -> x < z).
      { intros x [<-|Hx]; [lia|]. specialize (Ht _ Hx). lia. }
      assert (HR : forall x, In x (e0 :: t) -> replace m' x = e0).
      { intros x Hx. unfold replace. rewrite H1 by auto. exact (HR1 x Hx). }
      assert (Hcases : forall x, In x (e0 :: t ++ z :: r) -> In x (e0 :: t) \/ In x (z :: r)).
      { intros x [->|Hx]; [left; left; auto|]. apply in_app_or in Hx. destruct Hx; [left; right; auto|right; auto]. }
      assert (HinL : forall x, In x (z :: r) -> In x (e0 :: t ++ z :: r)).
      { intros x Hx. right. apply in_or_app. auto. }
      destruct H4 as [G1 G2 G3 G4 G5].
      split; [|split; [exact HR|split]].
      * intros x Hx. rewrite H1 by lia. unfold m1. rewrite process_cluster_find. destruct (find_key m x); auto.
        destruct (existsb (fun y => y =? x) t) eqn:E; auto. apply existsb_exists in E. destruct E as (y & Hy & Ey).
        apply Z.eqb_eq in Ey. subst. specialize (Ht _ Hy). lia.
      * intros x Hx. destruct (Hcases x Hx) as [Hc|Hc]; [rewrite (HR x Hc); lia|]. specialize (H3 x Hc). lia.
      * constructor.
        -- intros x Hx. destruct (Hcases x Hx) as [Hc|Hc]; [rewrite (HR x Hc); left; auto|]. apply HinL, G1; auto.
        -- intros x Hx. destruct (Hcases x Hx) as [Hc|Hc]; [|auto]. rewrite (HR x Hc).
           destruct Hc as [<-|Hc]; [lia|]. apply Ht; auto.
        -- intros x Hx. destruct (Hcases x Hx) as [Hc|Hc]; [|auto]. rewrite (HR x Hc). apply HR. left; auto.
        -- intros x y Hx Hy Hxy.
           destruct (Hcases x Hx) as [Hcx|Hcx], (Hcases y Hy) as [Hcy|Hcy].
           ++ rewrite (HR x Hcx), (HR y Hcy). lia.
           ++ rewrite (HR x Hcx). specialize (H3 y Hcy). lia.
           ++ exfalso. specialize (Hlt y Hcy). specialize (H3 x Hcx).
              assert (z <= x) by (destruct Hcx as [<-|Hcx]; [lia|auto]). lia.
           ++ auto.
        -- intros x y Hx Hy Hxy.
           destruct (Hcases x Hx) as [Hcx|Hcx], (Hcases y Hy) as [Hcy|Hcy].
           ++ rewrite (HR x Hcx), (HR y Hcy) in Hxy. lia.
           ++ rewrite (HR x Hcx). specialize (H3 y Hcy). lia.
           ++ exfalso. rewrite (HR y Hcy) in Hxy. specialize (H3 x Hcx). lia.
           ++ auto.
    + (* same cluster *)
      change (e0 :: t) with ([e0] ++ t). rewrite <- app_assoc. simpl ([e0] ++ t ++ [z]).
      destruct (IH e0 (t ++ [z]) m Hm) as (H1 & H2 & H3 & H4).
      { intros y Hy. apply in_app_or in Hy. destruct Hy as [Hy|[<-|[]]]; auto.
        assert (e0 <= z) by (apply HO; [left; auto|left; auto]). lia. }
      { auto. }
      { intros x y Hx Hy. destruct Hx as [->|Hx]; [apply HO; [left; auto|right; auto]|].
        apply in_app_or in Hx. destruct Hx as [Hx|[<-|[]]]; [apply HO; [right; auto|right; auto]|auto]. }
      cbv zeta. set (m' := cluster_loop eps e0 (e0 :: t ++ [z]) r m) in *.
      rewrite <- app_assoc in H3, H4. simpl in H3, H4.
      repeat split; try apply H4; auto.
      intros x Hx. apply H2. simpl in Hx |- *. rewrite in_app_iff. destruct Hx; auto.
Qed.

Lemma cluster_mapping_good eps energies : 0 < eps -> energies <> [] ->
  exists m, cluster_mapping eps energies = Ok m /\ good_map eps energies (replace m) /\
            replace m (min_element energies) = min_element energies.
Proof.
  intros Heps Hne. unfold cluster_mapping.
  pose proof (sort_values_perm energies) as HP. pose proof (sort_values_ss energies) as HS.
  destruct (sort_values energies) as [|e0 rest] eqn:E.
  - apply Permutation_nil in HP. congruence.
  - inversion HS as [|? ? HS' Hz]; subst. rewrite Forall_forall in Hz.
    destruct (cluster_loop_correct eps Heps rest e0 [] []) as (H1 & H2 & H3 & H4); auto.
    { intros k _. reflexivity. }
    { intros y []. }
    { intros x y [<-|[]] Hy. auto. }
    eexists; split; [reflexivity|].
    simpl in H4. assert (HD : forall x, In x energies <-> In x (e0 :: rest)).
    { intros x. split; apply Permutation_in; [symmetry|]; exact HP. }
    split.
    + destruct H4 as [G1 G2 G3 G4 G5]. constructor; intros; rewrite ?HD in *; auto.
    + assert (min_element energies = e0) as ->.
      { apply min_element_unique; [apply HD; left; auto|]. intros x Hx. apply HD in Hx. destruct Hx as [<-|Hx]; [lia|auto]. }
      apply H2. left; auto.
Qed.

(** A tolerance that is zero or negative switches the clean-up off. *)
Lemma cluster_loop_off eps : eps <= 0 -> forall rest e0 m, StronglySorted Z.le (e0 :: rest) -> cluster_loop eps e0 [e0] rest m = m.
Proof.
  intros He. induction rest as [|z r IH]; intros e0 m HS; simpl; auto.
  inversion HS as [|? ? HS' Hz]; subst. rewrite Forall_forall in Hz. specialize (Hz z (or_introl eq_refl)).
  destruct (Z.leb_spec eps (z - e0)); [|lia]. apply IH. auto.
Qed.

Lemma cluster_mapping_off eps energies : eps <= 0 -> energies <> [] -> cluster_mapping eps energies = Ok [].
Proof.
  intros He Hne. unfold cluster_mapping.
  pose proof (sort_values_perm energies) as HP. pose proof (sort_values_ss energies) as HS.
  destruct (sort_values energies) as [|e0 rest] eqn:E.
  - apply Permutation_nil in HP. congruence.
  - rewrite cluster_loop_off; auto.
Qed.

(** The five properties of [good_map] with the fixed ground state determine the result. *)
Lemma good_map_unique eps D f g x0 :
  0 < eps -> In x0 D -> (forall x, In x D -> x0 <= x) -> f x0 = x0 -> g x0 = x0 ->
  good_map eps D f -> good_map eps D g -> forall x, In x D -> f x = g x.
Proof.
  intros Heps H0 Hmin Hf0 Hg0 Gf Gg.
  (* strong induction on the distance from the lowest level *)
  assert (H : forall n x, (Z.to_nat (x - x0) <= n)%nat -> In x D -> f x = g x).
  { induction n as [|n IH]; intros x Hn Hx.
    - assert (x = x0) by (specialize (Hmin x Hx); lia). subst. congruence.
    - pose proof (gm_in _ _ _ Gf x Hx) as Fi. pose proof (gm_in _ _ _ Gg x Hx) as Gi.
      pose proof (gm_shift _ _ _ Gf x Hx) as Fs. pose proof (gm_shift _ _ _ Gg x Hx) as Gs.
      pose proof (Hmin _ Fi) as F0. pose proof (Hmin _ Gi) as G0. pose proof (Hmin _ Hx) as X0.
      destruct (Z.eq_dec (f x) x) as [Ef|Ef].
      + destruct (Z.eq_dec (g x) x) as [Eg|Eg]; [congruence|].
        exfalso. assert (IHg : f (g x) = g (g x)) by (apply IH; auto; lia).
        rewrite (gm_idem _ _ _ Gg x Hx) in IHg.
        pose proof (gm_sep _ _ _ Gf (g x) x Gi Hx) as S. rewrite IHg, Ef in S. lia.
      + assert (IHf : f (f x) = g (f x)) by (apply IH; auto; lia).
        rewrite (gm_idem _ _ _ Gf x Hx) in IHf.
        (* g (f x) = f x <= g x and the heads cannot be closer than eps *)
        pose proof (gm_mono _ _ _ Gg (f x) x Fi Hx ltac:(lia)) as M.
        destruct (Z.eq_dec (g x) (f x)) as [|N]; [congruence|].
        pose proof (gm_sep _ _ _ Gg (f x) x Fi Hx) as S. lia. }
  intros x Hx. eapply H; eauto.
Qed.

Lemma good_map_ascending eps D f l : good_map eps D f -> (forall x, In x l -> In x D) -> ascending l -> ascending (map f l).
Proof.
  intros G HD HA i j Hij. rewrite map_length in Hij.
  rewrite (nth_indep (map f l) 0 (f 0)) by (rewrite map_length; lia).
  rewrite (nth_indep (map f l) 0 (f 0) (n := j)) by (rewrite map_length; lia).
  rewrite !map_nth. apply (gm_mono _ _ _ G); try (apply HD, nth_In; lia). apply HA. lia.
Qed.
