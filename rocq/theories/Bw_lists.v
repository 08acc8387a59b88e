(** Lemmas about the lists of the tool [bw]: reading, merging, sorting, the mesh. *)
From Coq Require Import List ZArith Reals Lra Lia Bool Sorting Permutation String.
From Verif Require Import Base Interp_model Interp_spec Bw_model Bw_spec.
Import ListNotations.
Local Open Scope string_scope.
Local Open Scope list_scope.
Local Open Scope R_scope.

Lemma Rltb_spec x y : Rltb x y = true <-> x < y.
Proof. unfold Rltb. destruct (Rlt_dec x y); split; intros; auto; discriminate || lra. Qed.
Lemma Rltb_false x y : Rltb x y = false <-> y <= x.
Proof. unfold Rltb. destruct (Rlt_dec x y); split; intros; auto; try discriminate; lra. Qed.
Lemma Rleb_spec x y : Rleb x y = true <-> x <= y.
Proof. unfold Rleb. destruct (Rle_dec x y); split; intros; auto; discriminate || lra. Qed.
Lemma Rleb_false x y : Rleb x y = false <-> y < x.
Proof. unfold Rleb. destruct (Rle_dec x y); split; intros; auto; try discriminate; lra. Qed.

(** ** Sorting *)
Lemma insert_perm x l : Permutation (x :: l) (insert x l).
Proof. induction l as [| h t IH]; cbn [insert]; [reflexivity |]. destruct (Rleb x h); [reflexivity |]. rewrite perm_swap. now constructor. Qed.
Lemma sort_perm l : Permutation l (sort l).
Proof. induction l as [| h t IH]; cbn [sort]; [reflexivity |]. rewrite <- insert_perm. now constructor. Qed.
Lemma insert_sorted x l : StronglySorted Rle l -> StronglySorted Rle (insert x l).
Proof.
  induction l as [| h t IH]; intros H; cbn [insert]; [repeat constructor |]. destruct (Rleb x h) eqn:E.
  - apply Rleb_spec in E. constructor; [assumption |]. inversion_clear H. constructor; [assumption |]. eapply Forall_impl; [| eassumption]. intros; cbn in *; lra.
  - apply Rleb_false in E. inversion_clear H as [| ? ? H1 H2]. constructor; [auto |]. eapply Permutation_Forall; [apply insert_perm |]. constructor; [lra | assumption].
Qed.
Lemma sort_sorted l : StronglySorted Rle (sort l).
Proof. induction l; cbn [sort]; [constructor | now apply insert_sorted]. Qed.
Lemma strict l : StronglySorted Rle l -> NoDup l -> StronglySorted Rlt l.
Proof.
  induction 1 as [| x l H1 IH H2]; intros N; constructor; inversion_clear N; [auto |]. rewrite Forall_forall in *. intros y Hy. specialize (H2 y Hy). destruct (Req_dec x y); [subst; contradiction | lra].
Qed.
Lemma sort_strict l : NoDup l -> StronglySorted Rlt (sort l) /\ forall x, In x (sort l) <-> In x l.
Proof.
  intros N. split; [apply strict; [apply sort_sorted | eapply Permutation_NoDup; [apply sort_perm | assumption]] |].
  intros x. split; apply Permutation_in; [symmetry |]; apply sort_perm.
Qed.
Lemma strict_nodup l : StronglySorted Rlt l -> NoDup l.
Proof. induction 1 as [| x l H1 IH H2]; constructor; [| assumption]. intros H. rewrite Forall_forall in H2. specialize (H2 x H). lra. Qed.

(** ** Reading *)
Lemma pairs_flat (l : list (R * R)) : pairs (flat_map (fun p : R * R => [fst p; snd p]) l) = l.
Proof. induction l as [| [x y] t IH]; [reflexivity |]. cbn [flat_map app pairs fst snd]. now rewrite IH. Qed.
Lemma flat_length (l : list (R * R)) : List.length (flat_map (fun p : R * R => [fst p; snd p]) l) = (2 * List.length l)%nat.
Proof. induction l as [| [x y] t IH]; [reflexivity |]. cbn [flat_map app List.length fst snd]. rewrite IH. lia. Qed.
Lemma load_flat files o i l : files (file_name o i) = Some {| values := flat_map (fun p : R * R => [fst p; snd p]) l; rest := 0 |} -> load files o i = Ok l.
Proof. intros H. unfold load. rewrite H. cbn [values rest]. rewrite flat_length, pairs_flat. replace (8 * (2 * List.length l) + 0)%nat with (List.length l * 16)%nat by lia. rewrite Nat.mod_mul by lia. reflexivity. Qed.
Lemma read_all files o k n (bufs : list (list (R * R))) : List.length bufs = n ->
  (forall i l, nth_error bufs i = Some l -> files (file_name o (k + i)) = Some {| values := flat_map (fun p : R * R => [fst p; snd p]) l; rest := 0 |}) ->
  mapM (load files o) (seq k n) = Ok bufs.
Proof.
  revert k bufs. induction n as [| n IH]; intros k bufs L H; destruct bufs as [| h t]; try discriminate; [reflexivity |]. cbn [seq mapM].
  rewrite (load_flat files o k h) by (specialize (H 0%nat h eq_refl); now rewrite Nat.add_0_r in H). cbn [bind]. rewrite (IH (S k) t); [reflexivity | now injection L |].
  intros i l Hi. specialize (H (S i) l Hi). now rewrite Nat.add_succ_r in H.
Qed.

(** ** Merging *)
Definition keys (m : list (R * R)) : list R := map fst m.
Lemma add_in p m x : In x (keys (add_peak p m)) <-> x = fst p \/ In x (keys m).
Proof.
  induction m as [| h t IH]; cbn [add_peak keys map In]; [intuition |]. destruct (Rltb (fst p) (fst h)) eqn:E1; [cbn [keys map In]; intuition |]. destruct (Rltb (fst h) (fst p)) eqn:E2.
  - cbn [keys map In]. fold (keys (add_peak p t)). rewrite IH. fold (keys t). intuition.
  - apply Rltb_false in E1, E2. assert (E : fst h = fst p) by lra. cbn [keys map In fst]. rewrite E. fold (keys t). intuition.
Qed.
Lemma add_sorted p m : StronglySorted Rlt (keys m) -> StronglySorted Rlt (keys (add_peak p m)).
Proof.
  induction m as [| h t IH]; intros H; cbn [add_peak keys map]; [repeat constructor |]. inversion_clear H as [| ? ? H1 H2]. destruct (Rltb (fst p) (fst h)) eqn:E1.
  - apply Rltb_spec in E1. cbn [keys map]. constructor; [constructor; assumption |]. constructor; [assumption |]. eapply Forall_impl; [| exact H2]. intros; cbn in *; lra.
  - apply Rltb_false in E1. destruct (Rltb (fst h) (fst p)) eqn:E2; cbn [keys map fst].
    + apply Rltb_spec in E2. constructor; [now apply IH |]. apply Forall_forall. intros x Hx. apply add_in in Hx. destruct Hx as [-> | Hx]; [assumption |]. rewrite Forall_forall in H2. auto.
    + constructor; assumption.
Qed.
Lemma weight_add p m f : weight_at (add_peak p m) f = weight_at m f + (if Req_EM_T (fst p) f then snd p else 0).
Proof.
  unfold weight_at. induction m as [| h t IH]; cbn [add_peak]; [cbn; lra |]. destruct (Rltb (fst p) (fst h)) eqn:E1; [cbn [map rsum fold_right]; unfold rsum; cbn; lra |]. destruct (Rltb (fst h) (fst p)) eqn:E2.
  - cbn [map rsum fold_right] in *. unfold rsum in *. cbn [fold_right]. rewrite IH. lra.
  - apply Rltb_false in E1, E2. assert (E : fst h = fst p) by lra. unfold rsum. cbn [map fold_right fst snd]. rewrite E. destruct (Req_EM_T (fst p) f); lra.
Qed.
Lemma sum_add p m : rsum (map snd (add_peak p m)) = rsum (map snd m) + snd p.
Proof.
  induction m as [| h t IH]; cbn [add_peak]; [cbn; lra |]. destruct (Rltb (fst p) (fst h)); [unfold rsum; cbn; lra |]. destruct (Rltb (fst h) (fst p)); unfold rsum in *; cbn [map fold_right snd]; [rewrite IH |]; lra.
Qed.
Lemma fold_merge l m : StronglySorted Rlt (keys m) -> let r := fold_left (fun m p => add_peak p m) l m in
  StronglySorted Rlt (keys r) /\ (forall x, In x (keys r) <-> In x (keys l) \/ In x (keys m)) /\ (forall f, weight_at r f = weight_at l f + weight_at m f) /\
  rsum (map snd r) = rsum (map snd l) + rsum (map snd m).
Proof.
  revert m. induction l as [| p l IH]; intros m H; cbn [fold_left]; cbn zeta.
  - split; [assumption |]. split; [intros x; cbn [keys map In]; tauto |]. split; [intros f |]; unfold weight_at, rsum; cbn [map fold_right]; lra.
  - destruct (IH (add_peak p m) (add_sorted p m H)) as (H1 & H2 & H3 & H4). split; [assumption |]. split; [| split].
    + intros x. rewrite H2, add_in. cbn [keys map In]. fold (keys l). intuition.
    + intros f. rewrite H3, weight_add. unfold weight_at, rsum. cbn [map fold_right]. lra.
    + rewrite H4, sum_add. unfold rsum. cbn [map fold_right]. lra.
Qed.
Lemma weight_unique m x y : StronglySorted Rlt (keys m) -> In (x, y) m -> weight_at m x = y.
Proof.
  induction m as [| h t IH]; intros H Hi; [destruct Hi |]. inversion_clear H as [| ? ? H1 H2]. unfold weight_at, rsum. cbn [map fold_right]. fold (rsum (map (fun p : R * R => if Req_EM_T (fst p) x then snd p else 0) t)). fold (weight_at t x). destruct Hi as [-> | Hi].
  - cbn [fst snd]. destruct (Req_EM_T x x); [| congruence]. enough (weight_at t x = 0) by lra. clear IH H1. unfold weight_at, rsum. cbn [fst] in H2. induction t as [| q t IH]; [reflexivity |]. inversion_clear H2 as [| ? ? H3 H4]. cbn [map fold_right]. destruct (Req_EM_T (fst q) x); [lra |]. rewrite IH; [lra | assumption].
  - rewrite IH by assumption. destruct (Req_EM_T (fst h) x) as [E |]; [| lra]. exfalso. rewrite Forall_forall in H2. assert (In x (keys t)) by (apply in_map_iff; exists (x, y); auto). specialize (H2 x H). lra.
Qed.
Lemma sum_div (l : list R) c : rsum (map (fun x => x / c) l) = rsum l / c.
Proof. unfold rsum. induction l; cbn [map fold_right]; [unfold Rdiv; ring |]. rewrite IHl. unfold Rdiv. ring. Qed.
Lemma merge_ok nz bufs : let peaks := merge nz bufs in
  StronglySorted Rlt (map fst peaks) /\ (forall x, In x (map fst peaks) <-> In x (map fst (List.concat bufs))) /\
  (forall x y, In (x, y) peaks -> y = weight_at (List.concat bufs) x / IZR nz) /\ rsum (map snd peaks) = rsum (map snd (List.concat bufs)) / IZR nz.
Proof.
  unfold merge. set (spec := fold_left _ _ _). destruct (fold_merge (List.concat bufs) [] ltac:(constructor)) as (H1 & H2 & H3 & H4). fold spec in H1, H2, H3, H4. cbn zeta.
  assert (E : map fst (map (fun p : R * R => (fst p, snd p / IZR nz)) spec) = keys spec) by (rewrite map_map; reflexivity). rewrite E. repeat split; try assumption.
  - intros H. apply H2 in H. destruct H as [H | []]. exact H.
  - intros H. apply H2. left. exact H.
  - intros x y H. apply in_map_iff in H. destruct H as ([f w] & H & Hi). cbn [fst snd] in H. assert (E1 : x = f /\ y = w / IZR nz) by (split; congruence). destruct E1 as [-> ->]. f_equal. pose proof (weight_unique spec f w H1 Hi) as Ew. rewrite <- Ew, H3. unfold weight_at at 2. cbn. ring.
  - rewrite map_map. cbn [snd]. transitivity (rsum (map (fun x => x / IZR nz) (map snd spec))); [now rewrite map_map |]. rewrite sum_div, H4. cbn. f_equal. ring.
Qed.

(** ** The first mesh *)
Section Mesh.
  Variables (min max ratio : R).
  Hypothesis Hmin : 0 < min.
  Hypothesis Hmm : min < max.
  Hypothesis Hr : 1 < ratio.
  Lemma pow_gt n : 0 < ratio ^ n.
  Proof. apply pow_lt. lra. Qed.
  Lemma last_below : exists n, min * ratio ^ n < max <= min * ratio ^ S n.
  Proof.
    destruct (Pow_x_infinity ratio ltac:(rewrite Rabs_right; lra) (max / min)) as [N HN]. specialize (HN N (le_n N)). rewrite Rabs_right in HN by (apply Rle_ge, Rlt_le, pow_gt).
    assert (H : max <= min * ratio ^ N). { apply Rge_le in HN. apply (Rmult_le_compat_l min) in HN; [| lra]. replace (min * (max / min)) with max in HN by (field; lra). assumption. }
    clear HN. induction N as [| N IH]; [cbn in H; lra |]. destruct (Rlt_dec (min * ratio ^ N) max); [exists N; auto | apply IH; lra].
  Qed.
  Lemma pow_mono k l : (k < l)%nat -> min * ratio ^ k < min * ratio ^ l.
  Proof. intros H. apply Rmult_lt_compat_l; [assumption |]. apply Rlt_pow; assumption. Qed.
  Lemma pow_inj k l : min * ratio ^ k = min * ratio ^ l -> k = l.
  Proof. intros H. destruct (Nat.lt_trichotomy k l) as [C | [C | C]]; [apply pow_mono in C; lra | assumption | apply pow_mono in C; lra]. Qed.
  Definition grid (ks : list nat) : list R := flat_map (fun k => [min * ratio ^ k; - (min * ratio ^ k)]) ks.
  Lemma loop_ok n : min * ratio ^ n < max <= min * ratio ^ S n -> forall j k fuel, (k + j = S n)%nat -> (j < fuel)%nat ->
    mesh_loop fuel (min * ratio ^ k) max ratio = Some (grid (seq k j), min * ratio ^ S n).
  Proof.
    intros Hn. induction j as [| j IH]; intros k fuel Hk Hf; (destruct fuel as [| fuel]; [lia |]); cbn [mesh_loop].
    - replace k with (S n) by lia. destruct (Rltb _ _) eqn:E; [apply Rltb_spec in E; lra | reflexivity].
    - destruct (Rltb _ _) eqn:E.
      + replace (min * ratio ^ k * ratio) with (min * ratio ^ S k) by (cbn; ring). rewrite IH by lia. reflexivity.
      + apply Rltb_false in E. exfalso. assert (k <= n)%nat by lia. destruct (Nat.eq_dec k n) as [-> |]; [lra |]. pose proof (pow_mono k n ltac:(lia)). lra.
  Qed.
  Lemma grid_in ks x : In x (grid ks) <-> exists k, In k ks /\ Rabs x = min * ratio ^ k.
  Proof.
    unfold grid. rewrite in_flat_map. split; intros (k & H1 & H2); exists k; (split; [assumption |]); pose proof (pow_gt k).
    - destruct H2 as [<- | [<- | []]]; [apply Rabs_right; nra | rewrite Rabs_left; nra].
    - unfold Rabs in H2. destruct (Rcase_abs x); [right; left; lra | left; lra].
  Qed.
  Lemma grid_length ks : List.length (grid ks) = (2 * List.length ks)%nat.
  Proof. induction ks as [| k ks IH]; [reflexivity |]. cbn [grid flat_map app List.length]. fold (grid ks). rewrite IH. lia. Qed.
  Lemma grid_nodup ks : NoDup ks -> NoDup (grid ks).
  Proof.
    induction 1 as [| k ks H1 H2 IH]; [constructor |]. assert (P : 0 < min * ratio ^ k) by (apply Rmult_lt_0_compat; [assumption | apply pow_gt]). cbn [grid flat_map app]. fold (grid ks). constructor; [| constructor; [| assumption]].
    - intros [H | H]; [lra |]. apply grid_in in H. destruct H as (l & Hl & E). rewrite Rabs_right in E by lra. apply pow_inj in E. subst. contradiction.
    - intros H. apply grid_in in H. destruct H as (l & Hl & E). rewrite Rabs_Ropp, Rabs_right in E by lra. apply pow_inj in E. subst. contradiction.
  Qed.
  Lemma mesh_ok : exists fuel0 m n, (forall fuel, (fuel0 <= fuel)%nat -> exists l z, mesh_loop fuel min max ratio = Some (l, z) /\ sort (l ++ [z * ratio; - (z * ratio)]) = m) /\
    min * ratio ^ n < max <= min * ratio ^ S n /\ StronglySorted Rlt m /\ (forall x, In x m <-> exists k, ((k <= n)%nat \/ k = S (S n)) /\ Rabs x = min * ratio ^ k) /\ List.length m = (2 * n + 4)%nat.
  Proof.
    destruct last_below as [n Hn]. exists (S (S n)), (sort (grid (seq 0 (S n)) ++ [min * ratio ^ S n * ratio; - (min * ratio ^ S n * ratio)])), n. split; [| split; [assumption |]].
    - intros fuel Hf. exists (grid (seq 0 (S n))), (min * ratio ^ S n). split; [| reflexivity]. pose proof (loop_ok n Hn (S n) 0%nat fuel eq_refl ltac:(lia)) as H. rewrite pow_O, Rmult_1_r in H. exact H.
    - assert (E : grid (seq 0 (S n)) ++ [min * ratio ^ S n * ratio; - (min * ratio ^ S n * ratio)] = grid (seq 0 (S n) ++ [S (S n)])).
      { unfold grid. rewrite flat_map_app. cbn [flat_map app]. replace (min * ratio ^ S n * ratio) with (min * ratio ^ S (S n)) by (cbn; ring). reflexivity. }
      rewrite E. assert (N : NoDup (seq 0 (S n) ++ [S (S n)])). { apply (Permutation_NoDup (Permutation_cons_append _ _)). constructor; [intros H; apply in_seq in H; lia | apply seq_NoDup]. }
      destruct (sort_strict _ (grid_nodup _ N)) as [H1 H2]. split; [assumption |]. split.
      + intros x. rewrite H2, grid_in. split; intros (k & Hk & Ex); exists k; (split; [| assumption]).
        * apply in_app_iff in Hk. destruct Hk as [Hk | [<- | []]]; [left; apply in_seq in Hk; lia | right; reflexivity].
        * apply in_app_iff. destruct Hk as [Hk | ->]; [left; apply in_seq; lia | right; left; reflexivity].
      + rewrite <- (Permutation_length (sort_perm _)). rewrite grid_length, app_length, seq_length. cbn. lia.
  Qed.
End Mesh.
Lemma mesh_endless min max ratio fuel : min <= 0 -> 0 < ratio -> min < max -> 0 < max \/ 1 <= ratio -> mesh_loop fuel min max ratio = None.
Proof.
  revert min. induction fuel as [| fuel IH]; intros min H1 H2 H3 H4; [reflexivity |]. cbn [mesh_loop]. destruct (Rltb min max) eqn:E; [| apply Rltb_false in E; lra].
  rewrite IH; [reflexivity | nra | assumption | destruct H4; nra | assumption].
Qed.
