(** Proofs about the averaging tools. *)
From Coq Require Import List ZArith Reals Bool Lia Lra Permutation Sorted.
From Verif Require Import Base Interp_model Interp_spec Interp_proofs Tables_model Tables_spec Tables_lines Averages_model Averages_spec.
Import ListNotations.
Local Open Scope R_scope.

Lemma Forall2_length {A B} (P : A -> B -> Prop) l m : Forall2 P l m -> length l = length m.
Proof. induction 1; cbn; congruence. Qed.
Lemma nth_error_ext {A} (l m : list A) : (forall j, nth_error l j = nth_error m j) -> l = m.
Proof.
  revert m. induction l as [|a l IH]; intros [|b m] H; [reflexivity | now specialize (H 0%nat) | now specialize (H 0%nat) |]. pose proof (H 0%nat) as H0. injection H0 as ->. f_equal. apply IH. intros j. exact (H (S j)).
Qed.
(** ** The mesh *)
Lemma insert_perm x l : Permutation (insert x l) (x :: l).
Proof. induction l as [|y t IH]; cbn; [reflexivity |]. destruct (Rltb x y); [reflexivity |]. rewrite IH. apply perm_swap. Qed.
Lemma sort_perm l : Permutation (sort l) l.
Proof. induction l as [|x t IH]; cbn; [reflexivity |]. rewrite insert_perm. now constructor. Qed.
Lemma insert_sorted x l : StronglySorted Rle l -> StronglySorted Rle (insert x l).
Proof.
  induction 1 as [|y t Hs IH Hf]; cbn; [repeat constructor |]. destruct (Rltb x y) eqn:E.
  - apply Rltb_true in E. constructor; [now constructor |]. constructor; [lra |]. eapply Forall_impl; [| exact Hf]. intros z Hz. cbn in *. lra.
  - apply Rltb_false in E. constructor; [assumption |]. apply (Permutation_Forall (Permutation_sym (insert_perm x t))). now constructor.
Qed.
Lemma sort_sorted l : StronglySorted Rle (sort l).
Proof. induction l as [|x t IH]; cbn; [constructor | now apply insert_sorted]. Qed.
Lemma approx_iff a b : a <> 0 -> eq_approx a b = true <-> Rabs (a - b) < / 1000000 * Rabs a.
Proof.
  intros Ha. unfold eq_approx, rdiv, EPS. destruct (Req_EM_T a 0) as [? | _]; [contradiction |]. rewrite Rltb_true. unfold Rdiv at 1. rewrite Rabs_mult, Rabs_inv.
  pose proof (Rabs_pos_lt a Ha) as Hp. split; intros H.
  - apply (Rmult_lt_compat_r (Rabs a)) in H; [| assumption]. rewrite Rmult_assoc, Rinv_l in H by lra. lra.
  - apply (Rmult_lt_reg_r (Rabs a)); [assumption |]. rewrite Rmult_assoc, Rinv_l by lra. lra.
Qed.
Lemma approx_zero b : eq_approx 0 b = false.
Proof. unfold eq_approx, rdiv. destruct (Req_EM_T 0 0); [reflexivity | lra]. Qed.
Lemma approx_near a b : eq_approx a b = true -> near a b.
Proof. destruct (Req_EM_T a 0) as [-> | Ha]; [now rewrite approx_zero |]. intros H. right. now apply approx_iff. Qed.
Lemma approx_far a b : a <> 0 -> eq_approx a b = false -> ~ near a b.
Proof.
  intros Ha H [-> | Hn].
  - assert (E : eq_approx b b = true); [| congruence]. apply approx_iff; [assumption |]. pose proof (Rabs_pos_lt b Ha). replace (b - b) with 0 by ring. rewrite Rabs_R0. lra.
  - apply approx_iff in Hn; [congruence | assumption].
Qed.
Lemma unique_in l : forall a x, In x (unique_from a l) -> In x l.
Proof. induction l as [|b t IH]; intros a x; cbn; [auto |]. destruct (eq_approx a b); [intros H; right; eauto |]. intros [-> | H]; [now left | right; eauto]. Qed.
Lemma unique_cover l : forall a x, In x (a :: l) -> exists y, In y (a :: unique_from a l) /\ near y x.
Proof.
  induction l as [|b t IH]; intros a x H.
  - destruct H as [-> | []]. exists x. split; [now left | now left].
  - destruct H as [-> | H]; [exists x; split; [now left | now left] |]. cbn [unique_from]. destruct (eq_approx a b) eqn:E.
    + destruct H as [<- | H]; [exists a; split; [now left | now apply approx_near] |]. destruct (IH a x (or_intror H)) as (y & H1 & H2). now exists y.
    + destruct (IH b x H) as (y & H1 & H2). exists y. split; [now right | assumption].
Qed.
Lemma unique_sorted l : forall a, StronglySorted Rle (a :: l) -> StronglySorted Rle (a :: unique_from a l).
Proof.
  induction l as [|b t IH]; intros a H; [repeat constructor |]. cbn [unique_from]. inversion H as [|? ? H1 H2]; subst. inversion H1 as [|? ? H3 H4]; subst. inversion H2 as [|? ? H5 H6]; subst.
  destruct (eq_approx a b); [apply IH; now constructor |]. constructor; [now apply IH |]. constructor; [assumption |]. apply Forall_forall. intros x Hx. apply unique_in in Hx. rewrite Forall_forall in H6. auto.
Qed.
Lemma unique_apart l : forall a pre c d r, a :: unique_from a l = pre ++ c :: d :: r -> c <> 0 -> ~ near c d.
Proof.
  induction l as [|b t IH]; intros a pre c d r E Hc.
  - destruct pre as [|p [|q pre]]; discriminate.
  - cbn [unique_from] in E. destruct (eq_approx a b) eqn:Ea; [eapply IH; eauto |]. destruct pre as [|p pre]; cbn in E.
    + injection E as <- <- _. now apply approx_far.
    + injection E as _ E. eapply IH; eauto.
Qed.
Theorem mesh_ok xss : common_mesh xss (merge_meshes xss).
Proof.
  unfold merge_meshes. pose proof (sort_perm (List.concat xss)) as Hp. pose proof (sort_sorted (List.concat xss)) as Hs. set (l := sort (List.concat xss)) in *. clearbody l.
  assert (Hin : forall x, In x l <-> exists xs, In xs xss /\ In x xs).
  { intros x. rewrite <- in_concat. split; apply Permutation_in; [assumption | now symmetry]. }
  destruct l as [|a l]; cbn [unique].
  - repeat split; try constructor; try (intros ? []). + intros xs x H1 H2. exfalso. apply (Hin x). now exists xs. + intros pre a b r E. destruct pre; discriminate.
  - split; [now apply unique_sorted |]. split; [intros x [<- | Hx]; [apply Hin; now left | apply Hin; right; eapply unique_in; exact Hx] |].
    split; [intros xs x H1 H2; apply unique_cover; apply Hin; now exists xs | intros pre c d r E; now apply (unique_apart l a pre c d r)].
Qed.

(** ** Objects *)
(** Evaluates to h whatever is evaluated. *)
Definition stable (s : linint) (h : R -> R) : Prop := forall xs, calls xs s = Ok (map (fun x => Some (h x)) xs).
Lemma stable_step s h x : stable s h -> exists s', call x s = Ok (Some (h x), s') /\ stable s' h.
Proof.
  intros H. pose proof (H [x]) as H1. cbn in H1. destruct (call x s) as [[y s']| |] eqn:E; cbn in H1; try discriminate. injection H1 as ->. exists s'. split; [reflexivity |].
  intros xs. specialize (H (x :: xs)). cbn in H. rewrite E in H. cbn in H. destruct (calls xs s') as [ys| |]; cbn in H; try discriminate. now injection H as ->.
Qed.
Lemma table_stable v : increasing v -> v <> [] -> exists s h, construct false v = Ok s /\ stable s h /\ forall x, linear_interpolant v x (h x).
Proof.
  intros Hi Hn. destruct v as [|p [|q t]]; [contradiction | |].
  - eexists _, (fun _ => snd p). split; [reflexivity |]. split.
    + intros xs. set (s := {| vec := [p] |}). induction xs as [|x xs IH]; [reflexivity |]. cbn [calls map]. unfold call. cbn [s xmin xmax fxmin fxmax].
      destruct (Rleb x (fst p)) eqn:E1; [cbn [bind]; fold s; now rewrite IH |]. apply Rleb_false in E1. replace (Rleb (fst p) x) with true by (symmetry; apply Rleb_true; lra). cbn [bind]. fold s. now rewrite IH.
    + intros x. repeat split.
      * intros p' E _. injection E as <-. reflexivity.
      * intros p' E _. injection E as <-. reflexivity.
      * intros [|i] p' q' E1 E2; [discriminate | destruct i; discriminate].
  - destruct (history_form false (p :: q :: t) Hi ltac:(cbn; lia)) as (f & F1 & _ & F3). unfold Interp_model.interpolate in F3.
    destruct (construct false (p :: q :: t)) as [s| |] eqn:E; [| specialize (F3 []); discriminate | specialize (F3 []); discriminate]. exists s, f. split; [reflexivity |]. split; [exact F3 | exact F1].
Qed.

(** ** intavg *)
Lemma sum_ok x f hs : Forall2 stable f hs -> forall sum, exists f', sum_calls x f (Some sum) = Ok (Some (sum + total (map (fun h => h x) hs)), f') /\ Forall2 stable f' hs.
Proof.
  induction 1 as [|s h f hs Hs H IH]; intros sum; cbn; [exists []; split; [now rewrite Rplus_0_r | constructor] |].
  destruct (stable_step s h x Hs) as (s' & E & Hs'). rewrite E. cbn. destruct (IH (sum + h x)) as (f' & Ef & Hf'). rewrite Ef. cbn. exists (s' :: f'). split; [| now constructor]. now rewrite Rplus_assoc.
Qed.
Lemma rdiv_mean ys n : length ys = n -> (0 < n)%nat -> rdiv (total ys) (INR n) = Some (mean ys).
Proof. intros <- Hn. unfold rdiv, mean. destruct (Req_EM_T _ 0) as [E | _]; [| reflexivity]. apply (INR_eq _ 0) in E. lia. Qed.
Lemma avg_ok mesh : forall f hs, Forall2 stable f hs -> (0 < length hs)%nat -> avg (length hs) mesh f = Ok (map (fun x => (x, Some (mean (map (fun h => h x) hs)))) mesh).
Proof.
  induction mesh as [|x t IH]; intros f hs H Hn; [reflexivity |]. cbn [avg map]. destruct (sum_ok x f hs H 0) as (f' & E & Hf'). rewrite E. cbn [bind]. rewrite (IH f' hs Hf' Hn). cbn [bind odiv].
  rewrite Rplus_0_l, (rdiv_mean _ (length hs)); [reflexivity | apply map_length | assumption].
Qed.
Lemma objects_ok input : Forall (fun t => increasing t /\ t <> []) input -> exists f hs, mapM (construct false) input = Ok f /\ Forall2 stable f hs /\ Forall2 (fun t h => forall x, linear_interpolant t x (h x)) input hs.
Proof.
  induction 1 as [|t input [H1 H2] H IH]; [exists [], []; repeat split; constructor |]. destruct IH as (f & hs & I1 & I2 & I3). destruct (table_stable t H1 H2) as (s & h & T1 & T2 & T3).
  exists (s :: f), (h :: hs). cbn [mapM]. rewrite T1. cbn [bind]. rewrite I1. repeat split; now constructor.
Qed.
Theorem intavg_ok input : input <> [] -> Forall (fun t => increasing t /\ t <> []) input ->
  exists r, intavg input = Ok r /\ common_mesh (map (map fst) input) (map fst r) /\
    Forall (fun p => exists ys, Forall2 (fun t y => linear_interpolant t (fst p) y) input ys /\ snd p = Some (mean ys)) r.
Proof.
  intros Hn H. destruct (objects_ok input H) as (f & hs & H1 & H2 & H3). pose proof (Forall2_length _ _ _ H3) as Hl.
  exists (map (fun x => (x, Some (mean (map (fun h => h x) hs)))) (merge_meshes (map (map fst) input))). split; [| split].
  - destruct input as [|t input]; [contradiction |]. unfold intavg. rewrite H1. cbn [bind]. unfold table in *. rewrite Hl. apply avg_ok; [assumption |]. rewrite <- Hl. cbn. lia.
  - rewrite map_map. cbn [fst]. rewrite map_id. apply mesh_ok.
  - apply Forall_forall. intros p Hp. apply in_map_iff in Hp as (x & <- & _). exists (map (fun h => h x) hs). split; [| reflexivity]. cbn [fst]. clear -H3. induction H3; constructor; auto.
Qed.

(** The average of equal tables. *)
Lemma strict_unique l m : StronglySorted Rlt l -> StronglySorted Rlt m -> (forall x, In x l <-> In x m) -> l = m.
Proof.
  revert m. induction l as [|a l IH]; intros [|b m] Hl Hm H.
  - reflexivity.
  - exfalso. apply (H b). now left.
  - exfalso. apply (H a). now left.
  - inversion Hl as [|? ? L1 L2]; subst. inversion Hm as [|? ? M1 M2]; subst. rewrite Forall_forall in L2, M2. assert (a = b).
    { destruct (proj1 (H a) (or_introl eq_refl)) as [E | E1]; [now symmetry |]. destruct (proj2 (H b) (or_introl eq_refl)) as [E | E2]; [assumption |]. specialize (L2 _ E2). specialize (M2 _ E1). lra. }
    subst b. f_equal. apply IH; auto. intros x. split; intros Hx.
    + destruct (proj1 (H x) (or_intror Hx)) as [<- | ?]; [| assumption]. specialize (L2 _ Hx). lra.
    + destruct (proj2 (H x) (or_intror Hx)) as [<- | ?]; [| assumption]. specialize (M2 _ Hx). lra.
Qed.
Lemma increasing_sorted v : increasing v -> StronglySorted Rlt (map fst v).
Proof.
  intros H. apply Sorted_StronglySorted; [intros x y z; lra |]. induction v as [|p v IH]; [constructor |]. constructor.
  - apply IH. intros i a b H1 H2. apply (H (S i) a b H1 H2).
  - destruct v as [|q v]; constructor. apply (H 0%nat p q); reflexivity.
Qed.
Lemma sorted_increasing v : StronglySorted Rlt (map fst v) -> increasing v.
Proof.
  induction v as [|p v IH]; intros H; [intros i p q H1; destruct i; discriminate |]. cbn in H. inversion H as [|? ? H1 H2]; subst. intros [|i] a b E1 E2; [| eapply IH; eauto].
  injection E1 as <-. rewrite Forall_forall in H2. apply H2. apply in_map. apply (nth_error_In v 0 E2).
Qed.
Lemma mesh_strict m : StronglySorted Rle m -> (forall l a b r, m = l ++ a :: b :: r -> a <> 0 -> ~ near a b) -> (forall a, In a m -> a <> 0) -> StronglySorted Rlt m.
Proof.
  intros Hs Ha Hz. apply Sorted_StronglySorted; [intros x y z; lra |]. induction Hs as [|a m Hs IH Hf]; [constructor |]. constructor.
  - apply IH; [intros l c d r E; apply (Ha (a :: l) c d r); now rewrite E | intros x Hx; apply Hz; now right].
  - destruct m as [|b m]; constructor. inversion Hf as [|? ? [Hlt | ->] _]; subst; [assumption |]. exfalso. apply (Ha [] b b m eq_refl); [apply Hz; now left | now left].
Qed.
Lemma node_value t x y p : increasing t -> In p t -> fst p = x -> linear_interpolant t x y -> y = snd p.
Proof.
  intros Hi Hp <- (L1 & L2 & L3). apply In_nth_error in Hp as (i & Hp). assert (i < length t)%nat by (apply nth_error_Some; congruence). destruct (Nat.eq_dec i (length t - 1)) as [-> | Hne]; [apply (L2 p Hp); lra |].
  destruct (nth_error t (S i)) as [q|] eqn:Eq; [| apply nth_error_None in Eq; lia]. pose proof (Hi i p q Hp Eq). rewrite (L3 i p q Hp Eq) by lra. replace (fst p - fst p) with 0 by ring. unfold Rdiv. ring.
Qed.
Lemma mean_const y ys : ys <> [] -> Forall (fun z => z = y) ys -> mean ys = y.
Proof.
  intros Hn H. unfold mean. assert (E : total ys = INR (length ys) * y).
  { clear Hn. induction H as [|z ys -> H IH]; [cbn; ring |]. cbn [total fold_right length]. fold (total ys). rewrite IH, S_INR. ring. }
  rewrite E. field. destruct ys; [contradiction |]. cbn [length]. apply not_0_INR. lia.
Qed.
Theorem equal_tables t n : (0 < n)%nat -> increasing t -> t <> [] -> (forall p q, In p t -> In q t -> near (fst p) (fst q) -> fst p = fst q) -> (forall p, In p t -> fst p <> 0) ->
  intavg (repeat t n) = Ok (map (fun p => (fst p, Some (snd p))) t).
Proof.
  intros Hn Hi Ht Hsep Hz. destruct (intavg_ok (repeat t n)) as (r & E & (M1 & M2 & M3 & M4) & Hv).
  { destruct n; [lia | discriminate]. } { apply Forall_forall. intros x Hx. apply repeat_spec in Hx as ->. now split. }
  rewrite E. f_equal. assert (Hrep : In (map fst t) (map (map fst) (repeat t n))) by (apply in_map; destruct n; [lia | now left]).
  assert (Hin : forall a, In a (map fst r) <-> In a (map fst t)).
  { intros a. split; intros Ha.
    - destruct (M2 a Ha) as (xs & H1 & H2). apply in_map_iff in H1 as (t' & <- & H1). apply repeat_spec in H1 as ->. assumption.
    - destruct (M3 _ a Hrep Ha) as (b & Hb & Hnear). destruct (M2 b Hb) as (xs & H1 & H2). apply in_map_iff in H1 as (t' & <- & H1). apply repeat_spec in H1 as ->.
      apply in_map_iff in Ha as (p & <- & Hp). apply in_map_iff in H2 as (q & <- & Hq). now rewrite <- (Hsep q p Hq Hp Hnear). }
  assert (Em : map fst r = map fst t).
  { apply strict_unique; [| now apply increasing_sorted | exact Hin]. apply mesh_strict; auto. intros a Ha. apply Hin in Ha. apply in_map_iff in Ha as (p & <- & Hp). auto. }
  clear M1 M2 M3 M4 Hin E Hrep. assert (Hsub : forall u, (forall p, In p u -> In p t) -> map fst r = map fst u -> r = map (fun p => (fst p, Some (snd p))) u); [| now apply Hsub]. clear Em. induction r as [|[x v] r IH]; intros [|p u] Hsub Em; try discriminate; [reflexivity |].
  cbn in Em. injection Em as Ex Em. inversion Hv as [|? ? (ys & Hys & Ev) Hv']; subst. cbn in Hys, Ev |- *. f_equal; [| apply IH; auto; intros q Hq; apply Hsub; now right].
  rewrite Ev. do 2 f_equal. apply mean_const.
  - apply Forall2_length in Hys. rewrite repeat_length in Hys. destruct ys; [cbn in Hys; lia | discriminate].
  - apply Forall_forall. intros z Hzz. apply In_nth_error in Hzz as (k & Hk). assert (G : exists t', nth_error (repeat t n) k = Some t' /\ linear_interpolant t' (fst p) z).
    { clear -Hys Hk. revert k Hk. induction Hys as [|a b la lb H1 H2 IH]; intros [|k] Hk; try discriminate; cbn in *; [injection Hk as <-; eauto | eauto]. }
    destruct G as (t' & G1 & G2). apply nth_error_In, repeat_spec in G1 as ->. apply (node_value t (fst p) z p); auto. apply Hsub. now left.
Qed.

(** ** tdavg *)
Lemma R_order : strict_order R Rltb.
Proof.
  split; [intros x; apply Rltb_false; lra |]. split; [intros x y z; rewrite !Rltb_true; lra |]. intros x y. rewrite !Rltb_false. lra.
Qed.
Lemma mapM_map {A B} (f : A -> res B) (g : A -> B) l : (forall x, In x l -> f x = Ok (g x)) -> mapM f l = Ok (map g l).
Proof. induction l as [|a t IH]; intros H; [reflexivity |]. cbn. rewrite (H a (or_introl eq_refl)). cbn. rewrite IH; [reflexivity | intros x Hx; apply H; now right]. Qed.
Lemma column_ok n j b : good_block n b -> (j < n)%nat -> exists v, column j b = Ok v /\ Permutation v (map (fun p => (fst p, nth j (snd p) 0)) b) /\ increasing v /\ v <> [].
Proof.
  intros (H1 & H2 & H3) Hj. unfold column. rewrite (mapM_map _ (fun p => (fst p, nth j (snd p) 0))).
  2:{ intros p Hp. rewrite Forall_forall in H2. specialize (H2 p Hp). rewrite (nth_error_nth' (snd p) 0); [reflexivity | lia]. }
  cbn [bind]. set (l := map _ b). exists (sort_pairs R Rltb l). split; [reflexivity |]. destruct R_order as (O1 & O2 & O3).
  assert (Hp : Permutation (sort_pairs R Rltb l) l) by (symmetry; apply Tables_lines.sort_perm). split; [exact Hp |]. split.
  - apply sorted_increasing. assert (Hs : StronglySorted (before R Rltb) (sort_pairs R Rltb l)) by (apply Tables_lines.sort_sorted; assumption).
    assert (Hn : NoDup (map fst (sort_pairs R Rltb l))). { eapply Permutation_NoDup; [apply Permutation_map; symmetry; exact Hp |]. unfold l. rewrite map_map. exact H3. }
    clearbody l. clear Hp. induction Hs as [|p t Hs IH Hf]; [constructor |]. cbn in Hn |- *. inversion Hn as [|? ? N1 N2]; subst. constructor; [now apply IH |].
    apply Forall_forall. intros x Hx. apply in_map_iff in Hx as (q & <- & Hq). rewrite Forall_forall in Hf. destruct (Hf q Hq) as [H | [H _]]; [now apply Rltb_true |]. exfalso. apply N1. rewrite H. now apply in_map.
  - intros E. rewrite E in Hp. apply Permutation_nil in Hp. unfold l in Hp. apply map_eq_nil in Hp. contradiction.
Qed.
(** The functions of one column. *)
Definition functions (j : nat) (data : list block) (hs : list (R -> R)) : Prop := Forall2 (fun b h => forall T, column_value j b T (h T)) data hs.
Lemma column_objects n j data : Forall (good_block n) data -> (j < n)%nat -> exists f hs, interpolate_column j data = Ok f /\ Forall2 stable f hs /\ functions j data hs.
Proof.
  intros H Hj. induction H as [|b data Hb H IH]; [exists [], []; repeat split; constructor |]. destruct IH as (f & hs & I1 & I2 & I3). destruct (column_ok n j b Hb Hj) as (v & V1 & V2 & V3 & V4).
  destruct (table_stable v V3 V4) as (s & h & T1 & T2 & T3). exists (s :: f), (h :: hs). unfold interpolate_column in *. cbn [mapM]. rewrite V1. cbn [bind]. rewrite T1. cbn [bind]. rewrite I1. cbn [bind]. split; [reflexivity |]. split; [now constructor |].
  constructor; [| assumption]. intros T. exists v. auto.
Qed.
(** An object, and the one of the reference, with their functions. *)
Definition stable2 (o : linint * option linint) (h : (R -> R) * option (R -> R)) : Prop :=
  stable (fst o) (fst h) /\ match snd o, snd h with Some q, Some g => stable q g | None, None => True | _, _ => False end.
Definition value2 (T : R) (h : (R -> R) * option (R -> R)) : R := fst h T - match snd h with Some g => g T | None => 0 end.
Lemma td_sum_ok Nz T f hs : (0 < Nz)%nat -> Forall2 stable2 f hs -> forall sum, exists f', td_sum Nz T f (Some sum) = Ok (Some (sum + total (map (value2 T) hs) / INR Nz), f') /\ Forall2 stable2 f' hs.
Proof.
  intros Hn. assert (Hz : INR Nz <> 0) by (apply not_0_INR; lia). assert (Hd : forall x, odiv (Some x) Nz = Some (x / INR Nz)) by (intros x; cbn; unfold rdiv; destruct (Req_EM_T _ _); [contradiction | reflexivity]).
  induction 1 as [|[s r] [h g] f hs [H1 H2] H IH]; intros sum; cbn [td_sum map total fold_right]; [exists []; split; [do 3 f_equal; unfold Rdiv; ring | constructor] |].
  cbn [fst snd] in H1, H2. destruct (stable_step s h T H1) as (s' & E & Hs'). rewrite E. cbn [bind]. rewrite Hd. cbn [oadd]. destruct r as [q|], g as [g|]; try contradiction.
  - destruct (stable_step q g T H2) as (q' & Eq & Hq'). rewrite Eq. cbn [bind]. rewrite Hd. cbn [osub]. destruct (IH (sum + h T / INR Nz - g T / INR Nz)) as (f' & Ef & Hf'). rewrite Ef. cbn [bind].
    eexists. split; [do 3 f_equal; fold (total (map (value2 T) hs)); unfold value2; cbn [fst snd]; field; assumption |]. constructor; [split; assumption | assumption].
  - cbn [bind]. destruct (IH (sum + h T / INR Nz)) as (f' & Ef & Hf'). rewrite Ef. cbn [bind].
    eexists. split; [do 3 f_equal; fold (total (map (value2 T) hs)); unfold value2; cbn [fst snd]; field; assumption |]. constructor; [split; [assumption | exact Logic.I] | assumption].
Qed.
Lemma td_row_ok Nz T cols hss : (0 < Nz)%nat -> Forall2 (Forall2 stable2) cols hss ->
  exists cols', td_row Nz T cols = Ok (map (fun hs => Some (total (map (value2 T) hs) / INR Nz)) hss, cols') /\ Forall2 (Forall2 stable2) cols' hss.
Proof.
  intros Hn. induction 1 as [|f hs cols hss Hf H IH]; [exists []; split; constructor |]. cbn [td_row map]. destruct (td_sum_ok Nz T f hs Hn Hf 0) as (f' & E & Hf'). rewrite E. cbn [bind].
  destruct IH as (cols' & Ec & Hc). rewrite Ec. cbn [bind]. exists (f' :: cols'). split; [now rewrite Rplus_0_l | now constructor].
Qed.
Lemma td_avg_ok Nz mesh : (0 < Nz)%nat -> forall cols hss, Forall2 (Forall2 stable2) cols hss ->
  td_avg Nz mesh cols = Ok (map (fun T => (T, map (fun hs => Some (total (map (value2 T) hs) / INR Nz)) hss)) mesh).
Proof.
  intros Hn. induction mesh as [|T t IH]; intros cols hss H; [reflexivity |]. cbn [td_avg map]. destruct (td_row_ok Nz T cols hss Hn H) as (cols' & E & Hc). rewrite E. cbn [bind]. now rewrite (IH cols' hss Hc).
Qed.
Definition references (j : nat) (reference : option (list block)) (hs : list ((R -> R) * option (R -> R))) : Prop :=
  match reference with None => Forall (fun h => snd h = None) hs | Some d => exists gs, functions j d gs /\ map snd hs = map Some gs end.
Lemma td_objects_ok n j input reference : Forall (good_block n) input -> (forall d, reference = Some d -> Forall (good_block n) d /\ length d = length input) -> (j < n)%nat ->
  exists f hs, td_objects input reference j = Ok f /\ Forall2 stable2 f hs /\ functions j input (map fst hs) /\ references j reference hs.
Proof.
  intros H Hr Hj. destruct (column_objects n j input H Hj) as (f & hs & F1 & F2 & F3). unfold td_objects. rewrite F1. cbn [bind]. destruct reference as [d|].
  - destruct (Hr d eq_refl) as [Hd Hl]. destruct (column_objects n j d Hd Hj) as (g & gs & G1 & G2 & G3). rewrite G1. cbn [bind]. exists (combine f (map Some g)), (combine hs (map Some gs)). split; [reflexivity |].
    assert (Lf : length hs = length gs) by (apply Forall2_length in F3; apply Forall2_length in G3; lia). assert (A : map fst (combine hs (map Some gs)) = hs /\ map snd (combine hs (map Some gs)) = map Some gs).
    { clear -Lf. revert gs Lf. induction hs as [|h hs IH]; intros [|g gs] L; cbn in *; try discriminate; [split; reflexivity |]. destruct (IH gs ltac:(lia)) as [A B]. now rewrite A, B. }
    destruct A as [A B]. split; [| rewrite A; split; [assumption | exists gs; now split]]. clear -F2 G2 Lf. revert g gs G2 Lf. induction F2 as [|s h f hs Hs F2 IH]; intros g gs G2 L; destruct G2 as [|q k g gs Hq G2]; cbn in *; try discriminate; constructor; [split; assumption | apply IH; auto].
  - exists (map (fun s => (s, None)) f), (map (fun h => (h, None)) hs). split; [reflexivity |]. split; [clear -F2; induction F2; constructor; [split; [assumption | exact Logic.I] | assumption] |].
    rewrite map_map. cbn [fst]. rewrite map_id. split; [assumption |]. cbn. apply Forall_forall. intros h Hh. apply in_map_iff in Hh as (? & <- & _). reflexivity.
Qed.
Lemma mapM_exists {A B C} (f : A -> res B) (P : A -> B -> C -> Prop) l : (forall a, In a l -> exists b c, f a = Ok b /\ P a b c) -> exists bs cs, mapM f l = Ok bs /\ Forall2 (fun a bc => P a (fst bc) (snd bc)) l (combine bs cs) /\ length bs = length l /\ length cs = length l.
Proof.
  induction l as [|a l IH]; intros H; [exists [], []; repeat split; constructor |]. destruct (H a (or_introl eq_refl)) as (b & c & E & Hp). destruct IH as (bs & cs & E' & Hp' & L1 & L2); [intros x Hx; apply H; now right |].
  exists (b :: bs), (c :: cs). cbn. rewrite E. cbn. rewrite E'. cbn. repeat split; auto.
Qed.
Lemma total_diff T hs : total (map (value2 T) hs) = total (map (fun h => fst h T) hs) - total (map (fun h => match snd h with Some g => g T | None => 0 end) hs).
Proof. induction hs as [|h hs IH]; cbn; [ring |]. fold (total (map (value2 T) hs)). rewrite IH. unfold value2, total. ring. Qed.
Theorem tdavg_ok n input reference : input <> [] -> Forall (good_block n) input -> (forall d, reference = Some d -> Forall (good_block n) d /\ length d = length input) ->
  exists r, tdavg n input reference = Ok r /\ common_mesh (map (map fst) input) (map fst r) /\
    Forall (fun p => length (snd p) = n /\ forall j, (j < n)%nat -> exists ys zs, Forall2 (fun b y => column_value j b (fst p) y) input ys /\
      match reference with None => zs = map (fun _ => 0) input | Some d => Forall2 (fun b z => column_value j b (fst p) z) d zs end /\ nth_error (snd p) j = Some (Some (mean ys - mean zs))) r.
Proof.
  intros Hne Hi Hr. destruct (mapM_exists (td_objects input reference) (fun j f hs => Forall2 stable2 f hs /\ functions j input (map fst hs) /\ references j reference hs) (seq 0 n)) as (cols & hss & E & HP & L1 & L2).
  { intros j Hj. apply in_seq in Hj. destruct (td_objects_ok n j input reference Hi Hr ltac:(lia)) as (f & hs & H). exists f, hs. exact H. }
  rewrite seq_length in L1, L2. assert (Hst : Forall2 (Forall2 stable2) cols hss).
  { assert (L : length cols = length hss) by lia. clear -HP L. remember (seq 0 n) as l. clear Heql. revert cols hss HP L. induction l as [|a l IH]; intros [|c cols] [|h hss] HP L; cbn in *; try discriminate; try constructor; inversion HP as [|? ? ? ? [H1 _] HP']; subst; [exact H1 | apply IH; auto]. }
  assert (Hfun : forall j, (j < n)%nat -> exists hs, nth_error hss j = Some hs /\ functions j input (map fst hs) /\ references j reference hs).
  { intros j Hj. destruct (nth_error hss j) as [hs|] eqn:Eh; [| apply nth_error_None in Eh; lia]. exists hs. split; [reflexivity |].
    assert (G : forall l, Forall2 (fun a bc => Forall2 stable2 (fst bc) (snd bc) /\ functions a input (map fst (snd bc)) /\ references a reference (snd bc)) l (combine cols hss) -> length cols = length hss -> forall a, nth_error l j = Some a -> functions a input (map fst hs) /\ references a reference hs).
    { clear -Eh. intros l. revert j cols hss Eh. induction l as [|x l IH]; intros [|j] [|c cols] [|h hss] Eh HP L a Ha; cbn in *; try discriminate; inversion HP as [|? ? ? ? [_ H1] HP']; subst.
      - injection Eh as <-. injection Ha as <-. exact H1. - eapply IH; eauto. }
    apply (G (seq 0 n)); [exact HP | lia |]. rewrite (nth_error_nth' _ 0%nat) by (rewrite seq_length; lia). now rewrite seq_nth. }
  exists (map (fun T => (T, map (fun hs => Some (total (map (value2 T) hs) / INR (length input))) hss)) (merge_meshes (map (map fst) input))). split; [| split].
  - unfold tdavg. destruct input as [|b input]; [contradiction |]. replace (match reference with None => true | Some d => Nat.eqb (length (b :: input)) (length d) end) with true.
    2:{ destruct reference as [d|]; [| reflexivity]. symmetry. apply Nat.eqb_eq. symmetry. now apply Hr. }
    cbn [my_assert bind]. rewrite E. cbn [bind]. apply td_avg_ok; [cbn; lia | assumption].
  - rewrite map_map. cbn [fst]. rewrite map_id. apply mesh_ok.
  - apply Forall_forall. intros p Hp. apply in_map_iff in Hp as (T & <- & _). cbn [fst snd]. split; [now rewrite map_length |]. intros j Hj. destruct (Hfun j Hj) as (hs & Eh & F1 & F2).
    assert (Lh : length hs = length input) by (apply Forall2_length in F1; rewrite map_length in F1; lia).
    exists (map (fun h => fst h T) hs), (map (fun h => match snd h with Some g => g T | None => 0 end) hs). split; [| split].
    + unfold functions in F1. clear -F1. remember (map fst hs) as l eqn:El. revert hs El. induction F1 as [|b h l1 l2 H F1 IH]; intros [|h' hs] El; try discriminate; cbn; constructor; injection El as -> El; auto.
    + destruct reference as [d|].
      * destruct F2 as (gs & G1 & G2). clear -G1 G2. unfold functions in G1. revert hs G2. induction G1 as [|b g l1 l2 H G1 IH]; intros [|h' hs] G2; try discriminate G2; [apply Forall2_nil |]. cbn in G2 |- *. injection G2 as E2 G2. rewrite E2. apply Forall2_cons; auto.
      * cbn in F2. clear -F2 Lh. revert input Lh. induction F2 as [|h hs Hh F2 IH]; intros [|b input] L; try discriminate; [reflexivity |]. cbn. rewrite Hh. f_equal. apply IH. now injection L.
    + erewrite map_nth_error by exact Eh. do 2 f_equal. rewrite total_diff. unfold mean. rewrite !map_length, Lh. field. apply not_0_INR. destruct input; [contradiction | discriminate].
Qed.
(** A reference that is the data itself. *)
Lemma column_unique j b T y z : b <> [] -> column_value j b T y -> column_value j b T z -> y = z.
Proof.
  intros Hb (v & P1 & I1 & L1) (w & P2 & I2 & L2). assert (v = w).
  { assert (P : Permutation v w) by (rewrite P1; now symmetry). assert (E : map fst v = map fst w).
    { apply strict_unique; try (now apply increasing_sorted). intros x. split; apply Permutation_in; [now apply Permutation_map | symmetry; now apply Permutation_map]. }
    assert (N : NoDup (map fst v)). { pose proof (increasing_sorted v I1) as S. clear -S. induction S as [|a l S IH H]; constructor; [| assumption]. intros Hin. rewrite Forall_forall in H. specialize (H a Hin). lra. }
    clear -P E N. assert (Q : forall p, In p v -> In p w) by (intros p; now apply Permutation_in). clear P. revert w E Q. induction v as [|p v IH]; intros [|q w] E Q; try discriminate; [reflexivity |]. cbn in E, N. injection E as E1 E2. inversion N as [|? ? N1 N2]; subst.
    assert (p = q). { destruct (Q p (or_introl eq_refl)) as [H | H]; [now symmetry |]. exfalso. apply N1. rewrite E2. now apply in_map. } subst q. f_equal. apply IH; auto.
    intros a Ha. destruct (Q a (or_intror Ha)) as [<- | H]; [| assumption]. exfalso. apply N1. now apply in_map. }
  subst w. destruct v as [|p [|q t]].
  - apply Permutation_nil in P1. apply map_eq_nil in P1. contradiction.
  - destruct L1 as (A1 & A2 & _), L2 as (B1 & B2 & _). destruct (Rle_dec T (fst p)).
    + rewrite (A1 p), (B1 p); auto. + rewrite (A2 p), (B2 p); auto; lra.
  - rewrite (interpolant_unique _ T y I1), (interpolant_unique _ T z I1); auto; cbn; lia.
Qed.
Theorem self_reference n input r : input <> [] -> Forall (good_block n) input -> tdavg n input (Some input) = Ok r -> Forall (fun p => snd p = repeat (Some 0) n) r.
Proof.
  intros Hne Hi E. destruct (tdavg_ok n input (Some input) Hne Hi) as (r' & E' & _ & Hv); [intros d [= <-]; now split |]. rewrite E in E'. injection E' as <-.
  eapply Forall_impl; [| exact Hv]. intros p [Hl H]. apply nth_error_ext. intros j. destruct (Nat.lt_ge_cases j n) as [Hj | Hj].
  - destruct (H j Hj) as (ys & zs & H1 & H2 & ->). assert (ys = zs).
    { clear -H1 H2 Hi. revert zs H2. induction H1 as [|b y input ys Hy H1 IH]; intros zs H2; inversion H2 as [|? z ? zs' Hz H2']; subst; [reflexivity |]. inversion Hi as [|? ? (Hb & _) Hi']; subst. f_equal; [eapply column_unique; eauto | auto]. }
    subst zs. rewrite (nth_error_repeat _ Hj). do 2 f_equal. ring.
  - assert (E1 : nth_error (snd p) j = None) by (apply nth_error_None; lia). rewrite E1. symmetry. apply nth_error_None. now rewrite repeat_length.
Qed.
Theorem reference_count n input d : length d <> length input -> tdavg n input (Some d) = Throw.
Proof.
  intros H. unfold tdavg. destruct input as [|b input]; [reflexivity |]. replace (Nat.eqb (length (b :: input)) (length d)) with false by (symmetry; apply Nat.eqb_neq; congruence). reflexivity.
Qed.
