(** C79: proofs. *)
From Coq Require Import List ZArith Bool Ascii String Sorted Lia.
From Verif Require Import Base Time_model Time_spec.
Import ListNotations.
Local Open Scope list_scope.
Local Open Scope Z_scope.

Definition value_of (x : string) (m : list (string * Z)) : Z := total (map snd (filter (fun p => String.eqb (fst p) x) m)).
Lemma ascii_compare a b : Ascii.compare a b = N.compare (N_of_ascii a) (N_of_ascii b).
Proof. reflexivity. Qed.
Lemma str_lt_trans x : forall y z, String.compare x y = Lt -> String.compare y z = Lt -> String.compare x z = Lt.
Proof.
  induction x as [|a x IH]; intros [|b y] [|c z]; cbn [String.compare]; try discriminate; auto.
  rewrite !ascii_compare.
  destruct (N.compare_spec (N_of_ascii a) (N_of_ascii b)) as [E1|E1|E1]; try discriminate;
  destruct (N.compare_spec (N_of_ascii b) (N_of_ascii c)) as [E2|E2|E2]; try discriminate; intros H1 H2;
  destruct (N.compare_spec (N_of_ascii a) (N_of_ascii c)) as [E3|E3|E3]; try lia; auto.
  apply (IH y z); auto.
Qed.
Lemma str_lt_irrefl x : String.compare x x <> Lt.
Proof. intros H. assert (G := String.compare_antisym x x). rewrite H in G. discriminate. Qed.
Lemma map_add_value x d m y : value_of y (map_add x d m) = value_of y m + (if String.eqb x y then d else 0).
Proof.
  induction m as [|[z v] m IH]; unfold value_of in *; cbn [map_add].
  - cbn [filter fst]. destruct (String.eqb x y); cbn; lia.
  - destruct (String.compare x z) eqn:C.
    + apply String.compare_eq_iff in C. subst z. cbn [filter fst]. destruct (String.eqb x y); cbn [map snd total fold_right]; unfold total in *; cbn [fold_right]; lia.
    + cbn [filter fst]. destruct (String.eqb x y), (String.eqb z y); cbn [map snd]; unfold total; cbn [fold_right]; lia.
    + cbn [filter fst]. destruct (String.eqb z y); cbn [map snd]; unfold total in *; cbn [fold_right] in *; rewrite ?IH; lia.
Qed.
Lemma map_add_names x d m y : In y (map fst (map_add x d m)) <-> y = x \/ In y (map fst m).
Proof.
  induction m as [|[z v] m IH]; cbn [map_add map fst In]; [intuition congruence|].
  destruct (String.compare x z) eqn:C; cbn [map fst In].
  - apply String.compare_eq_iff in C. subst z. intuition congruence.
  - intuition congruence.
  - rewrite IH. tauto.
Qed.
Lemma compare_flip x z : String.compare x z = Gt -> String.compare z x = Lt.
Proof. intros H. rewrite String.compare_antisym, H. reflexivity. Qed.
Lemma map_add_sorted x d m : StronglySorted before (map fst m) -> StronglySorted before (map fst (map_add x d m)).
Proof.
  induction m as [|[z v] m IH]; cbn [map_add map fst]; intros S; [repeat constructor|].
  inversion S as [|? ? S1 S2]; subst. destruct (String.compare x z) eqn:C; cbn [map fst].
  - exact S.
  - constructor; auto. constructor; auto. apply Forall_forall. intros y Hy. assert (B := proj1 (Forall_forall _ _) S2 y Hy). unfold before in *.
    apply (str_lt_trans x z y); auto.
  - constructor; [apply IH; auto|]. apply Forall_forall. intros y Hy. apply map_add_names in Hy. destruct Hy as [->|Hy]; [apply compare_flip; auto|].
    apply (proj1 (Forall_forall _ _) S2 y Hy).
Qed.

(** * The sections *)
Definition record (h : list section) (m : list (string * Z)) : list (string * Z) := fold_left (fun m x => map_add (title x) (duration x) m) h m.
Lemma play_events h : forall s rest, running s = false -> exists s', play (events h ++ rest) s [] = play rest s' [] /\ running s' = false /\
  start_time s' = start_time s /\ sections s' = record h (sections s).
Proof.
  induction h as [|[[x a] b] h IH]; intros s rest R; [exists s; auto|].
  cbn [events flat_map app play]. unfold start. rewrite R. cbn [negb my_assert bind play]. unfold add, stop. cbn [running my_assert bind fst snd sections timer start_time].
  match goal with |- context [play _ ?t []] => destruct (IH t rest eq_refl) as (s' & E & R' & S' & M') end. exists s'. split; [exact E|]. auto.
Qed.
Lemma record_value h : forall m y, value_of y (record h m) = value_of y m + spent h y.
Proof.
  induction h as [|x h IH]; intros m y; unfold spent in *; cbn [record fold_left filter map]; [unfold total; cbn; lia|].
  change (fold_left _ h ?z) with (record h z). rewrite IH, map_add_value. destruct (String.eqb (title x) y); cbn [map]; unfold total; cbn [fold_right]; lia.
Qed.
Lemma record_sorted h : forall m, StronglySorted before (map fst m) -> StronglySorted before (map fst (record h m)).
Proof. induction h as [|x h IH]; intros m S; auto. cbn [record fold_left]. apply IH, map_add_sorted, S. Qed.
Lemma record_total h : forall m, total (map snd (record h m)) = total (map snd m) + total (map duration h).
Proof.
  assert (A : forall x d m, total (map snd (map_add x d m)) = total (map snd m) + d).
  { intros x d m. induction m as [|[z v] m IH]; cbn [map_add]; [unfold total; cbn; lia|].
    destruct (String.compare x z); cbn [map snd]; unfold total in *; cbn [fold_right] in *; lia. }
  induction h as [|x h IH]; intros m; cbn [record fold_left map]; [unfold total; cbn; lia|].
  change (fold_left _ h ?z) with (record h z). rewrite IH, A. unfold total; cbn [fold_right]. lia.
Qed.
Lemma filter_none x m : Forall (before x) (map fst m) -> filter (fun p : string * Z => String.eqb (fst p) x) m = [].
Proof.
  induction m as [|[y w] m IH]; auto. cbn [map fst filter]. intros H. inversion H as [|? ? H1 H2]; subst. destruct (String.eqb y x) eqn:E; [|auto].
  apply String.eqb_eq in E. subst y. destruct (str_lt_irrefl x H1).
Qed.
Lemma sorted_value m : StronglySorted before (map fst m) -> forall x v, In (x, v) m -> value_of x m = v.
Proof.
  induction m as [|[z w] m IH]; intros S x v H; [destruct H|]. cbn [map fst] in S. inversion S as [|? ? S1 S2]; subst. unfold value_of in *. cbn [filter fst].
  destruct H as [E|H].
  - injection E as -> ->. rewrite String.eqb_refl. cbn [map snd]. unfold total. cbn [fold_right].
    assert (F : filter (fun p => String.eqb (fst p) x) m = []).
    { apply filter_none, S2. }
    rewrite F. cbn. lia.
  - assert (N : String.eqb z x = false).
    { apply String.eqb_neq. intros ->. assert (B := proj1 (Forall_forall _ _) S2 x). destruct (str_lt_irrefl x). apply B. apply (in_map fst m (x, v) H). }
    rewrite N. apply (IH S1 x v H).
Qed.
Lemma value_absent m x : value_of x m <> 0 -> exists v, In (x, v) m.
Proof.
  induction m as [|[z w] m IH]; unfold value_of in *; cbn [filter fst]; [unfold total; cbn; lia|]. destruct (String.eqb z x) eqn:E.
  - apply String.eqb_eq in E. subst z. intros _. exists w. left. auto.
  - intros H. destruct (IH H) as [v Hv]. exists v. right. auto.
Qed.

(** * The report *)
Lemma list_spec all m : forall sum, list_sections all m sum = (filter (listed all) m, sum + total (map snd (filter (listed all) m))).
Proof.
  induction m as [|p m IH]; intros sum; cbn [list_sections filter]; [unfold total; cbn; f_equal; lia|].
  destruct (listed all p); rewrite IH; cbn [map]; unfold total; cbn [fold_right]; f_equal. lia.
Qed.
Lemma filter_sorted (f : string * Z -> bool) m : StronglySorted before (map fst m) -> StronglySorted before (map fst (filter f m)).
Proof.
  induction m as [|p m IH]; intros S; auto. cbn [map] in S. inversion S as [|? ? S1 S2]; subst. cbn [filter]. destruct (f p); [|auto]. cbn [map]. constructor; auto.
  apply Forall_forall. intros y Hy. apply (proj1 (Forall_forall _ _) S2). apply in_map_iff in Hy. destruct Hy as (q & <- & Hq). apply in_map. apply (proj1 (proj1 (filter_In _ _ _) Hq)).
Qed.
Lemma in_time_total t h u : in_time t h u -> t <= u /\ total (map duration h) <= u - t /\ Forall (fun x => 0 <= duration x) h.
Proof.
  induction 1 as [t u H|t x a b h u H1 H2 H (L & T & F)]; [split; [auto|split; [unfold total; cbn; lia|constructor]]|].
  split; [lia|]. split; [cbn [map duration]; unfold total in *; cbn [fold_right]; lia|]. constructor; auto. cbn. lia.
Qed.
Lemma total_nonneg l : Forall (fun z => 0 <= z) l -> 0 <= total l.
Proof. induction 1; unfold total in *; cbn [fold_right]; lia. Qed.
Lemma spent_nonneg h x : Forall (fun x => 0 <= duration x) h -> 0 <= spent h x.
Proof.
  intros H. apply total_nonneg. apply Forall_forall. intros z Hz. apply in_map_iff in Hz. destruct Hz as (s & <- & Hs). apply filter_In in Hs. destruct Hs as [Hs _].
  apply (proj1 (Forall_forall _ _) H s Hs).
Qed.
Lemma filter_total (f : string * Z -> bool) m : Forall (fun p => 0 <= snd p) m -> total (map snd (filter f m)) <= total (map snd m).
Proof. induction 1 as [|p m P M IH]; [auto with zarith|]. cbn [filter]. destruct (f p); cbn [map]; unfold total in *; cbn [fold_right] in *; lia. Qed.
Theorem report_right t0 h u : in_time t0 h u -> exists s l other, play (events h) (fresh t0) [] = Ok (s, []) /\
  report u s = ("All"%string, u - t0) :: l ++ [("Other"%string, other)] /\ StronglySorted before (map fst l) /\
  (forall x v, In (x, v) l <-> v = spent h x /\ u - t0 < 100 * v) /\ 0 <= other /\ total (map snd l) + other = u - t0.
Proof.
  intros T. destruct (in_time_total _ _ _ T) as (L & Tt & F). destruct (play_events h (fresh t0) [] eq_refl) as (s & E & R & S & M). rewrite app_nil_r in E.
  cbn [play] in E. cbn [fresh start_time sections] in S, M. set (m := record h []) in *.
  assert (So : StronglySorted before (map fst m)) by (apply record_sorted; constructor).
  assert (Va : forall x, value_of x m = spent h x) by (intros x; unfold m; rewrite record_value; unfold value_of, total; cbn; lia).
  assert (In1 : forall x v, In (x, v) m -> v = spent h x) by (intros x v H; rewrite <- Va; symmetry; apply sorted_value; auto).
  assert (Nn : Forall (fun p => 0 <= snd p) m).
  { apply Forall_forall. intros [x v] H. cbn [snd]. rewrite (In1 x v H). apply spent_nonneg; auto. }
  exists s, (filter (listed (u - t0)) m), (u - t0 - total (map snd (filter (listed (u - t0)) m))).
  split; [exact E|]. split; [unfold report; rewrite S, M, list_spec, Z.add_0_l; reflexivity|]. split; [apply filter_sorted; auto|]. split; [|split].
  - intros x v. rewrite filter_In. unfold listed. cbn [snd]. rewrite Z.ltb_lt. split.
    + intros [H1 H2]. split; auto.
    + intros [-> H2]. split; auto. destruct (value_absent m x) as [v Hv]; [rewrite Va; lia|]. rewrite <- (In1 x v Hv). auto.
  - assert (G := filter_total (listed (u - t0)) m Nn). unfold m in G at 2. rewrite record_total in G. unfold total in G at 2. cbn [map fold_right] in G. lia.
  - lia.
Qed.
Theorem nested_throws t0 h x a y b rest : play (events h ++ Enter x a :: Enter y b :: rest) (fresh t0) [] = Throw.
Proof.
  destruct (play_events h (fresh t0) (Enter x a :: Enter y b :: rest) eq_refl) as (s & E & R & _). rewrite E. cbn [play]. unfold start. rewrite R. reflexivity.
Qed.

(** * The digits *)
Lemma group_triples len k : forall i w, (0 < i)%nat -> (List.length w = 3 * k)%nat -> (i + 3 * k = len)%nat ->
  exists gs, Forall (fun g => List.length g = 3%nat) gs /\ List.concat gs = w /\ group_from len i w = flat_map (cons "'"%char) gs.
Proof.
  induction k as [|k IH]; intros i w Hi Hw Hl.
  - destruct w; [|cbn in Hw; lia]. exists []. auto.
  - destruct w as [|a [|b [|c w]]]; cbn [List.length] in Hw; try lia.
    destruct (IH (3 + i)%nat w) as (gs & G1 & G2 & G3); try lia. exists ([a; b; c] :: gs). split; [constructor; auto|]. split; [cbn; congruence|].
    cbn [group_from flat_map]. change (S (S (S i))) with (3 + i)%nat. rewrite G3.
    assert (M0 : ((len - i) mod 3 = 0)%nat) by (replace (len - i)%nat with (S k * 3)%nat by lia; apply Nat.mod_mul; lia).
    assert (M1 : ((len - S i) mod 3 = 2)%nat) by (replace (len - S i)%nat with (2 + k * 3)%nat by lia; rewrite Nat.mod_add by lia; reflexivity).
    assert (M2 : ((len - S (S i)) mod 3 = 1)%nat) by (replace (len - S (S i))%nat with (1 + k * 3)%nat by lia; rewrite Nat.mod_add by lia; reflexivity).
    rewrite M0, M1, M2. destruct i; [lia|]. reflexivity.
Qed.
Lemma joined_flat g gs : joined (g :: gs) = g ++ flat_map (cons "'"%char) gs.
Proof. revert g. induction gs as [|h gs IH]; intros g; [cbn; rewrite app_nil_r; auto|]. change (joined (g :: h :: gs)) with (g ++ "'"%char :: joined (h :: gs)). rewrite IH. reflexivity. Qed.
Theorem digits_grouped w : w <> [] -> exists g gs, format_memory w = joined (g :: gs) /\ (1 <= List.length g <= 3)%nat /\
  Forall (fun h => List.length h = 3%nat) gs /\ List.concat (g :: gs) = w.
Proof.
  intros N. unfold format_memory. destruct w as [|a w]; [contradiction|].
  assert (D := Nat.div_mod (List.length w) 3 ltac:(lia)). assert (B := Nat.mod_upper_bound (List.length w) 3 ltac:(lia)). set (k := (List.length w / 3)%nat) in *.
  destruct (List.length w mod 3)%nat as [|[|[|?]]] eqn:M; try lia.
  - destruct (group_triples (List.length (a :: w)) k 1 w) as (gs & G1 & G2 & G3); cbn [List.length]; try lia.
    exists [a], gs. rewrite joined_flat, <- G3. repeat split; auto; cbn; try lia. congruence.
  - destruct w as [|b w]; cbn [List.length] in *; try lia.
    destruct (group_triples (S (S (List.length w))) k 2 w) as (gs & G1 & G2 & G3); try lia.
    exists [a; b], gs. rewrite joined_flat, <- G3. repeat split; auto; cbn [List.length List.concat app]; try lia; try congruence.
    assert (X : ((S (S (List.length w)) - 1) mod 3 = 1)%nat) by exact M.
    cbn [group_from Nat.eqb negb andb app]. rewrite X. reflexivity.
  - destruct w as [|b [|c w]]; cbn [List.length] in *; try lia.
    destruct (group_triples (S (S (S (List.length w)))) k 3 w) as (gs & G1 & G2 & G3); try lia.
    exists [a; b; c], gs. rewrite joined_flat, <- G3. repeat split; auto; cbn [List.length List.concat app]; try lia; try congruence.
    assert (X : ((S (S (S (List.length w))) - 1) mod 3 = 2)%nat) by exact M.
    assert (Y : ((S (S (S (List.length w))) - 2) mod 3 = 1)%nat) by (replace (S (S (S (List.length w))) - 2)%nat with (1 + k * 3)%nat by lia; rewrite Nat.mod_add by lia; reflexivity).
    cbn [group_from Nat.eqb negb andb app]. rewrite X, Y. reflexivity.
Qed.
Theorem peak_right l : (In (peak l) (0 :: l)) /\ Forall (fun z => z <= peak l) (0 :: l).
Proof.
  unfold peak. assert (G : forall l p, In (fold_left (fun p m => Z.max p m) l p) (p :: l) /\ Forall (fun z => z <= fold_left (fun p m => Z.max p m) l p) (p :: l)).
  { induction l0 as [|z l0 IH]; intros p; cbn [fold_left]; [split; [left; auto|repeat constructor; lia]|].
    destruct (IH (Z.max p z)) as [H1 H2]. inversion H2 as [|? ? H3 H4]; subst. split.
    - destruct H1 as [H1|H1]; [|right; right; auto]. rewrite <- H1. destruct (Z.max_spec p z) as [[_ ->]|[_ ->]]; [right; left; auto|left; auto].
    - constructor; [lia|]. constructor; [lia|auto]. }
  apply G.
Qed.
