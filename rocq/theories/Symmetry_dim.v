(** C03: dimension conservation per multiplet, by interpolation from a finite grid. *)
From Coq Require Import List ZArith Lia Bool String.
From Verif Require Import Base Invar_model Invar_spec Invar_proofs Symmetry_model Symmetry_spec Symmetry_tables
  Symmetry_proofs Symmetry_factor.
Import ListNotations.
Local Open Scope Z_scope.

Definition GB : Z := 8.

Definition interp (k : ckind) (x : Z) : list (Z * Z) :=
  match k with
  | KSU2 | KSU2T => if x <? GB then [(1, x)] else [(GB + 1 - x, GB); (x - GB, GB + 1)]
  | KU1 | KFree => [(1, 0)]
  | KZ2 | KC3 => [(1, x)]
  end.
Definition grid (k : ckind) : list Z :=
  match k with
  | KSU2 => [1; 2; 3; 4; 5; 6; 7; 8; 9]
  | KSU2T => [0; 1; 2; 3; 4; 5; 6; 7; 8; 9]
  | KU1 | KFree => [0]
  | KZ2 => [1; -1]
  | KC3 => [0; 1; 2]
  end.

Lemma interp_grid k x c g : cdom k x -> In (c, g) (interp k x) -> In g (grid k).
Proof.
  assert (Hn : forall x, 1 <= x < GB -> In x (grid KSU2)) by (unfold GB; intros y Hy; simpl; lia).
  assert (Hm : forall x, 0 <= x < GB -> In x (grid KSU2T)) by (unfold GB; intros y Hy; simpl; lia).
  destruct k; unfold interp, cdom; intros Hd Hin.
  - destruct (x <? GB) eqn:E.
    + destruct Hin as [H|[]]; injection H as <- <-. apply Hn. apply Z.ltb_lt in E. lia.
    + destruct Hin as [H|[H|[]]]; injection H as <- <-; unfold GB; simpl; lia.
  - destruct (x <? GB) eqn:E.
    + destruct Hin as [H|[]]; injection H as <- <-. apply Hm. apply Z.ltb_lt in E. lia.
    + destruct Hin as [H|[H|[]]]; injection H as <- <-; unfold GB; simpl; lia.
  - destruct Hin as [H|[]]; injection H as <- <-; simpl; auto.
  - destruct Hin as [H|[]]; injection H as <- <-; simpl; auto.
  - destruct Hin as [H|[]]; injection H as <- <-; simpl; lia.
  - destruct Hin as [H|[]]; injection H as <- <-; simpl; lia.
Qed.

Definition ok_ct (k : ckind) (d q : Z) : bool :=
  match k with KSU2 | KSU2T => Z.abs q + Z.abs d + 1 <=? 2 * GB | _ => true end.

Definition at_points (f : Z -> Z) (l : list (Z * Z)) : Z := zsum (map (fun cg => fst cg * f (snd cg)) l).

Lemma su2_large d x q : Z.abs q + Z.abs d + 1 <= 2 * GB -> GB <= x ->
  su2_triangle_inequality (- d + x) x q = (Z.abs d <=? q - 1).
Proof. unfold su2_triangle_inequality, GB. intros. apply eq_true_iff_eq. rewrite !andb_true_iff, !Z.leb_le. lia. Qed.

Lemma su2T_large d x q : Z.abs q + Z.abs d + 1 <= 2 * GB -> GB <= x ->
  su2_triangle_inequality (2 * (- d + x) + 1) (2 * x + 1) (2 * q + 1) = (Z.abs d <=? q).
Proof. unfold su2_triangle_inequality, GB. intros. apply eq_true_iff_eq. rewrite !andb_true_iff, !Z.leb_le. lia. Qed.

Lemma ct_interp k d q x : cdom k x -> ok_ct k d q = true -> ct k d q x = at_points (ct k d q) (interp k x).
Proof.
  destruct k; unfold cdom, ok_ct, interp, at_points; intros Hd Hok; try (apply Z.leb_le in Hok).
  - destruct (x <? GB) eqn:E; cbn [map fst snd zsum fold_right]; [lia|]. apply Z.ltb_ge in E.
    unfold ct. rewrite !su2_large by lia. destruct (_ <=? _); lia.
  - destruct (x <? GB) eqn:E; cbn [map fst snd zsum fold_right]; [lia|]. apply Z.ltb_ge in E.
    unfold ct. rewrite !su2T_large by lia. destruct (_ <=? _); lia.
  - cbn [map fst snd zsum fold_right]. unfold ct, u1_equality.
    replace (- d + x =? x + q) with (- d + 0 =? 0 + q) by (apply eq_true_iff_eq; rewrite !Z.eqb_eq; lia). lia.
  - cbn; reflexivity.
  - cbn [map fst snd zsum fold_right]; lia.
  - cbn [map fst snd zsum fold_right]; lia.
Qed.

Lemma cm_interp k x : cdom k x -> cm k x = at_points (cm k) (interp k x).
Proof.
  destruct k; unfold cdom, interp, at_points; intros Hd; try destruct (x <? GB) eqn:E;
    cbn [map fst snd zsum fold_right cm]; lia.
Qed.

Definition row : Type := Z * (list Z * list Z).
Definition step_row (k : ckind) (x : Z) (r : row) : row :=
  let '(w, (d, q)) := r in (w * ct k (hd 0 d) (hd 0 q) x, (tl d, tl q)).
Definition row_weight (r : row) : Z := fst r.

Fixpoint ctr (ks : list ckind) (d q x : list Z) : Z :=
  match ks with [] => 1 | k :: ks' => ct k (hd 0 d) (hd 0 q) (hd 0 x) * ctr ks' (tl d) (tl q) (tl x) end.
Definition total (ks : list ckind) (rows : list row) (N : Z) (xs : list Z) : Z :=
  zsum (map (fun r => fst r * ctr ks (fst (snd r)) (snd (snd r)) xs) rows) - N * cmp ks xs.

Fixpoint gridcheck (ks : list ckind) (rows : list row) (N : Z) : bool :=
  match ks with
  | [] => zsum (map row_weight rows) =? N
  | k :: ks' => forallb (fun g => gridcheck ks' (map (step_row k g) rows) (N * cm k g)) (grid k)
  end.

Fixpoint ok_row (ks : list ckind) (d q : list Z) : bool :=
  match ks with [] => true | k :: ks' => ok_ct k (hd 0 d) (hd 0 q) && ok_row ks' (tl d) (tl q) end.


Lemma at_points_scale f (l : list (Z * Z)) a : at_points f l * a = at_points (fun g => f g * a) l.
Proof. unfold at_points. rewrite <- zsum_map_mul_r. apply zsum_map_ext. intros; lia. Qed.

Lemma total_step ks k x xs rows N : cdom k x ->
  (forall r, In r rows -> ok_row (k :: ks) (fst (snd r)) (snd (snd r)) = true) ->
  total (k :: ks) rows N (x :: xs) =
  at_points (fun g => total ks (map (step_row k g) rows) (N * cm k g) xs) (interp k x).
Proof.
  intros Hd Hok. unfold total at 1. cbn [cmp ctr hd tl].
  rewrite (cm_interp k x Hd).
  replace (zsum (map (fun r => fst r * (ct k (hd 0 (fst (snd r))) (hd 0 (snd (snd r))) x * ctr ks (tl (fst (snd r))) (tl (snd (snd r))) xs)) rows))
    with (at_points (fun g => zsum (map (fun r => fst r * (ct k (hd 0 (fst (snd r))) (hd 0 (snd (snd r))) g * ctr ks (tl (fst (snd r))) (tl (snd (snd r))) xs)) rows)) (interp k x)).
  - transitivity (at_points (fun g => zsum (map (fun r => fst r * (ct k (hd 0 (fst (snd r))) (hd 0 (snd (snd r))) g * ctr ks (tl (fst (snd r))) (tl (snd (snd r))) xs)) rows)) (interp k x)
      + at_points (fun g => cm k g * (- (N * cmp ks xs))) (interp k x)).
    + rewrite <- at_points_scale. lia.
    + unfold at_points. rewrite <- zsum_map_add. apply zsum_map_ext. intros [c g] _. cbn [fst snd].
      unfold total. rewrite map_map.
      replace (zsum (map (fun r : row => fst (step_row k g r) * ctr ks (fst (snd (step_row k g r))) (snd (snd (step_row k g r))) xs) rows))
        with (zsum (map (fun r => fst r * (ct k (hd 0 (fst (snd r))) (hd 0 (snd (snd r))) g * ctr ks (tl (fst (snd r))) (tl (snd (snd r))) xs)) rows)).
      { lia. }
      apply zsum_map_ext. intros [w [d q]] _. cbn [step_row fst snd]. lia.
  - unfold at_points. rewrite (map_ext _ (fun cg => zsum (map (fun r => fst cg * (fst r * (ct k (hd 0 (fst (snd r))) (hd 0 (snd (snd r))) (snd cg) * ctr ks (tl (fst (snd r))) (tl (snd (snd r))) xs))) rows))).
    2:{ intros cg. rewrite zsum_map_mul. reflexivity. }
    rewrite zsum_swap. apply zsum_map_ext. intros r Hr.
    specialize (Hok r Hr). cbn [ok_row] in Hok. apply andb_true_iff in Hok as [Hok _].
    rewrite (ct_interp _ _ _ _ Hd Hok). unfold at_points.
    rewrite Z.mul_assoc, <- zsum_map_mul, <- zsum_map_mul_r. apply zsum_map_ext. intros; lia.
Qed.

Lemma at_points_zero f l : (forall c g, In (c, g) l -> f g = 0) -> at_points f l = 0.
Proof. intros H. apply zsum_map_zero. intros [c g] Hin. cbn [fst snd]. rewrite (H c g) by auto. lia. Qed.

Lemma grid_lift ks : forall rows N xs, gridcheck ks rows N = true ->
  (forall r, In r rows -> ok_row ks (fst (snd r)) (snd (snd r)) = true) ->
  Forall2 cdom ks xs -> total ks rows N xs = 0.
Proof.
  induction ks as [|k ks IH]; intros rows N xs Hg Hok Hd; inversion Hd; subst.
  - unfold total. cbn [gridcheck] in Hg. apply Z.eqb_eq in Hg. cbn [ctr cmp]. rewrite <- Hg.
    rewrite (zsum_map_ext _ row_weight). 2:{ intros r _. unfold row_weight. lia. } lia.
  - rewrite total_step by auto. apply at_points_zero. intros c g Hin. apply IH; auto.
    + cbn [gridcheck] in Hg. rewrite forallb_forall in Hg. apply Hg. eapply interp_grid; eauto.
    + intros r Hr. apply in_map_iff in Hr as [[w [d q]] [<- Hr]]. specialize (Hok _ Hr). cbn [ok_row fst snd] in Hok.
      apply andb_true_iff in Hok as [_ Hok]. exact Hok.
Qed.

Lemma ctr_ctp ks : forall d q x, List.length d = List.length ks -> List.length q = List.length ks -> List.length x = List.length ks ->
  ctr ks d q x = ctp ks d q x.
Proof.
  induction ks as [|k ks IH]; intros [|d1 d] [|q1 q] [|x1 x]; cbn [List.length]; intros; try discriminate; auto.
  cbn [ctr ctp hd tl]. rewrite IH by lia. reflexivity.
Qed.

Definition rows_of (t : tables) : list row := map (fun dq => (1, dq)) (List.combine (tb_In t) (tb_QN t)).

Definition dim_check (sh : shipped_table) : bool :=
  let ks := kinds (sh_sym sh) in
  gridcheck ks (rows_of (sh_tab sh)) (Z.of_nat (sh_combs sh)) &&
  forallb (fun r : row => ok_row ks (fst (snd r)) (snd (snd r))) (rows_of (sh_tab sh)).

Lemma dim_check_all : forallb dim_check shipped = true.
Proof. vm_compute. reflexivity. Qed.

Lemma adm_length tl a : admissible tl a -> List.length a = List.length tl.
Proof. induction 1; simpl; auto. Qed.

Lemma kinds_length sy : List.length (kinds sy) = List.length (ts sy).
Proof. unfold kinds, ts, qntype. rewrite !map_length. reflexivity. Qed.

Lemma received_ct sy d q I : factorises sy -> admissible (ts sy) d -> admissible (ts sy) q -> admissible (ts sy) I ->
  received sy I (combp (ts sy) (invp (ts sy) d) I) q = ctp (kinds sy) d q I.
Proof.
  intros [F _] Hd Hq HI. destruct (F d q I Hd Hq HI) as (ba & bt & m & E1 & E2 & E3 & _ & E4).
  unfold received, is_allowed, coupled, degeneracy. rewrite E1, E2, E3. exact E4.
Qed.

Lemma combine_map_l {A B C} (f : A -> C) (l : list A) (m : list B) :
  List.combine (map f l) m = map (fun p => (f (fst p), snd p)) (List.combine l m).
Proof. revert m; induction l; intros [|b m]; simpl; auto. f_equal; auto. Qed.

Lemma shipped_fac sh : In sh shipped -> factorises (sh_sym sh).
Proof. intros H. pose proof shipped_factorises as F. rewrite Forall_forall in F. auto. Qed.

(** Sum over the local states. *)
Lemma dim_conserved sh I : In sh shipped -> multiplet (sh_sym sh) I ->
  zsum (map (fun dq => received (sh_sym sh) I (combp (ts (sh_sym sh)) (invp (ts (sh_sym sh)) (fst dq)) I) (snd dq))
            (List.combine (tb_In (sh_tab sh)) (tb_QN (sh_tab sh))))
  = Z.of_nat (sh_combs sh) * degeneracy (sh_sym sh) I.
Proof.
  intros Hsh HI. destruct (shipped_ok sh Hsh) as (L1 & L2 & A1 & A2). rewrite Forall_forall in A1, A2.
  pose proof (shipped_fac sh Hsh) as F. set (sy := sh_sym sh) in *.
  destruct F as [F1 F2]. destruct (F2 I HI) as (D & M & _ & _). destruct HI as [HI _].
  pose proof dim_check_all as C. rewrite forallb_forall in C. specialize (C _ Hsh). unfold dim_check in C.
  apply andb_true_iff in C as [C1 C2]. rewrite forallb_forall in C2.
  pose proof (grid_lift _ _ _ I C1 C2 D) as T. unfold total in T. fold sy in T.
  unfold degeneracy. rewrite M. cbn [val].
  assert (T' : zsum (map (fun r : row => fst r * ctr (kinds sy) (fst (snd r)) (snd (snd r)) I) (rows_of (sh_tab sh))) = Z.of_nat (sh_combs sh) * cmp (kinds sy) I) by (apply Zminus_eq; exact T).
  rewrite <- T'. unfold rows_of. rewrite map_map. apply zsum_map_ext. intros [d q] Hin. cbn [fst snd].
  pose proof (in_combine_l _ _ _ _ Hin) as Hd. pose proof (in_combine_r _ _ _ _ Hin) as Hq.
  apply A1 in Hd. apply A2 in Hq.
  rewrite received_ct by (auto; split; auto). rewrite ctr_ctp; try lia;
    rewrite kinds_length; apply adm_length; auto.
Qed.

Lemma dim_conserved_api sh I : In sh shipped -> multiplet (sh_sym sh) I ->
  exists Js, new_subspaces (sh_sym sh) (sh_combs sh) (sh_tab sh) I = Ok Js /\
    List.length Js = sh_combs sh /\ List.length (tb_QN (sh_tab sh)) = sh_combs sh /\
    (forall J q, In (J, q) (List.combine Js (tb_QN (sh_tab sh))) ->
       exists ba bt m, allowed (sh_sym sh) J = Ok ba /\ triangle (sh_sym sh) J I q = Ok bt /\ mult (sh_sym sh) J = Ok m /\
         (bt = true -> ba = true /\ multiplet (sh_sym sh) J /\ 1 <= m)) /\
    1 <= degeneracy (sh_sym sh) I /\
    zsum (map (fun Jq => received (sh_sym sh) I (fst Jq) (snd Jq)) (List.combine Js (tb_QN (sh_tab sh))))
    = Z.of_nat (sh_combs sh) * degeneracy (sh_sym sh) I.
Proof.
  intros Hsh HI. destruct (shipped_ok sh Hsh) as (L1 & L2 & A1 & A2).
  pose proof (shipped_fac sh Hsh) as F. pose proof F as [F1 F2].
  assert (HIa : admissible (ts (sh_sym sh)) I) by apply HI.
  eexists. split; [apply new_subspaces_pure; auto|]. rewrite map_length. split; [auto|]. split; [auto|].
  split; [|split].
  - intros J q Hin. rewrite combine_map_l in Hin. apply in_map_iff in Hin as [[d q'] [E Hin]]. cbn [fst snd] in E.
    injection E as <- <-. rewrite Forall_forall in A1, A2.
    pose proof (in_combine_l _ _ _ _ Hin) as Hd. pose proof (in_combine_r _ _ _ _ Hin) as Hq.
    apply A1 in Hd. apply A2 in Hq. destruct (F1 d q' I Hd Hq HIa) as (ba & bt & m & E1 & E2 & E3 & E4 & _).
    exists ba, bt, m. split; [auto|]. split; [auto|]. split; [auto|]. intros Hb. destruct (E4 Hb) as [Ea Em].
    split; [auto|]. split; [auto|]. destruct (F2 _ Em) as (_ & M & Hpos & _). rewrite M in E3. injection E3 as <-. auto.
  - destruct (F2 I HI) as (_ & M & Hpos & _). unfold degeneracy. rewrite M. exact Hpos.
  - rewrite combine_map_l, map_map. cbn [fst snd]. apply dim_conserved; auto.
Qed.
