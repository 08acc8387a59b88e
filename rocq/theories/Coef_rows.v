(** Which families the rows of the tables connect: a decision procedure on symbolic sectors and its soundness. *)
From Coq Require Import List ZArith Reals Lia Bool String Sorted.
From Verif Require Import Base Invar_model Symmetry_model Coef_model Coef_norm Coef_norm_sound Coef_spec Coef_sector Coef_sector_sound.
Import ListNotations.
Local Open Scope string_scope.
Local Open Scope list_scope.
Local Open Scope Z_scope.

(** strictly increasing *)
Fixpoint increasing (l : list Z) : bool :=
  match l with x :: ((y :: _) as r) => (x <? y) && increasing r | _ => true end.
Lemma increasing_nodup : forall l, increasing l = true -> NoDup l.
Proof.
  assert (B : forall l x, increasing (x :: l) = true -> Forall (Z.lt x) l).
  { induction l as [|y l IH]; intros x H; [constructor|]. cbn [increasing] in H. apply andb_true_iff in H. destruct H as [H1 H2]. apply Z.ltb_lt in H1.
    constructor; [exact H1|]. eapply Forall_impl; [|exact (IH y H2)]. intros z Hz. lia. }
  induction l as [|x l IH]; intros H; [constructor|]. constructor.
  - intros Hx. pose proof (B l x H) as F. rewrite Forall_forall in F. specialize (F x Hx). lia.
  - apply IH. destruct l as [|y l]; [reflexivity|]. cbn [increasing] in H. apply andb_true_iff in H. apply H.
Qed.
Definition distinct (l : list (Z * Z)) : bool := increasing (map (fun p => 4096 * fst p + snd p) l) || increasing (map (fun p => fst p + 4096 * snd p) l).
Lemma distinct_nodup : forall l, distinct l = true -> NoDup l.
Proof. intros l H. unfold distinct in H. apply orb_true_iff in H. destruct H as [H|H]; apply increasing_nodup in H; exact (NoDup_map_inv _ _ H). Qed.

Section Sets.
  Variable cs : coef_set.
  Notation sy := (cs_sym cs).
  Notation tab := (cs_tab cs).

  Definition in_families (i : Z) : bool := (1 <=? i) && (i <=? Z.of_nat (List.length (tb_In tab))).
  (** the sector that family i of a is built from *)
  Definition sbuilt (a : ssec) (i : Z) : option ssec := obind (nth_error (tb_In tab) (Z.to_nat (i - 1))) (scombine (ts sy) a).
  Definition same_sec (x y : option ssec) : bool := match x, y with Some b, Some b' => match ssec_eqb b b' with Some r => r | None => false end | _, _ => false end.

  Definition irr_ok (a : ssec) (t : irr_table) : bool :=
    match sshift (it_shift t) a with
    | Some a1 => forallb (fun r : Z * Z * option cexpr => let '(i, k, _) := r in same_sec (sbuilt a1 i) (sbuilt a k)) (it_rows t)
    | None => false
    end.
  Definition irr_index (t : irr_table) : bool :=
    forallb (fun r : Z * Z * option cexpr => let '(i, k, _) := r in in_families i && in_families k) (it_rows t) && distinct (map fst (it_rows t)).
  Notation trow := (Z * Z * list sh * list sh * option cexpr)%type.
  Definition ten_ok (a : ssec) (t : ten_table) : bool :=
    match sshift (tt_shift t) a with
    | Some ap => forallb (fun r : trow => let '(i, k, s1, sp, _) := r in
        same_sec (sshift s1 a) (sbuilt a i) && same_sec (sshift sp a) (sbuilt ap k)) (tt_rows t)
    | None => false
    end.
  Definition ten_index (t : ten_table) : bool :=
    forallb (fun r : trow => let '(i, k, _, _, _) := r in in_families i && in_families k) (tt_rows t) && distinct (map (fun r => fst (fst (fst r))) (tt_rows t)).
  Definition label_is (b : bool) (a : ssec) (t : ten_table) : bool :=
    match sshift (tt_shift t) a with
    | Some ap => match stri sy a ap (tt_iop t) with Some r => Bool.eqb r b | None => false end
    | None => false
    end.

  Variables (tx ty : Z).
  Hypothesis Htx : 0 <= tx.
  Hypothesis Hty : 0 <= ty.
  Variable root : list Z.

  Lemma scomp_eqb_sound : forall x c c', scomp_eqb c c' = Some true -> cval tx ty x c = cval tx ty x c'.
  Proof.
    intros x [z|v z|z] [z'|v' z'|z'] H; try discriminate; cbn [scomp_eqb] in H.
    - injection H as H. apply Z.eqb_eq in H. subst. reflexivity.
    - destruct (Nat.eqb_spec v v') as [->|]; [|discriminate]. injection H as H. apply Z.eqb_eq in H. subst. reflexivity.
    - injection H as H. apply Z.eqb_eq in H. subst. reflexivity.
  Qed.
  Lemma ssec_eqb_sound : forall r a b, ssec_eqb a b = Some true -> inst tx ty r a = inst tx ty r b.
  Proof.
    intros r a. revert r. induction a as [|c a IH]; intros r [|c' b] H; try discriminate; [reflexivity|]. cbn [ssec_eqb] in H.
    destruct (scomp_eqb c c') as [x|] eqn:E1; [|discriminate]. destruct (ssec_eqb a b) as [y|] eqn:E2; [|discriminate]. cbn [omap2] in H.
    injection H as H. apply andb_true_iff in H. destruct H as [-> ->]. destruct r as [|z r]; [reflexivity|]. cbn [inst].
    rewrite (scomp_eqb_sound z c c' E1), (IH r b E2). reflexivity.
  Qed.
  Lemma sbuilt_sound : forall a i b, List.length a = List.length root -> sbuilt a i = Some b -> built_from cs (inst tx ty root a) i = Some (inst tx ty root b).
  Proof.
    intros a i b L H. unfold sbuilt in H. unfold built_from, ancestor. destruct (nth_error (tb_In tab) (Z.to_nat (i - 1))) as [d|] eqn:E; [|discriminate].
    cbn [obind] in H. assert (Hn : (Z.to_nat (i - 1) < List.length (tb_In tab))%nat) by (apply nth_error_Some; congruence).
    replace (Nat.ltb (Z.to_nat (i - 1)) (List.length (tb_In tab))) with true by (symmetry; apply Nat.ltb_lt; exact Hn). cbn [my_assert bind].
    destruct (scombine_sound tx ty (ts sy) root a d b L H) as [_ ->]. reflexivity.
  Qed.
  Lemma same_sec_some : forall x y, same_sec x y = true -> exists b b', x = Some b /\ y = Some b' /\ inst tx ty root b = inst tx ty root b'.
  Proof.
    intros [b|] [b'|] H; try discriminate. exists b, b'. repeat split. cbn [same_sec] in H. destruct (ssec_eqb b b') as [r|] eqn:E; [|discriminate]. subst r.
    apply ssec_eqb_sound. exact E.
  Qed.

  Lemma irr_ok_sound : forall a t, List.length a = List.length root -> irr_ok a t = true ->
    exists I1, sh_apply (it_shift t) (inst tx ty root a) = Some I1 /\ List.length I1 = List.length root /\
      forall i k f, In (i, k, f) (it_rows t) -> same_states cs I1 i (inst tx ty root a) k.
  Proof.
    intros a t L H. unfold irr_ok in H. destruct (sshift (it_shift t) a) as [a1|] eqn:E; [|discriminate].
    destruct (sshift_sound tx ty root a _ a1 L E) as [L1 S]. exists (inst tx ty root a1). split; [exact S|]. split; [apply inst_length; exact L1|].
    intros i k f Hr. rewrite forallb_forall in H. specialize (H _ Hr). cbn in H. destruct (same_sec_some _ _ H) as (b & b' & E1 & E2 & Q).
    exists (inst tx ty root b). split; [exact (sbuilt_sound a1 i b L1 E1)|]. rewrite Q. exact (sbuilt_sound a k b' L E2).
  Qed.
  Lemma ten_ok_sound : forall a t, List.length a = List.length root -> ten_ok a t = true ->
    exists Ip, sh_apply (tt_shift t) (inst tx ty root a) = Some Ip /\ List.length Ip = List.length root /\
      forall i k s1 sp f, In (i, k, s1, sp, f) (tt_rows t) -> exists A B,
        sh_apply s1 (inst tx ty root a) = Some A /\ built_from cs (inst tx ty root a) i = Some A /\
        sh_apply sp (inst tx ty root a) = Some B /\ built_from cs Ip k = Some B.
  Proof.
    intros a t L H. unfold ten_ok in H. destruct (sshift (tt_shift t) a) as [ap|] eqn:E; [|discriminate].
    destruct (sshift_sound tx ty root a _ ap L E) as [L1 S]. exists (inst tx ty root ap). split; [exact S|]. split; [apply inst_length; exact L1|].
    intros i k s1 sp f Hr. rewrite forallb_forall in H. specialize (H _ Hr). cbn in H. apply andb_true_iff in H. destruct H as [H1 H2].
    destruct (same_sec_some _ _ H1) as (b & b' & E1 & E2 & Q1). destruct (same_sec_some _ _ H2) as (c & c' & E3 & E4 & Q2).
    exists (inst tx ty root b), (inst tx ty root c).
    destruct (sshift_sound tx ty root a _ b L E1) as [_ ->]. destruct (sshift_sound tx ty root a _ c L E3) as [_ ->].
    split; [reflexivity|]. split; [rewrite Q1; exact (sbuilt_sound a i b' L E2)|]. split; [reflexivity|]. rewrite Q2. exact (sbuilt_sound ap k c' L1 E4).
  Qed.
  Lemma label_sound : forall b a t, List.length a = List.length root -> label_is b a t = true ->
    exists Ip, sh_apply (tt_shift t) (inst tx ty root a) = Some Ip /\ List.length Ip = List.length root /\ triangle sy (inst tx ty root a) Ip (tt_iop t) = Ok b.
  Proof.
    intros b a t L H. unfold label_is in H. destruct (sshift (tt_shift t) a) as [ap|] eqn:E; [|discriminate].
    destruct (sshift_sound tx ty root a _ ap L E) as [L1 S]. exists (inst tx ty root ap). split; [exact S|]. split; [apply inst_length; exact L1|].
    destruct (stri sy a ap (tt_iop t)) as [r|] eqn:E2; [|discriminate]. apply Bool.eqb_prop in H. subst r.
    exact (stri_sound tx ty Htx Hty sy root a ap _ b L L1 E2).
  Qed.
End Sets.

Lemma in_families_sound : forall cs i, in_families cs i = true -> family_index cs i.
Proof. intros cs i H. unfold in_families in H. apply andb_true_iff in H. destruct H as [H1 H2]. apply Z.leb_le in H1, H2. split; assumption. Qed.

(** whole sets of tables *)
Definition gens_ok (cs : coef_set) : bool := Nat.leb (ngen cs (sy_sig (cs_sym cs))) 2.
Definition rows_irr (cs : coef_set) : bool :=
  gens_ok cs && forallb (irr_index cs) (cs_irr cs) && forallb (fun a => forallb (irr_ok cs a) (cs_irr cs)) (shapes cs 1).
(** tables of operators that are not lost *)
Definition kept (cs : coef_set) : list ten_table := filter (fun t => negb (lost cs t)) (cs_ten cs).
(** all tables except those of SPU1LR, where the ket sector has too few numbers *)
Definition named (cs : coef_set) : list ten_table := if String.eqb (cs_name cs) "SPU1LR" then [] else cs_ten cs.
Definition rows_ten (cs : coef_set) : bool :=
  gens_ok cs && forallb (ten_index cs) (cs_ten cs) && forallb (fun a => forallb (ten_ok cs a) (named cs)) (shapes cs 1).
Fixpoint some_low (cs : coef_set) (c : Z) (sg : signature) (a : ssec) : bool :=
  match sg, a with
  | d :: sg', s :: a' => (is_gen cs d && match s with SFix z => z <? c | _ => false end) || some_low cs c sg' a'
  | _, _ => false
  end.
Definition labels_kept (cs : coef_set) : bool :=
  gens_ok cs && forallb (fun a => some_low cs 4 (sy_sig (cs_sym cs)) a || forallb (label_is cs true a) (kept cs)) (shapes cs 4).
Definition labels_lost (cs : coef_set) : bool :=
  gens_ok cs && forallb (fun a => forallb (label_is cs false a) (filter (lost cs) (named cs))) (shapes cs 4).

Theorem rows_irr_sound : forall cs, rows_irr cs = true -> forall t, In t (cs_irr cs) ->
  NoDup (map fst (it_rows t)) /\
  forall Ip, sector cs Ip -> exists I1, sh_apply (it_shift t) Ip = Some I1 /\ List.length I1 = List.length Ip /\
    forall i k f, In (i, k, f) (it_rows t) -> family_index cs i /\ family_index cs k /\ same_states cs I1 i Ip k.
Proof.
  intros cs H t Ht. unfold rows_irr in H. apply andb_true_iff in H. destruct H as [H H3]. apply andb_true_iff in H. destruct H as [H1 H2].
  apply Nat.leb_le in H1. rewrite forallb_forall in H2, H3. specialize (H2 t Ht). unfold irr_index in H2. apply andb_true_iff in H2. destruct H2 as [HI HD].
  split; [apply distinct_nodup; exact HD|]. intros Ip S. destruct (shapes_cover cs 1 ltac:(lia) Ip H1 S) as (a & tx & ty & Ha & Htx & Hty & La & E).
  specialize (H3 a Ha). rewrite forallb_forall in H3. destruct (irr_ok_sound cs tx ty Ip a t La (H3 t Ht)) as (I1 & A1 & L1 & Q). rewrite E in A1, Q.
  exists I1. split; [exact A1|]. split; [exact L1|]. intros i k f Hr. rewrite forallb_forall in HI. specialize (HI _ Hr). cbn in HI. apply andb_true_iff in HI.
  destruct HI as [HI1 HI2]. split; [apply in_families_sound; exact HI1|]. split; [apply in_families_sound; exact HI2|]. exact (Q i k f Hr).
Qed.
Theorem rows_ten_sound : forall cs, rows_ten cs = true -> cs_name cs <> "SPU1LR" -> forall t, In t (cs_ten cs) ->
  NoDup (map (fun r => fst (fst (fst r))) (tt_rows t)) /\
  forall I1, sector cs I1 -> exists Ip, sh_apply (tt_shift t) I1 = Some Ip /\ List.length Ip = List.length I1 /\
    forall i k s1 sp f, In (i, k, s1, sp, f) (tt_rows t) -> family_index cs i /\ family_index cs k /\
      exists A B, sh_apply s1 I1 = Some A /\ built_from cs I1 i = Some A /\ sh_apply sp I1 = Some B /\ built_from cs Ip k = Some B.
Proof.
  intros cs H N t Ht. unfold rows_ten in H. apply andb_true_iff in H. destruct H as [H H3]. apply andb_true_iff in H. destruct H as [H1 H2].
  apply Nat.leb_le in H1. rewrite forallb_forall in H2, H3. specialize (H2 t Ht). unfold ten_index in H2. apply andb_true_iff in H2. destruct H2 as [HI HD].
  split; [apply distinct_nodup; exact HD|]. intros I1 S. destruct (shapes_cover cs 1 ltac:(lia) I1 H1 S) as (a & tx & ty & Ha & Htx & Hty & La & E).
  specialize (H3 a Ha). rewrite forallb_forall in H3. unfold named in H3. rewrite (proj2 (String.eqb_neq _ _) N) in H3.
  destruct (ten_ok_sound cs tx ty I1 a t La (H3 t Ht)) as (Ip & A1 & L1 & Q). rewrite E in A1, Q.
  exists Ip. split; [exact A1|]. split; [exact L1|]. intros i k s1 sp f Hr. rewrite forallb_forall in HI. specialize (HI _ Hr). cbn in HI. apply andb_true_iff in HI.
  destruct HI as [HI1 HI2]. split; [apply in_families_sound; exact HI1|]. split; [apply in_families_sound; exact HI2|]. exact (Q i k s1 sp f Hr).
Qed.
Lemma some_low_spins : forall cs c tx ty sg a r, some_low cs c sg a = true -> List.length a = List.length r ->
  Forall2 (fun d x => snd d = Additive -> is_kind cs TSU2 (fst d) || is_kind cs TSU2T (fst d) = true -> c <= x) sg (inst tx ty r a) -> False.
Proof.
  induction sg as [|d sg IH]; intros a r H L F; [discriminate|]. destruct a as [|s a]; [discriminate|]. destruct r as [|x r]; [discriminate|].
  cbn [some_low inst] in *. inversion F as [|d' x' sg' l' Hd F']; subst. apply orb_true_iff in H. destruct H as [H|H].
  - apply andb_true_iff in H. destruct H as [H1 H2]. unfold is_gen in H1. destruct (snd d) eqn:E; try discriminate. specialize (Hd eq_refl H1).
    destruct s as [z|v z|z]; try discriminate. apply Z.ltb_lt in H2. cbn [cval] in Hd. lia.
  - exact (IH a r H ltac:(cbn in L; lia) F').
Qed.
Lemma sector_length : forall cs I, sector cs I -> List.length I = List.length (sy_sig (cs_sym cs)).
Proof. intros cs I [F _]. symmetry. exact (Forall2_length _ _ _ F). Qed.
Theorem labels_kept_sound : forall cs, labels_kept cs = true -> forall t, In t (cs_ten cs) -> lost cs t = false -> forall I1, sector cs I1 ->
  spins_above cs 4 I1 -> table_used cs t I1.
Proof.
  intros cs H t Ht N I1 S SA. unfold labels_kept in H. apply andb_true_iff in H. destruct H as [H1 H3]. apply Nat.leb_le in H1. rewrite forallb_forall in H3.
  destruct (shapes_cover cs 4 ltac:(lia) I1 H1 S) as (a & tx & ty & Ha & Htx & Hty & La & E). specialize (H3 a Ha). apply orb_true_iff in H3. destruct H3 as [H3|H3].
  - exfalso. apply (some_low_spins cs 4 tx ty _ a I1 H3 La). rewrite E. exact SA.
  - rewrite forallb_forall in H3. assert (Hk : In t (kept cs)) by (apply filter_In; split; [exact Ht|rewrite N; reflexivity]).
    destruct (label_sound cs tx ty Htx Hty I1 true a t La (H3 t Hk)) as (Ip & A1 & L1 & Q). rewrite E in A1, Q. exists Ip. split; [exact A1|]. split; [|exact Q].
    rewrite L1. apply sector_length. exact S.
Qed.
Theorem labels_lost_sound : forall cs, labels_lost cs = true -> cs_name cs <> "SPU1LR" -> forall t, In t (cs_ten cs) -> lost cs t = true -> forall I1, sector cs I1 ->
  ~ table_used cs t I1.
Proof.
  intros cs H N t Ht HL I1 S (Ip & A & L & T). unfold labels_lost in H. apply andb_true_iff in H. destruct H as [H1 H3]. apply Nat.leb_le in H1. rewrite forallb_forall in H3.
  destruct (shapes_cover cs 4 ltac:(lia) I1 H1 S) as (a & tx & ty & Ha & Htx & Hty & La & E). specialize (H3 a Ha). rewrite forallb_forall in H3.
  unfold named in H3. rewrite (proj2 (String.eqb_neq _ _) N) in H3. assert (Hk : In t (filter (lost cs) (cs_ten cs))) by (apply filter_In; split; assumption).
  destruct (label_sound cs tx ty Htx Hty I1 false a t La (H3 t Hk)) as (Ip' & A1 & L1 & Q). rewrite E in A1, Q. congruence.
Qed.

(** all sets of tables *)
Definition check_rows (cs : coef_set) : bool := rows_irr cs && rows_ten cs && labels_kept cs && labels_lost cs.
