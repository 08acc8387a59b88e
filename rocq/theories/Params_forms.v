(** Proofs for C26, continued: the statements. *)
From Coq Require Import List ZArith Bool Ascii String Lia.
From Verif Require Import Base Params_model Params_spec Params_proofs Params_read.
Import ListNotations.
Local Open Scope list_scope.

(** * The main program *)
Lemma block_form f ls name body kv : has_lines f ls -> block name ls body -> settings body kv ->
  (NoDup (map fst kv) -> parser (Some f) name = Ok kv) /\ (~ NoDup (map fst kv) -> parser (Some f) name = Throw).
Proof. apply parser_block. Qed.

Lemma values_form {V} (all : list (param V)) f ls name body kv ex : NoDup (map (@keyword V) all) ->
  has_lines f ls -> block name ls body -> settings body kv -> NoDup (map fst kv) ->
  (forall p s, In p all -> In (keyword p, s) kv -> from_string p s <> None) -> 
  ((forall l, In l ls -> ~ header (list_ascii_of_string "extra") l) /\ ex = [] \/
   exists body', block (list_ascii_of_string "extra") ls body' /\ settings body' ex /\ NoDup (map fst ex)) ->
  exists r, construct_params all (Some f) name = Ok r /\
    Forall2 (fun p q => keyword q = keyword p /\
      ((exists s v, In (keyword p, s) kv /\ from_string p s = Some v /\ data q = v /\ is_default q = false) \/
       (~ In (keyword p) (map fst kv) /\ q = p))) all (values r) /\
    (forall k s, In (k, s) (unused r) <-> In (k, s) kv /\ ~ In k (map (@keyword V) all)) /\
    extra_params r = ex.
Proof.
  intros Na H1 H2 H3 N Hc Hx. unfold construct_params.
  rewrite (proj1 (parser_block f ls name body kv H1 H2 H3) N). cbn [bind].
  destruct (set_all_ok all Na kv N Hc) as (l & -> & Hl). cbn [bind]. cbv beta iota.
  set (un := filter (fun q : text * text => negb (existsb (fun p => text_eqb (fst q) (keyword p)) all)) kv) in *.
  pose proof (find_block_ok f ls (str "extra") H1) as K.
  assert (U : forall k s, In (k, s) un <-> In (k, s) kv /\ ~ In k (map (@keyword V) all)).
  { intros k s. unfold un. rewrite filter_In. simpl. rewrite negb_true_iff. split; intros [U1 U2]; (split; [auto|]).
    - intros G. apply in_map_iff in G as (p & <- & G). assert (E : existsb (fun p0 => text_eqb (keyword p) (keyword p0)) all = true).
      { apply existsb_exists. exists p. split; [auto|apply text_eqb_refl]. } congruence.
    - destruct (existsb _ all) eqn:E; [|auto]. apply existsb_exists in E as (p & P1 & P2). apply text_eqb_iff in P2. elim U2. rewrite P2. now apply in_map. }
  destruct Hx as [[Hx ->]|(b & B & S & D)].
  - pose proof (after_none (str "extra") ls Hx) as E. rewrite E in K. destruct K as (F' & ->). simpl.
    eexists. split; [reflexivity|]. auto.
  - destruct (after_block (str "extra") ls b B) as (t & E & Ht). rewrite E in K. destruct K as (F' & -> & A). cbn [bind]. cbv beta iota.
    pose proof (parse_enough _ F' A) as P. destruct (parse_settings b ex S t [] Ht) as [P1 _]. match type of P with match ?x with _ => _ end => replace x with (Ok ex : res smap) in P by (symmetry; exact (P1 D)) end.
    destruct P as (F2 & ->). simpl. eexists. split; [reflexivity|]. auto.
Qed.

Lemma rejected_form {V} (all : list (param V)) f ls name : NoDup (map (@keyword V) all) -> has_lines f ls ->
  (construct_params all None name = Throw) /\
  ((forall l, In l ls -> ~ header name l) -> construct_params all (Some f) name = Throw) /\
  (forall body kv, block name ls body -> settings body kv ->
    ~ NoDup (map fst kv) \/ (exists p s, In p all /\ In (keyword p, s) kv /\ from_string p s = None) ->
    construct_params all (Some f) name = Throw).
Proof.
  intros Na H1. split; [reflexivity|]. split.
  - intros H. unfold construct_params. now rewrite (parser_no_block f ls name H1 H).
  - intros body kv H2 H3 H. unfold construct_params. destruct (parser_block f ls name body kv H1 H2 H3) as [P1 P2].
    destruct (ListDec.NoDup_dec text_dec (map fst kv)) as [d|d].
    + rewrite (P1 d). destruct H as [H|H]; [easy|]. simpl. now rewrite (set_all_throw all Na kv d H).
    + now rewrite (P2 d).
Qed.

(** * Truth values *)
Definition all_ascii : list ascii := map ascii_of_nat (seq 0 256).
Lemma all_ascii_in c : In c all_ascii.
Proof. unfold all_ascii. apply in_map_iff. exists (nat_of_ascii c). split; [apply ascii_nat_embedding|]. apply in_seq. pose proof (nat_ascii_bounded c). lia. Qed.
Definition same_letterb (x y : ascii) : bool :=
  let a := nat_of_ascii x in let b := nat_of_ascii y in
  Ascii.eqb x y || (Nat.leb 65 a && Nat.leb a 90 && Nat.eqb b (a + 32)) || (Nat.leb 65 b && Nat.leb b 90 && Nat.eqb a (b + 32)).
Lemma same_letterb_iff x y : same_letterb x y = true <-> same_letter x y.
Proof.
  unfold same_letterb, same_letter. cbv zeta.
  rewrite !orb_true_iff, !andb_true_iff, !Nat.leb_le, !Nat.eqb_eq, Ascii.eqb_eq. tauto.
Qed.
Lemma lower_check : forallb (fun x => forallb (fun y => Bool.eqb (Ascii.eqb (lower x) (lower y)) (same_letterb x y)) all_ascii) all_ascii = true.
Proof. vm_compute. reflexivity. Qed.
Lemma lower_iff x y : lower x = lower y <-> same_letter x y.
Proof.
  pose proof lower_check as H. rewrite forallb_forall in H. specialize (H x (all_ascii_in x)). rewrite forallb_forall in H.
  specialize (H y (all_ascii_in y)). apply Bool.eqb_prop in H. rewrite <- Ascii.eqb_eq, H. apply same_letterb_iff.
Qed.
Lemma strcase_iff s t : strcasecmp0 s t = true <-> same_letters s t.
Proof.
  unfold strcasecmp0, same_letters. rewrite text_eqb_iff. revert t; induction s as [|x s IH]; intros [|y t]; simpl; split; intros H; try easy;
    try (inversion H; fail).
  - injection H; intros. constructor; [now apply lower_iff|now apply IH].
  - inversion H; subst. f_equal; [now apply lower_iff|now apply IH].
Qed.
Lemma strip_trimmed s : trimmed s -> strip_whitespace s = s.
Proof. intros H. rewrite <- (app_nil_r s) at 1. apply (strip_unique [] s []); auto using blank_nil. Qed.
Lemma same_length s t : same_letters s t -> List.length s = List.length t.
Proof. induction 1; simpl; auto. Qed.
Definition exclusive (a b : bool) : Prop := a = true -> b = true -> False.
Lemma excl_case s t u : map lower t <> map lower u -> exclusive (strcasecmp0 s t) (strcasecmp0 s u).
Proof. intros H A B. unfold strcasecmp0 in A, B. apply text_eqb_iff in A, B. congruence. Qed.
Lemma excl_eq s t u : map lower t <> map lower u -> exclusive (text_eqb s t) (strcasecmp0 s u).
Proof. intros H A B. unfold strcasecmp0 in B. apply text_eqb_iff in A, B. congruence. Qed.
Lemma bool_form s : trimmed s ->
  (bool_from_string s = Some true <-> says_true s) /\ (bool_from_string s = Some false <-> says_false s).
Proof.
  intros H. unfold bool_from_string, says_true, says_false. rewrite strip_trimmed by auto. cbv zeta. fold (str "1") (str "0") (str "true") (str "yes") (str "false") (str "no").
  rewrite <- !strcase_iff, <- !text_eqb_iff.
  assert (X1 : exclusive (text_eqb s (str "1")) (text_eqb s (str "0"))) by (intros A B; apply text_eqb_iff in A, B; subst; discriminate).
  assert (X2 := excl_eq s (str "0") (str "true") ltac:(discriminate)). assert (X3 := excl_eq s (str "0") (str "yes") ltac:(discriminate)).
  assert (X4 := excl_eq s (str "1") (str "false") ltac:(discriminate)). assert (X5 := excl_eq s (str "1") (str "no") ltac:(discriminate)).
  assert (Y1 := excl_case s (str "true") (str "false") ltac:(discriminate)). assert (Y2 := excl_case s (str "true") (str "no") ltac:(discriminate)).
  assert (Y3 := excl_case s (str "yes") (str "false") ltac:(discriminate)). assert (Y4 := excl_case s (str "yes") (str "no") ltac:(discriminate)).
  unfold exclusive in *.
  destruct (text_eqb s (str "1")), (text_eqb s (str "0")), (strcasecmp0 s (str "true")), (strcasecmp0 s (str "yes")),
    (strcasecmp0 s (str "false")), (strcasecmp0 s (str "no")); try (exfalso; auto; fail); cbn [orb];
    (split; split; [try discriminate; auto|intros [G|[G|G]]; try discriminate G; auto|try discriminate; auto|intros [G|[G|G]]; try discriminate G; auto]).
Qed.

(** * The tools *)
Fixpoint tools_after (target : text) (ls : list text) : option (list text) :=
  match ls with [] => None | l :: t => if text_eqb target l then Some t else tools_after target t end.
Lemma tools_find_ok ls : forall fuel F target, at_lines F ls -> List.length ls + 1 < fuel ->
  match tools_after target ls with
  | Some t => exists F', tools_find_loop fuel F target = Ok (true, F') /\ at_lines F' t
  | None => exists F', tools_find_loop fuel F target = Ok (false, F')
  end.
Proof.
  induction ls as [|l ls IH]; intros [|k] F target H Hk; simpl in Hk; try lia; simpl.
  - rewrite (proj1 H). destruct (getline_nil F H) as (F' & -> & Hf). rewrite Hf. simpl. destruct k as [|k]; [lia|]. simpl. rewrite Hf. exists F'. reflexivity.
  - rewrite (proj1 H). destruct (getline_cons F l ls H) as (F' & -> & H' & Hf). rewrite Hf. simpl.
    destruct (text_eqb target l); [exists F'; auto|]. apply IH; [auto|lia].
Qed.
Fixpoint tools_lines (ls : list text) (m : smap) : smap :=
  match ls with
  | [] => m
  | l :: t => match classify l with Nothing => tools_lines t m | NewBlock => m | Setting k v => tools_lines t (insert_or_assign k v m) end
  end.
Lemma tools_parse_ok ls : forall fuel F m, at_lines F ls -> List.length ls < fuel -> tools_parse fuel F m = Ok (tools_lines ls m).
Proof.
  induction ls as [|l ls IH]; intros [|k] F m H Hk; simpl in Hk; try lia; simpl.
  - rewrite (proj1 H). destruct (getline_nil F H) as (F' & -> & Hf). now rewrite Hf.
  - rewrite (proj1 H). destruct (getline_cons F l ls H) as (F' & -> & H' & Hf). rewrite Hf. unfold classify. cbv zeta.
    destruct (strip_whitespace l) as [|c t]; [apply IH; [auto|lia]|].
    destruct (Ascii.eqb c "[") eqn:E1.
    + apply Ascii.eqb_eq in E1. subst c. reflexivity.
    + destruct (Ascii.eqb c "#"); [apply IH; [auto|lia]|]. destruct (split_eq (c :: t)) as [[a b]|]; apply IH; try lia; auto.
Qed.
Lemma tools_params_ok f ls : has_lines f ls ->
  tools_params f = Ok (match tools_after (str "[param]") ls with Some t => tools_lines t [] | None => [] end).
Proof.
  intros H. unfold tools_params, tools_find_block. change (str "[" ++ str "param" ++ str "]") with (str "[param]").
  pose proof (tools_find_ok ls (enough (open_text f)) (open_text f) (str "[param]") (open_lines f ls H)) as K.
  assert (L : @List.length text ls <= @List.length ascii f) by exact (has_length f ls H).
  specialize (K ltac:(unfold enough; simpl rest; lia)). destruct (tools_after _ ls) as [t|].
  - destruct K as (F' & -> & A). cbn [bind]. apply tools_parse_ok; [auto|]. apply at_length in A. unfold enough. lia.
  - destruct K as (F' & ->). reflexivity.
Qed.
Lemma tools_after_app target a b : ~ In target a -> tools_after target (a ++ target :: b) = Some b.
Proof.
  induction a as [|x a IH]; intros H; simpl; [now rewrite text_eqb_refl|].
  replace (text_eqb target x) with false; [apply IH; intros G; apply H; now right|]. symmetry. apply text_eqb_false. intros ->. apply H. now left.
Qed.
Lemma tools_after_none target a : ~ In target a -> tools_after target a = None.
Proof.
  induction a as [|x a IH]; intros H; simpl; [auto|].
  replace (text_eqb target x) with false; [apply IH; intros G; apply H; now right|]. symmetry. apply text_eqb_false. intros ->. apply H. now left.
Qed.

Lemma find_assign k v k' m : find k' (insert_or_assign k v m) = if text_eqb k k' then Some v else find k' m.
Proof.
  induction m as [|[a w] m IH]; simpl; [reflexivity|]. destruct (text_eqb a k) eqn:E; simpl.
  - apply text_eqb_iff in E. subst a. destruct (text_eqb k k'); reflexivity.
  - rewrite IH. destruct (text_eqb a k') eqn:E2; [|reflexivity]. apply text_eqb_iff in E2. subst a.
    replace (text_eqb k k') with false; [reflexivity|]. symmetry. apply text_eqb_false. intros ->. rewrite text_eqb_refl in E. discriminate.
Qed.
Fixpoint last_value (kv : smap) (k : text) (d : option text) : option text :=
  match kv with [] => d | (a, v) :: t => last_value t k (if text_eqb a k then Some v else d) end.
Lemma tools_find kv body : settings body kv -> forall t m k, (t = [] \/ exists l u, t = l :: u /\ means l NewBlock) ->
  find k (tools_lines (body ++ t) m) = last_value kv k (find k m).
Proof.
  induction 1 as [|l ls kv Hl H IH|l ls a v kv Hl H IH]; intros t m k Ht; cbn [app].
  - destruct Ht as [->|(l & u & -> & Hl)]; [reflexivity|]. simpl. now rewrite (classify_ok _ _ Hl).
  - cbn [tools_lines]. rewrite (classify_ok _ _ Hl). auto.
  - cbn [tools_lines]. rewrite (classify_ok _ _ Hl). rewrite IH by auto. simpl. now rewrite find_assign.
Qed.
Lemma last_value_absent kv k d : (forall w, ~ In (k, w) kv) -> last_value kv k d = d.
Proof.
  revert d; induction kv as [|[a v] kv IH]; intros d H; simpl; [auto|]. rewrite IH by (intros w G; apply (H w); now right).
  replace (text_eqb a k) with false; [auto|]. symmetry. apply text_eqb_false. intros ->. apply (H v). now left.
Qed.
Lemma last_value_some kv k v d : last_assignment kv k v -> last_value kv k d = Some v.
Proof.
  intros (a & b & -> & H). revert d; induction a as [|[x y] a IH]; intros d; simpl; [|apply IH].
  rewrite text_eqb_refl. now apply last_value_absent.
Qed.
Lemma last_dec kv k : (forall w, ~ In (k, w) kv) \/ exists v, last_assignment kv k v.
Proof.
  induction kv as [|[a v] kv [IH|(w & x & y & -> & H)]].
  - left. easy.
  - destruct (text_dec a k) as [->|E].
    + right. exists v, [], kv. auto.
    + left. intros w [[= -> ->]|G]; [easy|]. now apply (IH w).
  - right. exists w, ((a, v) :: x), y. auto.
Qed.
Lemma last_iff kv k v : last_value kv k None = Some v <-> last_assignment kv k v.
Proof.
  split; [|apply last_value_some]. intros H. destruct (last_dec kv k) as [N|(w & L)].
  - rewrite last_value_absent in H by auto. discriminate.
  - assert (G := last_value_some kv k w None L). congruence.
Qed.

Lemma tools_form f before body after kv : has_lines f (before ++ str "[param]" :: body ++ after) -> ~ In (str "[param]") before ->
  settings body kv -> (after = [] \/ exists l u, after = l :: u /\ means l NewBlock) ->
  exists m, tools_params f = Ok m /\ forall k v, find k m = Some v <-> last_assignment kv k v.
Proof.
  intros H1 H2 H3 H4. rewrite (tools_params_ok f _ H1), tools_after_app by auto. eexists. split; [reflexivity|].
  intros k v. rewrite <- last_iff. rewrite (tools_find kv body H3 after [] k H4). reflexivity.
Qed.
Lemma tools_silent_form f ls : has_lines f ls -> ~ In (str "[param]") ls -> tools_params f = Ok [].
Proof. intros H1 H2. rewrite (tools_params_ok f _ H1), tools_after_none by auto. reflexivity. Qed.

Lemma exact_header : header (str "param") (str "[param]").
Proof. exists [], []. split; [apply blank_nil|]. split; [apply blank_nil|]. reflexivity. Qed.
Lemma settings_not_new body kv : settings body kv -> forall l, In l body -> ~ means l NewBlock.
Proof.
  induction 1 as [|l ls kv Hl H IH|l ls k v kv Hl H IH]; intros x; [easy| |]; intros [<-|Hx]; auto; intros G;
    apply classify_ok in G, Hl; congruence.
Qed.
(** Both programs read the same settings. *)
Lemma agree_form f before body after kv : has_lines f (before ++ str "[param]" :: body ++ after) ->
  (forall l, In l before -> ~ header (str "param") l) ->
  settings body kv -> (after = [] \/ exists l u, after = l :: u /\ means l NewBlock) -> NoDup (map fst kv) ->
  exists m m', parser (Some f) (str "param") = Ok m /\ tools_params f = Ok m' /\ forall k, find k m = find k m'.
Proof.
  intros H1 H2 H3 H4 N.
  assert (B : block (str "param") (before ++ str "[param]" :: body ++ after) body).
  { exists before, (str "[param]"), after. split; [auto|]. split; [auto|]. split; [apply exact_header|]. split; [|auto]. eapply settings_not_new; eauto. }
  destruct (tools_form f before body after kv H1) as (m' & E & Hm); auto.
  { intros G. apply (H2 _ G), exact_header. }
  exists kv, m'. split; [apply (parser_block f _ _ _ kv H1 B H3); auto|]. split; [auto|]. intros k.
  destruct (last_dec kv k) as [A|(v & L)].
  - replace (find k kv) with (@None text).
    + destruct (find k m') as [w|] eqn:Ef; [|auto]. apply Hm in Ef. destruct Ef as (x & y & -> & _). elim (A w). apply in_app_iff. right. now left.
    + symmetry. apply find_none. intros G. apply in_map_iff in G as ([x w] & <- & G). now apply (A w).
  - rewrite (proj2 (Hm k v) L). apply find_in; [auto|]. destruct L as (x & y & -> & _). apply in_app_iff. right. now left.
Qed.

(** Truth values: the tools only know the word true. *)
Lemma tools_bool_form m k v def : find k m = Some v -> trimmed v ->
  (Pbool m k def = true <-> v = str "true") /\
  (says_false v -> Pbool m k def = false) /\
  (says_true v -> v <> str "true" -> bool_from_string v = Some true /\ Pbool m k def = false).
Proof.
  intros H T. unfold Pbool, get_or_default. rewrite H. split; [apply text_eqb_iff|]. split.
  - intros F. apply text_eqb_false. intros ->. destruct (bool_form (str "true") T) as [_ B]. apply B in F. vm_compute in F. discriminate.
  - intros F N. split; [now apply (bool_form v T)|]. now apply text_eqb_false.
Qed.
