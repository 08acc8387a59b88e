(** Proofs for C69 and C70. *)
From Coq Require Import List ZArith Bool Ascii String Lia.
From Verif Require Import Base Params_model Params_spec Params_proofs Params_read Params_forms Sections_model Sections_spec.
Import ListNotations.
Local Open Scope list_scope.

Lemma section_name_iff n l : section_name (strip_whitespace l) = Some n <-> header n l.
Proof.
  rewrite <- header_iff, text_eqb_iff. change (str "[" ++ n ++ str "]") with ("["%char :: n ++ ["]"%char]). unfold section_name. split.
  - destruct (strip_whitespace l) as [|c [|d t]] eqn:E; try discriminate. destruct (Ascii.eqb c "[") eqn:E1; [| discriminate]. cbn [andb].
    destruct (Ascii.eqb (last (d :: t) d) "]") eqn:E2; [| discriminate]. apply Ascii.eqb_eq in E1, E2. intros X. injection X as <-. subst c. f_equal.
    rewrite <- E2. exact (eq_sym (app_removelast_last (l := d :: t) d ltac:(discriminate))).
  - intros <-. destruct (n ++ ["]"%char]) as [|d t] eqn:E; [destruct n; discriminate |]. rewrite <- E. cbn [Ascii.eqb andb].
    rewrite last_last. rewrite removelast_last. reflexivity.
Qed.
Lemma header_new n l : header n l -> means l NewBlock.
Proof. intros (w1 & w2 & H1 & H2 & ->). now apply block_line. Qed.
Lemma header_same n n' l : header n l -> header n' l -> n = n'.
Proof. intros H H'. apply section_name_iff in H, H'. congruence. Qed.

(** The loop on lines. *)
Definition next_section (section : text) (l : text) : text := match section_name (strip_whitespace l) with Some n => n | None => section end.
Definition add_line (section l : text) (S0 : sections) : sections :=
  match section with
  | [] => S0
  | _ => {| s_lines := update section [] (fun x => x ++ [l]) (s_lines S0);
            s_values := match classify l with Setting k v => update section [] (insert_or_assign k v) (s_values S0) | _ => s_values S0 end |}
  end.
Fixpoint sec_lines (ls : list text) (section : text) (S0 : sections) : sections :=
  match ls with [] => S0 | l :: t => let section := next_section section l in sec_lines t section (add_line section l S0) end.
Lemma loop_ok ls : forall fuel F section S0, at_lines F ls -> List.length ls < fuel -> sections_loop fuel F section S0 = Ok (sec_lines ls section S0).
Proof.
  induction ls as [|l ls IH]; intros [|k] F section S0 H Hk; simpl in Hk; try lia; cbn [sections_loop sec_lines].
  - destruct (getline_nil F H) as (F' & -> & Hf). now rewrite Hf.
  - destruct (getline_cons F l ls H) as (F' & -> & H' & Hf). rewrite Hf. cbv zeta. unfold add_line. fold (next_section section l). destruct (next_section section l) as [|c s]; [apply IH; [auto | lia] |].
    unfold classify. cbv zeta. destruct (strip_whitespace l) as [|d t]; [apply IH; [auto | lia] |].
    destruct (Ascii.eqb d "#") eqn:E1; cbn [orb]; [apply IH; [auto | lia] |]. destruct (Ascii.eqb d "[") eqn:E2; [apply IH; [auto | lia] |].
    destruct (split_eq (d :: t)) as [[a b] |]; apply IH; auto; lia.
Qed.
Lemma parse_sections_lines f ls : has_lines f ls -> parse_param_sections (Some f) = Ok (sec_lines ls [] {| s_lines := []; s_values := [] |}).
Proof.
  intros H. unfold parse_param_sections. apply loop_ok; [now apply open_lines |]. apply has_length in H. unfold enough. simpl rest. lia.
Qed.

Lemma lookup_update {A} k (d : A) f m k' : lookup k' (update k d f m) = if text_eqb k k' then Some (f (match lookup k m with Some x => x | None => d end)) else lookup k' m.
Proof.
  induction m as [|[a v] m IH]; simpl; [reflexivity |]. destruct (text_eqb a k) eqn:E; simpl.
  - apply text_eqb_iff in E. subst a. destruct (text_eqb k k'); reflexivity.
  - destruct (text_eqb a k') eqn:E2; [| exact IH]. apply text_eqb_iff in E2. subst a. replace (text_eqb k k') with false; [reflexivity |]. symmetry. apply text_eqb_false. intros ->. rewrite text_eqb_refl in E. discriminate.
Qed.
Lemma value_add section l S0 name k : name <> [] ->
  section_value (add_line section l S0) name k =
  match classify l with Setting a v => if text_eqb section name && text_eqb a k then Some v else section_value S0 name k | _ => section_value S0 name k end.
Proof.
  intros Hn. unfold add_line. destruct section as [|c s] eqn:Es.
  { destruct (classify l); try reflexivity. replace (text_eqb [] name) with false; [reflexivity |]. symmetry. apply text_eqb_false. congruence. }
  rewrite <- Es. unfold section_value. cbn [s_values]. destruct (classify l) as [| | a v]; try reflexivity. rewrite lookup_update. destruct (text_eqb section name) eqn:E; [| reflexivity].
  apply text_eqb_iff in E. subst name. rewrite find_assign. destruct (lookup section (s_values S0)); destruct (text_eqb a k); reflexivity.
Qed.
Lemma values_lines name k b ls kv : name <> [] -> in_blocks name b ls kv -> closed_headers ls -> forall section S0, b = text_eqb section name ->
  section_value (sec_lines ls section S0) name k = last_value kv k (section_value S0 name k).
Proof.
  intros Hn. induction 1 as [b | b l ls kv Hl H IH | b l ls kv Hl Hne H IH | b l ls kv Hl H IH | l ls a v kv Hl H IH | l ls a v kv Hl H IH]; intros Hc section S0 Hb.
  - reflexivity.
  - cbn [sec_lines]. cbv zeta. pose proof (proj2 (section_name_iff name l) Hl) as E. unfold next_section. rewrite E.
    rewrite IH; [| intros x Hx; apply Hc; now right | symmetry; apply text_eqb_refl]. rewrite value_add by assumption. now rewrite (classify_ok _ _ (header_new _ _ Hl)).
  - cbn [sec_lines]. cbv zeta. destruct (Hc l (or_introl eq_refl) Hl) as (n & Hh). unfold next_section. rewrite (proj2 (section_name_iff n l) Hh).
    rewrite IH; [| intros x Hx; apply Hc; now right | symmetry; apply text_eqb_false; intros ->; contradiction]. rewrite value_add by assumption. now rewrite (classify_ok _ _ Hl).
  - cbn [sec_lines]. cbv zeta. assert (E : next_section section l = section).
    { unfold next_section. destruct (section_name (strip_whitespace l)) as [n |] eqn:E; [| reflexivity]. apply section_name_iff, header_new, classify_ok in E. apply classify_ok in Hl. congruence. }
    rewrite E, IH; [| intros x Hx; apply Hc; now right | assumption]. rewrite value_add by assumption. now rewrite (classify_ok _ _ Hl).
  - cbn [sec_lines]. cbv zeta. assert (E : next_section section l = section).
    { unfold next_section. destruct (section_name (strip_whitespace l)) as [n |] eqn:E; [| reflexivity]. apply section_name_iff, header_new, classify_ok in E. apply classify_ok in Hl. congruence. }
    rewrite E, IH; [| intros x Hx; apply Hc; now right | assumption]. rewrite value_add by assumption. rewrite (classify_ok _ _ Hl), <- Hb. cbn [andb last_value]. reflexivity.
  - cbn [sec_lines]. cbv zeta. assert (E : next_section section l = section).
    { unfold next_section. destruct (section_name (strip_whitespace l)) as [n |] eqn:E; [| reflexivity]. apply section_name_iff, header_new, classify_ok in E. apply classify_ok in Hl. congruence. }
    rewrite E, IH; [| intros x Hx; apply Hc; now right | assumption]. rewrite value_add by assumption. rewrite (classify_ok _ _ Hl), <- Hb. reflexivity.
Qed.
Theorem sections_read f ls name kv : has_lines f ls -> closed_headers ls -> name <> [] -> in_blocks name false ls kv ->
  exists s, parse_param_sections (Some f) = Ok s /\ forall k v, section_value s name k = Some v <-> last_assignment kv k v.
Proof.
  intros H1 H2 H3 H4. eexists. split; [apply parse_sections_lines; eassumption |]. intros k v. rewrite <- last_iff.
  rewrite (values_lines name k false ls kv H3 H4 H2); [reflexivity |]. symmetry. apply text_eqb_false. congruence.
Qed.
(** Every file with closed headers has such settings. *)
Lemma in_blocks_exist name ls : forall b, exists kv, in_blocks name b ls kv.
Proof.
  induction ls as [|l ls IH]; intros b; [exists []; constructor |]. destruct (classify l) as [| | k v] eqn:E; apply means_iff in E.
  - destruct (IH b) as (kv & H). exists kv. now apply ib_nothing.
  - destruct (header_dec name l) as [h | h].
    + destruct (IH true) as (kv & H). exists kv. now apply ib_begin.
    + destruct (IH false) as (kv & H). exists kv. now apply ib_other.
  - destruct b.
    + destruct (IH true) as (kv & H). exists ((k, v) :: kv). now apply ib_inside.
    + destruct (IH false) as (kv & H). exists kv. now apply (ib_outside name l ls k v).
Qed.

(** One block of the name. *)
Lemma no_more name ls : (forall l, In l ls -> ~ header name l) -> in_blocks name false ls [].
Proof.
  induction ls as [|l ls IH]; intros H; [constructor |]. assert (IH' : in_blocks name false ls []) by (apply IH; intros x Hx; apply H; now right).
  destruct (classify l) as [| | k v] eqn:E; apply means_iff in E.
  - now apply ib_nothing.
  - apply ib_other; auto. apply H. now left.
  - now apply (ib_outside name l ls k v).
Qed.
Lemma inside_body name body kv after : settings body kv -> (after = [] \/ exists l u, after = l :: u /\ means l NewBlock) -> (forall l, In l after -> ~ header name l) ->
  in_blocks name true (body ++ after) kv.
Proof.
  intros H Ha Hn. induction H as [|l ls kv Hl H IH|l ls k v kv Hl H IH]; cbn [app].
  - destruct Ha as [-> | (l & u & -> & Hl)]; [constructor |]. apply ib_other; [assumption | apply Hn; now left |]. apply no_more. intros x Hx. apply Hn. now right.
  - now apply ib_nothing.
  - now apply ib_inside.
Qed.
Theorem sections_agree f before h body after name kv : has_lines f (before ++ h :: body ++ after) -> closed_headers (before ++ h :: body ++ after) -> name <> [] ->
  (forall l, In l before -> ~ header name l) -> header name h -> settings body kv -> NoDup (map fst kv) ->
  (after = [] \/ exists l u, after = l :: u /\ means l NewBlock) -> (forall l, In l after -> ~ header name l) ->
  exists m s, parser (Some f) name = Ok m /\ parse_param_sections (Some f) = Ok s /\ forall k, section_value s name k = find k m.
Proof.
  intros H1 H2 H3 H4 H5 H6 H7 H8 H9.
  assert (B : block name (before ++ h :: body ++ after) body).
  { exists before, h, after. split; [auto |]. split; [auto |]. split; [auto |]. split; [eapply settings_not_new; eauto | auto]. }
  assert (I1 : in_blocks name false (before ++ h :: body ++ after) kv).
  { clear -H4 H5 H6 H8 H9. induction before as [|l ls IH]; cbn [app]; [apply ib_begin; [assumption | now apply inside_body] |].
    assert (IH' : in_blocks name false (ls ++ h :: body ++ after) kv) by (apply IH; intros x Hx; apply H4; now right). destruct (classify l) as [| | k v] eqn:E; apply means_iff in E.
    - now apply ib_nothing.
    - apply ib_other; auto. apply H4. now left.
    - now apply (ib_outside name l _ k v). }
  destruct (sections_read f _ name kv H1 H2 H3 I1) as (s & Es & Hs). exists kv, s. split; [apply (parser_block f _ _ _ kv H1 B H6); auto |]. split; [assumption |]. intros k.
  destruct (find k kv) as [v |] eqn:E.
  - apply find_in in E; [| assumption]. apply Hs. apply in_split in E as (a & b & ->). exists a, b. split; [reflexivity |]. intros w Hw.
    rewrite map_app in H7. simpl in H7. apply NoDup_remove_2 in H7. apply H7. apply in_app_iff. right. apply in_map_iff. now exists (k, w).
  - destruct (section_value s name k) as [v |] eqn:E'; [| reflexivity]. apply Hs in E' as (a & b & -> & _). apply find_none in E. exfalso. apply E. apply in_map_iff. exists (k, v). split; [reflexivity |]. apply in_app_iff. right. now left.
Qed.

(** * Files *)
Lemma lookup_filter_other {A} (p : text * A -> bool) name (d : list (text * A)) : (forall x, In x d -> fst x = name -> p x = true) -> lookup name (filter p d) = lookup name d.
Proof.
  induction d as [|[a v] d IH]; intros H; simpl; [reflexivity |]. destruct (text_eqb a name) eqn:E.
  - apply text_eqb_iff in E. subst a. rewrite (H (name, v)) by (try reflexivity; now left). simpl. now rewrite text_eqb_refl.
  - destruct (p (a, v)); simpl; [rewrite E |]; apply IH; intros x Hx; apply H; now right.
Qed.
Lemma remove_other n name d : n <> name -> lookup name (remove_file n d) = lookup name d.
Proof.
  intros H. unfold remove_file. assert (G : lookup name (filter (fun p : text * entry => negb (text_eqb (fst p) n)) d) = lookup name d).
  { apply lookup_filter_other. intros x _ E. apply negb_true_iff, text_eqb_false. congruence. }
  destruct (lookup n d) as [[c | []] |]; auto.
Qed.
Lemma removes_other ns name d : ~ In name ns -> lookup name (fold_left (fun d n => remove_file n d) ns d) = lookup name d.
Proof.
  revert d. induction ns as [|n ns IH]; intros d H; simpl; [reflexivity |]. rewrite IH by (intros G; apply H; now right). apply remove_other. intros ->. apply H. now left.
Qed.
Lemma prefix_app p s : prefix p s = true <-> exists t, s = p ++ t.
Proof.
  revert s. induction p as [|c p IH]; intros s; simpl; [split; [now exists s | reflexivity] |]. destruct s as [|d s]; [split; [discriminate | intros (t & E); discriminate] |].
  rewrite andb_true_iff, Ascii.eqb_eq, IH. split; [intros [-> (t & ->)]; now exists t | intros (t & E); injection E as -> ->; split; [reflexivity | now exists t]].
Qed.
Lemma prefixed_other p name d : (forall t, name <> p ++ str "." ++ t) -> lookup name (remove_prefixed p d) = lookup name d.
Proof.
  intros H. apply lookup_filter_other. intros [a v] _ E. simpl in E. subst a. apply negb_true_iff, andb_false_iff. left. simpl fst.
  destruct (prefix (p ++ str ".") name) eqn:Ep; [| reflexivity]. apply prefix_app in Ep as (t & E). exfalso. apply (H t). now rewrite E, <- app_assoc.
Qed.
Lemma cleanup_other param s name d : ~ temporary param (fun x => In x (map fst (s_lines s))) name -> lookup name (cleanup param s d) = lookup name d.
Proof.
  intros H. unfold cleanup. cbv zeta. rewrite !prefixed_other.
  - assert (G : forall l d, fold_left (fun d (x : text * list text) => remove_file (param ++ str "." ++ fst x) d) l d = fold_left (fun d n => remove_file n d) (map (fun x => param ++ str "." ++ fst x) l) d).
    { induction l as [|x l IH]; intros d0; simpl; [reflexivity | apply IH]. }
    rewrite G, !removes_other; [reflexivity | |].
    + intros Hin. apply H. left. exact Hin.
    + intros Hin. apply in_map_iff in Hin as (x & <- & Hin). apply H. right. left. exists (fst x). split; [now apply in_map | reflexivity].
  - intros t ->. apply H. right. right. left. exists t. reflexivity.
  - intros t ->. apply H. right. right. right. exists t. reflexivity.
Qed.
(** Whatever happens, other files stay as they are; the data file is the only new one. *)
Theorem others_kept param compute d name s : parse_param_sections (read_file param d) = Ok s -> ~ temporary param (fun x => In x (map fst (s_lines s))) name -> name <> str "data" ->
  lookup name (fst (run_full param compute d)) = lookup name d.
Proof.
  intros Es Ht Hd. unfold run_full. rewrite Es. destruct (compute s d) as [t | |]; cbn [fst]; try now apply cleanup_other.
  unfold write_file. assert (E : lookup name (update (str "data") (File []) (fun _ => File t) d) = lookup name d).
  { rewrite lookup_update. replace (text_eqb (str "data") name) with false; [reflexivity |]. symmetry. apply text_eqb_false. congruence. }
  destruct (lookup (str "data") d) as [[c | e] |]; cbn [fst]; rewrite cleanup_other by assumption; auto.
Qed.
Theorem no_sections_no_change param compute d : (forall s, parse_param_sections (read_file param d) <> Ok s) -> run_full param compute d = (d, false).
Proof. intros H. unfold run_full. destruct (parse_param_sections (read_file param d)) as [s | |] eqn:E; auto. now elim (H s). Qed.
Lemma lookup_gone name d : lookup name (filter (fun p : text * entry => negb (text_eqb (fst p) name)) d) = None.
Proof.
  induction d as [|[a v] d IH]; simpl; [reflexivity |]. destruct (text_eqb a name) eqn:E; simpl; [exact IH |]. now rewrite E.
Qed.
Lemma remove_none n name d : lookup name d = None -> lookup name (remove_file n d) = None.
Proof.
  intros H. destruct (text_dec n name) as [-> | Hn]; [| now rewrite remove_other]. unfold remove_file. now rewrite H.
Qed.
Lemma lookup_filter_none {A} (p : text * A -> bool) name (d : list (text * A)) : lookup name d = None -> lookup name (filter p d) = None.
Proof. induction d as [|[a v] d IH]; simpl; [reflexivity |]. destruct (text_eqb a name) eqn:E; [discriminate |]. intros H. destruct (p (a, v)); simpl; [rewrite E |]; auto. Qed.
Lemma removes_none ns name d : lookup name d = None -> lookup name (fold_left (fun d n => remove_file n d) ns d) = None.
Proof. revert d. induction ns as [|n ns IH]; intros d H; simpl; [assumption |]. apply IH. now apply remove_none. Qed.
Lemma removes_file ns name d c : In name ns -> lookup name d = Some (File c) -> lookup name (fold_left (fun d n => remove_file n d) ns d) = None.
Proof.
  revert d. induction ns as [|n ns IH]; intros d Hin H; [destruct Hin |]. simpl. destruct (text_dec n name) as [-> | Hn].
  - apply removes_none. unfold remove_file. rewrite H. apply lookup_gone.
  - destruct Hin as [-> | Hin]; [contradiction |]. apply IH; [assumption |]. now rewrite remove_other.
Qed.
Lemma prefixed_file p name d c t : NoDup (map fst d) -> name = p ++ str "." ++ t -> lookup name d = Some (File c) -> lookup name (remove_prefixed p d) = None.
Proof.
  intros Hd E H. assert (P : prefix (p ++ str ".") name = true) by (apply prefix_app; exists t; now rewrite E, <- app_assoc). clear E.
  unfold remove_prefixed. induction d as [|[a v] d IH]; simpl in *; [reflexivity |]. inversion Hd as [|? ? N1 N2]; subst. destruct (text_eqb a name) eqn:Ea.
  - apply text_eqb_iff in Ea. subst a. injection H as ->. rewrite P. simpl. apply lookup_filter_none. clear -N1. induction d as [|[b w] d IH]; simpl in *; [reflexivity |].
    replace (text_eqb b name) with false; [apply IH; tauto |]. symmetry. apply text_eqb_false. intros ->. apply N1. now left.
  - destruct (negb _); simpl; [rewrite Ea |]; now apply IH.
Qed.
Lemma data_not_temporary param ss : ~ temporary param ss (str "data").
Proof.
  intros [H | [(s & _ & H) | [(t & H) | (t & H)]]]; try discriminate.
  - simpl in H. repeat (destruct H as [H | H]; [discriminate |]). exact H.
  - assert (G : In "."%char (str "data")) by (rewrite H; apply in_app_iff; right; now left). simpl in G. intuition discriminate.
Qed.
(** The data file: the computed text after a success, and what it was after a failure. *)
Theorem data_written param compute d s : parse_param_sections (read_file param d) = Ok s ->
  (forall t, compute s d = Ok t -> (forall e, lookup (str "data") d <> Some (Directory e)) ->
    snd (run_full param compute d) = true /\ lookup (str "data") (fst (run_full param compute d)) = Some (File t)) /\
  ((forall t, compute s d <> Ok t) \/ (exists e, lookup (str "data") d = Some (Directory e)) -> snd (run_full param compute d) = false /\ lookup (str "data") (fst (run_full param compute d)) = lookup (str "data") d).
Proof.
  intros Es. unfold run_full. rewrite Es. split.
  - intros t -> Hd. unfold write_file. assert (E : lookup (str "data") (update (str "data") (File []) (fun _ => File t) d) = Some (File t)) by (rewrite lookup_update, text_eqb_refl; reflexivity).
    destruct (lookup (str "data") d) as [[c | e] |] eqn:El; cbn [fst snd]; try (split; [reflexivity |]; rewrite cleanup_other by apply data_not_temporary; exact E). now elim (Hd e).
  - intros [H | (e & H)]; destruct (compute s d) as [t | |]; try now elim (H t).
    3:{ unfold write_file. rewrite H. cbn [fst snd]. split; [reflexivity |]. rewrite cleanup_other by apply data_not_temporary. exact H. }
    all: try rewrite H; cbn [fst snd]; (split; [reflexivity |]; rewrite cleanup_other by apply data_not_temporary; first [reflexivity | exact H]).
Qed.
(** And the temporaries are gone. *)
Lemma lookup_remove_some n name d x : lookup name (remove_file n d) = Some x -> lookup name d = Some x.
Proof. intros H. destruct (lookup name d) eqn:E; [| rewrite remove_none in H by assumption; discriminate]. destruct (text_dec n name) as [-> | Hn]; [| now rewrite remove_other, E in H].
  unfold remove_file in H. rewrite E in H. destruct e as [c | []]; try (rewrite lookup_gone in H; discriminate). now rewrite E in H. Qed.
Lemma filter_keys {A} (p : text * A -> bool) d : NoDup (map fst d) -> NoDup (map fst (filter p d)).
Proof.
  induction d as [|x d IH]; simpl; intros H; [constructor |]. inversion H as [|? ? N1 N2]; subst. destruct (p x); simpl; [| auto]. constructor; [| auto].
  intros G. apply N1. apply in_map_iff in G as (y & E & G). apply filter_In in G as [G _]. apply in_map_iff. now exists y.
Qed.
Lemma remove_keys n (d : folder) : NoDup (map fst d) -> NoDup (map fst (remove_file n d)).
Proof. intros H. unfold remove_file. destruct (lookup n d) as [[c | []] |]; auto using filter_keys. Qed.
Lemma removes_keys ns (d : folder) : NoDup (map fst d) -> NoDup (map fst (fold_left (fun d n => remove_file n d) ns d)).
Proof. revert d. induction ns as [|n ns IH]; intros d H; simpl; [assumption |]. apply IH. now apply remove_keys. Qed.
Lemma removes_not_file ns name d c : In name ns -> lookup name (fold_left (fun d n => remove_file n d) ns d) <> Some (File c).
Proof.
  revert d. induction ns as [|n ns IH]; intros d Hin; [destruct Hin |]. simpl. destruct (text_dec n name) as [-> | Hn].
  - intros H. assert (G : forall ns d, lookup name (fold_left (fun d n => remove_file n d) ns d) = Some (File c) -> lookup name d = Some (File c)).
    { clear. induction ns as [|n ns IH]; intros d H; simpl in H; [assumption |]. apply IH in H. eapply lookup_remove_some; eauto. }
    apply G in H. pose proof (lookup_remove_some _ _ _ _ H) as H'. unfold remove_file in H. rewrite H', lookup_gone in H. discriminate.
  - destruct Hin as [-> | Hin]; [contradiction |]. now apply IH.
Qed.
Lemma fold_map {A} (g : A -> text) l (d : folder) : fold_left (fun d x => remove_file (g x) d) l d = fold_left (fun d n => remove_file n d) (map g l) d.
Proof. revert d. induction l as [|x l IH]; intros d0; simpl; [reflexivity | apply IH]. Qed.
Lemma lookup_filter_some {A} (p : text * A -> bool) name (d : list (text * A)) x : NoDup (map fst d) -> lookup name (filter p d) = Some x -> lookup name d = Some x /\ p (name, x) = true.
Proof.
  induction d as [|[a v] d IH]; simpl; [discriminate |]. intros Hd H. inversion Hd as [|? ? N1 N2]; subst. destruct (text_eqb a name) eqn:E.
  - apply text_eqb_iff in E. subst a. destruct (p (name, v)) eqn:Ep; simpl in H.
    + rewrite text_eqb_refl in H. injection H as <-. auto.
    + exfalso. assert (G : lookup name d <> None) by (intros G; rewrite lookup_filter_none in H by assumption; discriminate). apply G. clear -N1.
      induction d as [|[b w] d IH]; simpl in *; [reflexivity |]. replace (text_eqb b name) with false; [apply IH; tauto |]. symmetry. apply text_eqb_false. intros ->. apply N1. now left.
  - destruct (p (a, v)); simpl in H; [rewrite E in H |]; apply IH in H; auto.
Qed.
Lemma cleanup_gone param s name c (d : folder) : NoDup (map fst d) -> temporary param (fun x => In x (map fst (s_lines s))) name -> lookup name (cleanup param s d) <> Some (File c).
Proof.
  intros Hd Ht H. unfold cleanup in H. cbv zeta in H. rewrite (fold_map (fun x : text * list text => param ++ str "." ++ fst x)) in H.
  set (d1 := fold_left (fun d n => remove_file n d) temporaries d) in *. set (d2 := fold_left (fun d n => remove_file n d) (map _ (s_lines s)) d1) in *.
  assert (K1 : NoDup (map fst d1)) by now apply removes_keys. assert (K2 : NoDup (map fst d2)) by now apply removes_keys.
  unfold remove_prefixed at 1 in H. apply lookup_filter_some in H as [H Hh]; [| now apply filter_keys]. apply lookup_filter_some in H as [H Hv]; [| assumption].
  destruct Ht as [Hin | [(x & Hin & ->) | [(t & ->) | (t & ->)]]].
  - assert (G : lookup name d1 = Some (File c)).
    { revert H. unfold d2. generalize (map (fun x : text * list text => param ++ str "." ++ fst x) (s_lines s)) d1. clear. induction l as [|n ns IH]; intros d H; simpl in H; [assumption |]. apply IH in H. eapply lookup_remove_some; eauto. }
    now apply (removes_not_file temporaries name d c Hin).
  - apply in_map_iff in Hin as (y & <- & Hin). revert H. apply removes_not_file. apply in_map_iff. now exists y.
  - cbn in Hv. discriminate.
  - cbn in Hh. discriminate.
Qed.
Lemma update_keys {A} k (d : A) f m : NoDup (map fst m) -> NoDup (map fst (update k d f m)).
Proof.
  assert (I1 : forall x m, In x (map fst (update k d f m)) -> x = k \/ In x (map fst m)).
  { clear. intros x. induction m as [|[a v] m IH]; simpl; [intuition |]. destruct (text_eqb a k); simpl; intuition. }
  induction m as [|[a v] m IH]; simpl; intros H; [repeat constructor; auto |]. inversion H as [|? ? N1 N2]; subst. destruct (text_eqb a k) eqn:E; simpl; [assumption |]. constructor; [| auto].
  intros G. destruct (I1 a m G) as [-> | G']; [rewrite text_eqb_refl in E; discriminate | contradiction].
Qed.
Theorem temporaries_gone param compute (d : folder) name s : NoDup (map fst d) -> parse_param_sections (read_file param d) = Ok s -> temporary param (fun x => In x (map fst (s_lines s))) name ->
  forall c, lookup name (fst (run_full param compute d)) <> Some (File c).
Proof.
  intros Hd Es Ht c. unfold run_full. rewrite Es. destruct (compute s d) as [t | |]; cbn [fst]; try (now apply cleanup_gone).
  unfold write_file. destruct (lookup (str "data") d) as [[x | e] |]; cbn [fst]; apply cleanup_gone; auto using update_keys.
Qed.
(** The names of the sections are the names in the closed headers. *)
Lemma lines_sections ls : forall section S0 n, n <> [] ->
  In n (map fst (s_lines (sec_lines ls section S0))) <-> In n (map fst (s_lines S0)) \/ (n = section /\ ls <> []  /\ (forall l t, ls = l :: t -> forall m, ~ header m l)) \/ exists l, In l ls /\ header n l.
Proof.
  assert (U : forall k (f : list text -> list text) m n, In n (map fst (update k [] f m)) <-> n = k \/ In n (map fst m)).
  { clear. intros k f m n. induction m as [|[a v] m IH]; simpl; [intuition |]. destruct (text_eqb a k) eqn:E; simpl; [apply text_eqb_iff in E; subst; intuition | rewrite IH; intuition]. }
  assert (A : forall section l S0 n, n <> [] -> In n (map fst (s_lines (add_line section l S0))) <-> n = section \/ In n (map fst (s_lines S0))).
  { intros section l S0 n Hn. unfold add_line. destruct section; [intuition | apply U]. }
  induction ls as [|l ls IH]; intros section S0 n Hn; cbn [sec_lines]; cbv zeta.
  - split; [now left |]. intros [H | [(_ & H & _) | (l & [] & _)]]; [assumption | congruence].
  - rewrite IH by assumption. rewrite A by assumption. unfold next_section. destruct (section_name (strip_whitespace l)) as [m |] eqn:E.
    + apply section_name_iff in E. split.
      * intros [[-> | H] | [(-> & H) | (x & H1 & H2)]]; [right; right; exists l; split; [now left | assumption] | now left | right; right; exists l; split; [now left | assumption] | right; right; exists x; split; [now right | assumption]].
      * intros [H | [(_ & _ & H) | (x & [<- | H1] & H2)]]; [tauto | now elim (H l ls eq_refl m) | left; left; eapply header_same; eauto | right; right; now exists x].
    + assert (N : forall m, ~ header m l) by (intros m Hm; apply section_name_iff in Hm; congruence). split.
      * intros [[-> | H] | [(-> & H) | (x & H1 & H2)]]; [right; left; split; [reflexivity |]; split; [discriminate |]; intros ? ? Ex; injection Ex as <- <-; assumption | now left
          | right; left; split; [reflexivity |]; split; [discriminate |]; intros ? ? Ex; injection Ex as <- <-; assumption | right; right; exists x; split; [now right | assumption]].
      * intros [H | [(-> & _) | (x & [<- | H1] & H2)]]; [tauto | tauto | now elim (N n) | right; right; now exists x].
Qed.
Lemma lines_not_empty ls : forall section S0, ~ In [] (map fst (s_lines S0)) -> ~ In [] (map fst (s_lines (sec_lines ls section S0))).
Proof.
  induction ls as [|l ls IH]; intros section S0 H; cbn [sec_lines]; cbv zeta; [assumption |]. apply IH. unfold add_line. destruct (next_section section l) as [|c t]; [assumption |]. cbn [s_lines].
  clear IH. induction (s_lines S0) as [|[a v] m IH]; simpl in *; [intuition discriminate |]. destruct (text_eqb a (c :: t)); simpl; [tauto |]. intuition.
Qed.
Lemma section_names f ls s n : has_lines f ls -> parse_param_sections (Some f) = Ok s -> In n (map fst (s_lines s)) <-> block_of ls n.
Proof.
  intros H1 Es. rewrite (parse_sections_lines f ls H1) in Es. injection Es as <-. destruct n as [|c n].
  { split; [intros H; exfalso; revert H; now apply lines_not_empty | intros [H _]; now elim H]. }
  rewrite lines_sections by discriminate. unfold block_of. simpl map. split; [intros [[] | [[H _] | H]]; [discriminate | split; [discriminate | exact H]] | intros [_ H]; now right; right].
Qed.
Lemma temporary_ext param P Q name : (forall x, P x <-> Q x) -> temporary param P name -> temporary param Q name.
Proof. intros H [G | [(s & G1 & G2) | G]]; [now left | right; left; exists s; split; [now apply H | assumption] | right; now right]. Qed.

(** The forms of C70. *)
Theorem kept_form param compute d f ls name : lookup param d = Some (File f) -> has_lines f ls -> name <> str "data" -> ~ temporary param (block_of ls) name ->
  lookup name (fst (run_full param compute d)) = lookup name d.
Proof.
  intros H1 H2 H3 H4. assert (R : read_file param d = Some f) by (unfold read_file; now rewrite H1). pose proof (parse_sections_lines f ls H2) as Es. rewrite <- R in Es.
  apply (others_kept param compute d name _ Es); [| assumption]. intros G. apply H4. revert G. apply temporary_ext. intros x. apply (section_names f); [assumption |]. now rewrite R in Es.
Qed.
Theorem gone_form param compute (d : folder) f ls name : NoDup (map fst d) -> lookup param d = Some (File f) -> has_lines f ls -> temporary param (block_of ls) name ->
  forall c, lookup name (fst (run_full param compute d)) <> Some (File c).
Proof.
  intros H0 H1 H2 H4. assert (R : read_file param d = Some f) by (unfold read_file; now rewrite H1). pose proof (parse_sections_lines f ls H2) as Es. rewrite <- R in Es.
  apply (temporaries_gone param compute d name _ H0 Es). revert H4. apply temporary_ext. intros x. symmetry. apply (section_names f); [assumption |]. now rewrite R in Es.
Qed.
Theorem data_form param compute d f : lookup param d = Some (File f) -> exists s, parse_param_sections (Some f) = Ok s /\
  (forall t, compute s d = Ok t -> (forall e, lookup (str "data") d <> Some (Directory e)) ->
    snd (run_full param compute d) = true /\ lookup (str "data") (fst (run_full param compute d)) = Some (File t)) /\
  ((forall t, compute s d <> Ok t) \/ (exists e, lookup (str "data") d = Some (Directory e)) -> snd (run_full param compute d) = false /\ lookup (str "data") (fst (run_full param compute d)) = lookup (str "data") d).
Proof.
  intros H1. assert (R : read_file param d = Some f) by (unfold read_file; now rewrite H1). destruct (every_file f) as (ls & H2). pose proof (parse_sections_lines f ls H2) as Es.
  eexists. split; [exact Es |]. apply data_written. now rewrite R.
Qed.
Theorem absent_form param compute d : (forall f, lookup param d <> Some (File f)) -> run_full param compute d = (d, false).
Proof. intros H. apply no_sections_no_change. intros s. unfold read_file. destruct (lookup param d) as [[f | e] |]; [now elim (H f) | discriminate | discriminate]. Qed.
