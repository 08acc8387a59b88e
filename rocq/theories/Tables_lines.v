(** Proofs for C71: tables read by lines. *)
From Coq Require Import List ZArith Ascii String Bool Lia Permutation Sorted.
From Verif Require Import Base Oprecalc_model Oprecalc_spec Oprecalc_words Datafile_model Datafile_spec Datafile_parse Datafile_read Datafile_check Tables_model Tables_spec Tables_proofs.
Import ListNotations.
Local Open Scope string_scope.
Local Open Scope list_scope.

Lemma data_line_iff l : data_line l = true <-> l <> "" /\ ~ is_comment l.
Proof.
  destruct l as [|c t]; cbn; [split; [discriminate | intros [H _]; now elim H] |]. rewrite negb_true_iff, Ascii.eqb_neq. split; [intros H; split; [discriminate | exact H] | tauto].
Qed.
Lemma lines_length ls s : text_lines ls s -> (List.length ls <= String.length s)%nat.
Proof. induction 1 as [|l Hl Hn|l ls s Hl H IH]; [cbn; lia | destruct l; [contradiction | cbn; lia] |]. rewrite length_app. cbn. lia. Qed.
Lemma next_step fuel s : next_data_line (S fuel) s = match s with "" => None | _ => let (line, r) := getline s in if data_line line then Some (line, rest_of r) else next_data_line fuel (rest_of r) end.
Proof.
  cbn [next_data_line]. destruct s as [|c s]; [reflexivity |]. destruct (getline (String c s)) as [line r]. destruct line as [|d t]; [reflexivity |].
  destruct d as [[] [] [] [] [] [] [] []]; reflexivity.
Qed.
(** What is left after the next data line. *)
Lemma next_lines ls s : text_lines ls s -> forall fuel, (String.length s < fuel)%nat ->
  (filter data_line ls = [] /\ next_data_line fuel s = None) \/
  exists l ls' s', filter data_line ls = l :: filter data_line ls' /\ text_lines ls' s' /\ next_data_line fuel s = Some (l, s') /\ (String.length s' < String.length s)%nat.
Proof.
  induction 1 as [|l Hl Hn|l ls s Hl H IH]; intros [|fuel] Hk; try lia; rewrite next_step.
  - now left.
  - destruct l as [|c t] eqn:E; [contradiction |]. rewrite <- E in *. rewrite getline_end by assumption. cbn [rest_of filter]. destruct (data_line l) eqn:D.
    + right. exists l, [], "". split; [reflexivity |]. split; [constructor |]. split; [reflexivity |]. rewrite E. cbn. lia.
    + left. split; [reflexivity |]. destruct fuel; reflexivity.
  - assert (Hnil : (l ++ String newline s)%string <> "") by (intros X; apply app_nil_inv in X as [_ X]; discriminate). destruct (l ++ String newline s)%string as [|c u] eqn:E; [contradiction |]. rewrite <- E in *. rewrite getline_nl by assumption. cbn [rest_of filter].
    rewrite length_app in *. cbn [String.length] in *. destruct (data_line l) eqn:D.
    + right. exists l, ls, s. split; [reflexivity |]. split; [assumption |]. split; [reflexivity |]. lia.
    + destruct (IH fuel ltac:(lia)) as [[E1 E2] | (l' & ls' & s' & E1 & E2 & E3 & E4)]; [now left |]. right. exists l', ls', s'. repeat split; auto. lia.
Qed.
Lemma data_lines_ok s : forall ls, text_lines ls s -> forall fuel, (String.length s <= fuel)%nat -> data_lines fuel s = filter data_line ls.
Proof.
  induction s as [s IH] using (well_founded_induction (well_founded_ltof _ String.length)). intros ls H fuel Hk. unfold ltof in IH. destruct fuel as [|fuel].
  - destruct s; [| cbn in Hk; lia]. inversion H as [|l Hl Hn|l ls' s' Hl H']; subst; [reflexivity | contradiction |]. match goal with E : _ = "" |- _ => apply app_nil_inv in E as [_ E]; discriminate end.
  - cbn [data_lines]. destruct (next_lines ls s H (S (String.length s)) ltac:(lia)) as [[E1 E2] | (l & ls' & s' & E1 & E2 & E3 & E4)].
    + now rewrite E1, E2.
    + rewrite E3, E1. f_equal. apply IH; auto. lia.
Qed.
Lemma all_lines ls s : text_lines ls s -> all_data_lines s = filter data_line ls.
Proof. intros H. unfold all_data_lines. now apply data_lines_ok. Qed.
Lemma lines_exist s : exists ls, text_lines ls s.
Proof.
  induction s as [|c s (ls & IH)]; [exists []; constructor |]. destruct (Ascii.ascii_dec c newline) as [-> | Hc].
  - exists ("" :: ls). apply (tl_line "" ls s); [constructor | exact IH].
  - destruct IH as [|l Hl Hn|l ls s Hl H].
    + exists [String c ""]. constructor; [| discriminate]. constructor; [exact Hc | constructor].
    + exists [String c l]. constructor; [| discriminate]. now constructor.
    + exists (String c l :: ls). apply (tl_line (String c l) ls s); [now constructor | exact H].
Qed.

(** Fields *)
Lemma take_field_app w s : all_chars (fun c => blank c = false) w -> starts_blank s -> take_field (w ++ s)%string = (w, s).
Proof.
  induction 1 as [|c w Hc Hw IH]; intros Hs; cbn.
  - destruct Hs as [-> | (c & s' & -> & Hc)]; cbn; [reflexivity |]. now rewrite Hc.
  - rewrite Hc, IH by assumption. reflexivity.
Qed.
Lemma fields_loop_ok ws : Forall (fun w => w <> "" /\ all_chars (fun c => blank c = false) w) ws -> forall s tail, joined ws s tail -> all_blank tail ->
  forall fuel, (List.length ws <= fuel)%nat -> fields_loop fuel (skip_ws s) = ws.
Proof.
  induction 1 as [|w ws [Hn Hw] H IH]; intros s tail Hj Ht fuel Hk; inversion Hj as [s0|b w' ws' s' rest Hb Hs Hj']; subst.
  - rewrite skip_all by assumption. destruct fuel; reflexivity.
  - cbn in Hk. destruct fuel as [|fuel]; [lia |]. rewrite skip_blank, skip_black by assumption. cbn [fields_loop].
    destruct (w ++ s')%string as [|c u] eqn:E; [apply app_nil_inv in E as [E _]; contradiction |]. rewrite <- E. rewrite take_field_app by assumption. f_equal. apply (IH s' tail); auto. lia.
Qed.
Lemma joined_count ws s tail : Forall (fun w => w <> "" /\ all_chars (fun c => blank c = false) w) ws -> joined ws s tail -> (List.length ws <= String.length s)%nat.
Proof.
  intros H Hj. induction Hj as [s|b w ws s rest Hb Hs Hj IH]; [cbn; lia |]. inversion H as [|? ? [Hn _] H']; subst. rewrite !length_app. destruct w; [contradiction |]. cbn. specialize (IH H'). lia.
Qed.
Lemma split_ok ws l : fields ws l -> split_fields l = ws.
Proof. intros [H (tail & Hj & Ht)]. unfold split_fields. apply (fields_loop_ok ws H l tail Hj Ht). now apply (joined_count ws l tail). Qed.
Lemma fields_exist l : exists ws, fields ws l.
Proof.
  induction l as [|c l (ws & Hw & tail & Hj & Ht)]; [exists []; split; [constructor |]; exists ""; split; constructor |]. destruct (blank c) eqn:Hc.
  - destruct Hj as [s|b w ws s rest Hb Hs Hj].
    + exists []. split; [constructor |]. exists (String c s). split; [constructor | now constructor].
    + exists (w :: ws). split; [assumption |]. exists rest. split; [| assumption]. apply (j_cons (String c b) w ws s rest); auto. now constructor.
  - destruct l as [|d l].
    + exists [String c ""]. split; [constructor; [split; [discriminate | constructor; [assumption | constructor]] | constructor] |]. exists "". split; [| constructor].
      apply (j_cons "" (String c "") [] "" ""); [constructor | now left | constructor].
    + destruct (blank d) eqn:Hd.
      * exists (String c "" :: ws). split; [constructor; [split; [discriminate | constructor; [assumption | constructor]] | assumption] |]. exists tail. split; [| assumption].
        apply (j_cons "" (String c "") ws (String d l) tail); [constructor | right; now exists d, l | assumption].
      * remember (String d l) as dl eqn:E. destruct Hj as [s|b w ws s rest Hb Hs Hj].
        -- exfalso. subst s. inversion Ht. congruence.
        -- destruct Hb as [|x b Hx Hb]; [| exfalso; cbn in E; injection E as -> _; congruence]. inversion Hw as [|? ? [Hn Hbl] Hw']; subst. exists (String c w :: ws).
           split; [constructor; [split; [discriminate | now constructor] | assumption] |]. exists rest. split; [| assumption]. apply (j_cons "" (String c w) ws s rest); [constructor | assumption | assumption].
Qed.

Section Lines.
  Variables (V : Type) (atof : string -> V).
  Notation row_of := (row_of V atof). Notation row_values := (row_values V atof).
  Lemma two_columns_ok l p : row_of l p -> two_columns V atof l = Ok p.
  Proof. intros (w1 & w2 & ws & H & ->). unfold two_columns. now rewrite (split_ok _ _ H). Qed.
  Lemma two_columns_bad ws l : fields ws l -> (List.length ws < 2)%nat -> two_columns V atof l = Throw.
  Proof. intros H Hn. unfold two_columns. rewrite (split_ok _ _ H). destruct ws as [|? [|? ?]]; try reflexivity. cbn in Hn. lia. Qed.
  Lemma filter_data ls : filter data_line ls = filter data_line (filter data_line ls).
  Proof. induction ls as [|l ls IH]; cbn; [reflexivity |]. destruct (data_line l) eqn:E; cbn; [rewrite E; now f_equal | exact IH]. Qed.

  Theorem load_pairs_ok ls s l : text_lines ls s -> Forall2 row_of (filter data_line ls) l -> l <> [] -> load_pairs V atof s = Ok l.
  Proof.
    intros H H2 Hn. unfold load_pairs. rewrite (all_lines ls s H). rewrite (mapM_Forall2 _ _ l).
    - cbn [bind]. destruct l; [contradiction | reflexivity].
    - clear -H2. induction H2; constructor; auto using two_columns_ok.
  Qed.
  Lemma mapM_bad {A B} (f : A -> res B) l x : In x l -> f x = Throw -> (forall y, In y l -> f y <> UB) -> mapM f l = Throw.
  Proof.
    induction l as [|a l IH]; intros Hi Hx Hu; [destruct Hi |]. cbn. destruct (f a) eqn:E; cbn [bind].
    - destruct Hi as [-> | Hi]; [congruence |]. rewrite IH; auto. intros y Hy. apply Hu. now right.
    - reflexivity.
    - exfalso. apply (Hu a); [now left | exact E].
  Qed.
  Lemma two_columns_defined l : two_columns V atof l <> UB.
  Proof. unfold two_columns. destruct (split_fields l) as [|? [|? ?]]; discriminate. Qed.
  Theorem load_pairs_bad ls s : text_lines ls s -> (exists l ws, In l ls /\ l <> "" /\ ~ is_comment l /\ fields ws l /\ (List.length ws < 2)%nat) \/ (forall l, In l ls -> l = "" \/ is_comment l) ->
    load_pairs V atof s = Throw.
  Proof.
    intros H [(l & ws & Hin & Hn & Hc & Hf & Hl) | Hno]; unfold load_pairs; rewrite (all_lines ls s H).
    - rewrite (mapM_bad _ _ l); [reflexivity | apply filter_In; split; [assumption | now apply data_line_iff] | now apply (two_columns_bad ws) | intros; apply two_columns_defined].
    - assert (E : filter data_line ls = []).
      { clear H. induction ls as [|l ls IH]; [reflexivity |]. cbn. assert (D : data_line l = false) by (destruct (data_line l) eqn:D; [| reflexivity]; apply data_line_iff in D as [D1 D2]; destruct (Hno l (or_introl eq_refl)); contradiction).
        rewrite D. apply IH. intros x Hx. apply Hno. now right. }
      now rewrite E.
  Qed.
  Theorem load_values_ok ls s : text_lines ls s -> load_values V atof s = map atof (filter data_line ls).
  Proof. intros H. unfold load_values. now rewrite (all_lines ls s H). Qed.

  (** ** The halves of a table *)
  Variables (zero : V) (lt : V -> V -> bool) (neg : V -> V).
  Hypothesis lt_irrefl : forall x, lt x x = false.
  Hypothesis lt_trans : forall x y z, lt x y = true -> lt y z = true -> lt x z = true.
  Hypothesis lt_total : forall x y, lt x y = false -> lt y x = false -> x = y.
  Notation pair_lt := (pair_lt V lt).
  Notation before := (before V lt).
  Lemma pair_lt_before p q : pair_lt p q = true -> before p q.
  Proof.
    unfold Tables_model.pair_lt, Tables_spec.before. rewrite orb_true_iff, andb_true_iff, negb_true_iff. intros [H | [H1 H2]]; [now left |]. destruct (lt (fst p) (fst q)) eqn:E; [now left |]. right. split; [now apply lt_total | now left].
  Qed.
  Lemma pair_not_lt p q : pair_lt p q = false -> before q p.
  Proof.
    unfold Tables_model.pair_lt, Tables_spec.before. rewrite orb_false_iff, andb_false_iff, negb_false_iff. intros [H [H1 | H1]]; [now left |]. destruct (lt (fst q) (fst p)) eqn:E; [now left |]. right.
    split; [now apply lt_total |]. destruct (lt (snd q) (snd p)) eqn:E2; [now left | right; now apply lt_total].
  Qed.
  Lemma before_trans p q r : before p q -> before q r -> before p r.
  Proof.
    unfold Tables_spec.before. intros [A | [A1 [A2 | A2]]] [B | [B1 [B2 | B2]]]; try (left; congruence); try (left; eapply lt_trans; eassumption); try (left; rewrite A1; assumption); try (left; rewrite <- B1; assumption);
      right; (split; [congruence |]); [left; eapply lt_trans; eassumption | left; congruence | left; congruence | right; congruence].
  Qed.
  Lemma insert_perm p l : Permutation (p :: l) (sort_insert V lt p l).
  Proof. induction l as [|q t IH]; cbn; [reflexivity |]. destruct (pair_lt p q); [reflexivity |]. rewrite perm_swap. now constructor. Qed.
  Lemma insert_sorted p l : StronglySorted before l -> StronglySorted before (sort_insert V lt p l).
  Proof.
    induction 1 as [|q t H IH Hq]; cbn; [repeat constructor |]. destruct (pair_lt p q) eqn:E.
    - apply pair_lt_before in E. constructor; [now constructor |]. constructor; [assumption |]. eapply Forall_impl; [| exact Hq]. intros r. now apply before_trans.
    - apply pair_not_lt in E. constructor; [assumption |]. rewrite <- insert_perm. now constructor.
  Qed.
  Lemma sort_perm l : Permutation l (sort_pairs V lt l).
  Proof. induction l as [|p l IH]; cbn; [reflexivity |]. rewrite <- insert_perm. now constructor. Qed.
  Lemma sort_sorted l : StronglySorted before (sort_pairs V lt l).
  Proof. induction l as [|p l IH]; cbn; [constructor |]. now apply insert_sorted. Qed.
  Lemma abs_rows_ok positive ls l : Forall2 row_of ls l -> (forall p, In p l -> accept_sign V zero lt positive (fst p) = true -> lt (snd p) zero = false) ->
    abs_rows V atof zero lt neg positive ls = Ok (map (fun p => (abs V zero lt neg (fst p), snd p)) (filter (fun p => accept_sign V zero lt positive (fst p)) l)).
  Proof.
    induction 1 as [|line p ls l Hr H IH]; intros Hy; [reflexivity |]. cbn [abs_rows]. rewrite (two_columns_ok line p Hr). destruct p as [x y]. cbn [bind filter fst]. destruct (accept_sign V zero lt positive x) eqn:E.
    - pose proof (Hy (x, y) (or_introl eq_refl) E) as Hyy. cbn [snd] in Hyy. rewrite Hyy. rewrite IH by (intros q Hq; apply Hy; now right). reflexivity.
    - apply IH. intros q Hq. apply Hy. now right.
  Qed.
  Theorem load_rho_ok ls s l (positive : bool) : text_lines ls s -> Forall2 row_of (filter data_line ls) l ->
    (forall x y, In (x, y) l -> (if positive then lt zero x else lt x zero) = true -> lt y zero = false) -> (exists x y, In (x, y) l /\ (if positive then lt zero x else lt x zero) = true) ->
    exists r, load_rho V atof zero lt neg positive s = Ok r /\ StronglySorted before r /\
      Permutation r (map (fun p => ((if positive then fst p else neg (fst p)), snd p)) (filter (fun p => if positive then lt zero (fst p) else lt (fst p) zero) l)).
  Proof.
    intros H H2 Hy (x0 & y0 & Hin & Hs). unfold load_rho. rewrite (all_lines ls s H), (abs_rows_ok positive _ l H2) by (intros [x y]; apply Hy). cbn [bind].
    set (m := map _ (filter _ l)). assert (Hm : m <> []).
    { intros E. apply map_eq_nil in E. assert (G : In (x0, y0) (filter (fun p => accept_sign V zero lt positive (fst p)) l)) by (apply filter_In; split; [assumption | exact Hs]). rewrite E in G. destruct G. }
    exists (sort_pairs V lt m). split; [destruct m; [contradiction | reflexivity] |]. split; [apply sort_sorted |]. rewrite <- sort_perm. unfold m.
    assert (E : forall p : V * V, accept_sign V zero lt positive (fst p) = true -> abs V zero lt neg (fst p) = (if positive then fst p else neg (fst p))).
    { intros [x y] Hp. cbn in *. unfold accept_sign in Hp. unfold abs. destruct positive; [| now rewrite Hp]. destruct (lt x zero) eqn:E; [| reflexivity]. pose proof (lt_trans _ _ _ Hp E). now rewrite lt_irrefl in H0. }
    apply Permutation_refl'. clear -E. unfold accept_sign in *. induction l as [|p l IH]; [reflexivity |]. cbn [filter]. destruct (if positive then lt zero (fst p) else lt (fst p) zero) eqn:D; [| exact IH]. cbn [map]. rewrite E by assumption. now f_equal.
  Qed.
  (** A negative value on the chosen side, or no value there, is an error. *)
  Theorem load_rho_bad ls s l (positive : bool) : text_lines ls s -> Forall2 row_of (filter data_line ls) l ->
    (exists x y, In (x, y) l /\ (if positive then lt zero x else lt x zero) = true /\ lt y zero = true) \/ (forall x y, In (x, y) l -> (if positive then lt zero x else lt x zero) = false) ->
    load_rho V atof zero lt neg positive s = Throw.
  Proof.
    intros H H2 Hb. unfold load_rho. rewrite (all_lines ls s H). destruct Hb as [(x & y & Hin & Hs & Hy) | Hno].
    - assert (E : abs_rows V atof zero lt neg positive (filter data_line ls) = Throw).
      { clear H. induction H2 as [|line p t l Hr H2 IH]; [destruct Hin |]. cbn [abs_rows]. rewrite (two_columns_ok line p Hr). destruct p as [a b]. cbn [bind]. destruct Hin as [E | Hin].
        - injection E as -> ->. unfold accept_sign. rewrite Hs. now rewrite Hy.
        - destruct (accept_sign V zero lt positive a); [destruct (lt b zero); [reflexivity |] |]; now rewrite IH. }
      now rewrite E.
    - rewrite (abs_rows_ok positive _ l H2).
      + cbn [bind]. replace (filter _ l) with (@nil (V * V)); [reflexivity |]. symmetry. clear -Hno. induction l as [|[x y] l IH]; [reflexivity |]. cbn [filter fst]. unfold accept_sign at 1. rewrite (Hno x y) by now left. apply IH. intros a b Hin. apply (Hno a b). now right.
      + intros [x y] Hin Ha. cbn in Ha. unfold accept_sign in Ha. rewrite (Hno x y Hin) in Ha. discriminate.
  Qed.

  (** ** D *)
  Lemma skip_hash_step fuel s : skip_hash (S fuel) s = if comment_dec s then skip_hash fuel (rest_of (snd (getline s))) else s.
  Proof. cbn [skip_hash]. apply hash_match. Qed.
  Lemma block_step fuel columns s : block_loop V atof (S fuel) columns s = if string_dec s "" then Ok ([], columns, "") else if comment_dec s then Ok ([], columns, s) else
    let (line, r) := getline s in
    match map atof (split_fields line) with
    | [] => Throw
    | T :: values =>
        let* _ := my_assert (Nat.eqb columns 0 || Nat.eqb (List.length values) columns)%bool in
        let* (x, s2) := block_loop V atof fuel (if Nat.eqb columns 0 then List.length values else columns) (rest_of r) in
        let (data, c) := x in Ok ((T, values) :: data, c, s2)
    end.
  Proof.
    destruct (string_dec s "") as [-> | Hs]; [reflexivity |]. destruct (comment_dec s) as [H | H].
    - apply comment_form in H as (t & ->). reflexivity.
    - destruct s as [|c t]; [contradiction |]. cbn [block_loop]. destruct c as [[] [] [] [] [] [] [] []]; try reflexivity. elim H. reflexivity.
  Qed.
  (** The lines of a block. *)
  Lemma split_lines a b s : text_lines (a ++ b) s -> exists u v, s = (u ++ v)%string /\ text_lines b v /\ (b = [] -> v = "").
  Proof.
    revert s. induction a as [|l a IH]; intros s H; cbn in H.
    - exists "", s. split; [reflexivity |]. split; [assumption |]. intros ->. now inversion H.
    - inversion H as [|l' Hl Hn|l' ls s' Hl H']; subst.
      + destruct a; [| discriminate]. destruct b; [| discriminate]. exists s, "". rewrite app_nil_r. split; [reflexivity |]. split; [constructor | reflexivity].
      + apply IH in H' as (u & v & -> & H1 & H2). exists (l ++ String newline u)%string, v. split; [now rewrite app_ass |]. auto.
  Qed.
  Lemma no_blank_line l : (exists p, row_values l p) -> l <> "".
  Proof. intros (p & w & ws & [Hf (t & Hj & _)] & _) ->. inversion Hf as [|? ? [Hn _] _]; subst. apply joined_shorter in Hj; [cbn in Hj; lia | assumption]. Qed.
  Lemma block_ok n : (0 < n)%nat -> forall b rows, Forall2 row_values b rows -> Forall (fun p => List.length (snd p) = n) rows -> Forall (fun l => ~ is_comment l) b ->
    forall ls s columns, text_lines (b ++ ls) s -> (ls = [] \/ exists c t, ls = c :: t /\ is_comment c) -> columns = 0%nat \/ columns = n ->
    exists v, text_lines ls v /\ (String.length v <= String.length s)%nat /\ (b <> [] -> (String.length v < String.length s)%nat) /\
    forall fuel, (String.length s < fuel)%nat -> block_loop V atof fuel columns s = Ok (rows, match b with [] => columns | _ => n end, v).
  Proof.
    intros Hn. induction 1 as [|l p b rows Hr H IH]; intros Hf Hc ls s columns Ht Hls Hcol; cbn [app] in Ht.
    - exists s. split; [assumption |]. split; [lia |]. split; [congruence |]. intros [|fuel] Hk; [lia |]. rewrite block_step. destruct Hls as [-> | (c & t & -> & Hcm)].
      + inversion Ht; subst. reflexivity.
      + assert (Hs : is_comment s) by (apply comment_form in Hcm as (u & ->); inversion Ht; subst; reflexivity). destruct (string_dec s "") as [-> | _]; [destruct Hs |]. destruct (comment_dec s); [reflexivity | contradiction].
    - inversion Hf as [|? ? Hlen Hf']; subst. inversion Hc as [|? ? Hcl Hc']; subst. destruct Hr as (w & ws & Hfi & ->). cbn [snd] in *. rewrite map_length in *.
      assert (Hl0 : l <> "") by (apply no_blank_line; eexists; exists w, ws; split; [exact Hfi | reflexivity]).
      assert (G : exists s', text_lines (b ++ ls) s' /\ (String.length s' < String.length s)%nat /\ s <> "" /\ ~ is_comment s /\ exists r, getline s = (l, r) /\ rest_of r = s').
      { inversion Ht as [|l' Hl Hn' E1 E2|l' ls' s' Hl H' E1 E2]; subst.
        - exists "". split; [constructor |]. split; [destruct s; [contradiction | cbn; lia] |]. split; [assumption |]. split; [assumption |]. exists None. split; [now apply getline_end | reflexivity].
        - exists s'. split; [assumption |]. split; [rewrite length_app; cbn; lia |]. split; [intros E; apply app_nil_inv in E as [_ E]; discriminate |]. split; [destruct l; [contradiction | exact Hcl] |]. exists (Some s'). split; [now apply getline_nl | reflexivity]. }
      destruct G as (s' & Ht' & Hlt & Hs0 & Hsc & r & Hg & Hrr). destruct (IH Hf' Hc' ls s' (List.length ws) Ht' Hls (or_intror eq_refl)) as (v & V1 & V2 & V3 & V4).
      exists v. split; [assumption |]. split; [lia |]. split; [lia |]. intros [|fuel] Hk; [lia |]. rewrite block_step. destruct (string_dec s "") as [? | _]; [contradiction |]. destruct (comment_dec s) as [? | _]; [contradiction |].
      rewrite Hg. rewrite (split_ok _ _ Hfi). cbn [map]. rewrite map_length. replace (Nat.eqb columns 0 || Nat.eqb (List.length ws) columns)%bool with true.
      2:{ symmetry. destruct Hcol as [-> | ->]; [reflexivity |]. rewrite Nat.eqb_refl. apply orb_true_r. }
      cbn [my_assert bind]. replace (if Nat.eqb columns 0 then List.length ws else columns) with (List.length ws).
      2:{ destruct Hcol as [-> | ->]; [reflexivity |]. destruct (Nat.eqb _ _); reflexivity. }
      rewrite Hrr, (V4 fuel) by lia. cbn [bind]. destruct b; reflexivity.
  Qed.
  Lemma hash_ok cs : Forall is_comment cs -> forall ls s, text_lines (cs ++ ls) s -> (ls = [] \/ exists l t, ls = l :: t /\ ~ is_comment l /\ l <> "") ->
    exists v, text_lines ls v /\ (String.length v <= String.length s)%nat /\ forall fuel, (String.length s <= fuel)%nat -> skip_hash fuel s = v.
  Proof.
    induction 1 as [|c cs Hc H IH]; intros ls s Ht Hls; cbn [app] in Ht.
    - exists s. split; [assumption |]. split; [lia |]. intros [|fuel] Hk; [reflexivity |]. rewrite skip_hash_step. destruct (comment_dec s) as [Hs | Hs]; [| reflexivity]. exfalso. destruct Hls as [-> | (l & t & -> & Hl & Hn)].
      + inversion Ht; subst. destruct Hs.
      + apply Hl. inversion Ht; subst; [assumption |]. destruct l as [|d l]; [contradiction | exact Hs].
    - pose proof (comment_form c Hc) as (u & Eu). assert (G : exists s', text_lines (cs ++ ls) s' /\ (String.length s' < String.length s)%nat /\ is_comment s /\ exists r, getline s = (c, r) /\ rest_of r = s').
      { inversion Ht as [|l' Hl Hn' E1 E2|l' ls' s' Hl H' E1 E2]; subst.
        - exists "". split; [constructor |]. split; [cbn; lia |]. split; [reflexivity |]. exists None. split; [now apply getline_end | reflexivity].
        - exists s'. split; [assumption |]. split; [cbn; rewrite length_app; cbn; lia |]. split; [reflexivity |]. exists (Some s'). split; [now apply getline_nl | reflexivity]. }
      destruct G as (s' & Ht' & Hlt & Hsc & r & Hg & Hrr). destruct (IH ls s' Ht' Hls) as (v & V1 & V2 & V3). exists v. split; [assumption |]. split; [lia |]. intros [|fuel] Hk; [lia |].
      rewrite skip_hash_step. destruct (comment_dec s); [| contradiction]. rewrite Hg. cbn [snd]. rewrite Hrr. apply V3. lia.
  Qed.
  (** Comments at the beginning. *)
  Lemma blocks_shape ls bs : line_blocks ls bs -> exists cs ls', ls = cs ++ ls' /\ Forall is_comment cs /\ line_blocks ls' bs /\ ((ls' = [] /\ bs = []) \/
    exists b rest bs', ls' = b ++ rest /\ bs = b :: bs' /\ b <> [] /\ Forall (fun l => ~ is_comment l) b /\ (rest = [] \/ exists c t, rest = c :: t /\ is_comment c) /\ line_blocks rest bs').
  Proof.
    induction 1 as [|l ls bs Hl H IH|b ls bs Hb Hf Hls H IH].
    - exists [], []. split; [reflexivity |]. split; [constructor |]. split; [constructor |]. now left.
    - destruct IH as (cs & ls' & -> & H1 & H2 & H3). exists (l :: cs), ls'. split; [reflexivity |]. split; [now constructor |]. split; [assumption | exact H3].
    - exists [], (b ++ ls). split; [reflexivity |]. split; [constructor |]. split; [now constructor |]. right. exists b, ls, bs. auto 10.
  Qed.
  Lemma blocks_ok n : (0 < n)%nat -> forall bs blocks, Forall2 (Forall2 row_values) bs blocks -> Forall (Forall (fun p => List.length (snd p) = n)) blocks ->
    forall ls s columns, line_blocks ls bs -> (bs <> [] -> exists l t, ls = l :: t /\ ~ is_comment l) -> (bs = [] -> ls = []) -> text_lines ls s -> columns = 0%nat \/ columns = n -> forall fuel, (String.length s < fuel)%nat ->
    blocks_loop V atof fuel columns s = Ok (blocks, match bs with [] => columns | _ => n end).
  Proof.
    intros Hn. induction 1 as [|b rows bs blocks Hb H IH]; intros Hf ls s columns Hlb Hne Hnil Ht Hcol [|fuel] Hk; try lia; cbn [blocks_loop].
    - rewrite (Hnil eq_refl) in Ht. inversion Ht; subst. reflexivity.
    - inversion Hf as [|? ? Hf1 Hf2]; subst. destruct (Hne ltac:(discriminate)) as (l0 & t0 & El0 & Hl0). destruct (blocks_shape ls _ Hlb) as (cs & ls' & Els & Hcs & _ & Hsh).
      assert (cs = []) by (destruct cs as [|c cs]; [reflexivity |]; exfalso; rewrite Els in El0; injection El0 as -> _; inversion Hcs; contradiction). subst cs. cbn in Els. subst ls'.
      destruct Hsh as [[_ Hsh] | (b' & rest & bs' & Els & Ebs & Hb0 & Hbc & Hrest & Hlr)]; [discriminate |]. injection Ebs as <- <-. rewrite Els in *. clear Hcs.
      destruct (block_ok n Hn b rows Hb Hf1 Hbc rest s columns Ht Hrest Hcol) as (v & V1 & V2 & V3 & V4). rewrite (V4 (S (String.length s))) by lia. cbn [bind].
      destruct b as [|l b]; [contradiction |]. destruct rows as [|p rows]; [inversion Hb |].
      destruct (blocks_shape rest bs Hlr) as (cs & ls' & -> & Hcs & Hlb' & Hsh).
      assert (Hsh' : ls' = [] \/ exists l t, ls' = l :: t /\ ~ is_comment l /\ l <> "").
      { destruct Hsh as [[-> _] | (b' & r' & bs' & -> & Ebs & Hb0' & Hbc' & _ & _)]; [now left |]. right. destruct b' as [|l' b']; [contradiction |]. exists l', (b' ++ r'). split; [reflexivity |]. inversion Hbc'; subst. split; [assumption |].
        inversion H as [|? ? ? ? Hrow _]; subst. inversion Hrow; subst. apply no_blank_line. eexists. eassumption. }
      destruct (hash_ok cs Hcs ls' v V1 Hsh') as (v' & W1 & W2 & W3). rewrite (W3 (String.length v)) by lia. specialize (V3 ltac:(discriminate)).
      destruct Hsh as [[-> ->] | (b' & r' & bs' & E1 & E2 & Hb0' & Hbc' & Hr' & Hlr')].
      + inversion W1; subst. inversion H; subst. reflexivity.
      + assert (Hv : v' <> "") by (destruct Hsh' as [-> | (x & y & -> & _ & Hx)]; [destruct b'; [contradiction | discriminate] |]; inversion W1; subst; [assumption |]; intros X; apply app_nil_inv in X as [_ X]; discriminate).
        destruct v' as [|cc uu] eqn:Ev; [contradiction |]. rewrite <- Ev in *. rewrite (IH Hf2 ls' v' n Hlb').
        * subst bs. reflexivity.
        * intros _. destruct Hsh' as [-> | (x & y & -> & Hx & _)]; [destruct b'; [contradiction | discriminate] | now exists x, y].
        * intros ->. discriminate.
        * assumption.
        * now right.
        * lia.
  Qed.
  Theorem load_blocks_ok n ls s bs blocks columns : (0 < n)%nat -> text_lines ls s -> line_blocks ls bs -> Forall2 (Forall2 row_values) bs blocks -> Forall (Forall (fun p => List.length (snd p) = n)) blocks ->
    columns = 0%nat \/ columns = n -> blocks <> [] -> load_blocks V atof columns s = Ok (blocks, n).
  Proof.
    intros Hn Ht Hlb H2 Hf Hcol Hne. unfold load_blocks. cbv zeta. destruct (blocks_shape ls bs Hlb) as (cs & ls' & -> & Hcs & Hlb' & Hsh).
    assert (Hbs : bs <> []) by (intros ->; inversion H2; subst; contradiction).
    destruct Hsh as [[_ ->] | (b & rest & bs' & -> & -> & Hb0 & Hbc & Hr & Hlr)]; [contradiction |].
    destruct b as [|l b]; [contradiction |]. assert (Hl : ~ is_comment l) by now inversion Hbc. assert (Hl0 : l <> "").
    { inversion H2 as [|? ? ? ? Hrow _]; subst. inversion Hrow; subst. apply no_blank_line. eexists. eassumption. }
    destruct (hash_ok cs Hcs ((l :: b) ++ rest) s Ht) as (v & V1 & V2 & V3); [right; exists l, (b ++ rest); auto |].
    rewrite (V3 (String.length s)) by lia. rewrite (blocks_ok n Hn _ _ H2 Hf ((l :: b) ++ rest) v columns Hlb'); auto.
    - intros _. exists l, (b ++ rest). auto.
    - discriminate.
  Qed.
End Lines.
(** ** The rows of all blocks are equally wide *)
Lemma block_width (V : Type) (atof : string -> V) fuel : forall columns s rows c s', block_loop V atof fuel columns s = Ok (rows, c, s') ->
  (columns <> 0%nat -> c = columns) /\ Forall (fun p => List.length (snd p) = c \/ columns = 0%nat /\ snd p = []) rows.
Proof.
  induction fuel as [|fuel IH]; intros columns s rows c s' H; [discriminate |]. rewrite block_step in H. destruct (string_dec s "") as [_ | _]; [injection H as <- <- <-; split; [reflexivity | constructor] |].
  destruct (comment_dec s) as [_ | _]; [injection H as <- <- <-; split; [reflexivity | constructor] |]. destruct (getline s) as [line r]. destruct (map atof (split_fields line)) as [|T values]; [discriminate |].
  destruct (Nat.eqb columns 0 || Nat.eqb (List.length values) columns)%bool eqn:Ec; [| discriminate]. cbn [my_assert bind] in H.
  destruct (block_loop V atof fuel (if Nat.eqb columns 0 then List.length values else columns) (rest_of r)) as [[[data c0] s2]| |] eqn:Er; cbn [bind] in H; try discriminate. injection H as <- <- <-.
  apply IH in Er as [E1 E2]. destruct (Nat.eqb_spec columns 0) as [-> | Hc]; cbn in *.
  - split; [congruence |]. constructor.
    + destruct values as [|v values]; [right; split; reflexivity |]. left. symmetry. apply E1. discriminate.
    + eapply Forall_impl; [| exact E2]. intros p [Hp | [_ Hp]]; auto.
  - apply Nat.eqb_eq in Ec. split; [exact E1 |]. constructor; [left; rewrite E1 by assumption; exact Ec |]. eapply Forall_impl; [| exact E2]. intros p [Hp | [Hp _]]; [now left | contradiction].
Qed.
Lemma blocks_width (V : Type) (atof : string -> V) fuel : forall columns s blocks c, blocks_loop V atof fuel columns s = Ok (blocks, c) ->
  (columns <> 0%nat -> c = columns) /\ Forall (Forall (fun p => List.length (snd p) = c \/ columns = 0%nat /\ snd p = [])) blocks.
Proof.
  induction fuel as [|fuel IH]; intros columns s blocks c H; [discriminate |]. cbn [blocks_loop] in H. destruct (block_loop V atof (S (String.length s)) columns s) as [[[data c0] s1]| |] eqn:Eb; cbn [bind] in H; try discriminate.
  apply block_width in Eb as [B1 B2]. assert (A : forall l c', (c0 <> 0%nat -> c' = c0) -> Forall (Forall (fun p => List.length (snd p) = c' \/ columns = 0%nat /\ snd p = [])) l -> Forall (Forall (fun p => List.length (snd p) = c' \/ columns = 0%nat /\ snd p = [])) (match data with [] => l | _ => data :: l end)).
  { intros l c' Hc Hl. destruct data as [|p data]; [assumption |]. constructor; [| assumption]. eapply Forall_impl; [| exact B2]. intros q [Hq | Hq]; [| now right].
    destruct (Nat.eq_dec c0 0) as [E | E]; [| left; rewrite Hc; assumption]. destruct (Nat.eq_dec columns 0) as [E' | E']; [| specialize (B1 E'); congruence]. right. split; [assumption |]. destruct (snd q); [reflexivity | rewrite E in Hq; discriminate]. }
  destruct (skip_hash (String.length s1) s1) as [|a t].
  - injection H as <- <-. split; [exact B1 |]. apply A; [reflexivity | constructor].
  - destruct (blocks_loop V atof fuel c0 (String a t)) as [[l c']| |] eqn:El; cbn [bind] in H; try discriminate. injection H as <- <-. apply IH in El as [L1 L2]. split.
    + intros Hc. specialize (B1 Hc). rewrite L1; congruence.
    + apply A; [assumption |]. eapply Forall_impl; [| exact L2]. intros b Hb. eapply Forall_impl; [| exact Hb]. intros q [Hq | [Hq1 Hq2]]; [now left |].
      destruct (Nat.eq_dec columns 0) as [E' | E']; [now right |]. specialize (B1 E'). congruence.
Qed.
Theorem load_width (V : Type) (atof : string -> V) columns s blocks c : load_blocks V atof columns s = Ok (blocks, c) -> columns <> 0%nat -> c = columns /\ Forall (Forall (fun p => List.length (snd p) = columns)) blocks.
Proof.
  intros H Hc. apply blocks_width in H as [H1 H2]. specialize (H1 Hc). split; [assumption |]. eapply Forall_impl; [| exact H2]. intros b Hb. eapply Forall_impl; [| exact Hb]. intros q [Hq | [Hq _]]; congruence.
Qed.
Theorem halves_form (V : Type) (atof : string -> V) zero lt neg : strict_order V lt -> forall ls s l positive, text_lines ls s -> Forall2 (row_of V atof) (filter data_line ls) l ->
  (forall p, In p l -> on_side V lt zero positive (fst p) = true -> lt (snd p) zero = false) -> (exists p, In p l /\ on_side V lt zero positive (fst p) = true) ->
  exists r, load_rho V atof zero lt neg positive s = Ok r /\ StronglySorted (before V lt) r /\
    Permutation r (map (fun p => ((if positive then fst p else neg (fst p)), snd p)) (filter (fun p => on_side V lt zero positive (fst p)) l)).
Proof.
  intros (O1 & O2 & O3) ls s l positive H1 H2 H3 ([x y] & H4 & H5). apply (load_rho_ok V atof zero lt neg O1 O2 O3 ls s l positive H1 H2).
  - intros a b Hin. apply (H3 (a, b) Hin).
  - now exists x, y.
Qed.
Theorem halves_bad (V : Type) (atof : string -> V) zero lt neg : forall ls s l positive, text_lines ls s -> Forall2 (row_of V atof) (filter data_line ls) l ->
  (exists p, In p l /\ on_side V lt zero positive (fst p) = true /\ lt (snd p) zero = true) \/ (forall p, In p l -> on_side V lt zero positive (fst p) = false) ->
  load_rho V atof zero lt neg positive s = Throw.
Proof.
  intros ls s l positive H1 H2 H3. apply (load_rho_bad V atof zero lt neg ls s l positive H1 H2). destruct H3 as [([x y] & A & B & C) | H3]; [left; now exists x, y | right; intros x y Hin; apply (H3 (x, y) Hin)].
Qed.
