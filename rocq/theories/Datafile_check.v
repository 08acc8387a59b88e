(** Whatever the file: no undefined behaviour, and what is accepted is consistent. *)
From Coq Require Import List ZArith Ascii String Bool Lia.
From Verif Require Import Base Oprecalc_model Oprecalc_spec Oprecalc_words Datafile_model Datafile_spec Datafile_parse Datafile_read.
Import ListNotations.
Local Open Scope string_scope.
Local Open Scope list_scope.

Definition safe {A} (p : parser A) (P : A -> Prop) : Prop :=
  forall s, match p s with Ok (v, r) => (String.length r <= String.length s)%nat /\ P v | Throw => True | UB => False end.
Lemma safe_weaken {A} (p : parser A) (P P' : A -> Prop) : (forall v, P v -> P' v) -> safe p P -> safe p P'.
Proof. intros H Hp s. specialize (Hp s). destruct (p s) as [[v r] | |]; auto. destruct Hp; auto. Qed.
Lemma safe_bind {A B} (p : parser A) (f : A -> parser B) P P' : safe p P -> (forall v, P v -> safe (f v) P') -> safe (fun s => let* (x, s1) := p s in f x s1) P'.
Proof.
  intros Hp Hf s. specialize (Hp s). destruct (p s) as [[v r] | |]; cbn [bind]; auto. destruct Hp as [L Hv]. specialize (Hf v Hv r).
  destruct (f v r) as [[u q] | |]; auto. destruct Hf. split; [lia | assumption].
Qed.
Lemma safe_ret {A} (v : A) (P : A -> Prop) : P v -> safe (fun s => Ok (v, s)) P.
Proof. intros H s. split; [lia | assumption]. Qed.
Lemma safe_assert {A} (b : bool) (p : parser A) P : (b = true -> safe p P) -> safe (fun s => let* _ := my_assert b in p s) P.
Proof. intros H s. destruct b; cbn; [apply H; reflexivity | exact Logic.I]. Qed.
Lemma skip_ws_length s : (String.length (skip_ws s) <= String.length s)%nat.
Proof. induction s as [|c s IH]; cbn; [lia |]. destruct (blank c); cbn; lia. Qed.
Lemma safe_one {A} (scan : string -> option (A * string)) : consumes scan -> safe (read_one scan) (fun _ => True).
Proof.
  intros H s. unfold read_one. destruct (scan (skip_ws s)) as [[v r] |] eqn:E; [| exact Logic.I]. apply H in E. pose proof (skip_ws_length s). split; [lia | exact Logic.I].
Qed.
Lemma safe_n {A} n (p : parser A) (P : A -> Prop) : safe p P -> safe (read_n n p) (fun l => List.length l = n /\ forall x, In x l -> P x).
Proof.
  intros Hp. induction n as [|n IH]; cbn [read_n].
  - apply safe_ret. split; [reflexivity | intros x []].
  - apply (safe_bind p _ P); [assumption |]. intros v Hv. eapply safe_bind; [exact IH |]. cbn beta. intros l [L Hl]. apply safe_ret. cbn. split; [now rewrite L |].
    intros x [<- | Hx]; auto.
Qed.
Lemma getline_length s l r : getline s = (l, Some r) -> (String.length r < String.length s)%nat.
Proof.
  revert l. induction s as [|c s IH]; intros l; cbn; [discriminate |]. destruct (Ascii.eqb c newline).
  - intros E. injection E as <- <-. lia.
  - destruct (getline s) as [l' r'] eqn:E. intros E'. injection E' as <- ->. specialize (IH l' eq_refl). lia.
Qed.
Lemma getline_rest s : (String.length (rest_of (snd (getline s))) <= String.length s)%nat.
Proof. destruct (getline s) as [l [r|]] eqn:E; cbn; [apply getline_length in E; lia | lia]. Qed.
Lemma ignore_length s : (String.length (ignore_newline s) <= String.length s)%nat.
Proof. destruct s as [|c s]; cbn; [lia |]. destruct (Ascii.eqb c newline); cbn; lia. Qed.
Lemma skip_comments_length b s : (String.length (skip_comments_aux b s) <= String.length s)%nat.
Proof.
  revert b. induction s as [|c s IH]; intros b; cbn; [lia |]. destruct b; [specialize (IH (negb (Ascii.eqb c newline))); lia |].
  destruct (_ || _)%bool; [specialize (IH false); lia |]. destruct (Ascii.eqb c "#"); [specialize (IH true); lia | cbn; lia].
Qed.
Lemma map_set_names {K A} (eqb : K -> K -> bool) (k : K) (v : A) m : (forall x y, eqb x y = true <-> x = y) ->
  (In k (map fst m) -> map fst (map_set eqb k v m) = map fst m) /\ (~ In k (map fst m) -> map fst (map_set eqb k v m) = map fst m ++ [k]).
Proof.
  intros He. induction m as [|(k', v') m [I1 I2]]; cbn; [tauto |]. destruct (eqb k' k) eqn:E; cbn; split; intros H.
  - reflexivity.
  - exfalso. apply H. left. now apply He.
  - destruct H as [H | H]; [rewrite (proj2 (He k' k) H) in E; discriminate |]. now rewrite I1.
  - now rewrite I2 by tauto.
Qed.
Lemma map_set_nodup {K A} (eqb : K -> K -> bool) (k : K) (v : A) m : (forall x y, eqb x y = true <-> x = y) -> NoDup (map fst m) -> NoDup (map fst (map_set eqb k v m)).
Proof.
  intros He Hn. destruct (map_set_names eqb k v m He) as [I1 I2]. destruct (existsb (fun x => eqb x k) (map fst m)) eqn:E.
  - apply existsb_exists in E as (x & Hx & E). apply He in E as ->. now rewrite I1.
  - assert (~ In k (map fst m)). { intros Hk. assert (existsb (fun x => eqb x k) (map fst m) = true); [| congruence]. apply existsb_exists. exists k. split; [assumption | now apply He]. }
    rewrite I2 by assumption. apply NoDup_Add with (a := k) (l := map fst m); [| now split]. rewrite <- (List.app_nil_r (map fst m)) at 1. apply Add_app.
Qed.
Lemma map_set_in {K A} (eqb : K -> K -> bool) (k : K) (v : A) m k' v' : (forall x y, eqb x y = true <-> x = y) ->
  In (k', v') (map_set eqb k v m) -> (k' = k /\ v' = v) \/ In (k', v') m.
Proof.
  intros He. induction m as [|(x, y) m IH]; cbn.
  - intros [E | []]. injection E as <- <-. auto.
  - destruct (eqb x k) eqn:E; cbn; intros [H | H].
    + injection H as <- <-. apply He in E. auto.
    + auto.
    + auto.
    + destruct (IH H); auto.
Qed.
Lemma map_get_has {K A} (eqb : K -> K -> bool) (k : K) (v : A) m : (forall x y, eqb x y = true <-> x = y) -> map_get eqb k m = Some v -> In (k, v) m.
Proof.
  intros He. unfold map_get. destruct (find _ m) as [[k' v'] |] eqn:E; [| discriminate]. apply find_some in E as [Hin E]. apply He in E. cbn in *. intros X. injection X as ->. now subst.
Qed.

Section Check.
  Variables (R V : Type) (scan_nat : string -> option (nat * string)) (scan_int : string -> option (Z * string))
    (scan_R : string -> option (R * string)) (scan_V : string -> option (V * string)) (finite : V -> bool) (rescale : R -> R).
  Hypotheses (Hn : consumes scan_nat) (Hi : consumes scan_int) (HR : consumes scan_R) (HV : consumes scan_V).
  Notation elements := (list ((list Z * list Z) * list (list V))).
  Variable Q : dparams.

  Lemma safe_invar : safe (read_invar scan_int Q) (fun i => List.length i = q_invdim Q).
  Proof. eapply safe_weaken; [| apply safe_n, safe_one, Hi]. cbn. tauto. Qed.
  Lemma safe_vector {A} (scan : string -> option (A * string)) b : consumes scan -> safe (read_std_vector scan_nat scan b) (fun _ => True).
  Proof.
    intros H. unfold read_std_vector. eapply (safe_bind _ (fun nr => read_n (if b then nr + 1 else nr)%nat (read_one scan))); [apply safe_one, Hn |]. intros nr _.
    eapply safe_weaken; [| apply safe_n, safe_one, H]. auto.
  Qed.
  Definition good_diag (d : list (list Z * list R)) : Prop := NoDup (map fst d) /\ forall i e, In (i, e) d -> List.length i = q_invdim Q.
  Lemma safe_subspaces n d : good_diag d -> safe (read_subspaces R scan_nat scan_int scan_R rescale Q n d) good_diag.
  Proof.
    revert d. induction n as [|n IH]; intros d Hd; cbn [read_subspaces]; [now apply safe_ret |].
    eapply safe_bind; [apply safe_invar |]. cbn beta. intros i Li. eapply safe_bind; [apply (safe_vector scan_R false HR) |]. cbn beta. intros e _. apply IH.
    destruct Hd as [H1 H2]. split; [apply map_set_nodup; [apply invar_eqb_iff | assumption] |]. intros i' e' H. apply map_set_in in H as [[-> _] | H]; [assumption | now apply (H2 i' e') | apply invar_eqb_iff].
  Qed.
  Lemma safe_diag n : safe (read_diag R scan_nat scan_int scan_R rescale Q n) (fun d => good_diag d /\ List.length d = n).
  Proof.
    assert (G : good_diag []) by (split; [constructor | intros ? ? []]).
    intros s. pose proof (safe_subspaces n [] G (skip_comments s)) as H. unfold read_diag. destruct (read_subspaces _ _ _ _ _ _ _ _ _) as [[d r] | |]; cbn [bind]; auto.
    destruct H as [L H]. destruct (Nat.eqb_spec (List.length d) n); cbn [my_assert bind]; auto. split; [| auto]. unfold skip_comments in L. pose proof (skip_comments_length false s). lia.
  Qed.
  Lemma safe_element : safe (read_element V scan_V finite) (fun v => finite v = true).
  Proof.
    unfold read_element. eapply (safe_bind _ (fun x s1 => let* _ := my_assert (finite x) in Ok (x, s1))); [apply safe_one, HV |]. intros v _.
    apply (safe_assert (finite v) (fun s1 => Ok (v, s1))). intros F. now apply safe_ret.
  Qed.
  Lemma safe_matrix n1 n2 : safe (read_matrix V scan_V finite n1 n2) (fun m => List.length m = n1 /\ forall row, In row m -> List.length row = n2 /\ forall v, In v row -> finite v = true).
  Proof. unfold read_matrix. apply safe_n. apply safe_n. apply safe_element. Qed.
  Section Elements.
    Variable d : list (list Z * list R).
    Lemma safe_pairs n m : good_elements R V finite d m -> safe (read_pairs R V scan_int scan_V finite Q d n m) (good_elements R V finite d).
    Proof.
      revert m. induction n as [|n IH]; intros m Hm; cbn [read_pairs]; [now apply safe_ret |].
      eapply safe_bind; [apply safe_invar |]. cbn beta. intros i1 _. eapply safe_bind; [apply safe_invar |]. cbn beta. intros i2 _.
      destruct (map_get invar_eqb i1 d) as [e1 |] eqn:E1; [| intros s; exact Logic.I]. destruct (map_get invar_eqb i2 d) as [e2 |] eqn:E2; [| intros s; exact Logic.I].
      eapply safe_bind; [apply safe_matrix |]. cbn beta. intros x [L1 L2]. apply IH. destruct Hm as [H1 H2]. split; [apply map_set_nodup; [apply key_eqb_iff | assumption] |].
      intros j1 j2 y H. apply map_set_in in H as [[E ->] | H]; [| now apply H2 | apply key_eqb_iff]. injection E as -> ->.
      exists e1, e2. apply map_get_has in E1; [| apply invar_eqb_iff]. apply map_get_has in E2; [| apply invar_eqb_iff]. auto.
    Qed.
    Lemma safe_elements : safe (read_elements R V scan_nat scan_int scan_V finite Q d) (good_elements R V finite d).
    Proof.
      unfold read_elements. eapply safe_bind; [apply safe_one, Hn |]. cbn beta. intros nf _.
      eapply safe_bind; [apply safe_pairs; split; [constructor | intros ? ? ? []] |]. cbn beta. intros m Hm.
      apply (safe_assert (Nat.eqb (List.length m) nf) (fun s2 => Ok (m, s2))). intros _. now apply safe_ret.
    Qed.
    Lemma scan_char_consumes : consumes scan_char.
    Proof. intros s v r. destruct s; cbn; [discriminate |]. intros E. injection E as <- <-. lia. Qed.
    Lemma safe_f : safe (read_f R V scan_nat scan_int scan_V finite Q d) (good_elements R V finite d).
    Proof.
      unfold read_f. eapply safe_bind; [apply safe_one, scan_char_consumes |]. cbn beta. intros ch _.
      eapply (safe_bind _ (fun _ s2 => let* (_, s3) := read_one scan_nat s2 in _)); [apply safe_one, Hn |]. intros _ _.
      eapply (safe_bind _ (fun _ s3 => let* _ := _ in read_elements R V scan_nat scan_int scan_V finite Q d s3)); [apply safe_one, Hn |]. intros _ _.
      apply safe_assert. intros _. apply safe_elements.
    Qed.
    Lemma safe_opch channels per : safe (read_opch R V scan_nat scan_int scan_V finite Q d channels per)
      (fun f => List.length f = channels /\ forall l, In l f -> List.length l = per /\ forall m, In m l -> good_elements R V finite d m).
    Proof.
      intros s. unfold read_opch. pose proof (safe_n channels _ _ (safe_n per _ _ safe_f) (skip_comments s)) as H. destruct (read_n _ _ _) as [[f r] | |]; auto.
      destruct H as [L H]. split; [| exact H]. unfold skip_comments in L. pose proof (skip_comments_length false s). lia.
    Qed.

    Variable nc : nat.
    Lemma safe_tables : safe (read_tables V scan_nat scan_V nc) (fun t => List.length t = nc).
    Proof. eapply safe_weaken; [| apply safe_n, (safe_vector scan_V true HV)]. cbn. tauto. Qed.
    Definition good_blocks (b : blocks R V) : Prop :=
      (forall t n m, In (n, m) (set_of elements (b_ops R V b) t) -> good_elements R V finite d m) /\
      (forall t, In t [b_xi R V b; b_zeta R V b; b_delta R V b; b_kappa R V b; b_xiR R V b; b_zetaR R V b; b_ep R V b; b_em R V b; b_u0p R V b; b_u0m R V b] ->
         t = [] \/ List.length t = nc).
    Lemma good_with_gs b x : good_blocks b -> good_blocks (with_gs R V b x).
    Proof. intros [H1 H2]. split; assumption. Qed.
    Lemma good_with_ops b t n m : good_blocks b -> good_elements R V finite d m -> good_blocks (with_ops R V b (set_op V t n m (b_ops R V b))).
    Proof.
      intros [H1 H2] Hm. split; [| exact H2]. intros t' n' m' H.
      assert (E : set_of elements (set_op V t n m (b_ops R V b)) t' = if optype_eqb t t' then map_set String.eqb n m (set_of elements (b_ops R V b) t') else set_of elements (b_ops R V b) t')
        by (destruct t'; reflexivity).
      cbn [b_ops with_ops] in H. rewrite E in H. destruct (optype_eqb t t'); [| now apply (H1 t' n')].
      apply map_set_in in H as [[_ ->] | H]; [assumption | now apply (H1 t' n') | apply String.eqb_eq].
    Qed.
    Ltac tables H2 := intros u Hu; cbn in Hu; repeat match type of Hu with _ \/ _ => destruct Hu as [Hu | Hu] end; try contradiction;
      subst u; try (now right); apply H2; cbn; tauto.
    Lemma good_with_z b x y : good_blocks b -> List.length x = nc -> List.length y = nc -> good_blocks (with_z R V b x y).
    Proof. intros [H1 H2] Hx Hy. split; [exact H1 |]. tables H2. Qed.
    Lemma good_with_Z b x y : good_blocks b -> List.length x = nc -> List.length y = nc -> good_blocks (with_Z R V b x y).
    Proof. intros [H1 H2] Hx Hy. split; [exact H1 |]. tables H2. Qed.
    Lemma good_with_X b x y : good_blocks b -> List.length x = nc -> List.length y = nc -> good_blocks (with_X R V b x y).
    Proof. intros [H1 H2] Hx Hy. split; [exact H1 |]. tables H2. Qed.
    Lemma good_with_T b x y z w : good_blocks b -> List.length x = nc -> List.length y = nc -> List.length z = nc -> List.length w = nc -> good_blocks (with_T R V b x y z w).
    Proof. intros [H1 H2] Hx Hy Hz Hw. split; [exact H1 |]. tables H2. Qed.

    Notation blocks_at := (read_blocks R V scan_nat scan_int scan_R scan_V finite).
    Definition bsafe (r : res (blocks R V)) : Prop := match r with Ok b => good_blocks b | Throw => True | UB => False end.
    Lemma bsafe_bind {A} (p : parser A) P (k : A -> string -> res (blocks R V)) s : safe p P ->
      (forall v r, P v -> (String.length r <= String.length s)%nat -> bsafe (k v r)) -> bsafe (let* (x, s1) := p s in k x s1).
    Proof. intros Hp Hk. specialize (Hp s). destruct (p s) as [[v r] | |]; cbn [bind]; auto. destruct Hp. now apply Hk. Qed.
    Lemma safe_blocks fuel : forall b s, (String.length s <= fuel)%nat -> good_blocks b -> bsafe (blocks_at fuel Q d nc b s).
    Proof.
      induction fuel as [|fuel IH]; intros b s L Hb; cbn [read_blocks].
      - destruct s; [exact Hb | cbn in L; lia].
      - pose proof (skip_ws_length s) as L1. destruct (skip_ws s) as [|ch s0]; [exact Hb |]. destruct (getline s0) as [name [s1 |]] eqn:Eg; [| exact Hb]. apply getline_length in Eg. cbn [String.length] in L1.
        destruct (Ascii.eqb ch "#"); [apply IH; [lia | assumption] |].
        destruct (Ascii.eqb ch "e"); [eapply bsafe_bind; [apply safe_one, HR |]; intros v r _ Lr; apply IH; [lia | now apply good_with_gs] |].
        destruct (op_letter ch) as [t |].
        { eapply bsafe_bind; [apply safe_elements |]. intros m r Hm Lr. apply IH; [lia | now apply good_with_ops]. }
        destruct (Ascii.eqb ch "z").
        { eapply bsafe_bind; [apply safe_tables |]. intros x r1 X1 L2. eapply bsafe_bind; [apply safe_tables |]. intros y r2 X2 L3. apply IH; [lia | now apply good_with_z]. }
        destruct (Ascii.eqb ch "Z").
        { eapply bsafe_bind; [apply safe_tables |]. intros x r1 X1 L2. eapply bsafe_bind; [apply safe_tables |]. intros y r2 X2 L3. apply IH; [lia | now apply good_with_Z]. }
        destruct (Ascii.eqb ch "X").
        { eapply bsafe_bind; [apply safe_tables |]. intros x r1 X1 L2. eapply bsafe_bind; [apply safe_tables |]. intros y r2 X2 L3. apply IH; [lia | now apply good_with_X]. }
        destruct (Ascii.eqb ch "T"); [| exact Logic.I].
        eapply bsafe_bind; [apply safe_tables |]. intros x r1 X1 L2. eapply bsafe_bind; [apply safe_tables |]. intros y r2 X2 L3.
        eapply bsafe_bind; [apply safe_tables |]. intros z r3 X3 L4. eapply bsafe_bind; [apply safe_tables |]. intros w r4 X4 L5. apply IH; [lia | now apply good_with_T].
    Qed.
  End Elements.

  Lemma safe_header_lines fuel : forall sym ver s, (String.length s <= fuel)%nat ->
    match read_header_lines scan_int fuel sym ver s with Ok (_, r) => (String.length r <= String.length s)%nat | Throw => True | UB => False end.
  Proof.
    induction fuel as [|fuel IH]; intros sym ver s L.
    - destruct s; cbn in *; [lia | lia].
    - destruct s as [|c s1]; [cbn; lia |].
      destruct (Ascii.eqb_spec c "#") as [-> | Hc].
      2:{ destruct c as [[] [] [] [] [] [] [] []]; cbn; try lia. now contradiction Hc. }
      cbn [String.length] in *. destruct (match s1 with String c2 _ => Ascii.eqb c2 "!" | "" => false end) eqn:E.
      + destruct s1 as [|c2 s2]; [discriminate |]. apply Ascii.eqb_eq in E as ->. cbn [read_header_lines String.length] in *. pose proof (safe_one _ Hi s2) as H.
        destruct (read_one scan_int s2) as [[v s3] | |]; cbn [bind]; auto. destruct H as [L3 _]. pose proof (ignore_length s3).
        specialize (IH sym (Some v) (ignore_newline s3) ltac:(lia)). destruct (read_header_lines _ _ _ _ _) as [[? r] | |]; auto. lia.
      + pose proof (getline_rest s1) as Lg. pose proof (ignore_length (rest_of (snd (getline s1)))).
        assert (E2 : read_header_lines scan_int (S fuel) sym ver (String "#" s1) = read_header_lines scan_int fuel (symtype_of_line (fst (getline s1)) sym) ver (ignore_newline (rest_of (snd (getline s1))))).
        { cbn [read_header_lines]. rewrite (surjective_pairing (getline s1)). cbn [fst snd]. destruct s1 as [|c2 s2]; [reflexivity |].
          destruct c2 as [[] [] [] [] [] [] [] []]; try reflexivity. discriminate. }
        rewrite E2. specialize (IH (symtype_of_line (fst (getline s1)) sym) ver (ignore_newline (rest_of (snd (getline s1)))) ltac:(lia)).
        destruct (read_header_lines _ _ _ _ _) as [[? r] | |]; auto. lia.
  Qed.
  Lemma safe_header : safe (read_data_header scan_nat scan_int) (fun _ => True).
  Proof.
    intros s. unfold read_data_header. pose proof (safe_header_lines (String.length s) "" None s (le_n _)) as H.
    destruct (read_header_lines _ _ _ _ _) as [[[sym ver] s1] | |]; cbn [bind]; auto. destruct (match ver with Some v => Z.eqb v 9 | None => false end); cbn [my_assert bind]; auto.
    pose proof (safe_one _ Hn s1) as H1. destruct (read_one scan_nat s1) as [[a r1] | |]; cbn [bind]; auto. destruct H1 as [H1 _].
    pose proof (safe_one _ Hn r1) as H2. destruct (read_one scan_nat r1) as [[b r2] | |]; cbn [bind]; auto. destruct H2 as [H2 _].
    pose proof (safe_one _ Hn r2) as H3. destruct (read_one scan_nat r2) as [[c r3] | |]; cbn [bind]; auto. destruct H3 as [H3 _]. split; [lia | exact Logic.I].
  Qed.

  Theorem data_checked s : match read_data R V scan_nat scan_int scan_R scan_V finite rescale Q s with Ok d => consistent R V finite Q d | Throw => True | UB => False end.
  Proof.
    unfold read_data. pose proof (safe_header s) as H. destruct (read_data_header _ _ s) as [[h s1] | |]; cbn [bind]; auto. clear H.
    destruct (String.eqb_spec (h_symtype h) (q_symtype Q)) as [Es |]; cbn [my_assert bind]; auto.
    destruct (Nat.leb_spec 1 (h_channels h)) as [Lc |]; cbn [my_assert bind]; auto.
    pose proof (safe_diag (h_nsubs h) s1) as H. destruct (read_diag _ _ _ _ _ _ _ _) as [[d s2] | |]; cbn [bind]; auto. destruct H as [_ [[D1 D2] D3]].
    pose proof (safe_opch d (h_channels h) (perchannel (h_symtype h)) s2) as H. destruct (read_opch _ _ _ _ _ _ _ _ _ _ _) as [[f s3] | |]; cbn [bind]; auto. destruct H as [_ [F1 F2]].
    assert (G0 : good_blocks d (coefchannels Q (h_channels h)) (no_blocks R V)).
    { split; [intros t n m H; destruct t; destruct H |]. intros t H. left. cbn in H. repeat match type of H with _ \/ _ => destruct H as [H | H] end; try contradiction; now subst. }
    pose proof (safe_blocks d (coefchannels Q (h_channels h)) (String.length s3) (no_blocks R V) s3 (le_n _) G0) as H. unfold bsafe in H.
    destruct (read_blocks _ _ _ _ _ _ _ _ _ _ _ _ _) as [b | |]; cbn [bind]; auto. destruct H as [B1 B2].
    unfold check_length. destruct (b_xi R V b) as [|[|t0 l] r] eqn:Ex; cbn [bind]; auto. destruct (Nat.eqb_spec (List.length l) (h_Nmax h)) as [El |]; cbn [my_assert bind]; auto.
    unfold consistent. cbn [d_diag d_blocks d_opch d_channels d_Nmax]. rewrite Es, perchannel_expected in F2. rewrite coefchannels_expected in B2. rewrite Ex in *.
    split; [assumption |]. split; [assumption |]. split; [assumption |]. split; [assumption |]. split; [assumption |]. split; [assumption |]. split; [assumption |].
    now exists t0, l, r.
  Qed.
End Check.

(** ** Headers that are refused *)
Section Refused.
  Variables (R V : Type) (scan_nat : string -> option (nat * string)) (scan_int : string -> option (Z * string))
    (scan_R : string -> option (R * string)) (scan_V : string -> option (V * string)) (finite : V -> bool) (rescale : R -> R).
  Notation reads := (read_data R V scan_nat scan_int scan_R scan_V finite rescale).
  Lemma fold_ver_none l sym : (forall w, ~ In (HVersion w) l) -> snd (fold_left (hstep scan_int) l (sym, None)) = None.
  Proof. apply fold_ver_other. Qed.
  Theorem version_refused Q l s rest : header_text l s rest -> (forall w, In (HVersion w) l -> exists v, shows scan_int v w) ->
    ((forall w, ~ In (HVersion w) l) \/ exists l1 w l2 v, l = l1 ++ HVersion w :: l2 /\ shows scan_int v w /\ v <> 9%Z /\ forall w', ~ In (HVersion w') l2) ->
    reads Q s = Throw.
  Proof.
    intros Hh Hv Hbad. unfold read_data, read_data_header. rewrite (header_lines scan_int _ _ _ Hh Hv) by (eapply header_length; eassumption). cbn [bind].
    destruct Hbad as [H0 | (l1 & w & l2 & v & -> & Sw & Hne & Hl)].
    - rewrite fold_ver_none by assumption. reflexivity.
    - rewrite fold_left_app. cbn [fold_left]. destruct (fold_left (hstep scan_int) l1 ("", None)) as (x, y). cbn [hstep fst snd].
      rewrite fold_ver_other by assumption. rewrite (shows_alone _ _ _ Sw). apply Z.eqb_neq in Hne. rewrite Hne. reflexivity.
  Qed.
  Theorem symtype_refused Q l sym s rest : consumes scan_nat -> header_text l s rest -> good_header scan_int l sym -> sym <> q_symtype Q -> reads Q s = Throw.
  Proof.
    intros Hc Hh Hg Hne. unfold read_data. rewrite (header_after scan_nat scan_int l sym s rest Hg Hh). unfold after_header.
    pose proof (safe_one _ Hc rest) as H. destruct (read_one scan_nat rest) as [[a r1] | |]; cbn [bind]; [| reflexivity | destruct H]. clear H.
    pose proof (safe_one _ Hc r1) as H. destruct (read_one scan_nat r1) as [[b r2] | |]; cbn [bind]; [| reflexivity | destruct H]. clear H.
    pose proof (safe_one _ Hc r2) as H. destruct (read_one scan_nat r2) as [[c r3] | |]; cbn [bind]; [| reflexivity | destruct H].
    cbn [h_symtype]. apply String.eqb_neq in Hne. rewrite Hne. reflexivity.
  Qed.
End Refused.
