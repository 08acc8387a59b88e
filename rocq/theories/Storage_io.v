(** Crash and failure analysis of saving and loading. *)
From Coq Require Import List ZArith Lia Bool String Ascii Sorted DecimalString DecimalNat.
From Verif Require Import Base Invar_model Subspaces_model Storage_model Storage_spec.
Import ListNotations.
Local Open Scope string_scope.
Local Open Scope list_scope.
Local Open Scope Z_scope.

Section IOP.
  Context {T : Type}.
  Implicit Types w : world T.

  Definition same_but (t : string) w w' : Prop := forall g, g <> t -> w_fs w' g = w_fs w g.
  Lemma same_refl t w : same_but t w w. Proof. intros g _; reflexivity. Qed.
  Lemma same_trans t w1 w2 w3 : same_but t w1 w2 -> same_but t w2 w3 -> same_but t w1 w3.
  Proof. intros H1 H2 g Hg. rewrite H2, H1; auto. Qed.

  (** The stream is open on [t]; file contents followed by buffer contents are [s]. *)
  Definition sent (t : string) (s : bytes) w : Prop := exists c pend, w_out w = Some (t, pend) /\ w_fs w t = Some c /\ c ++ pend = s.
  (** The stream, if any, is open on [t]. *)
  Definition stream_on (t : string) w : Prop := match w_out w with Some (f, _) => f = t | None => True end.

  Lemma sent_on t s w : sent t s w -> stream_on t w.
  Proof. intros (c & pend & H & _). unfold stream_on. rewrite H. reflexivity. Qed.

  Lemma next_fs w e w1 : next_event w = (e, w1) -> w_fs w1 = w_fs w /\ w_out w1 = w_out w /\ w_bad w1 = w_bad w /\ w_mem w1 = w_mem w /\ w_left w1 = w_left w.
  Proof. unfold next_event. destruct (w_ev w); intros H; inversion H; subst; cbn; auto 10. Qed.

  Lemma push_same t k w : stream_on t w -> same_but t w (push k w) /\ stream_on t (push k w) /\ w_bad (push k w) = w_bad w.
  Proof.
    unfold stream_on, push. destruct (w_out w) as [[f pend]|] eqn:E.
    - intros ->. split; [|split; reflexivity]. intros g Hg. cbn. unfold upd. destruct (String.eqb g t) eqn:Eg; [apply String.eqb_eq in Eg; contradiction|reflexivity].
    - intros _. rewrite E. split; [apply same_refl|auto].
  Qed.
  Lemma push_sent t s k w : sent t s w -> sent t s (push k w).
  Proof.
    intros (c & pend & E1 & E2 & E3). unfold push. rewrite E1, E2. exists (c ++ firstn k pend), (skipn k pend). cbn.
    split; [reflexivity|]. unfold upd. rewrite String.eqb_refl. split; [reflexivity|]. rewrite <- app_assoc, firstn_skipn. exact E3.
  Qed.
  Lemma push_all_sent t s w : sent t s w -> w_fs (push_all w) t = Some s /\ same_but t w (push_all w) /\ stream_on t (push_all w) /\ w_bad (push_all w) = w_bad w.
  Proof.
    intros H. pose proof (sent_on _ _ _ H) as Ho. destruct H as (c & pend & E1 & E2 & E3). unfold push_all. rewrite E1.
    pose proof (push_same t (List.length pend) w Ho) as (A & B & D). split; [|auto].
    unfold push. rewrite E1, E2. cbn. unfold upd. rewrite String.eqb_refl, firstn_all. rewrite <- E3; reflexivity.
  Qed.

  Lemma open_out_spec t w o w' : open_out t w = (o, w') -> same_but t w w' /\ stream_on t w' /\ o <> Exn /\
    (o <> Dead -> w_bad w' = false -> sent t [] w').
  Proof.
    unfold open_out. destruct (next_event w) as [e w1] eqn:En. destruct (next_fs _ _ _ En) as (E1 & E2 & E3 & _).
    assert (A : same_but t w (set_out (set_fs (set_bad (set_out w1 None) false) (upd (w_fs (set_bad (set_out w1 None) false)) t (Some []))) (Some (t, [])))).
    { intros g Hg. cbn. unfold upd. destruct (String.eqb g t) eqn:Eg; [apply String.eqb_eq in Eg; contradiction|rewrite E1; reflexivity]. }
    assert (B : same_but t w (set_bad (set_out w1 None) false)) by (intros g _; cbn; rewrite E1; reflexivity).
    destruct e as [k|k|[|k]]; intros H; inversion H; subst; clear H.
    - split; [exact A|]. split; [reflexivity|]. split; [discriminate|]. intros _ _. exists [], []. cbn. unfold upd. rewrite String.eqb_refl. auto.
    - split; [intros g Hg; cbn; rewrite E1; reflexivity|]. split; [exact Logic.I|]. split; [discriminate|]. cbn. discriminate.
    - split; [exact B|]. split; [exact Logic.I|]. split; [discriminate|]. congruence.
    - split; [exact A|]. split; [reflexivity|]. split; [discriminate|]. congruence.
  Qed.

  Lemma write_spec t s chunk w o w' : sent t s w -> write chunk w = (o, w') ->
    same_but t w w' /\ stream_on t w' /\ (o = Val tt -> sent t (s ++ chunk) w' /\ w_bad w' = w_bad w).
  Proof.
    intros Hs. unfold write. destruct (next_event w) as [e w1] eqn:En. destruct (next_fs _ _ _ En) as (E1 & E2 & E3 & _).
    destruct Hs as (c & pend & O1 & O2 & O3). rewrite E2, O1.
    set (w2 := set_out w1 (Some (t, pend ++ chunk))).
    assert (S2 : sent t (s ++ chunk) w2). { exists c, (pend ++ chunk). cbn. rewrite E1. split; [reflexivity|]. split; [exact O2|]. rewrite app_assoc, O3. reflexivity. }
    assert (B2 : same_but t w w2) by (intros g _; cbn; rewrite E1; reflexivity).
    assert (P : forall k, same_but t w (push k w2) /\ stream_on t (push k w2) /\ sent t (s ++ chunk) (push k w2) /\ w_bad (push k w2) = w_bad w).
    { intros k. destruct (push_same t k w2 (sent_on _ _ _ S2)) as (A & B & D). split; [eapply same_trans; eauto|]. split; [exact B|].
      split; [apply push_sent; exact S2|]. rewrite D. exact E3. }
    destruct e as [k|k|k]; intros H; inversion H; subst; clear H; destruct (P k) as (A & B & D & F); (split; [exact A|]); (split; [exact B|]); [auto|discriminate|discriminate].
  Qed.

  Lemma write_all_spec t chunks : forall s w o w', sent t s w -> write_all chunks w = (o, w') ->
    same_but t w w' /\ stream_on t w' /\ (o = Val tt -> sent t (s ++ List.concat chunks) w' /\ w_bad w' = w_bad w).
  Proof.
    induction chunks as [|c l IH]; intros s w o w' Hs H.
    - cbn in H. inversion H; subst. split; [apply same_refl|]. split; [eapply sent_on; eauto|]. cbn. rewrite app_nil_r. auto.
    - cbn [write_all] in H. unfold iobind in H. destruct (write c w) as [[[]| |] w1] eqn:E.
      + destruct (write_spec _ _ _ _ _ _ Hs E) as (A & B & D). destruct (D eq_refl) as [D1 D2].
        destruct (IH _ _ _ _ D1 H) as (A' & B' & D'). split; [eapply same_trans; eauto|]. split; auto.
        intros Ho. destruct (D' Ho) as [X Y]. cbn [List.concat]. rewrite app_assoc. split; [exact X|congruence].
      + inversion H; subst. destruct (write_spec _ _ _ _ _ _ Hs E) as (A & B & D). split; [auto|]. split; [auto|discriminate].
      + inversion H; subst. destruct (write_spec _ _ _ _ _ _ Hs E) as (A & B & D). split; [auto|]. split; [auto|discriminate].
  Qed.

  Lemma flush_spec t s w o w' : sent t s w -> flush w = (o, w') ->
    same_but t w w' /\ stream_on t w' /\ o <> Exn /\ (o <> Dead -> w_bad w' = false -> sent t s w' /\ w_fs w' t = Some s).
  Proof.
    intros Hs. unfold flush. destruct (next_event w) as [e w1] eqn:En. destruct (next_fs _ _ _ En) as (E1 & E2 & E3 & _).
    assert (S1 : sent t s w1). { destruct Hs as (c & pend & O1 & O2 & O3). exists c, pend. rewrite E1, E2. auto. }
    assert (B1 : same_but t w w1) by (intros g _; rewrite E1; reflexivity).
    destruct e as [k|k|k]; intros H; inversion H; subst; clear H.
    - destruct (push_all_sent _ _ _ S1) as (A & B & D & F). split; [eapply same_trans; eauto|]. split; [auto|]. split; [discriminate|]. intros _ _. split; [|auto].
      pose proof S1 as (c & pend & O1 & O2 & O3). unfold push_all. rewrite O1. apply push_sent. exact S1.
    - destruct (push_same t k w1 (sent_on _ _ _ S1)) as (A & B & D). split; [intros g Hg; cbn; rewrite A by auto; apply B1; auto|]. split; [exact B|].
      split; [discriminate|]. cbn. discriminate.
    - destruct (push_same t k w1 (sent_on _ _ _ S1)) as (A & B & D). split; [eapply same_trans; eauto|]. split; [exact B|]. split; [discriminate|]. congruence.
  Qed.

  Lemma close_spec t s w o w' : sent t s w -> close w = (o, w') ->
    same_but t w w' /\ stream_on t w' /\ o <> Exn /\ (o <> Dead -> w_bad w' = false -> w_fs w' t = Some s /\ w_out w' = None).
  Proof.
    intros Hs. unfold close. destruct (next_event w) as [e w1] eqn:En. destruct (next_fs _ _ _ En) as (E1 & E2 & E3 & _).
    assert (S1 : sent t s w1). { destruct Hs as (c & pend & O1 & O2 & O3). exists c, pend. rewrite E1, E2. auto. }
    assert (B1 : same_but t w w1) by (intros g _; rewrite E1; reflexivity).
    destruct e as [k|k|k]; intros H; inversion H; subst; clear H.
    - destruct (push_all_sent _ _ _ S1) as (A & B & D & F). split; [intros g Hg; cbn; rewrite B by auto; apply B1; auto|]. split; [exact Logic.I|].
      split; [discriminate|]. intros _ _. split; [exact A|reflexivity].
    - destruct (push_same t k w1 (sent_on _ _ _ S1)) as (A & B & D). split; [intros g Hg; cbn; rewrite A by auto; apply B1; auto|]. split; [exact Logic.I|].
      split; [discriminate|]. cbn. discriminate.
    - destruct (push_same t k w1 (sent_on _ _ _ S1)) as (A & B & D). split; [eapply same_trans; eauto|]. split; [exact B|]. split; [discriminate|]. congruence.
  Qed.

  Lemma check_spec w o w' : check_stream w = (o, w') -> w' = w /\ o <> Dead /\ (o = Val tt -> w_bad w = false).
  Proof. unfold check_stream. destruct (w_bad w); intros H; inversion H; subst; split; auto; split; congruence. Qed.

  Lemma rename_spec a b w o w' : a <> b -> rename a b w = (o, w') -> stream_on a w ->
    stream_on a w' /\
    ((w_fs w' = w_fs w /\ o <> Val tt) \/
     (w_fs w' b = w_fs w a /\ w_fs w' a = None /\ (forall g, g <> a -> g <> b -> w_fs w' g = w_fs w g) /\ o <> Exn)).
  Proof.
    intros Hab. unfold rename. destruct (next_event w) as [e w1] eqn:En. destruct (next_fs _ _ _ En) as (E1 & E2 & E3 & _). intros H Ho.
    assert (D : forall o, (w_fs (set_fs w1 (upd (upd (w_fs w1) b (w_fs w1 a)) a None)) b = w_fs w a) /\
                w_fs (set_fs w1 (upd (upd (w_fs w1) b (w_fs w1 a)) a None)) a = None /\
                (forall g, g <> a -> g <> b -> w_fs (set_fs w1 (upd (upd (w_fs w1) b (w_fs w1 a)) a None)) g = w_fs w g) /\ (o <> Exn -> o <> @Exn unit)).
    { intros o0. cbn. unfold upd. rewrite !String.eqb_refl. replace (String.eqb b a) with false by (symmetry; apply String.eqb_neq; auto).
      split; [rewrite E1; reflexivity|]. split; [reflexivity|]. split; [|auto]. intros g Ha Hb.
      replace (String.eqb g a) with false by (symmetry; apply String.eqb_neq; auto).
      replace (String.eqb g b) with false by (symmetry; apply String.eqb_neq; auto). rewrite E1. reflexivity. }
    destruct e as [k|k|[|k]]; inversion H; subst; clear H; (split; [unfold stream_on in *; cbn; rewrite E2; exact Ho|]).
    - right. destruct (D (Val tt)) as (A & B & C & _). split; [exact A|]. split; [exact B|]. split; [exact C|discriminate].
    - left. split; [exact E1|discriminate].
    - left. split; [exact E1|discriminate].
    - right. destruct (D Dead) as (A & B & C & _). split; [exact A|]. split; [exact B|]. split; [exact C|discriminate].
  Qed.

  Lemma drop_spec t w o w' : stream_on t w -> drop_stream w = (o, w') -> same_but t w w' /\ o <> Exn.
  Proof.
    intros Ho. unfold drop_stream. destruct (w_out w) as [[f pend]|] eqn:Eo.
    - destruct (next_event w) as [e w1] eqn:En. destruct (next_fs _ _ _ En) as (E1 & E2 & E3 & _).
      assert (O1 : stream_on t w1) by (unfold stream_on in *; rewrite E2; exact Ho).
      destruct e as [k|k|k]; intros H; inversion H; subst; clear H; destruct (push_same t k w1 O1) as (A & B & D);
        (split; [intros g Hg; cbn; rewrite A by auto; rewrite E1; reflexivity|discriminate]).
    - intros H; inversion H; subst. split; [apply same_refl|discriminate].
  Qed.
  Lemma unlink_spec t w o w' : unlink_quiet t w = (o, w') -> same_but t w w' /\ o <> Exn /\ (o = Val tt -> w_fs w' t = None \/ w_left w' = true).
  Proof.
    unfold unlink_quiet. destruct (next_event w) as [e w1] eqn:En. destruct (next_fs _ _ _ En) as (E1 & E2 & E3 & _).
    assert (A : same_but t w (set_fs w1 (upd (w_fs w1) t None))).
    { intros g Hg. cbn. unfold upd. destruct (String.eqb g t) eqn:Eg; [apply String.eqb_eq in Eg; contradiction|rewrite E1; reflexivity]. }
    assert (B : same_but t w w1) by (intros g _; rewrite E1; reflexivity).
    destruct e as [k|k|[|k]]; intros H; inversion H; subst; clear H.
    - split; [exact A|]. split; [discriminate|]. intros _. left. cbn. unfold upd. rewrite String.eqb_refl. reflexivity.
    - split; [intros g Hg; cbn; rewrite E1; reflexivity|]. split; [discriminate|]. intros _. right. reflexivity.
    - split; [exact B|]. split; discriminate.
    - split; [exact A|]. split; discriminate.
  Qed.

  (** What the body of save() can have done when it stops. *)
  Definition body_post (fn t : string) (new : bytes) w (o : outcome unit) w' : Prop :=
    stream_on t w' /\ (forall g, g <> fn -> g <> t -> w_fs w' g = w_fs w g) /\
    match o with
    | Val _ => w_fs w' fn = Some new /\ w_fs w' t = None
    | Exn => w_fs w' fn = w_fs w fn
    | Dead => w_fs w' fn = w_fs w fn \/ w_fs w' fn = Some new
    end.

  Lemma body_same fn t new w o w' : fn <> t -> stream_on t w' -> same_but t w w' -> o <> Val tt -> body_post fn t new w o w'.
  Proof.
    intros Hn Ho Hs Hv. split; [exact Ho|]. split; [intros g _ Hg; apply Hs; auto|].
    destruct o as [[]| |]; [congruence|apply Hs; auto|left; apply Hs; auto].
  Qed.

  Lemma save_body_spec fn t chunks w o w' : fn <> t ->
    (iobind (open_out t) (fun _ => iobind check_stream (fun _ =>
       iobind (write_all chunks) (fun _ => iobind check_stream (fun _ =>
       iobind flush (fun _ => iobind check_stream (fun _ =>
       iobind close (fun _ => iobind check_stream (fun _ => rename t fn))))))))) w = (o, w') ->
    body_post fn t (List.concat chunks) w o w'.
  Proof.
    intros Hn. unfold iobind.
    destruct (open_out t w) as [o1 w1] eqn:E1. destruct (open_out_spec _ _ _ _ E1) as (A1 & B1 & C1 & D1).
    destruct o1 as [[]| |]; [|congruence|intros H; inversion H; subst; apply body_same; auto; discriminate].
    destruct (check_stream w1) as [o2 w2] eqn:E2. destruct (check_spec _ _ _ E2) as (-> & C2 & D2).
    destruct o2 as [[]| |]; [|intros H; inversion H; subst; apply body_same; auto; discriminate|congruence].
    specialize (D1 ltac:(discriminate) (D2 eq_refl)).
    destruct (write_all chunks w1) as [o3 w3] eqn:E3. destruct (write_all_spec _ _ _ _ _ _ D1 E3) as (A3 & B3 & D3).
    pose proof (same_trans _ _ _ _ A1 A3) as A3'.
    destruct o3 as [[]| |]; [|intros H; inversion H; subst; apply body_same; auto; discriminate|intros H; inversion H; subst; apply body_same; auto; discriminate].
    destruct (D3 eq_refl) as [S3 Bd3]. cbn [app] in S3.
    destruct (check_stream w3) as [o4 w4] eqn:E4. destruct (check_spec _ _ _ E4) as (-> & C4 & D4).
    destruct o4 as [[]| |]; [|intros H; inversion H; subst; apply body_same; auto; discriminate|congruence].
    destruct (flush w3) as [o5 w5] eqn:E5. destruct (flush_spec _ _ _ _ _ S3 E5) as (A5 & B5 & C5 & D5).
    pose proof (same_trans _ _ _ _ A3' A5) as A5'.
    destruct o5 as [[]| |]; [|congruence|intros H; inversion H; subst; apply body_same; auto; discriminate].
    destruct (check_stream w5) as [o6 w6] eqn:E6. destruct (check_spec _ _ _ E6) as (-> & C6 & D6).
    destruct o6 as [[]| |]; [|intros H; inversion H; subst; apply body_same; auto; discriminate|congruence].
    destruct (D5 ltac:(discriminate) (D6 eq_refl)) as [S5 F5].
    destruct (close w5) as [o7 w7] eqn:E7. destruct (close_spec _ _ _ _ _ S5 E7) as (A7 & B7 & C7 & D7).
    pose proof (same_trans _ _ _ _ A5' A7) as A7'.
    destruct o7 as [[]| |]; [|congruence|intros H; inversion H; subst; apply body_same; auto; discriminate].
    destruct (check_stream w7) as [o8 w8] eqn:E8. destruct (check_spec _ _ _ E8) as (-> & C8 & D8).
    destruct o8 as [[]| |]; [|intros H; inversion H; subst; apply body_same; auto; discriminate|congruence].
    destruct (D7 ltac:(discriminate) (D8 eq_refl)) as [F7 O7].
    intros H. destruct (rename_spec _ _ _ _ _ (not_eq_sym Hn) H B7) as (B9 & [[X Y]|(X & Y & Z' & U)]).
    - apply body_same; auto. intros g Hg. rewrite X. apply A7'; auto.
    - split; [exact B9|]. split; [intros g G1 G2; rewrite Z' by auto; apply A7'; auto|].
      rewrite F7 in X. destruct o as [[]| |]; auto. congruence.
  Qed.

  Lemma save_file_spec fn chunks w o w' : save_file fn chunks w = (o, w') ->
    (w_fs w' fn = w_fs w fn \/ w_fs w' fn = Some (List.concat chunks)) /\
    (o = Val tt -> w_fs w' fn = Some (List.concat chunks) /\ w_fs w' (fn ++ ".tmp")%string = None) /\
    (o = Exn -> w_fs w' fn = w_fs w fn /\ (w_fs w' (fn ++ ".tmp")%string = None \/ w_left w' = true)) /\
    (forall g, g <> fn -> g <> (fn ++ ".tmp")%string -> w_fs w' g = w_fs w g).
  Proof.
    assert (Hn : fn <> (fn ++ ".tmp")%string).
    { intros E. apply (f_equal String.length) in E. clear -E.
      assert (L : forall a b, String.length (a ++ b)%string = (String.length a + String.length b)%nat).
      { induction a; intros b; cbn; auto. }
      rewrite L in E. cbn in E. lia. }
    unfold save_file, guarded. set (t := (fn ++ ".tmp")%string) in *. clearbody t.
    destruct (iobind _ _ w) as [o1 w1] eqn:E1. apply save_body_spec in E1; [|exact Hn]. destruct E1 as (B & C & D).
    destruct o1 as [[]| |].
    - intros H; inversion H; subst. split; [right; apply D|]. split; [intros _; exact D|]. split; [discriminate|exact C].
    - unfold iobind. destruct (drop_stream w1) as [o2 w2] eqn:E2. destruct (drop_spec _ _ _ _ B E2) as (A2 & C2).
      destruct o2 as [[]| |]; [|congruence|].
      + destruct (unlink_quiet t w2) as [o3 w3] eqn:E3. destruct (unlink_spec _ _ _ _ E3) as (A3 & C3 & D3).
        assert (F : w_fs w3 fn = w_fs w fn) by (rewrite A3, A2 by auto; exact D).
        assert (G : forall g, g <> fn -> g <> t -> w_fs w3 g = w_fs w g) by (intros g G1 G2; rewrite A3, A2 by auto; apply C; auto).
        destruct o3 as [[]| |]; [|congruence|]; intros H; inversion H; subst; (split; [left; exact F|]); (split; [discriminate|]); (split; [|exact G]).
        * intros _. split; [exact F|auto].
        * discriminate.
      + intros H; inversion H; subst.
        split; [left; rewrite A2 by auto; exact D|]. split; [discriminate|]. split; [discriminate|].
        intros g G1 G2. rewrite A2 by auto. apply C; auto.
    - intros H; inversion H; subst. split; [exact D|]. split; [discriminate|]. split; [discriminate|exact C].
  Qed.

  (** Without failures and crashes the save succeeds. *)
  Definition benign w : Prop := forall e, In e (w_ev w) -> exists k, e = EvOk k.
  Lemma next_benign w e w1 : benign w -> next_event w = (e, w1) -> benign w1 /\ exists k, e = EvOk k.
  Proof.
    unfold benign, next_event. intros H E. destruct (w_ev w) as [|e0 l] eqn:El; inversion E; subst.
    - rewrite El. split; [intros ? []|eauto].
    - cbn. split; [intros e' H'; apply H; right; auto|apply H; left; auto].
  Qed.
  Lemma push_ev k w : w_ev (push k w) = w_ev w.
  Proof. unfold push. destruct (w_out w) as [[f p]|]; reflexivity. Qed.
  Lemma push_all_ev w : w_ev (push_all w) = w_ev w.
  Proof. unfold push_all. destruct (w_out w) as [[f p]|]; [apply push_ev|reflexivity]. Qed.
  Lemma push_bad k w : w_bad (push k w) = w_bad w.
  Proof. unfold push. destruct (w_out w) as [[f p]|]; reflexivity. Qed.
  Lemma push_all_bad w : w_bad (push_all w) = w_bad w.
  Proof. unfold push_all. destruct (w_out w) as [[f p]|]; [apply push_bad|reflexivity]. Qed.
  Lemma write_all_benign chunks : forall w, benign w -> w_bad w = false -> exists w', write_all chunks w = (Val tt, w') /\ benign w' /\ w_bad w' = false.
  Proof.
    induction chunks as [|c l IH]; intros w Hb Hbad; [exists w; auto|]. cbn [write_all]. unfold iobind, write.
    destruct (next_event w) as [e w1] eqn:En. destruct (next_benign _ _ _ Hb En) as (B1 & k & ->). destruct (next_fs _ _ _ En) as (_ & _ & E3 & _).
    set (w2 := match w_out w1 with Some (f, pend) => set_out w1 (Some (f, pend ++ c)) | None => w1 end).
    assert (B2 : benign w2 /\ w_bad w2 = false) by (unfold w2, benign; destruct (w_out w1) as [[f p]|]; cbn; split; auto; congruence).
    apply IH; [unfold benign; rewrite push_ev; apply B2|rewrite push_bad; apply B2].
  Qed.
  Lemma save_file_succeeds fn chunks w : benign w -> exists w', save_file fn chunks w = (Val tt, w').
  Proof.
    intros Hb. unfold save_file, guarded, iobind. unfold open_out.
    destruct (next_event w) as [e w1] eqn:En. destruct (next_benign _ _ _ Hb En) as (B1 & k & ->).
    unfold check_stream at 1. cbn [w_bad set_out set_fs set_bad].
    match goal with |- context [write_all chunks ?x] => destruct (write_all_benign chunks x) as (w2 & E2 & B2 & D2); [exact B1|reflexivity|rewrite E2] end.
    unfold check_stream at 1. rewrite D2. unfold flush.
    destruct (next_event w2) as [e3 w3] eqn:En3. destruct (next_benign _ _ _ B2 En3) as (B3 & k3 & ->). destruct (next_fs _ _ _ En3) as (_ & _ & F3 & _).
    unfold check_stream at 1. rewrite push_all_bad, F3, D2. unfold close.
    destruct (next_event (push_all w3)) as [e4 w4] eqn:En4. destruct (next_benign _ _ _ (ltac:(unfold benign; rewrite push_all_ev; exact B3)) En4) as (B4 & k4 & ->).
    destruct (next_fs _ _ _ En4) as (_ & _ & F4 & _).
    unfold check_stream at 1. cbn [w_bad set_out]. rewrite push_all_bad, F4, push_all_bad, F3, D2. unfold rename.
    destruct (next_event (set_out (push_all w4) None)) as [e5 w5] eqn:En5.
    assert (B4' : benign (set_out (push_all w4) None)) by (unfold benign; cbn [w_ev set_out]; rewrite push_all_ev; exact B4).
    destruct (next_benign _ _ _ B4' En5) as (B5 & k5 & ->). eexists; reflexivity.
  Qed.

  (** Loading. *)
  Lemma load_file_spec fn (d : rd T) rm w o w' : load_file fn d rm w = (o, w') ->
    (forall g, g <> fn -> w_fs w' g = w_fs w g) /\
    (o = Val tt -> exists c r, w_fs w fn = Some c /\ d c = Some (w_mem w', r) /\ w_fs w' fn = if rm then None else w_fs w fn) /\
    (o <> Val tt -> w_mem w' = w_mem w) /\
    (o = Exn -> w_fs w' fn = w_fs w fn) /\
    (w_fs w' fn <> w_fs w fn -> rm = true /\ w_fs w' fn = None /\ exists c r a, w_fs w fn = Some c /\ d c = Some (a, r)).
  Proof.
    unfold load_file, iobind, open_in.
    destruct (next_event w) as [e w1] eqn:En. destruct (next_fs _ _ _ En) as (E1 & E2 & E3 & E4 & _).
    assert (Stop : forall o' w2, w_fs w2 = w_fs w -> w_mem w2 = w_mem w -> o' <> Val tt -> (o', w2) = (o, w') ->
      (forall g, g <> fn -> w_fs w' g = w_fs w g) /\
      (o = Val tt -> exists c r, w_fs w fn = Some c /\ d c = Some (w_mem w', r) /\ w_fs w' fn = if rm then None else w_fs w fn) /\
      (o <> Val tt -> w_mem w' = w_mem w) /\ (o = Exn -> w_fs w' fn = w_fs w fn) /\
      (w_fs w' fn <> w_fs w fn -> rm = true /\ w_fs w' fn = None /\ exists c r a, w_fs w fn = Some c /\ d c = Some (a, r))).
    { intros o' w2 F M V H. inversion H; subst. rewrite F. split; [auto|]. split; [congruence|]. split; [auto|]. split; [auto|congruence]. }
    destruct e as [k|k|k]; [|apply Stop; cbn; auto; discriminate|apply Stop; cbn; auto; discriminate].
    cbn [w_fs set_bad]. rewrite E1. destruct (w_fs w fn) as [c|] eqn:Ec; [|apply Stop; cbn; auto; discriminate].
    unfold read_all. destruct (next_event (set_bad w1 false)) as [e2 w2] eqn:En2. destruct (next_fs _ _ _ En2) as (G1 & G2 & G3 & G4 & _).
    cbn [w_fs w_mem w_bad set_bad] in G1, G3, G4.
    destruct e2 as [k2|k2|k2]; [|apply Stop; [congruence|congruence|discriminate]|apply Stop; [congruence|congruence|discriminate]].
    destruct (d c) as [[a r]|] eqn:Ed; [|apply Stop; [congruence|congruence|discriminate]].
    unfold close_in. destruct (next_event w2) as [e3 w3] eqn:En3. destruct (next_fs _ _ _ En3) as (H1 & H2 & H3 & H4 & _).
    unfold check_stream. destruct e3 as [k3|k3|k3]; [| cbn [w_bad set_bad]; apply Stop; cbn; [congruence|congruence|discriminate]|apply Stop; [congruence|congruence|discriminate]].
    rewrite H3, G3. destruct rm.
    - unfold remove. destruct (next_event w3) as [e4 w4] eqn:En4. destruct (next_fs _ _ _ En4) as (J1 & J2 & J3 & J4 & _).
      destruct e4 as [k4|k4|[|k4]].
      + unfold ioret. intros H; inversion H; subst. cbn. unfold upd. rewrite String.eqb_refl.
        split; [intros g Hg; replace (String.eqb g fn) with false by (symmetry; apply String.eqb_neq; auto); congruence|].
        split; [intros _; exists c, r; auto|]. split; [congruence|]. split; [discriminate|]. intros _. split; [auto|]. split; [auto|]. exists c, r, a. auto.
      + unfold throw. apply Stop; [congruence|congruence|discriminate].
      + apply Stop; [congruence|congruence|discriminate].
      + intros H; inversion H; subst. cbn. unfold upd. rewrite String.eqb_refl.
        split; [intros g Hg; replace (String.eqb g fn) with false by (symmetry; apply String.eqb_neq; auto); congruence|].
        split; [discriminate|]. split; [congruence|]. split; [discriminate|]. intros _. split; [auto|]. split; [auto|]. exists c, r, a. auto.
    - unfold ioret. intros H; inversion H; subst. cbn. rewrite H1, G1, E1.
      split; [auto|]. split; [intros _; exists c, r; auto|]. split; [congruence|]. split; [discriminate|congruence].
  Qed.

  Lemma load_file_succeeds fn (d : rd T) rm w c a r : benign w -> w_fs w fn = Some c -> d c = Some (a, r) ->
    exists w', load_file fn d rm w = (Val tt, w') /\ w_mem w' = a.
  Proof.
    intros Hb Ec Ed. unfold load_file, iobind, open_in.
    destruct (next_event w) as [e w1] eqn:En. destruct (next_fs _ _ _ En) as (E1 & _). destruct (next_benign _ _ _ Hb En) as (B1 & k & ->).
    cbn [w_fs set_bad]. rewrite E1, Ec. unfold read_all.
    destruct (next_event (set_bad w1 false)) as [e2 w2] eqn:En2. destruct (next_fs _ _ _ En2) as (_ & _ & G3 & _).
    assert (B1' : benign (set_bad w1 false)) by exact B1. destruct (next_benign _ _ _ B1' En2) as (B2 & k2 & ->).
    rewrite Ed. unfold close_in. destruct (next_event w2) as [e3 w3] eqn:En3. destruct (next_fs _ _ _ En3) as (_ & _ & H3 & _). destruct (next_benign _ _ _ B2 En3) as (B3 & k3 & ->).
    unfold check_stream. rewrite H3, G3. cbn [w_bad set_bad]. destruct rm.
    - unfold remove. destruct (next_event w3) as [e4 w4] eqn:En4. destruct (next_benign _ _ _ B3 En4) as (B4 & k4 & ->).
      unfold ioret. eexists. split; reflexivity.
    - unfold ioret. eexists. split; reflexivity.
  Qed.
End IOP.

(** File names. *)
Lemma to_string_inj a b : to_string a = to_string b -> a = b.
Proof.
  unfold to_string. intros H. apply DecimalNat.Unsigned.to_uint_inj.
  assert (E : NilEmpty.uint_of_string (NilEmpty.string_of_uint (Nat.to_uint a)) = NilEmpty.uint_of_string (NilEmpty.string_of_uint (Nat.to_uint b))) by congruence.
  rewrite !NilEmpty.usu in E. congruence.
Qed.
Lemma append_assoc a b c : ((a ++ b) ++ c = a ++ (b ++ c))%string.
Proof. induction a; cbn; congruence. Qed.
Lemma append_inj_l a b c : (a ++ b = a ++ c)%string -> b = c.
Proof. induction a; cbn; intros H; [auto|]. apply IHa. congruence. Qed.
Lemma last_char_app s c : c <> EmptyString -> last_char (s ++ c)%string = last_char c.
Proof.
  intros Hc. induction s as [|a s IH]; [reflexivity|]. cbn [append last_char]. rewrite IH.
  destruct (s ++ c)%string eqn:E; [|reflexivity]. exfalso. destruct s; cbn in E; [contradiction|discriminate].
Qed.
Fixpoint all_digits (s : string) : bool := match s with EmptyString => true | String a s' => is_digit a && all_digits s' end.
Lemma digits_of_uint u : all_digits (NilEmpty.string_of_uint u) = true.
Proof. induction u; cbn; auto. Qed.
Lemma to_string_nonempty n : to_string n <> EmptyString.
Proof.
  unfold to_string. intros H. assert (E : Nat.to_uint n = Decimal.Nil).
  { destruct (Nat.to_uint n); cbn in H; [reflexivity|discriminate..]. }
  apply (f_equal Nat.of_uint) in E. rewrite DecimalNat.Unsigned.of_to in E. cbn in E. subst n. discriminate H.
Qed.
Lemma last_char_digit s : all_digits s = true -> s <> EmptyString -> exists d, last_char s = Some d /\ is_digit d = true.
Proof.
  induction s as [|a s IH]; [congruence|]. cbn [all_digits]. rewrite andb_true_iff. intros [Ha Hs] _.
  destruct s as [|b s']; [exists a; auto|]. destruct (IH Hs ltac:(discriminate)) as (d & E & Hd). exists d. split; auto.
Qed.
Lemma rhofn_inj wd f N N' : rhofn wd N f = rhofn wd N' f -> N = N'.
Proof. unfold rhofn. intros H. apply append_inj_l, append_inj_l, append_inj_l, to_string_inj in H. exact H. Qed.
Lemma rhofn_not_tmp wd f N s : rhofn wd N f <> (s ++ ".tmp")%string.
Proof.
  intros H. apply (f_equal last_char) in H. rewrite (last_char_app s) in H by discriminate. unfold rhofn in H.
  rewrite <- !append_assoc in H. rewrite last_char_app in H by apply to_string_nonempty.
  destruct (last_char_digit (to_string N) (digits_of_uint _) (to_string_nonempty N)) as (d & E & Hd). rewrite E in H. cbn in H. inversion H; subst d. discriminate.
Qed.
(** Two names without digits at the end give different files. *)
Lemma app_digits_inj a b : forall d1 d2, all_digits d1 = true -> all_digits d2 = true ->
  (forall d, last_char a = Some d -> is_digit d = false) -> (forall d, last_char b = Some d -> is_digit d = false) -> a <> EmptyString -> b <> EmptyString ->
  (a ++ d1 = b ++ d2)%string -> a = b.
Proof.
  revert b. induction a as [|x a IH]; [congruence|]. intros [|y b] d1 d2 H1 H2 Ha Hb Na Nb E; [congruence|].
  cbn in E. inversion E; subst y. destruct a as [|x' a'], b as [|y' b'].
  - reflexivity.
  - exfalso. cbn [append] in H3. subst d1. clear -H1 Hb.
    assert (G : forall s, s <> EmptyString -> all_digits (s ++ d2)%string = true -> exists d, last_char s = Some d /\ is_digit d = true).
    { induction s as [|u s IHs]; [congruence|]. intros _ H. cbn in H. apply andb_true_iff in H as [Hu Hs]. destruct s as [|u' s]; [exists u; auto|].
      destruct (IHs ltac:(discriminate) Hs) as (d & E & Hd). exists d; auto. }
    destruct (G (String y' b') ltac:(discriminate) H1) as (d & E & Hd). rewrite (Hb d) in Hd; [discriminate|exact E].
  - exfalso. cbn [append] in H3. rewrite <- H3 in H2. clear -H2 Ha.
    assert (G : forall s, s <> EmptyString -> all_digits (s ++ d1)%string = true -> exists d, last_char s = Some d /\ is_digit d = true).
    { induction s as [|u s IHs]; [congruence|]. intros _ H. cbn in H. apply andb_true_iff in H as [Hu Hs]. destruct s as [|u' s]; [exists u; auto|].
      destruct (IHs ltac:(discriminate) Hs) as (d & E & Hd). exists d; auto. }
    destruct (G (String x' a') ltac:(discriminate) H2) as (d & E & Hd). rewrite (Ha d) in Hd; [discriminate|exact E].
  - f_equal. apply (IH (String y' b') d1 d2); auto; discriminate.
Qed.
Lemma rhofn_inj2 wd f f' N N' : no_digit_end f -> no_digit_end f' -> rhofn wd N f = rhofn wd N' f' -> f = f' /\ N = N'.
Proof.
  intros [Hf Df] [Hf' Df'] H. assert (E : f = f').
  { unfold rhofn in H. do 2 apply append_inj_l in H. apply (app_digits_inj _ _ _ _ (digits_of_uint _) (digits_of_uint _) Df Df' Hf Hf' H). }
  split; [exact E|]. subst. eapply rhofn_inj; eauto.
Qed.

(** A sequence of saves, stopped by the first exception or death. *)
Lemma save_step_others {T} wd f N chunks (w : world T) o w' : save_file (rhofn wd N f) chunks w = (o, w') -> no_digit_end f ->
  forall f' N', no_digit_end f' -> (f', N') <> (f, N) -> w_fs w' (rhofn wd N' f') = w_fs w (rhofn wd N' f').
Proof.
  intros H Hf f' N' Hf' Hd. destruct (save_file_spec _ _ _ _ _ H) as (_ & _ & _ & G). apply G; [|apply rhofn_not_tmp].
  intros E. destruct (rhofn_inj2 _ _ _ _ _ Hf' Hf E) as [-> ->]. congruence.
Qed.
