(** Proofs about the MPI engine: invariant, decreasing measure, progress. *)
From Coq Require Import List ZArith Lia Bool Permutation Arith.
From Verif Require Import Mpi_model.
Import ListNotations.

Section P.
Context {T A : Type} (teq : forall a b : T, {a = b} + {a <> b}).
Context (ham : T -> @mat A) (solve : @mat A -> @raweigen A).
Context (ham_wf : forall I, mat_wf (ham I)) (solve_wf : forall m, mat_wf m -> mat_wf (vec (solve m))).
Notation msg := (@msg T A).
Notation R I := (result_msgs I (solve (ham I))).
Notation J I := (job_msgs ham I).

(** ** Receiving *)
Lemma tag_eqb_eq : forall a b, tag_eqb a b = true <-> a = b.
Proof. intros [] []; cbn; split; congruence. Qed.
Lemma recv_head : forall t (m : msg) ch, tag_of m = t -> recv_tag t (m :: ch) = Some (m, ch).
Proof. intros t m ch <-. cbn. now rewrite (proj2 (tag_eqb_eq _ _) eq_refl). Qed.

Definition acc (w : @wst T A) (m : msg) : Prop :=
  match w with WIdle => tag_of m = TDiag | WInvar => tag_of m = TInvar | WMatrix _ r => tag_of m = mrecv_tag r | _ => False end.
Inductive wrun : @wst T A -> list msg -> @wst T A -> Prop :=
| wrun_nil w : wrun w [] w
| wrun_cons w m l w' : acc w m -> wrun (wstep solve w m) l w' -> wrun w (m :: l) w'.
Inductive rrun : @rst A -> list msg -> @rst A -> Prop :=
| rrun_nil r : rrun r [] r
| rrun_cons r m l r' r'' : tag_of m = rtag r -> rstep r m = RMore r' -> rrun r' l r'' -> rrun r (m :: l) r''.

Lemma wrun_app : forall l1 w l2 w', wrun w (l1 ++ l2) w' <-> exists x, wrun w l1 x /\ wrun x l2 w'.
Proof.
  induction l1 as [|m l1 IH]; intros w l2 w'; cbn; split.
  - intros H. exists w. split; [constructor|exact H].
  - intros (x & H1 & H2). inversion H1; subst. exact H2.
  - intros H. inversion H as [|? ? ? ? Ha Hr]; subst. apply IH in Hr as (x & H1 & H2). exists x. split; [now constructor|exact H2].
  - intros (x & H1 & H2). inversion H1; subst. constructor; [assumption|]. apply IH. eauto.
Qed.
Lemma rrun_app : forall l1 w l2 w', rrun w (l1 ++ l2) w' <-> exists x, rrun w l1 x /\ rrun x l2 w'.
Proof.
  induction l1 as [|m l1 IH]; intros w l2 w'; cbn; split.
  - intros H. exists w. split; [constructor|exact H].
  - intros (x & H1 & H2). inversion H1; subst. exact H2.
  - intros H. inversion H as [|? ? ? ? ? Ha Hs Hr]; subst. apply IH in Hr as (x & H1 & H2). exists x. split; [econstructor; eauto|exact H2].
  - intros (x & H1 & H2). inversion H1; subst. econstructor; eauto. apply IH. eauto.
Qed.
Lemma wrun_det : forall l w a b, wrun w l a -> wrun w l b -> a = b.
Proof. induction l; intros w x y H1 H2; inversion H1; inversion H2; subst; eauto. Qed.
Lemma rrun_det : forall l w a b, rrun w l a -> rrun w l b -> a = b.
Proof. induction l; intros w x y H1 H2; inversion H1; inversion H2; subst; eauto. replace r' with r'0 in * by congruence. eauto. Qed.

(** ** Row-wise transfer *)
Lemma firstn_skipn_piece : forall n2 (l : list A) k n1, length l = (n1 * n2)%nat ->
  concat (map (fun i => firstn n2 (skipn (i * n2) l)) (seq k (n1 - k))) = skipn (k * n2) l.
Proof.
  intros n2 l k n1 Hl. remember (n1 - k) as c eqn:Hc. revert k Hc. induction c as [|c IH]; intros k Hc; cbn.
  - rewrite skipn_all2; [reflexivity|]. rewrite Hl. apply Nat.mul_le_mono_r. lia.
  - rewrite (IH (S k)) by lia. rewrite <- (firstn_skipn n2 (skipn (k * n2) l)) at 2. f_equal.
    clear. replace (S k * n2) with (n2 + k * n2) by lia.
    remember (k * n2) as q. clear. revert l. induction q as [|q IH]; intros l; cbn.
    + rewrite Nat.add_0_r. reflexivity.
    + rewrite Nat.add_succ_r. destruct l; cbn; [now rewrite skipn_nil|apply IH].
Qed.
Lemma pieces_concat : forall m : @mat A, mat_wf m -> concat (map (piece m) (seq 0 (size1 m))) = data m.
Proof.
  intros m Hm. pose proof (firstn_skipn_piece (size2 m) (data m) 0 (size1 m) Hm) as H. cbn in H. now rewrite Nat.sub_0_r in H.
Qed.
Lemma piece_length : forall (m : @mat A) i, mat_wf m -> i < size1 m -> length (piece m i) = size2 m.
Proof.
  intros m i Hm Hi. unfold piece. rewrite firstn_length, skipn_length, Hm.
  assert (S i * size2 m <= size1 m * size2 m) by (apply Nat.mul_le_mono_r; lia). cbn in H. lia.
Qed.

Lemma wrun_parts : forall ps Ix n1 n2 got, Forall (fun p => length p = n2) ps -> ps <> [] -> length got + length ps = n1 ->
  wrun (WMatrix Ix (NeedPart n1 n2 got)) (map MPart ps)
       (WSend (result_msgs Ix (solve {| size1 := n1; size2 := n2; data := concat (got ++ ps) |}))).
Proof.
  induction ps as [|p ps IH]; intros Ix n1 n2 got Hps Hne Hl; [congruence|]. inversion Hps as [|? ? Hp Hps']; subst. clear Hps.
  cbn [map]. constructor; [reflexivity|]. cbn [wstep mrecv_step]. rewrite Nat.eqb_refl. unfold parts_or_done.
  rewrite app_length. cbn [length] in *. destruct ps as [|q ps].
  - cbn [length]. replace (length got + 1 =? length got + 1) with true by (symmetry; apply Nat.eqb_refl). constructor.
  - cbn [length]. replace (length got + 1 =? length got + S (S (length ps))) with false by (symmetry; apply Nat.eqb_neq; lia).
    cbn. replace (got ++ p :: q :: ps) with ((got ++ [p]) ++ q :: ps) by (now rewrite <- app_assoc).
    apply (IH Ix _ _ (got ++ [p])); [assumption|congruence|]. rewrite app_length. cbn. lia.
Qed.
Lemma rrun_parts : forall ps v n1 n2 got, Forall (fun p => length p = n2) ps -> ps <> [] -> length got + length ps = n1 ->
  rrun (RMatrix v (NeedPart n1 n2 got)) (map MPart ps)
       (RInvar v {| size1 := n1; size2 := n2; data := concat (got ++ ps) |}).
Proof.
  induction ps as [|p ps IH]; intros Ix n1 n2 got Hps Hne Hl; [congruence|]. inversion Hps as [|? ? Hp Hps']; subst. clear Hps.
  cbn [map]. cbn [length] in *. destruct ps as [|q ps].
  - econstructor; [reflexivity| |constructor]. cbn [rstep mrecv_step]. rewrite Nat.eqb_refl. unfold parts_or_done.
    rewrite app_length. cbn [length]. now replace (length got + 1 =? length got + 1) with true by (symmetry; apply Nat.eqb_refl).
  - econstructor; [reflexivity| |].
    + cbn [rstep mrecv_step]. rewrite Nat.eqb_refl. unfold parts_or_done.
      rewrite app_length. cbn [length]. replace (length got + 1 =? length got + S (S (length ps))) with false by (symmetry; apply Nat.eqb_neq; lia).
      reflexivity.
    + replace (got ++ p :: q :: ps) with ((got ++ [p]) ++ q :: ps) by (now rewrite <- app_assoc).
      apply (IH Ix _ _ (got ++ [p])); [assumption|congruence|]. rewrite app_length. cbn. lia.
Qed.

Lemma mat_eta : forall m : @mat A, {| size1 := size1 m; size2 := size2 m; data := data m |} = m.
Proof. now intros []. Qed.
Lemma pieces_forall : forall m : @mat A, mat_wf m -> Forall (fun p => length p = size2 m) (map (piece m) (seq 0 (size1 m))).
Proof. intros m Hm. apply Forall_map, Forall_forall. intros i Hi. apply in_seq in Hi. apply piece_length; [assumption|lia]. Qed.

Lemma wrun_matrix : forall m Ix, mat_wf m -> wrun (WMatrix Ix NeedSize1) (matrix_msgs m) (WSend (result_msgs Ix (solve m))).
Proof.
  intros m Ix Hm. unfold matrix_msgs. constructor; [reflexivity|]. cbn [wstep mrecv_step]. constructor; [reflexivity|].
  cbn [wstep mrecv_step]. unfold parts_or_done. cbn [length]. destruct (0 =? size1 m) eqn:E0.
  - apply Nat.eqb_eq in E0. rewrite <- E0. cbn.
    assert (@nil A = data m) as -> by (unfold mat_wf in Hm; rewrite <- E0 in Hm; destruct (data m); [reflexivity|discriminate]).
    rewrite E0, mat_eta. constructor.
  - apply Nat.eqb_neq in E0. rewrite <- (map_map (piece m) MPart).
    pose proof (wrun_parts (map (piece m) (seq 0 (size1 m))) Ix (size1 m) (size2 m) [] (pieces_forall m Hm)) as H.
    cbn [app] in H. rewrite pieces_concat, mat_eta in H by assumption. apply H.
    + destruct (size1 m); [lia|discriminate].
    + cbn. now rewrite map_length, seq_length.
Qed.
Lemma rrun_matrix : forall m v, mat_wf m -> rrun (RMatrix v NeedSize1) (matrix_msgs m) (RInvar v m : @rst A).
Proof.
  intros m v Hm. unfold matrix_msgs. econstructor; [reflexivity|reflexivity|]. 
  destruct (0 =? size1 m) eqn:E0.
  - apply Nat.eqb_eq in E0. rewrite <- E0. econstructor; [reflexivity|reflexivity|]. cbn.
    assert (@nil A = data m) as -> by (unfold mat_wf in Hm; rewrite <- E0 in Hm; destruct (data m); [reflexivity|discriminate]).
    rewrite E0, mat_eta. constructor.
  - econstructor; [reflexivity| |].
    + cbn [rstep mrecv_step]. unfold parts_or_done. cbn [length]. rewrite E0. reflexivity.
    + apply Nat.eqb_neq in E0. rewrite <- (map_map (piece m) MPart).
      pose proof (rrun_parts (map (piece m) (seq 0 (size1 m))) v (size1 m) (size2 m) [] (pieces_forall m Hm)) as H.
      cbn [app] in H. rewrite pieces_concat, mat_eta in H by assumption. apply H.
      * destruct (size1 m); [lia|discriminate].
      * cbn. now rewrite map_length, seq_length.
Qed.

Lemma wrun_job : forall Ix, wrun WIdle (J Ix) (WSend (R Ix)).
Proof.
  intros Ix. unfold job_msgs. constructor; [reflexivity|]. cbn [wstep]. constructor; [reflexivity|]. cbn [wstep].
  apply wrun_matrix, ham_wf.
Qed.
Lemma rrun_result : forall Ix, rrun (RMatrix (val (solve (ham Ix))) NeedSize1) (matrix_msgs (vec (solve (ham Ix))))
   (RInvar (val (solve (ham Ix))) (vec (solve (ham Ix)))).
Proof. intros. apply rrun_matrix, solve_wf, ham_wf. Qed.

(** ** The state of one worker and its two channels, relative to the job it holds *)
Definition L (w : @wst T A) (cw cm pend : list msg) (rp : option (@rst A)) (job : option T) : Prop :=
  match job with
  | None => cw = [] /\ cm = [] /\ pend = [] /\ rp = None /\ (w = WIdle \/ w = WSend [])
  | Some Ix =>
      (rp = None /\ cm = [] /\ cw ++ pend <> [] /\
       exists pre, J Ix = pre ++ cw ++ pend /\ (wrun WIdle pre w \/ (pre = [] /\ w = WSend [])))
      \/
      (cw = [] /\ pend = [] /\ exists pre ms, R Ix = pre ++ cm ++ ms /\ (w = WSend ms \/ (ms = [] /\ w = WIdle)) /\
       match rp with
       | None => pre = []
       | Some r => exists v pre', pre = MVec v :: pre' /\ rrun (RMatrix v NeedSize1) pre' r /\ cm ++ ms <> []
       end)
  end.
Definition cost (w : @wst T A) (cw cm pend : list msg) (job : option T) : nat :=
  2 * length pend + length cw + length cm + match w with WSend ms => 2 * length ms + 1 | _ => 0 end
  + match job with Some Ix => match cw ++ pend with [] => 0 | _ => 2 * length (R Ix) + 2 end | None => 0 end.

Lemma L_send : forall w cw cm m p rp j, L w cw cm (m :: p) rp j -> L w (cw ++ [m]) cm p rp j /\ j <> None.
Proof.
  intros w cw cm m p rp [Ix|] H; cbn in H.
  - split; [|discriminate]. destruct H as [(H1 & H2 & H3 & pre & H4 & H5)|(_ & H & _)]; [|discriminate].
    left. rewrite <- app_assoc. cbn. repeat split; auto. exists pre. auto.
  - destruct H as (_ & _ & H & _). discriminate.
Qed.

Lemma nonempty_app : forall (B : Type) (x : B) l l', l ++ x :: l' <> [].
Proof. intros B x [|] l'; discriminate. Qed.

Lemma wrun_snoc : forall pre w w' m, wrun w pre w' -> acc w' m -> wrun w (pre ++ [m]) (wstep solve w' m).
Proof. intros. apply wrun_app. exists w'. split; [assumption|]. constructor; [assumption|constructor]. Qed.

Lemma L_wrecv : forall w cw cm p rp j m ch, L w cw cm p rp j -> wtag w cw = Some (m, ch) ->
  L (wstep solve w m) ch cm p rp j /\ wstep solve w m <> WErr /\ cost (wstep solve w m) ch cm p j < cost w cw cm p j.
Proof.
  intros w cw cm p rp [Ix|] m ch H Hr; cbn in H.
  2:{ destruct H as (-> & _ & _ & _ & [-> | ->]); discriminate. }
  destruct H as [(-> & -> & Hne & pre & HJ & Hw)|(-> & _ & pre & ms & _ & [-> | [_ ->]] & _)]; [|discriminate|discriminate].
  destruct Hw as [Hw|[_ ->]]; [|discriminate].
  destruct cw as [|m0 cw].
  { destruct w; cbn in Hr; discriminate. }
  assert (acc w m0) as Hacc.
  { pose proof (wrun_job Ix) as Hj. rewrite HJ in Hj. cbn in Hj. apply wrun_app in Hj as (x & Hx & Hy).
    rewrite (wrun_det _ _ _ _ Hw Hx). inversion Hy; subst. assumption. }
  assert (m = m0 /\ ch = cw) as [-> ->].
  { destruct w; cbn [wtag acc] in *; try contradiction.
    - split; congruence.
    - rewrite recv_head in Hr by assumption. split; congruence.
    - rewrite recv_head in Hr by assumption. split; congruence. }
  pose proof (wrun_snoc _ _ _ _ Hw Hacc) as Hw'.
  assert (J Ix = (pre ++ [m0]) ++ cw ++ p) as HJ' by (rewrite HJ, <- app_assoc; reflexivity).
  destruct (cw ++ p) as [|x l] eqn:Ecp.
  - apply app_eq_nil in Ecp as [-> ->]. rewrite app_nil_r in HJ'. rewrite <- HJ' in Hw'.
    pose proof (wrun_det _ _ _ _ Hw' (wrun_job Ix)) as E. rewrite E. split; [|split].
    + right. repeat split; auto. exists [], (R Ix). repeat split; auto.
    + discriminate.
    + assert (match w with WSend ms => False | _ => True end) by (destruct w; cbn in Hacc; auto).
      unfold cost. cbn [app length]. destruct w; cbn; try contradiction; lia.
  - split; [|split].
    + left. rewrite Ecp. repeat split; auto; [congruence|]. exists (pre ++ [m0]). split; [assumption|auto].
    + intros E. rewrite E in Hw'. pose proof (wrun_job Ix) as Hj. rewrite HJ' in Hj. apply wrun_app in Hj as (y & Hy1 & Hy2).
      rewrite (wrun_det _ _ _ _ Hw' Hy1) in E. pose proof (wrun_det _ _ _ _ Hw' Hy1) as <-. inversion Hy2; subst. contradiction.
    + assert (forall ms, wstep solve w m0 <> WSend ms) as Hns.
      { intros ms E. rewrite E in Hw'. pose proof (wrun_job Ix) as Hj. rewrite HJ' in Hj. apply wrun_app in Hj as (y & Hy1 & Hy2).
        pose proof (wrun_det _ _ _ _ Hw' Hy1) as <-. inversion Hy2; subst. contradiction. }
      unfold cost. cbn [app]. rewrite Ecp. cbn [length].
      destruct (wstep solve w m0) eqn:E; try (destruct w; lia). exfalso. eapply Hns. reflexivity.
Qed.

Lemma L_wsend : forall cw cm p rp j m ms, L (WSend (m :: ms)) cw cm p rp j ->
  L (WSend ms) cw (cm ++ [m]) p rp j /\ cost (WSend ms) cw (cm ++ [m]) p j < cost (WSend (m :: ms)) cw cm p j.
Proof.
  intros cw cm p rp [Ix|] m ms H; cbn in H.
  - split.
    + destruct H as [(H1 & H2 & H3 & pre & HJ & Hw)|(-> & -> & pre & ms' & HR & Hw & Hrp)].
      * exfalso. destruct Hw as [Hw|[_ Hw]]; [|discriminate].
        pose proof (wrun_job Ix) as Hj. rewrite HJ in Hj. apply wrun_app in Hj as (y & Hy1 & Hy2).
        pose proof (wrun_det _ _ _ _ Hw Hy1) as <-. inversion Hy2 as [|? ? ? ? Ha]; subst; [|contradiction]. congruence.
      * destruct Hw as [Hw|[_ Hw]]; [|discriminate]. injection Hw as <-. right. repeat split; auto.
        exists pre, ms. split; [rewrite <- (app_assoc cm); exact HR|]. split; [now left|].
        destruct rp as [r|]; [|assumption]. destruct Hrp as (v & pre' & H1 & H2 & H3). exists v, pre'. repeat split; auto.
        rewrite <- app_assoc. assumption.
    + unfold cost. rewrite app_length. cbn [length]. lia.
  - exfalso. destruct H as (_ & _ & _ & _ & [E|E]); discriminate.
Qed.

Lemma L_wsent : forall cw cm p rp j, L (WSend []) cw cm p rp j ->
  L WIdle cw cm p rp j /\ cost WIdle cw cm p j < cost (WSend []) cw cm p j.
Proof.
  intros cw cm p rp j H. split.
  - destruct j as [Ix|]; cbn in *.
    + destruct H as [(H1 & H2 & H3 & pre & HJ & Hw)|(H1 & H2 & pre & ms' & HR & Hw & Hrp)].
      * left. repeat split; auto. exists pre. split; [assumption|].
        destruct Hw as [Hw|[-> _]]; [|left; constructor].
        exfalso. pose proof (wrun_job Ix) as Hj. rewrite HJ in Hj. apply wrun_app in Hj as (y & Hy1 & Hy2).
        pose proof (wrun_det _ _ _ _ Hw Hy1) as <-. inversion Hy2; subst; try contradiction; congruence.
      * right. repeat split; auto. exists pre, ms'. split; [assumption|]. split; [|assumption].
        destruct Hw as [Hw|[E Hw]]; [|discriminate]. injection Hw as <-. auto.
    + intuition.
  - unfold cost. cbn. lia.
Qed.

Lemma L_probe : forall w cw cm p j v ch, L w cw cm p None j -> recv_tag TVec cm = Some (MVec v, ch) ->
  L w cw ch p (Some (RMatrix v NeedSize1)) j /\ cost w cw ch p j < cost w cw cm p j.
Proof.
  intros w cw cm p [Ix|] v ch H Hr; cbn in H.
  2:{ destruct H as (_ & -> & _). discriminate. }
  destruct H as [(_ & -> & _)|(-> & -> & pre & ms & HR & Hw & ->)]; [discriminate|].
  destruct cm as [|m cm]; [discriminate|]. cbn [app] in HR. unfold result_msgs in HR. remember (matrix_msgs (vec (solve (ham Ix))) ++ [MInvar Ix]) as body eqn:Eb.
  injection HR as <- HR.
  rewrite recv_head in Hr by reflexivity. injection Hr as <- <-. split.
  - right. repeat split; auto. exists [MVec (val (solve (ham Ix)))], ms. cbn. split; [unfold result_msgs; now rewrite <- Eb, HR|].
    split; [assumption|]. exists (val (solve (ham Ix))), []. repeat split; [constructor|]. rewrite <- HR, Eb. apply nonempty_app.
  - unfold cost. cbn [length]. lia.
Qed.

(** The message that the master takes while it reads a result. *)
Lemma L_recv_head : forall w cw cm p r j m ch, L w cw cm p (Some r) j -> recv_tag (rtag r) cm = Some (m, ch) ->
  exists Ix, j = Some Ix /\ cm = m :: ch /\
  ((exists r', rstep (T := T) r m = RMore r' /\ L w cw ch p (Some r') j) \/
   (rstep r m = RDone Ix (solve (ham Ix)) /\ L w cw ch p None None)).
Proof.
  intros w cw cm p r [Ix|] m ch H Hr; cbn in H; [|destruct H as (_ & _ & _ & H & _); discriminate].
  exists Ix. split; [reflexivity|].
  destruct H as [(H & _)|(-> & -> & pre & ms & HR & Hw & v & pre' & -> & Hrun & Hne)]; [discriminate|].
  destruct cm as [|m0 cm]; [discriminate|]. cbn [app] in HR. unfold result_msgs in HR.
  assert ((MVec (val (solve (ham Ix))) = MVec v :> msg) /\ matrix_msgs (vec (solve (ham Ix))) ++ [MInvar Ix] = pre' ++ m0 :: cm ++ ms) as [Ev HR']
    by (split; congruence).
  clear HR. rename HR' into HR. injection Ev as <-.
  set (v := val (solve (ham Ix))) in *. set (x := vec (solve (ham Ix))) in *.
  (* cm ++ ms is empty or ends in MInvar *)
  pose proof (rrun_result Ix) as Hfull. fold v x in Hfull.
  destruct (exists_last (l := m0 :: cm ++ ms)) as (l & z & El); [discriminate|].
  change (pre' ++ m0 :: cm ++ ms) with (pre' ++ (m0 :: cm ++ ms)) in HR. rewrite El, app_assoc in HR.
  apply app_inj_tail in HR as [HR <-].
  destruct l as [|m1 l].
  - (* the label *)
    cbn in El. injection El as -> El. apply app_eq_nil in El as [-> ->]. rewrite app_nil_r in HR. subst pre'.
    pose proof (rrun_det _ _ _ _ Hrun Hfull) as ->. rewrite recv_head in Hr by reflexivity. injection Hr as <- <-.
    split; [reflexivity|]. right. split.
    + cbn. unfold v, x. now destruct (solve (ham Ix)).
    + cbn. repeat split; auto. destruct Hw as [Hw|[_ Hw]]; auto.
  - cbn in El. injection El as <- El. rewrite HR in Hfull. apply rrun_app in Hfull as (y & Hy1 & Hy2).
    pose proof (rrun_det _ _ _ _ Hrun Hy1) as <-. inversion Hy2 as [|? ? ? r' ? Htag Hst Hrest]; subst.
    rewrite recv_head in Hr by assumption. injection Hr as <- <-. split; [reflexivity|]. left. exists r'. split; [assumption|].
    right. repeat split; auto. exists (MVec v :: pre' ++ [m0]), ms. split.
    + unfold result_msgs. fold v x. rewrite HR, El. cbn. rewrite <- app_assoc. cbn. f_equal. rewrite <- app_assoc. reflexivity.
    + split; [assumption|]. exists v, (pre' ++ [m0]). repeat split.
      * apply rrun_app. exists r. split; [assumption|]. econstructor; [assumption|eassumption|constructor].
      * rewrite El. apply nonempty_app.
Qed.
End P.
