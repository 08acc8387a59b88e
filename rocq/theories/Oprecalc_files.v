(** Different spectra are saved to different files. *)
From Coq Require Import List ZArith Ascii String Bool Lia.
From Verif Require Import Base Oprecalc_model Oprecalc_spec Oprecalc_words Oprecalc_list.
Import ListNotations.
Local Open Scope string_scope.
Local Open Scope list_scope.

Lemma split_sep c x y r s : all_chars (fun d => d <> c) x -> all_chars (fun d => d <> c) y -> (x ++ String c r)%string = (y ++ String c s)%string -> x = y /\ r = s.
Proof.
  intros Hx. revert y. induction Hx as [|d x Hd Hx IH]; intros y Hy E; destruct Hy as [|e y He Hy]; cbn in E.
  - injection E as ->. now split.
  - injection E as E _. congruence.
  - injection E as E _. congruence.
  - injection E as -> E. destruct (IH y Hy E) as [-> ->]. now split.
Qed.
Lemma no_sep c x y s : all_chars (fun d => d <> c) x -> x = (y ++ String c s)%string -> False.
Proof.
  intros H E. rewrite E in H. apply all_app in H as [_ H]. inversion H; congruence.
Qed.
Fixpoint avoids (c : ascii) (s : string) : bool := match s with "" => true | String d s' => (negb (Ascii.eqb d c) && avoids c s')%bool end.
Lemma avoids_all c s : avoids c s = true -> all_chars (fun d => d <> c) s.
Proof.
  induction s as [|d s IH]; cbn; [constructor |]. intros H. apply andb_true_iff in H as [H1 H2]. constructor; [| auto].
  apply negb_true_iff, Ascii.eqb_neq in H1. assumption.
Qed.
Lemma prefix_plain x : In x prefixes -> all_chars (fun d => d <> "_"%char) x.
Proof.
  intros H. apply avoids_all. cbn [prefixes In] in H.
  repeat match type of H with _ \/ _ => destruct H as [H | H] end; try contradiction; subst x; reflexivity.
Qed.
Lemma algoname_plain al : all_chars (fun d => d <> "_"%char) (algoname al).
Proof. apply avoids_all. destruct al; reflexivity. Qed.
Lemma algoname_inj x y : algoname x = algoname y -> x = y.
Proof. destruct x, y; cbn; intros H; try reflexivity; discriminate. Qed.

Lemma fn_inj sp sp' : In (sp_prefix sp) prefixes -> In (sp_prefix sp') prefixes -> spec_fn sp = spec_fn sp' ->
  sp_prefix sp = sp_prefix sp' /\ sp_algo sp = sp_algo sp' /\ sp_name sp = sp_name sp'.
Proof.
  intros H H' E. unfold spec_fn in E.
  change (sp_prefix sp ++ String "_"%char (algoname (sp_algo sp) ++ String "_"%char ("dens_" ++ sp_name sp)) =
          sp_prefix sp' ++ String "_"%char (algoname (sp_algo sp') ++ String "_"%char ("dens_" ++ sp_name sp')))%string in E.
  apply split_sep in E as [E1 E]; [| now apply prefix_plain | now apply prefix_plain].
  apply split_sep in E as [E2 E]; [| apply algoname_plain | apply algoname_plain].
  apply algoname_inj in E2. cbn in E. injection E as E. tauto.
Qed.

(** n1-n2 followed by "", "-u" or "-d". *)
Lemma name_inj n1 n2 s n1' n2' s' : no_dash n1 -> no_dash n2 -> no_dash n1' -> no_dash n2' -> In s [""; "-u"; "-d"] -> In s' [""; "-u"; "-d"] ->
  (n1 ++ "-" ++ n2 ++ s)%string = (n1' ++ "-" ++ n2' ++ s')%string -> n1 = n1' /\ n2 = n2' /\ s = s'.
Proof.
  intros D1 D2 D1' D2' Hs Hs' E.
  change (n1 ++ String "-"%char (n2 ++ s) = n1' ++ String "-"%char (n2' ++ s'))%string in E.
  apply split_sep in E as [-> E]; try assumption. split; [reflexivity |].
  cbn [In] in Hs, Hs'.
  destruct Hs as [<- | [<- | [<- | []]]], Hs' as [<- | [<- | [<- | []]]]; rewrite ?app_nil_r in E; try (split; [assumption | reflexivity]);
    try (exfalso; exact (no_sep _ _ _ _ D2 E)); try (exfalso; exact (no_sep _ _ _ _ D2' (eq_sym E)));
    apply split_sep in E as [-> E]; try assumption; try discriminate; now split.
Qed.

Section Files.
  Variable M : Type.
  Variables (P : oparams) (run : runtype) (a : operators M).

  Lemma requested_prefix sp : requested P run a sp -> In (sp_prefix sp) prefixes.
  Proof.
    intros (param & separate & suffix & H & _ & _ & D & _). refine (in_prefix P param _ (sp_t1 sp) (sp_t2 sp) (sp_fermionic sp) (sp_spin sp) _).
    apply index_kinds. now exists separate, suffix.
  Qed.
  Lemma direction_suffix separate spin suffix : direction P separate spin suffix -> In suffix [""; "-u"; "-d"].
  Proof. unfold direction. destruct (separate && p_isfield P)%bool; [intros [[_ ->] | [_ ->]] | intros [_ ->]]; cbn; tauto. Qed.

  (** The prefix and the names determine the rest. *)
  Lemma kinds_det param param' prefix t1 t2 t1' t2' f f' sep sep' n1 n2 : plain_names a ->
    In (param, prefix, t1, t2, f, sep) (kinds P) -> In (param', prefix, t1', t2', f', sep') (kinds P) ->
    In n1 (map fst (set_of M a t1)) -> In n1 (map fst (set_of M a t1')) -> In n2 (map fst (set_of M a t2)) -> In n2 (map fst (set_of M a t2')) ->
    t1 = t1' /\ t2 = t2' /\ f = f' /\ sep = sep'.
  Proof.
    intros (_ & U) H H' N1 N1' N2 N2'.
    assert (K : f = f' /\ sep = sep' /\ ((In t1 [Ts; Tp; Tg] /\ In t1' [Ts; Tp; Tg] /\ In t2 [Ts; Tp; Tg] /\ In t2' [Ts; Tp; Tg]) \/ (t1 = t1' /\ t2 = t2'))).
    { clear - H H'. unfold kinds in H, H'. cbn [In] in H, H'.
      repeat match type of H with _ \/ _ => destruct H as [H | H] end; try contradiction; injection H as <- <- <- <- <- <-;
      repeat match type of H' with _ \/ _ => destruct H' as [H' | H'] end; try contradiction; try discriminate; injection H'; intros; subst; cbn; tauto. }
    destruct K as (-> & -> & [(T1 & T1' & T2 & T2') | (-> & ->)]); [| tauto].
    rewrite (U n1 t1 t1' T1 T1' N1 N1'), (U n2 t2 t2' T2 T2' N2 N2'). tauto.
  Qed.

  Lemma requested_inj sp sp' : plain_names a -> requested P run a sp -> requested P run a sp' -> spec_fn sp = spec_fn sp' -> sp = sp'.
  Proof.
    intros Hp R R' E. destruct (fn_inj sp sp' (requested_prefix _ R) (requested_prefix _ R') E) as (Ep & Ea & En).
    destruct R as (param & sep & suffix & K & N1 & N2 & D & Q & _ & _). destruct R' as (param' & sep' & suffix' & K' & N1' & N2' & D' & Q' & _ & _).
    destruct sp as [prefix name al spin f t1 n1 t2 n2], sp' as [prefix' name' al' spin' f' t1' n1' t2' n2']. cbn in *. subst prefix' al'.
    rewrite Q, Q' in En. subst name name'.
    assert (ND : forall n t, In n (map fst (set_of M a t)) -> no_dash n) by (intros n t; apply Hp).
    apply name_inj in En as (-> & -> & ->); try (eapply ND; eassumption); try (eapply direction_suffix; eassumption).
    destruct (kinds_det _ _ _ _ _ _ _ _ _ _ _ _ _ Hp K K' N1 N1' N2 N2') as (-> & -> & -> & ->).
    f_equal. unfold direction in D, D'. destruct (sep' && p_isfield P)%bool.
    - destruct D as [[-> ->] | [-> ->]], D' as [[-> X] | [-> X]]; try reflexivity; discriminate.
    - destruct D as [-> _], D' as [-> _]. reflexivity.
  Qed.

  Lemma nodup_app {B} (l l' : list B) : NoDup l -> NoDup l' -> (forall b, In b l -> In b l' -> False) -> NoDup (l ++ l').
  Proof.
    induction 1 as [|x l Hx Hl IH]; cbn; intros Hl' Hd; [assumption |]. constructor.
    - rewrite in_app_iff. intros [H | H]; [contradiction | exact (Hd x (or_introl eq_refl) H)].
    - apply IH; [assumption |]. intros b Hb. apply Hd. now right.
  Qed.
  Lemma nodup_flat {A B} (g : A -> list B) l : NoDup l -> (forall x, In x l -> NoDup (g x)) ->
    (forall x y b, In x l -> In y l -> In b (g x) -> In b (g y) -> x = y) -> NoDup (flat_map g l).
  Proof.
    induction 1 as [|x l Hx Hl IH]; cbn; intros Hg Hd; [constructor |]. apply nodup_app.
    - apply Hg. now left.
    - apply IH; [intros y Hy; apply Hg; now right | intros y z b Hy Hz; apply Hd; now right].
    - intros b H1 H2. apply in_flat_map in H2 as (y & Hy & H2). apply Hx. rewrite (Hd x y b); auto.
  Qed.
  Lemma nodup_map {A B} (g : A -> B) l : NoDup l -> (forall x y, In x l -> In y l -> g x = g y -> x = y) -> NoDup (map g l).
  Proof.
    induction 1 as [|x l Hx Hl IH]; cbn; intros Hg; [constructor |]. constructor.
    - intros H. apply in_map_iff in H as (y & E & Hy). apply Hx. rewrite (Hg x y); auto.
    - apply IH. intros y z Hy Hz. apply Hg; now right.
  Qed.
  Lemma nodup_key {A B} (g : A -> B) l x y : NoDup (map g l) -> In x l -> In y l -> g x = g y -> x = y.
  Proof.
    induction l as [|z l IH]; cbn; [intros _ [] |]. intros H Hx Hy E. inversion H as [|? ? Hz Hl]; subst.
    destruct Hx as [-> | Hx], Hy as [-> | Hy]; auto.
    - exfalso. apply Hz. rewrite E. now apply in_map.
    - exfalso. apply Hz. rewrite <- E. now apply in_map.
  Qed.
  Lemma nodup_fst {A B} (l : list (A * B)) : NoDup (map fst l) -> NoDup l.
  Proof. apply List.NoDup_map_inv. Qed.

  Definition key (i : string * string * optype * optype * bool * Z) : string * optype * optype * Z :=
    let '(_, prefix, t1, t2, _, spin) := i in (prefix, t1, t2, spin).
  Lemma index_keys : NoDup (map key (index P)).
  Proof.
    unfold index, spinful, spins. destruct (p_isfield P); cbn; repeat (constructor; [cbn [In]; intuition discriminate |]); constructor.
  Qed.
  Lemma prepare_nodup prefix : NoDup (prepare_spec P run prefix).
  Proof.
    unfold prepare_spec.
    assert (W : forall b x, NoDup (when b x)) by (intros b x; destruct b; repeat constructor; auto).
    destruct (String.eqb prefix "gt"); [apply W |]. destruct (String.eqb prefix "i1t"); [apply W |].
    destruct (String.eqb prefix "i2t"); [apply W |]. destruct (String.eqb prefix "chit"); [apply W |].
    destruct run.
    - apply nodup_app; try apply W. intros b. rewrite !in_when. intuition congruence.
    - repeat (apply nodup_app; [apply W | | intros b; rewrite ?in_app_iff, !in_when; intuition congruence]). apply W.
  Qed.
  Lemma spectra_nodup : (forall t, NoDup (map fst (set_of M a t))) -> NoDup (fst (make_oprecalc M P run a)).
  Proof.
    intros U. rewrite make_fst. apply nodup_flat.
    - exact (NoDup_map_inv _ _ index_keys).
    - intros (((((tokens & prefix) & t1) & t2) & f) & spin) _. cbn [blk]. unfold block. apply nodup_flat.
      + now apply nodup_fst.
      + intros x1 _. apply nodup_flat.
        * now apply nodup_fst.
        * intros x2 _. unfold pair_block. destruct (token_find _ _); [| constructor]. apply nodup_map; [apply prepare_nodup |].
          intros x y _ _ E. injection E. auto.
        * intros x2 y2 b Hx Hy H H'. unfold pair_block in H, H'. destruct (token_find _ _); [| destruct H]. destruct (token_find _ _); [| destruct H'].
          apply in_map_iff in H as (al & <- & _). apply in_map_iff in H' as (al' & E & _). apply (nodup_key _ _ _ _ (U t2) Hx Hy).
          unfold mk in E. injection E. congruence.
      + intros x1 y1 b Hx Hy H H'. apply in_flat_map in H as (x2 & _ & H). apply in_flat_map in H' as (y2 & _ & H').
        unfold pair_block in H, H'. destruct (token_find _ _); [| destruct H]. destruct (token_find _ _); [| destruct H'].
        apply in_map_iff in H as (al & <- & _). apply in_map_iff in H' as (al' & E & _). apply (nodup_key _ _ _ _ (U t1) Hx Hy).
        unfold mk in E. injection E. congruence.
    - intros x y b Hx Hy H H'. apply (nodup_key key _ _ _ index_keys Hx Hy).
      destruct x as (((((tokens & prefix) & t1) & t2) & f) & spin), y as (((((tokens' & prefix') & t1') & t2') & f') & spin'). cbn [blk key] in *.
      apply in_block in H as (n1 & n2 & al & -> & _). apply in_block in H' as (n1' & n2' & al' & E & _). unfold mk in E. injection E. congruence.
  Qed.

  Theorem files_distinct : plain_names a -> NoDup (output_files P run a).
  Proof.
    intros Hp. unfold output_files. apply nodup_map.
    - apply spectra_nodup. intros t. apply Hp.
    - intros x y Hx Hy E. apply spectra_iff in Hx, Hy. now apply requested_inj.
  Qed.
End Files.
