(** Operators that enter a spectrum or an expectation value have been transformed at every step. *)
From Coq Require Import List ZArith Ascii String Bool Lia.
From Verif Require Import Base Oprecalc_model Oprecalc_spec Oprecalc_words Oprecalc_list.
Import ListNotations.
Local Open Scope string_scope.
Local Open Scope list_scope.

Lemma optype_eqb_iff x y : optype_eqb x y = true <-> x = y.
Proof. destruct x, y; cbn; split; congruence. Qed.
Lemma counted_in ops t n : In (t, n) ops -> counted ops t n = true.
Proof.
  intros H. unfold counted. apply existsb_exists. exists (t, n). split; [assumption |]. cbn.
  rewrite (proj2 (optype_eqb_iff t t) eq_refl), String.eqb_refl. reflexivity.
Qed.

Section Run.
  Variable M : Type.
  Variable empty : M.
  Variable recalc : optype -> nat -> string -> M -> M.
  Variable trim : nat -> M -> M.
  Variables (P : oparams) (run : runtype) (a0 : operators M) (Ninit : nat).

  Notation sel ops N t n := (match t with Ts | Tg => do_sg P run ops N t n | _ => counted ops t n end).
  Lemma set_recalc ops N a t :
    set_of M (recalculate_operators M empty recalc P run ops N a) t =
    each M (fun n m => if sel ops N t n then recalc t N n m else empty) (set_of M a t).
  Proof. destruct t; reflexivity. Qed.
  Lemma set_trim N a t : set_of M (trim_matrices M trim N a) t = each M (fun _ m => trim N m) (set_of M a t).
  Proof. destruct t; reflexivity. Qed.
  Lemma each_each f g l : each M f (each M g l) = each M (fun n m => f n (g n m)) l.
  Proof. unfold each. rewrite List.map_map. reflexivity. Qed.
  Lemma each_id l : each M (fun _ m => m) l = l.
  Proof. unfold each. rewrite <- (List.map_id l) at 2. apply List.map_ext. now intros []. Qed.
  Lemma each_names f l : List.map fst (each M f l) = List.map fst l.
  Proof. unfold each. rewrite List.map_map. reflexivity. Qed.
  Lemma in_each f l n v : In (n, v) (each M f l) <-> exists m, In (n, m) l /\ v = f n m.
  Proof.
    unfold each. rewrite in_map_iff. split.
    - intros ((n' & m) & E & H). cbn in E. injection E as <- <-. now exists m.
    - intros (m & H & ->). exists (n, m). now split.
  Qed.

  Variable o : oprecalc.
  (** The value of the operator after the recalculation of step Ninit + k, as the program has it. *)
  Fixpoint prog (t : optype) (n : string) (m0 : M) (k : nat) : M :=
    if sel (snd o) (Ninit + k)%nat t n then
      recalc t (Ninit + k) n (match k with 0%nat => m0 | S k' => trim (Ninit + k') (prog t n m0 k') end)
    else empty.
  Definition start (t : optype) (n : string) (m0 : M) (k : nat) : M := match k with 0%nat => m0 | S k' => trim (Ninit + k') (prog t n m0 k') end.
  Definition state (k : nat) (a : operators M) : Prop := forall t, set_of M a t = each M (fun n m0 => start t n m0 k) (set_of M a0 t).
  Definition after (k : nat) (a : operators M) : Prop := forall t, set_of M a t = each M (fun n m0 => prog t n m0 k) (set_of M a0 t).
  Lemma state_0 : state 0 a0.
  Proof. intros t. symmetry. apply each_id. Qed.
  Lemma state_after k a : state k a -> after k (recalculate_operators M empty recalc P run (snd o) (Ninit + k) a).
  Proof.
    intros H t. rewrite set_recalc, H, each_each. unfold each. apply List.map_ext. intros (n & m). cbn [fst snd]. f_equal. unfold start. destruct k; reflexivity.
  Qed.
  Lemma after_state k a : after k a -> state (S k) (trim_matrices M trim (Ninit + k) a).
  Proof. intros H t. rewrite set_trim, H, each_each. reflexivity. Qed.

  (** Which operators are transformed at all the steps up to Ninit + k. *)
  Lemma prog_counted t n m0 k : In (t, n) (snd o) -> prog t n m0 k = carried recalc trim t n m0 Ninit k.
  Proof.
    intros H. apply counted_in in H. assert (S : forall N, sel (snd o) N t n = true).
    { intros N. destruct t; try assumption; unfold do_sg; rewrite H; destruct (is_nrg run), (p_fdmexpv P && Nat.leb N (p_fdmexpvn P))%bool; reflexivity. }
    induction k as [|k IH]; cbn [prog carried]; rewrite S; [now rewrite Nat.add_0_r | now rewrite IH].
  Qed.
  Lemma prog_singlet t n m0 k : t = Ts \/ t = Tg -> (run = RunNRG \/ p_fdmexpv P = true /\ (Ninit + k <= p_fdmexpvn P)%nat) ->
    prog t n m0 k = carried recalc trim t n m0 Ninit k.
  Proof.
    intros Ht Hr. assert (S : forall j, (j <= k)%nat -> sel (snd o) (Ninit + j)%nat t n = true).
    { intros j Hj. assert (D : do_sg P run (snd o) (Ninit + j) t n = true).
      { unfold do_sg. destruct Hr as [-> | [-> Hk]]; [reflexivity |]. destruct (is_nrg run); [reflexivity |].
        replace (Nat.leb (Ninit + j) (p_fdmexpvn P)) with true by (symmetry; apply Nat.leb_le; lia). reflexivity. }
      destruct Ht as [-> | ->]; assumption. }
    clear Hr. induction k as [|k IH]; cbn [prog carried]; rewrite S by lia; [now rewrite Nat.add_0_r |].
    rewrite IH; [reflexivity |]. intros j Hj. apply S. lia.
  Qed.

  (** Two groups of operators with the same values are measured alike. *)
  Lemma measure_ext sl at_step ndx a b : (forall t, set_of M a t = set_of M b t) -> measure M P run sl at_step ndx a = measure M P run sl at_step ndx b.
  Proof.
    intros H. unfold measure, deref. pose proof (H Ts) as Hs. pose proof (H Tg) as Hg. cbn in Hs, Hg. rewrite Hs, Hg. f_equal.
    apply List.map_ext. intros sp. now rewrite !H.
  Qed.
  Definition ops_after (k : nat) : operators M :=
    let f t := each M (fun n m0 => prog t n m0 k) (set_of M a0 t) in Operators M (f Ts) (f Tp) (f Tg) (f Td) (f Tt) (f Tot) (f Tq).
  Lemma ops_after_ok k : after k (ops_after k).
  Proof. intros t. destruct t; reflexivity. Qed.
  Lemma loop_measures len : forall k a, state k a ->
    nrg_loop M empty recalc trim P run o (seq (Ninit + k) len) a =
    flat_map (fun j => measure M P run (fst o) (Some (Ninit + j)%nat) (Ninit + j) (ops_after j)) (seq k len).
  Proof.
    induction len as [|len IH]; intros k a H; cbn [seq nrg_loop flat_map]; [reflexivity |]. f_equal.
    - apply measure_ext. intros t. now rewrite (state_after k a H t), (ops_after_ok k t).
    - rewrite <- Nat.add_succ_r. apply IH. apply after_state. now apply state_after.
  Qed.
End Run.

Section Events.
  Variable M : Type.
  Variable empty : M.
  Variable recalc : optype -> nat -> string -> M -> M.
  Variable trim : nat -> M -> M.
  Variables (P : oparams) (run : runtype) (a : operators M) (Ninit Nmax : nat).
  Notation o := (make_oprecalc M P run a).

  (** The operators that are measured at a step. *)
  Definition ops_at (at_step : option nat) : operators M :=
    match at_step with None => a | Some N => ops_after M empty recalc trim P run a Ninit o (N - Ninit) end.
  Lemma phase_events e :
    In e (run_phase M empty recalc trim P run Ninit Nmax a) <->
    exists at_step, measured_at P run Ninit Nmax at_step /\
      In e (measure M P run (fst o) at_step (match at_step with Some N => N | None => (Ninit - 1)%nat end) (ops_at at_step)).
  Proof.
    unfold run_phase. pose proof (loop_measures M empty recalc trim P run a Ninit o (Nmax - Ninit) 0 a (state_0 M empty recalc trim P run a Ninit o)) as L.
    rewrite Nat.add_0_r in L. rewrite L, in_app_iff, in_flat_map. clear L. split.
    - intros [H | (j & Hj & H)].
      + destruct run; cbn in H; [| contradiction]. destruct (p_calc0 P) eqn:C; [| contradiction]. exists None. cbn. now repeat split.
      + apply in_seq in Hj. exists (Some (Ninit + j)%nat). cbn. replace (Ninit + j - Ninit)%nat with j by lia. split; [lia | assumption].
    - intros (at_step & Hm & H). destruct at_step as [N |]; cbn in Hm.
      + right. exists (N - Ninit)%nat. split; [apply in_seq; lia |]. replace (Ninit + (N - Ninit))%nat with N by lia. exact H.
      + left. destruct Hm as [-> ->]. exact H.
  Qed.

  Lemma find_name (l : list (string * M)) n : In n (List.map fst l) -> exists m, find (fun p => String.eqb (fst p) n) l = Some (n, m) /\ In (n, m) l.
  Proof.
    induction l as [|(x & m) l IH]; cbn; [intros [] |]. destruct (String.eqb_spec x n) as [-> | Hne].
    - intros _. exists m. split; [reflexivity | now left].
    - intros [E | H]; [contradiction |]. destruct (IH H) as (m' & F & I'). exists m'. split; [assumption | now right].
  Qed.
  Lemma deref_value at_step t n : measured_at P run Ninit Nmax at_step -> In n (List.map fst (set_of M a t)) -> In (t, n) (snd o) ->
    exists w, deref M (ops_at at_step) t n = Some w /\ value_at recalc trim a Ninit at_step t n w.
  Proof.
    intros Hm Hn Ho. unfold deref. destruct at_step as [N |].
    - cbn [ops_at]. rewrite (ops_after_ok M empty recalc trim P run a Ninit o (N - Ninit) t).
      match goal with |- context [find _ ?l] => destruct (find_name l n) as (w & F & Hin) end.
      { now rewrite each_names. }
      rewrite F. exists w. split; [reflexivity |]. apply in_each in Hin as (m0 & Hin & ->). exists m0. split; [assumption |].
      now apply prog_counted.
    - cbn [ops_at]. destruct (find_name _ n Hn) as (w & F & Hin). rewrite F. exists w. split; [reflexivity |]. exists w. now split.
  Qed.

  Lemma event_spectrum at_step sp v1 v2 d z :
    In (Contribution M at_step sp v1 v2 d z) (run_phase M empty recalc trim P run Ninit Nmax a) <->
    measured_at P run Ninit Nmax at_step /\ In sp (fst o) /\ v1 = deref M (ops_at at_step) (sp_t1 sp) (sp_n1 sp) /\
    v2 = deref M (ops_at at_step) (sp_t2 sp) (sp_n2 sp) /\ d = rho_type (sp_algo sp) /\ z = z_used (sp_algo sp).
  Proof.
    rewrite phase_events. split.
    - intros (at' & Hm & H). unfold measure in H. apply in_app_iff in H as [H | H].
      + apply in_map_iff in H as (sp' & E & H). injection E as -> -> <- <- <- <-. tauto.
      + exfalso. destruct (is_nrg run); [| destruct (p_fdmexpv P && _)%bool; [| destruct H]];
          apply in_app_iff in H as [H | H]; apply in_map_iff in H as (x & E & _); discriminate.
    - intros (Hm & Hs & -> & -> & -> & ->). exists at_step. split; [assumption |]. unfold measure. apply in_app_iff. left.
      apply in_map_iff. exists sp. now split.
  Qed.

  Theorem spectra_computed at_step sp v1 v2 d z :
    In (Contribution M at_step sp v1 v2 d z) (run_phase M empty recalc trim P run Ninit Nmax a) ->
    requested P run a sp /\ measured_at P run Ninit Nmax at_step /\
    (exists w1 w2, v1 = Some w1 /\ value_at recalc trim a Ninit at_step (sp_t1 sp) (sp_n1 sp) w1 /\
                   v2 = Some w2 /\ value_at recalc trim a Ninit at_step (sp_t2 sp) (sp_n2 sp) w2) /\
    d = density_for (sp_algo sp) /\ z = partition_for (sp_algo sp).
  Proof.
    intros H. apply event_spectrum in H as (Hm & Hs & -> & -> & -> & ->).
    pose proof (make_covers M P run a sp Hs) as [C1 C2]. pose proof (proj1 (spectra_iff M P run a sp) Hs) as Hr.
    pose proof Hr as (param & separate & suffix & _ & N1 & N2 & _).
    destruct (deref_value at_step _ _ Hm N1 C1) as (w1 & D1 & V1). destruct (deref_value at_step _ _ Hm N2 C2) as (w2 & D2 & V2).
    split; [assumption |]. split; [assumption |]. split.
    - exists w1, w2. tauto.
    - split; destruct (sp_algo sp); reflexivity.
  Qed.
  Theorem spectra_complete at_step sp :
    requested P run a sp -> measured_at P run Ninit Nmax at_step ->
    exists v1 v2 d z, In (Contribution M at_step sp v1 v2 d z) (run_phase M empty recalc trim P run Ninit Nmax a).
  Proof.
    intros Hr Hm. apply spectra_iff in Hr.
    exists (deref M (ops_at at_step) (sp_t1 sp) (sp_n1 sp)), (deref M (ops_at at_step) (sp_t2 sp) (sp_n2 sp)), (rho_type (sp_algo sp)), (z_used (sp_algo sp)).
    apply event_spectrum. tauto.
  Qed.

  Lemma singlet_value at_step t n v : measured_at P run Ninit Nmax at_step -> t = Ts \/ t = Tg ->
    (match at_step with Some N => run = RunNRG \/ p_fdmexpv P = true /\ (N <= p_fdmexpvn P)%nat | None => True end) ->
    In (n, v) (set_of M (ops_at at_step) t) <-> value_at recalc trim a Ninit at_step t n v.
  Proof.
    intros Hm Ht Hr. destruct at_step as [N |].
    - cbn [ops_at]. rewrite (ops_after_ok M empty recalc trim P run a Ninit o (N - Ninit) t), in_each. unfold value_at. cbn in Hm.
      assert (E : forall m, prog M empty recalc trim P run Ninit o t n m (N - Ninit) = carried recalc trim t n m Ninit (N - Ninit)).
      { intros m. apply prog_singlet; [assumption |]. replace (Ninit + (N - Ninit))%nat with N by lia. assumption. }
      split; intros (m & Hin & ->); exists m; split; try assumption; auto.
    - cbn [ops_at]. unfold value_at. split; [intros H; exists v; now split | now intros (m & H & ->)].
  Qed.
  Theorem expectation_values at_step t n v :
    In (Expectation M at_step t n v) (run_phase M empty recalc trim P run Ninit Nmax a) <->
    run = RunNRG /\ measured_at P run Ninit Nmax at_step /\ (t = Ts \/ t = Tg) /\ value_at recalc trim a Ninit at_step t n v.
  Proof.
    rewrite phase_events. split.
    - intros (at' & Hm & H). unfold measure in H. apply in_app_iff in H as [H | H].
      { apply in_map_iff in H as (x & E & _). discriminate. }
      destruct run eqn:R; cbn [is_nrg] in H.
      + assert (G : at' = at_step /\ (t = Ts \/ t = Tg) /\ In (n, v) (set_of M (ops_at at_step) t)).
        { apply in_app_iff in H as [H | H]; apply in_map_iff in H as ((x & m) & E & H); cbn in E; injection E as -> <- -> ->; auto. }
        destruct G as (-> & Ht & Hin). split; [reflexivity |]. split; [assumption |]. split; [assumption |].
        rewrite <- R in Hm. apply singlet_value; try assumption. destruct at_step; auto.
      + exfalso. destruct (p_fdmexpv P && _)%bool; [| destruct H]. apply in_app_iff in H as [H | H]; apply in_map_iff in H as (x & E & _); discriminate.
    - intros (R & Hm & Ht & Hv). exists at_step. split; [assumption |]. unfold measure. apply in_app_iff. right. rewrite R. cbn [is_nrg].
      apply singlet_value in Hv; try assumption; [| destruct at_step; auto].
      apply in_app_iff. destruct Ht as [-> | ->]; [left | right]; apply in_map_iff; exists (n, v); now split.
  Qed.
  Theorem fdm_expectation_values at_step t n v :
    In (FdmExpectation M at_step t n v) (run_phase M empty recalc trim P run Ninit Nmax a) <->
    run = RunDM /\ p_fdmexpv P = true /\ at_step = Some (p_fdmexpvn P) /\ (Ninit <= p_fdmexpvn P < Nmax)%nat /\ (t = Ts \/ t = Tg) /\
    value_at recalc trim a Ninit at_step t n v.
  Proof.
    rewrite phase_events. split.
    - intros (at' & Hm & H). unfold measure in H. apply in_app_iff in H as [H | H].
      { apply in_map_iff in H as (x & E & _). discriminate. }
      destruct run eqn:R; cbn [is_nrg] in H.
      + exfalso. apply in_app_iff in H as [H | H]; apply in_map_iff in H as (x & E & _); discriminate.
      + destruct (p_fdmexpv P && _)%bool eqn:F; [| destruct H]. apply andb_true_iff in F as [F1 F2]. apply Nat.eqb_eq in F2.
        assert (G : at' = at_step /\ (t = Ts \/ t = Tg) /\ In (n, v) (set_of M (ops_at at_step) t)).
        { apply in_app_iff in H as [H | H]; apply in_map_iff in H as ((x & m) & E & H); cbn in E; injection E as -> <- -> ->; auto. }
        destruct G as (-> & Ht & Hin). destruct at_step as [N |]; cbn in Hm; [| destruct Hm; discriminate]. subst N.
        repeat split; try assumption; try tauto; try lia. apply singlet_value; try assumption. right. split; [assumption | lia].
    - intros (R & F & -> & Hn & Ht & Hv). exists (Some (p_fdmexpvn P)). split; [assumption |]. unfold measure. apply in_app_iff. right. rewrite R. cbn [is_nrg].
      rewrite F, Nat.eqb_refl. cbn [andb]. apply singlet_value in Hv; try assumption; [| right; split; [assumption | lia]].
      apply in_app_iff. destruct Ht as [-> | ->]; [left | right]; apply in_map_iff; exists (n, v); now split.
  Qed.

  (** The density matrices and partition functions that are used have been prepared. *)
  Theorem inputs_available at_step sp v1 v2 d z :
    In (Contribution M at_step sp v1 v2 d z) (run_phase M empty recalc trim P run Ninit Nmax a) ->
    (forall r, d = Some r -> rho_loaded P run r = true) /\ (forall y, z = Some y -> z_computed P y = true).
  Proof.
    intros H. apply spectra_computed in H as (Hr & _ & _ & -> & ->).
    destruct Hr as (param & separate & suffix & Hk & _ & _ & _ & _ & Hw & Ha).
    destruct sp as [prefix name al spin f t1 n1 t2 n2]. cbn in *. split.
    - intros r E. inversion Ha as [E1 E2 E3 | E1 E2 E3 | E1 E2 E3 | E1 E2 E3 | x al' Hx Hal E1 E2 E3 | x al' Hx Hal E1 E2 E3]; subst; cbn in E; try discriminate.
      + cbn in Hal. repeat (destruct Hal as [Hal | Hal]; [injection Hal as <- _; cbn in E; discriminate |]). destruct Hal.
      + unfold rho_loaded, need_rho, need_rhoFDM, cfs_flags, dmnrg_flags, fdm_flags.
        cbn in Hal. repeat (destruct Hal as [Hal | Hal]; [injection Hal as <- Hb; cbn in E; injection E as <-; rewrite Hb, ?orb_true_r; reflexivity |]). destruct Hal.
    - intros y E. assert (NE : param <> "") by (intros ->; exact (no_words _ Hw)). apply String.eqb_neq in NE.
      assert (Z : y = Zft \/ (prefix = "chit" /\ y = Zchit) \/ (In prefix ["gt"; "i1t"; "i2t"] /\ y = Zgt)).
      { inversion Ha as [E1 E2 E3 | E1 E2 E3 | E1 E2 E3 | E1 E2 E3 | x al' Hx Hal E1 E2 E3 | x al' Hx Hal E1 E2 E3]; subst; cbn in E; try (injection E as <-; cbn; tauto).
        all: left; cbn in Hal; repeat (destruct Hal as [Hal | Hal]; [injection Hal as <- _; cbn in E; congruence |]); destruct Hal. }
      unfold kinds in Hk. cbn [In] in Hk.
      destruct Z as [-> | [[-> ->] | [Hp ->]]]; [reflexivity | |]; cbn [z_computed];
        repeat match type of Hk with _ \/ _ => destruct Hk as [Hk | Hk] end; try contradiction; try discriminate; injection Hk; intros; subst; try discriminate;
        try (cbn in Hp; repeat (destruct Hp as [Hp | Hp]; [discriminate |]); contradiction); rewrite NE; cbn; rewrite ?orb_true_r; reflexivity.
  Qed.
End Events.
