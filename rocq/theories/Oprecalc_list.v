(** The list of spectra made by the constructor. *)
From Coq Require Import List ZArith Ascii String Bool Lia.
From Verif Require Import Base Oprecalc_model Oprecalc_spec Oprecalc_words.
Import ListNotations.
Local Open Scope string_scope.
Local Open Scope list_scope.

Local Ltac pick := solve [repeat (first [left; reflexivity | right])].
Lemma in_when b (a x : algo) : In x (when b a) <-> a = x /\ b = true.
Proof. destruct b; cbn; intuition congruence. Qed.

Definition prefixes := ["corr"; "chit"; "spin"; "orbspin"; "spec"; "gt"; "i1t"; "i2t"; "specq"].
Lemma prepare_in P run x al : In x prefixes -> In al (prepare_spec P run x) <-> algo_for P run x al.
Proof.
  intros Hx. split.
  - intros H. destruct run.
    + cbn [prefixes In] in Hx.
      repeat match type of Hx with _ \/ _ => destruct Hx as [Hx | Hx] end; try contradiction; subst x; cbn -[In when] in H;
      first [apply in_when in H as [<- _]; constructor
            | rewrite in_app_iff, !in_when in H; apply af_first; [cbn; tauto |]; destruct H as [[<- E] | [<- E]]; rewrite E; cbn; tauto].
    + cbn [prefixes In] in Hx.
      repeat match type of Hx with _ \/ _ => destruct Hx as [Hx | Hx] end; try contradiction; subst x; cbn -[In when] in H; try (cbn in H; contradiction).
      all: rewrite !in_app_iff, !in_when in H; apply af_dm; [cbn; tauto |];
        repeat match type of H with _ \/ _ => destruct H as [H | H] end; destruct H as [<- E]; rewrite E; cbn; tauto.
  - intros H. destruct H as [ | | | | x al Hk Ha | x al Hk Ha]; try (cbn; tauto).
    + repeat (destruct Hk as [<- | Hk]; [cbn -[In when]; rewrite in_app_iff, !in_when; cbn in Ha; intuition congruence |]). destruct Hk.
    + repeat (destruct Hk as [<- | Hk]; [cbn -[In when]; rewrite !in_app_iff, !in_when; cbn in Ha; intuition congruence |]). destruct Hk.
Qed.

Section Spectra.
  Variable M : Type.
  Variables (P : oparams) (run : runtype) (a : operators M).

  Definition mk (prefix name : string) (spin : Z) (fermionic : bool) (t1 : optype) (n1 : string) (t2 : optype) (n2 : string) (al : algo) : spectrum :=
    Spectrum prefix name al spin fermionic t1 n1 t2 n2.
  Definition pair_block (tokens prefix : string) (t1 t2 : optype) (fermionic : bool) (spin : Z) (n1 n2 : string) : list spectrum :=
    let name := spec_name n1 n2 spin in
    if token_find tokens name then List.map (mk prefix name spin fermionic t1 n1 t2 n2) (prepare_spec P run prefix) else [].
  Definition block (tokens prefix : string) (t1 t2 : optype) (fermionic : bool) (spin : Z) : list spectrum :=
    flat_map (fun x1 => flat_map (fun x2 => pair_block tokens prefix t1 t2 fermionic spin (fst x1) (fst x2)) (set_of M a t2)) (set_of M a t1).

  Definition covers (acc : oprecalc) : Prop :=
    forall sp, In sp (fst acc) -> In (sp_t1 sp, sp_n1 sp) (snd acc) /\ In (sp_t2 sp, sp_n2 sp) (snd acc).

  Lemma fold_blocks {A} (f : oprecalc -> A -> oprecalc) (g : A -> list spectrum) l :
    (forall x acc, fst (f acc x) = fst acc ++ g x) -> forall acc, fst (fold_left f l acc) = fst acc ++ flat_map g l.
  Proof.
    intros H. induction l as [|x l IH]; intros acc; cbn; [now rewrite List.app_nil_r |]. now rewrite IH, H, <- List.app_assoc.
  Qed.
  Lemma fold_inv {A} (f : oprecalc -> A -> oprecalc) (Q : oprecalc -> Prop) l : (forall x acc, Q acc -> Q (f acc x)) -> forall acc, Q acc -> Q (fold_left f l acc).
  Proof. intros H. induction l as [|x l IH]; intros acc Ha; cbn; auto. Qed.

  Lemma loopover_fst tokens prefix t1 t2 fermionic spin acc :
    fst (loopover M P run a tokens prefix t1 t2 fermionic spin acc) = fst acc ++ block tokens prefix t1 t2 fermionic spin.
  Proof.
    unfold loopover, block. apply fold_blocks. intros x1 acc1. apply fold_blocks. intros x2 acc2.
    unfold pair_block. destruct (token_find tokens _); [| now rewrite List.app_nil_r].
    destruct (prepare_spec P run prefix); [now rewrite List.app_nil_r | reflexivity].
  Qed.
  Lemma loopover_covers tokens prefix t1 t2 fermionic spin acc : covers acc -> covers (loopover M P run a tokens prefix t1 t2 fermionic spin acc).
  Proof.
    intros H. unfold loopover. apply fold_inv; [| assumption]. intros x1 acc1 H1. apply fold_inv; [| assumption]. intros x2 acc2 H2.
    destruct (token_find tokens _); [| assumption]. destruct (prepare_spec P run prefix) as [|al l]; [assumption |].
    intros sp Hin. change (In sp (fst acc2 ++ List.map (mk prefix (spec_name (fst x1) (fst x2) spin) spin fermionic t1 (fst x1) t2 (fst x2)) (al :: l))) in Hin.
    apply in_app_iff in Hin as [Hin | Hin]; cbn [snd]; rewrite !in_app_iff.
    - destruct (H2 sp Hin). tauto.
    - apply in_map_iff in Hin as (al' & <- & _). cbn. tauto.
  Qed.

  (** The blocks, in order. *)
  Definition spinful (tokens prefix : string) : list (string * string * optype * optype * bool * Z) :=
    List.map (fun spin => (tokens, prefix, Td, Td, true, spin)) (spins P).
  Definition index : list (string * string * optype * optype * bool * Z) :=
    [ (p_specs P, "corr", Ts, Ts, false, 0%Z); (p_specs P, "corr", Tp, Tp, false, 0%Z); (p_specs P, "corr", Tg, Tg, false, 0%Z);
      (p_specs P, "corr", Ts, Tg, false, 0%Z); (p_specs P, "corr", Tg, Ts, false, 0%Z);
      (p_specchit P, "chit", Ts, Ts, false, 0%Z); (p_specchit P, "chit", Ts, Tg, false, 0%Z);
      (p_specchit P, "chit", Tg, Ts, false, 0%Z); (p_specchit P, "chit", Tg, Tg, false, 0%Z);
      (p_spect P, "spin", Tt, Tt, false, 0%Z); (p_specot P, "orbspin", Tot, Tot, false, 0%Z) ] ++
    spinful (p_specd P) "spec" ++ spinful (p_specgt P) "gt" ++ spinful (p_speci1t P) "i1t" ++ spinful (p_speci2t P) "i2t" ++
    [(p_specq P, "specq", Tq, Tq, true, 0%Z)].
  Definition blk (i : string * string * optype * optype * bool * Z) : list spectrum :=
    let '(tokens, prefix, t1, t2, f, spin) := i in block tokens prefix t1 t2 f spin.

  Lemma loop_spins_fst tokens prefix acc : fst (loop_spins M P run a tokens prefix acc) = fst acc ++ flat_map blk (spinful tokens prefix).
  Proof.
    unfold spinful. transitivity (fst acc ++ flat_map (fun spin => block tokens prefix Td Td true spin) (spins P)).
    - unfold loop_spins. apply fold_blocks. intros spin acc'. apply loopover_fst.
    - f_equal. rewrite !flat_map_concat_map, List.map_map. reflexivity.
  Qed.
  Lemma loop_spins_covers tokens prefix acc : covers acc -> covers (loop_spins M P run a tokens prefix acc).
  Proof. intros H. unfold loop_spins. apply fold_inv; [| assumption]. intros spin acc'. apply loopover_covers. Qed.

  Lemma make_fst : fst (make_oprecalc M P run a) = flat_map blk index.
  Proof.
    unfold make_oprecalc, index. rewrite loopover_fst, !loop_spins_fst, !loopover_fst. rewrite !flat_map_app. cbn [flat_map blk fst].
    rewrite !List.app_nil_r, <- !List.app_assoc. reflexivity.
  Qed.
  Lemma make_covers : covers (make_oprecalc M P run a).
  Proof.
    unfold make_oprecalc. apply loopover_covers. do 4 apply loop_spins_covers. do 11 apply loopover_covers. intros sp [].
  Qed.

  Lemma in_block sp tokens prefix t1 t2 fermionic spin :
    In sp (block tokens prefix t1 t2 fermionic spin) <->
    exists n1 n2 al, sp = mk prefix (spec_name n1 n2 spin) spin fermionic t1 n1 t2 n2 al /\ In n1 (List.map fst (set_of M a t1)) /\
      In n2 (List.map fst (set_of M a t2)) /\ token_find tokens (spec_name n1 n2 spin) = true /\ In al (prepare_spec P run prefix).
  Proof.
    unfold block. rewrite in_flat_map. split.
    - intros (x1 & H1 & H). apply in_flat_map in H as (x2 & H2 & H). unfold pair_block in H.
      destruct (token_find tokens _) eqn:E; [| destruct H]. apply in_map_iff in H as (al & <- & H).
      exists (fst x1), (fst x2), al. repeat split; auto using in_map.
    - intros (n1 & n2 & al & -> & H1 & H2 & E & H). apply in_map_iff in H1 as (x1 & <- & H1). apply in_map_iff in H2 as (x2 & <- & H2).
      exists x1. split; [assumption |]. apply in_flat_map. exists x2. split; [assumption |]. unfold pair_block. rewrite E. now apply in_map.
  Qed.

  Definition dirs (separate : bool) : list Z := if (separate && p_isfield P)%bool then [(-1)%Z; 1%Z] else [0%Z].
  Lemma index_eq : index = flat_map (fun k => let '(tokens, prefix, t1, t2, f, separate) := k in List.map (fun spin => (tokens, prefix, t1, t2, f, spin)) (dirs separate)) (kinds P).
  Proof. unfold index, kinds, spinful, spins, dirs. destruct (p_isfield P); reflexivity. Qed.
  Lemma in_dirs separate spin : In spin (dirs separate) <-> exists suffix, direction P separate spin suffix.
  Proof.
    unfold dirs, direction. destruct (separate && p_isfield P)%bool; cbn; split.
    - intros [<- | [<- | []]]; [exists "-d"; tauto | exists "-u"; tauto].
    - intros (suffix & [[-> _] | [-> _]]); tauto.
    - intros [<- | []]. now exists "".
    - intros (suffix & [-> _]). tauto.
  Qed.
  Lemma index_kinds tokens prefix t1 t2 f spin :
    In (tokens, prefix, t1, t2, f, spin) index <->
    exists separate suffix, In (tokens, prefix, t1, t2, f, separate) (kinds P) /\ direction P separate spin suffix.
  Proof.
    rewrite index_eq, in_flat_map. split.
    - intros ((((((tokens' & prefix') & t1') & t2') & f') & separate) & Hk & H). apply in_map_iff in H as (spin' & E & H).
      injection E as -> -> -> -> -> ->. apply in_dirs in H as (suffix & D). now exists separate, suffix.
    - intros (separate & suffix & Hk & D). exists (tokens, prefix, t1, t2, f, separate). split; [assumption |].
      apply in_map_iff. exists spin. split; [reflexivity |]. apply in_dirs. now exists suffix.
  Qed.
  Lemma in_prefix tokens prefix t1 t2 f spin : In (tokens, prefix, t1, t2, f, spin) index -> In prefix prefixes.
  Proof.
    intros H. apply index_kinds in H as (separate & suffix & H & _). unfold kinds in H. cbn [In] in H.
    repeat match type of H with _ \/ _ => destruct H as [H | H] end; try contradiction; injection H as _ <- _ _ _ _; cbn; pick.
  Qed.
  Lemma spectra_iff sp : In sp (fst (make_oprecalc M P run a)) <-> requested P run a sp.
  Proof.
    rewrite make_fst, in_flat_map. split.
    - intros ((((((tokens & prefix) & t1) & t2) & f) & spin) & Hi & H). cbn [blk] in H. apply in_block in H as (n1 & n2 & al & -> & H1 & H2 & E & H).
      assert (Hp : In prefix prefixes) by (apply (in_prefix _ _ _ _ _ _ Hi)).
      apply index_kinds in Hi as (separate & suffix & Hk & D). exists tokens, separate, suffix. cbn.
      assert (En : spec_name n1 n2 spin = (n1 ++ "-" ++ n2 ++ suffix)%string).
      { unfold spec_name. destruct (separate && p_isfield P)%bool eqn:B; unfold direction in D; rewrite B in D.
        - destruct D as [[-> ->] | [-> ->]]; reflexivity.
        - destruct D as [-> ->]; reflexivity. }
      apply token_find_iff in E. apply prepare_in in H; [| assumption]. tauto.
    - intros (tokens & separate & suffix & Hk & H1 & H2 & D & En & Hw & Ha). destruct sp as [prefix name al spin f t1 n1 t2 n2]. cbn in *.
      assert (Hi : In (tokens, prefix, t1, t2, f, spin) index) by (apply index_kinds; now exists separate, suffix).
      exists (tokens, prefix, t1, t2, f, spin). split; [assumption |]. cbn [blk]. apply in_block.
      assert (En' : name = spec_name n1 n2 spin).
      { rewrite En. unfold spec_name. unfold direction in D. destruct (separate && p_isfield P)%bool.
        - destruct D as [[-> ->] | [-> ->]]; reflexivity.
        - destruct D as [-> ->]; reflexivity. }
      exists n1, n2, al. rewrite <- En'. apply token_find_iff in Hw.
      apply prepare_in in Ha; [| now apply (in_prefix _ _ _ _ _ _ Hi)]. tauto.
  Qed.
End Spectra.
