(** The statements about norms, from the check that was evaluated; the exceptions. *)
From Coq Require Import List ZArith Reals Lra Lia Bool String.
From Verif Require Import Base Invar_model Symmetry_model Coef_model Coef_spec Coef_sector Coef_sector_sound Coef_lines_spec Coef_iso Coef_iso_sound Coef_tables Coef_isos Coef_ieee.
From Verif Require Import Coef_tab_QS Coef_tab_SPSU2.
Import ListNotations.
Local Open Scope string_scope.
Local Open Scope list_scope.
Local Open Scope Z_scope.

Lemma two_spins : forallb (fun cs => Nat.leb (ngen cs (sy_sig (cs_sym cs))) 2) all_coef = true.
Proof. vm_compute. reflexivity. Qed.

Lemma norms_kept : forall cs, In cs all_coef -> translated cs = true -> forall n, In n (op_names cs) -> incomplete cs n = false ->
  forall I nn, sector cs I -> gap cs n I = false ->
  exists B, o_below (mended cs) nn n I = Some B /\
    forall t i j A X, In t (op_tables (mended cs) n) -> family cs I i = true -> family cs I j = true -> built_from cs I i = Some A ->
    sh_apply (tt_shift t) A = Some X -> allowed (cs_sym cs) X = Ok true -> triangle (cs_sym cs) A X (tt_iop t) = Ok true ->
    through cs X B i j = (if i =? j then 1 else 0)%R.
Proof.
  intros cs H E n Hn HI I nn HS HG. pose proof iso_all as R. rewrite Forall_forall in R.
  assert (H' : In cs (filter translated all_coef)) by (apply filter_In; split; assumption). specialize (R cs H'). cbv beta in R. rewrite Forall_forall in R.
  specialize (R n Hn). cbv beta in R. destruct R as [R|[T R]]; [congruence|].
  pose proof two_spins as N. rewrite forallb_forall in N. specialize (N cs H). cbv beta in N. apply Nat.leb_le in N.
  destruct (run_iso_sound (mended cs) n T N R I nn HS HG) as (B & EB & HB). exists B. split; [exact EB|].
  intros t i j A X Ht Hi Hj EA EX HX HT. apply (HB t i j A X Ht Hi Hj EA EX); [change (cs_sym (mended cs)) with (cs_sym cs); rewrite HX|change (cs_sym (mended cs)) with (cs_sym cs); rewrite HT]; reflexivity.
Qed.

(** ** Exceptions *)
Lemma no_table_down : (forall t, In t (op_tables coef_spsu2_3ch "triplet") -> tt_iop t = [3] /\ sh_apply (tt_shift t) [3] <> Some [1]) /\
  triangle (cs_sym coef_spsu2_3ch) [3] [1] [3] = Ok true /\
  (exists t, In t (op_tables coef_spsu2_2ch "triplet") /\ sh_apply (tt_shift t) [3] = Some [1]).
Proof.
  split; [|split; [reflexivity|]].
  - intros t Ht. assert (F : Forall (fun t => tt_iop t = [3] /\ sh_apply (tt_shift t) [3] <> Some [1]) (op_tables coef_spsu2_3ch "triplet")).
    { assert (E : exists a b, op_tables coef_spsu2_3ch "triplet" = [a; b] /\ tt_iop a = [3] /\ tt_iop b = [3] /\ tt_shift a = [ShLin 0 1 0] /\ tt_shift b = [ShLin 0 1 2])
        by (do 2 eexists; split; [reflexivity|]; repeat split; reflexivity).
      destruct E as (a & b & -> & A1 & B1 & A2 & B2). constructor; [rewrite A1, A2; split; [reflexivity|cbn; congruence]|].
      constructor; [rewrite B1, B2; split; [reflexivity|cbn; congruence]|constructor]. }
    rewrite Forall_forall in F. exact (F t Ht).
  - eexists. split; [unfold op_tables; apply filter_In; split; [cbn [cs_ten coef_spsu2_2ch]; do 4 right; left; reflexivity|reflexivity]|reflexivity].
Qed.

Local Open Scope R_scope.
Ltac dec := unfold is0, neg in *; repeat match goal with
  | |- context [Req_EM_T ?a ?b] => destruct (Req_EM_T a b) as [?|?]; try (exfalso; lra)
  | |- context [Rlt_dec ?a ?b] => destruct (Rlt_dec a b) as [?|?]; try (exfalso; lra)
  end.
Lemma half_val : forall q nn, deval [q; 2%Z] nn (cH 1) = Fin (/ 2).
Proof. intros. cbn. f_equal. lra. Qed.
Lemma pow2 : forall x, powerRZ x 2 = x * x.
Proof. intros. unfold powerRZ. change (Pos.to_nat 2) with 2%nat. cbn [pow]. ring. Qed.
Ltac ev := change (Z.even 4) with true; change (4 <? 0)%Z with false; change (4 / 2)%Z with 2%Z; cbn [andb dadd dmul dopp ddiv dsqrt dpow]; rewrite ?pow2.
Lemma nan_factor : forall q nn, deval [q; 2%Z] nn QS_e119 = NaN.
Proof.
  intros q nn. unfold QS_e119. remember (cH 1) as h eqn:Eh. assert (E := half_val q nn). rewrite <- Eh in E. cbn [deval ceval dz]. rewrite E. clear E Eh h.
  cbn [dadd dmul dopp ddiv dsqrt dpow]. dec. ev.
  replace (-9 + 6 * / 2 + 15 / (2 + / 2)) with 0 by lra. dec. rewrite ?sqrt_0. repeat (dec; ev). reflexivity.
Qed.
Local Close Scope R_scope.
Lemma triplet_nan : exists t s1 sp f, In t (op_tables coef_qs_3ch "triplet") /\ In (42, 41, s1, sp, Some f) (tt_rows t) /\
  sh_apply (tt_shift t) [0; 2] = Some [0; 2] /\ triangle (cs_sym coef_qs_3ch) [0; 2] [0; 2] (tt_iop t) = Ok true /\
  family coef_qs_3ch [0; 2] 42 = true /\ family coef_qs_3ch [0; 2] 41 = true /\ linked coef_qs_3ch t [0; 2] 42 [0; 2] 41 = true /\
  forall q nn, deval [q; 2] nn f = NaN.
Proof.
  exists qs_3ch_t8. do 2 eexists. exists QS_e119. split; [unfold op_tables; apply filter_In; split; [cbn [cs_ten coef_qs_3ch]; do 2 right; left; reflexivity|reflexivity]|].
  split; [apply (nth_error_In _ 80); vm_compute; reflexivity|]. do 5 (split; [vm_compute; reflexivity|]). exact nan_factor.
Qed.
