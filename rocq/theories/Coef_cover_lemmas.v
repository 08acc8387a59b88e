(** The tables of the different numbers of channels of a symmetry are compared. *)
From Coq Require Import List ZArith Bool String Lia.
From Verif Require Import Base Coef_model Coef_cover_spec Coef_tables Coef_tab_ISO Coef_tab_QSZ Coef_tab_SPSU2.
Import ListNotations.
Local Open Scope string_scope.
Local Open Scope list_scope.

Definition sh_dec (a b : sh) : {a = b} + {a <> b}.
Proof. decide equality; try apply Z.eq_dec; apply Nat.eq_dec. Defined.
Definition target_eqb (t t' : ten_table) : bool :=
  String.eqb (tt_name t) (tt_name t') && (if list_eq_dec sh_dec (tt_shift t) (tt_shift t') then true else false) &&
  (if list_eq_dec Z.eq_dec (tt_iop t) (tt_iop t') then true else false).
Lemma target_eqb_iff : forall t t', target_eqb t t' = true <-> same_target t t'.
Proof.
  intros t t'. unfold target_eqb, same_target. split.
  - intros H. apply andb_prop in H as [H C]. apply andb_prop in H as [A B]. apply String.eqb_eq in A.
    destruct (list_eq_dec sh_dec (tt_shift t) (tt_shift t')); [|discriminate]. destruct (list_eq_dec Z.eq_dec (tt_iop t) (tt_iop t')); [|discriminate]. auto.
  - intros (A & B & C). apply String.eqb_eq in A. rewrite A. destruct (list_eq_dec sh_dec (tt_shift t) (tt_shift t')); [|contradiction].
    destruct (list_eq_dec Z.eq_dec (tt_iop t) (tt_iop t')); [reflexivity|contradiction].
Qed.
Definition covered : bool := forallb (fun cs => forallb (fun cs' => negb (String.eqb (cs_name cs) (cs_name cs')) ||
  forallb (fun t => lacking cs' (tt_name t) || existsb (target_eqb t) (cs_ten cs')) (cs_ten cs)) all_coef) all_coef.
Lemma covered_ok : covered = true.
Proof. vm_compute. reflexivity. Qed.

Lemma same_operators : forall cs cs', In cs all_coef -> In cs' all_coef -> cs_name cs = cs_name cs' ->
  forall t, In t (cs_ten cs) -> lacking cs' (tt_name t) = false -> exists t', In t' (cs_ten cs') /\ same_target t t'.
Proof.
  intros cs cs' H H' E t Ht L. pose proof covered_ok as C. unfold covered in C. rewrite forallb_forall in C. specialize (C cs H). cbv beta in C.
  rewrite forallb_forall in C. specialize (C cs' H'). cbv beta in C. apply String.eqb_eq in E. rewrite E in C. cbn [negb orb] in C.
  rewrite forallb_forall in C. specialize (C t Ht). cbv beta in C. rewrite L in C. cbn [orb] in C. apply existsb_exists in C as (t' & T & C).
  exists t'. split; [exact T|]. apply target_eqb_iff. exact C.
Qed.

(** A table of one set without its counterpart in another one. *)
Definition missing (cs cs' : coef_set) (n : string) : bool :=
  existsb (fun t => String.eqb (tt_name t) n && negb (existsb (target_eqb t) (cs_ten cs'))) (cs_ten cs).
Lemma missing_sound : forall cs cs' n, missing cs cs' n = true -> exists t, In t (cs_ten cs) /\ tt_name t = n /\ forall t', In t' (cs_ten cs') -> ~ same_target t t'.
Proof.
  intros cs cs' n H. apply existsb_exists in H as (t & T & H). apply andb_prop in H as [A B]. apply String.eqb_eq in A. exists t. split; [exact T|]. split; [exact A|].
  intros t' T' S. apply target_eqb_iff in S. apply negb_true_iff in B. assert (X : existsb (target_eqb t) (cs_ten cs') = true) by (apply existsb_exists; eauto). congruence.
Qed.
Lemma lacking_all : forallb (fun cs' => forallb (fun n => negb (lacking cs' n) ||
  existsb (fun cs => String.eqb (cs_name cs) (cs_name cs') && missing cs cs' n) all_coef) ["doublet"; "triplet"]) all_coef = true.
Proof. vm_compute. reflexivity. Qed.
Lemma lacking_names : forall cs n, lacking cs n = true -> In n ["doublet"; "triplet"].
Proof.
  intros cs n H. unfold lacking in H. apply andb_prop in H as [_ H]. destruct (String.eqb (cs_name cs) "ISO").
  - apply orb_prop in H as [H|H]; apply String.eqb_eq in H; subst; cbn; auto.
  - apply andb_prop in H as [_ H]. apply String.eqb_eq in H. subst. cbn. auto.
Qed.
Lemma operators_missing : forall cs' n, In cs' all_coef -> lacking cs' n = true ->
  exists cs t, In cs all_coef /\ cs_name cs = cs_name cs' /\ In t (cs_ten cs) /\ tt_name t = n /\ forall t', In t' (cs_ten cs') -> ~ same_target t t'.
Proof.
  intros cs' n H L. pose proof lacking_all as A. rewrite forallb_forall in A. specialize (A cs' H). cbv beta in A. rewrite forallb_forall in A.
  specialize (A n (lacking_names cs' n L)). cbv beta in A. rewrite L in A. cbn [negb orb] in A. apply existsb_exists in A as (cs & C & A).
  apply andb_prop in A as [E M]. apply String.eqb_eq in E. destruct (missing_sound cs cs' n M) as (t & T). exists cs, t. tauto.
Qed.
