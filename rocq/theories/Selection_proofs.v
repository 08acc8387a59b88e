(** The selection rule of every shipped symmetry class is the conjunction of the group rules of its quantum numbers. *)
From Coq Require Import List ZArith Lia Bool String.
From Verif Require Import Base Invar_model Invar_spec Invar_proofs Symmetry_model Symmetry_spec Symmetry_tables Symmetry_proofs
  Symmetry_factor Selection_spec.
Import ListNotations.
Local Open Scope string_scope.
Local Open Scope Z_scope.

Definition selects (gs : list group) (sy : symmetry) : Prop :=
  forall a1 a2 a3, admissible (ts sy) a1 -> admissible (ts sy) a2 -> admissible (ts sy) a3 ->
  exists b, triangle sy a1 a2 a3 = Ok b /\ (b = true <-> occurs_all gs a1 a2 a3).

Lemma occ_su2 a b c : su2_triangle_inequality a b c = true <-> occurs SpinMult a b c.
Proof. rewrite su2_triangle_iff. cbn [occurs]. lia. Qed.
Lemma occ_orb a b c : su2_triangle_inequality (2 * a + 1) (2 * b + 1) (2 * c + 1) = true <-> occurs OrbL a b c.
Proof. rewrite su2_triangle_iff. cbn [occurs]. lia. Qed.
Lemma occ_u1 a b c : u1_equality a b c = true <-> occurs Charge a b c.
Proof. unfold u1_equality. rewrite Z.eqb_eq. reflexivity. Qed.
Lemma occ_z2 a b c : z2_equality a b c = true <-> occurs Parity a b c.
Proof. unfold z2_equality. rewrite Z.eqb_eq. reflexivity. Qed.
Lemma occ_c3 a b c : adm Mod3 a -> adm Mod3 b -> adm Mod3 c -> c3_equality a b c = true <-> occurs Three a b c.
Proof.
  intros Ha Hb Hc. unfold c3_equality. rewrite Z.eqb_eq. cbn [occurs adm] in *.
  destruct Ha as [->|[->| ->]], Hb as [->|[->| ->]], Hc as [->|[->| ->]]; vm_compute Z.rem;
    (split; [intros E; try discriminate E; first [exists 0; reflexivity | exists 1; reflexivity] | intros [k E]; try reflexivity; exfalso; lia]).
Qed.

Ltac reduce_tests := repeat match goal with
  | |- context [su2_triangle_inequality (2 * ?a + 1) (2 * ?b + 1) (2 * ?c + 1)] =>
      let H := fresh "T" in pose proof (occ_orb a b c) as H; destruct (su2_triangle_inequality (2 * a + 1) (2 * b + 1) (2 * c + 1))
  | |- context [su2_triangle_inequality ?a ?b ?c] => let H := fresh "T" in pose proof (occ_su2 a b c) as H; destruct (su2_triangle_inequality a b c)
  | |- context [u1_equality ?a ?b ?c] => let H := fresh "T" in pose proof (occ_u1 a b c) as H; destruct (u1_equality a b c)
  | |- context [z2_equality ?a ?b ?c] => let H := fresh "T" in pose proof (occ_z2 a b c) as H; destruct (z2_equality a b c)
  | |- context [c3_equality ?a ?b ?c] =>
      let H := fresh "T" in assert (H : c3_equality a b c = true <-> occurs Three a b c) by (apply occ_c3; assumption); destruct (c3_equality a b c)
  end.
Ltac sel sy :=
  intros a1 a2 a3 H1 H2 H3;
  let tl := eval cbv in (ts sy) in change (ts sy) with tl in *;
  unfold admissible in H1, H2, H3; inv_adm; cbs; get_ok;
  cbn [occurs_all]; reduce_tests; eexists; (split; [reflexivity|]);
  cbn [occurs_all occurs] in *; intuition congruence.

Lemma sel_DBLISOSZ : selects [SpinMult; SpinMult; Charge] sym_DBLISOSZ. Proof. sel sym_DBLISOSZ. Qed.
Lemma sel_DBLQSZ : selects [Charge; Charge; Charge] sym_DBLQSZ. Proof. sel sym_DBLQSZ. Qed.
Lemma sel_DBLSU2 : selects [SpinMult; SpinMult] sym_DBLSU2. Proof. sel sym_DBLSU2. Qed.
Lemma sel_ISO : selects [SpinMult; SpinMult] sym_ISO. Proof. sel sym_ISO. Qed.
Lemma sel_ISOLR : selects [SpinMult; SpinMult; Parity] sym_ISOLR. Proof. sel sym_ISOLR. Qed.
Lemma sel_ISOSZ : selects [SpinMult; Charge] sym_ISOSZ. Proof. sel sym_ISOSZ. Qed.
Lemma sel_ISOSZLR : selects [SpinMult; Charge; Parity] sym_ISOSZLR. Proof. sel sym_ISOSZLR. Qed.
Lemma sel_NONE : selects [NoRule] sym_NONE. Proof. sel sym_NONE. Qed.
Lemma sel_P : selects [Parity] sym_P. Proof. sel sym_P. Qed.
Lemma sel_PP : selects [Parity; Parity] sym_PP. Proof. sel sym_PP. Qed.
Lemma sel_QJ : selects [Charge; SpinMult] sym_QJ. Proof. sel sym_QJ. Qed.
Lemma sel_QS : selects [Charge; SpinMult] sym_QS. Proof. sel sym_QS. Qed.
Lemma sel_QSC3 : selects [Charge; SpinMult; Three] sym_QSC3. Proof. sel sym_QSC3. Qed.
Lemma sel_QSLR : selects [Charge; SpinMult; Parity] sym_QSLR. Proof. sel sym_QSLR. Qed.
Lemma sel_QST : selects [Charge; SpinMult; OrbL] sym_QST. Proof. sel sym_QST. Qed.
Lemma sel_QSTZ : selects [Charge; SpinMult; Charge] sym_QSTZ. Proof. sel sym_QSTZ. Qed.
Lemma sel_QSZ : selects [Charge; Charge] sym_QSZ. Proof. sel sym_QSZ. Qed.
Lemma sel_QSZLR : selects [Charge; Charge; Parity] sym_QSZLR. Proof. sel sym_QSZLR. Qed.
Lemma sel_QSZTZ : selects [Charge; Charge; Charge] sym_QSZTZ. Proof. sel sym_QSZTZ. Qed.
Lemma sel_SL : selects [NoRule] sym_SL. Proof. sel sym_SL. Qed.
Lemma sel_SL3 : selects [NoRule; NoRule; NoRule] sym_SL3. Proof. sel sym_SL3. Qed.
Lemma sel_SPSU2 : selects [SpinMult] sym_SPSU2. Proof. sel sym_SPSU2. Qed.
Lemma sel_SPSU2C3 : selects [SpinMult; Three] sym_SPSU2C3. Proof. sel sym_SPSU2C3. Qed.
Lemma sel_SPSU2LR : selects [SpinMult; Parity] sym_SPSU2LR. Proof. sel sym_SPSU2LR. Qed.
Lemma sel_SPSU2T : selects [SpinMult; OrbL] sym_SPSU2T. Proof. sel sym_SPSU2T. Qed.
Lemma sel_SPU1 : selects [Charge] sym_SPU1. Proof. sel sym_SPU1. Qed.
Lemma sel_SPU1LR : selects [Charge; Parity] sym_SPU1LR. Proof. sel sym_SPU1LR. Qed.
Lemma sel_SU2 : selects [SpinMult] sym_SU2. Proof. sel sym_SU2. Qed.
Lemma sel_U1 : selects [Charge] sym_U1. Proof. sel sym_U1. Qed.

Lemma shipped_selects : Forall (fun sh => exists gs, groups_of (sh_name sh) = Some gs /\ selects gs (sh_sym sh)) shipped.
Proof.
  unfold shipped. repeat (constructor; [cbn [sh_sym sh_name]; eexists; split; [reflexivity|]; first
   [ exact sel_DBLISOSZ | exact sel_DBLQSZ | exact sel_DBLSU2 | exact sel_ISO | exact sel_ISOLR | exact sel_ISOSZ
   | exact sel_ISOSZLR | exact sel_NONE | exact sel_P | exact sel_PP | exact sel_QJ | exact sel_QS | exact sel_QSC3
   | exact sel_QSLR | exact sel_QST | exact sel_QSTZ | exact sel_QSZ | exact sel_QSZLR | exact sel_QSZTZ | exact sel_SL
   | exact sel_SL3 | exact sel_SPSU2 | exact sel_SPSU2C3 | exact sel_SPSU2LR | exact sel_SPSU2T | exact sel_SPU1
   | exact sel_SPU1LR | exact sel_SU2 | exact sel_U1 ]|]).
  constructor.
Qed.

Lemma selection_rules sh a1 a2 a3 : In sh shipped ->
  admissible (ts (sh_sym sh)) a1 -> admissible (ts (sh_sym sh)) a2 -> admissible (ts (sh_sym sh)) a3 ->
  exists gs b, groups_of (sh_name sh) = Some gs /\ triangle (sh_sym sh) a1 a2 a3 = Ok b /\ (b = true <-> occurs_all gs a1 a2 a3).
Proof.
  intros Hsh H1 H2 H3. pose proof shipped_selects as F. rewrite Forall_forall in F. destruct (F _ Hsh) as (gs & E & S).
  destruct (S a1 a2 a3 H1 H2 H3) as (b & Eb & Hb). exists gs, b. auto.
Qed.
