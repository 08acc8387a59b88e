(** Examples for the theorems of Oprecalc_props.v. *)
From Coq Require Import List ZArith Ascii String.
From Verif Require Import Base Oprecalc_model Oprecalc_spec Oprecalc_words Oprecalc_list Oprecalc_run Oprecalc_files.
Import ListNotations.
Local Open Scope string_scope.
Local Open Scope list_scope.

(** Matrices are replaced by the history of what was done to them: the step of a transformation, 100 + step of a trimming. *)
Definition ex_recalc (t : optype) (N : nat) (n : string) (m : list nat) : list nat := N :: m.
Definition ex_trim (N : nat) (m : list nat) : list nat := (100 + N)%nat :: m.
Definition ex_ops : operators (list nat) := Operators (list nat) [("Sz", [0%nat]); ("n", [0%nat])] [] [("Q", [0%nat])] [("d", [0%nat]); ("f", [0%nat])] [] [] [].
Definition ex_P : oparams :=
  {| p_specs := "n-Q"; p_specchit := ""; p_spect := ""; p_specot := ""; p_specd := " d-d-u  nonexistent d-f-d"; p_specgt := "d-d-u"; p_speci1t := ""; p_speci2t := "";
     p_specq := ""; p_finite := true; p_finitemats := false; p_dmnrg := false; p_dmnrgmats := false; p_cfs := true; p_cfsgt := false; p_cfsls := false;
     p_fdm := true; p_fdmgt := false; p_fdmls := false; p_fdmmats := false; p_fdmexpv := true; p_fdmexpvn := 3%nat; p_calc0 := true; p_isfield := true |}.
Definition ex_run (run : runtype) : list (event (list nat)) := run_phase (list nat) [] ex_recalc ex_trim ex_P run 2 5 ex_ops.
Definition ex_sp (al : algo) : spectrum := Spectrum "corr" "n-Q" al 0%Z false Ts "n" Tg "Q".

Lemma ex_contribution : In (Contribution (list nat) (Some 4%nat) (ex_sp CFS) (Some [4; 103; 3; 102; 2; 0]%nat) (Some [4; 103; 3; 102; 2; 0]%nat) (Some Rho) (Some Zft)) (ex_run RunDM).
Proof. vm_compute. tauto. Qed.
Lemma ex_requested : requested ex_P RunNRG ex_ops (Spectrum "gt" "d-d-u" GT 1%Z true Td "d" Td "d").
Proof. apply spectra_iff. vm_compute. tauto. Qed.
Lemma ex_plain : plain_names ex_ops.
Proof.
  split.
  - intros t. split.
    + destruct t; cbn; repeat constructor; cbn; intuition discriminate.
    + intros n. destruct t; cbn; intros H; repeat (destruct H as [<- | H]; [apply avoids_all; reflexivity |]); destruct H.
  - intros n t t' Ht Ht'. cbn in Ht, Ht'.
    destruct Ht as [<- | [<- | [<- | []]]], Ht' as [<- | [<- | [<- | []]]]; cbn; intros H H'; try reflexivity; try contradiction; intuition congruence.
Qed.

(** Names with hyphens. *)
Definition clash_ops : operators nat := Operators nat [] [] [] [("a", 1%nat); ("a-b", 2%nat); ("b-c", 3%nat); ("c", 4%nat)] [] [] [].
Definition clash_P : oparams :=
  {| p_specs := ""; p_specchit := ""; p_spect := ""; p_specot := ""; p_specd := "a-b-c"; p_specgt := ""; p_speci1t := ""; p_speci2t := "";
     p_specq := ""; p_finite := true; p_finitemats := false; p_dmnrg := false; p_dmnrgmats := false; p_cfs := false; p_cfsgt := false; p_cfsls := false;
     p_fdm := false; p_fdmgt := false; p_fdmls := false; p_fdmmats := false; p_fdmexpv := false; p_fdmexpvn := 0%nat; p_calc0 := false; p_isfield := false |}.
Lemma clash : (forall t, NoDup (map fst (set_of nat clash_ops t))) /\
  exists sp sp', requested clash_P RunNRG clash_ops sp /\ requested clash_P RunNRG clash_ops sp' /\
    (sp_n1 sp, sp_n2 sp) <> (sp_n1 sp', sp_n2 sp') /\ spec_fn sp = spec_fn sp'.
Proof.
  split.
  - intros t. destruct t; cbn; repeat constructor; cbn; intuition discriminate.
  - exists (Spectrum "spec" "a-b-c" FT 0%Z true Td "a" Td "b-c"), (Spectrum "spec" "a-b-c" FT 0%Z true Td "a-b" Td "c").
    repeat split; try (apply spectra_iff; vm_compute; tauto). discriminate.
Qed.
