(** Specification: statistical mechanics of a list of levels (number of states, energy) at temperature T. *)
From Coq Require Import List ZArith Reals.
From Verif Require Import Base Invar_model Thermo_model.
Import ListNotations.
Local Open Scope R_scope.

Fixpoint rsum {A} (f : A -> R) (l : list A) : R := match l with [] => 0 | a :: l' => f a + rsum f l' end.

Definition level := (R * R)%type.
Definition count (x : level) : R := fst x.
Definition energy (x : level) : R := snd x.

Section Gibbs.
  Variables (T : R) (l : list level).
  Definition partition : R := rsum (fun x => count x * exp (- energy x / T)) l.
  (** Probability of one state. *)
  Definition prob (x : level) : R := exp (- energy x / T) / partition.
  Definition average (f : R -> R) : R := rsum (fun x => count x * prob x * f (energy x)) l.
  Definition free_energy : R := - T * ln partition.
  Definition heat_capacity : R := (average (fun e => e ^ 2) - average (fun e => e) ^ 2) / T ^ 2.
  Definition entropy : R := - rsum (fun x => count x * (prob x * ln (prob x))) l.
  Definition number : R := rsum count l.
End Gibbs.

Definition shifted (c : R) (l : list level) : list level := map (fun x => (count x, energy x + c)) l.

(** The physical levels of a completed chain: a state discarded at step N (all states of the last step) stands for
    mult * combs^(number of later steps) states of the full chain. *)
Section Levels.
  Variables (mult : invar -> Z) (combs Nend : nat) (store : nat -> shell).
  Definition shell_levels (N : nat) : list level :=
    flat_map (fun p => map (fun i => (IZR (mult (fst p)) * INR combs ^ (Nend - 1 - N),
                                      (nth i (st_v (snd p)) 0 - st_shift (snd p)) * st_scale (snd p) + st_T_shift (snd p)))
                        (let first := if Nat.eqb N (Nend - 1) then 0%nat else st_kept (snd p) in seq first (st_dim (snd p) - first)))
             (store N).
  Definition chain_levels (Nbegin : nat) : list level := flat_map shell_levels (seq Nbegin (Nend - Nbegin)).

  (** What a first pass leaves in the store: [E0 N] is the ground-state energy of step N, [GS] that of the last step;
      all states of a sector were computed; degeneracies are positive; the last step has a state. *)
  Definition completed (Nbegin : nat) (GS : R) (E0 : nat -> R) : Prop :=
    (1 <= combs)%nat /\ (Nbegin < Nend)%nat /\
    (forall N J ds, (Nbegin <= N < Nend)%nat -> In (J, ds) (store N) ->
       (1 <= mult J)%Z /\ st_T_shift ds = E0 N /\ st_GS ds = GS /\ st_last ds = Nat.eqb N (Nend - 1) /\
       (st_dim ds <= length (st_v ds))%nat) /\
    (exists J ds, In (J, ds) (store (Nend - 1)%nat) /\ (0 < st_dim ds)%nat).
End Levels.

(** The levels seen by one step, in units of temperature. *)
Definition step_levels (mult : invar -> Z) (factor : R) (diag : list (invar * list R)) : list level :=
  flat_map (fun p => map (fun x => (IZR (mult (fst p)), factor * x)) (snd p)) diag.

(** The same chain with all absolute energies moved by [c]. *)
Definition move_energy (c : R) (s : stored) : stored :=
  {| st_v := st_v s; st_scale := st_scale s; st_shift := st_shift s; st_T_shift := st_T_shift s + c; st_GS := st_GS s + c;
     st_kept := st_kept s; st_dim := st_dim s; st_last := st_last s |}.
Definition move_store (c : R) (store : nat -> shell) (N : nat) : shell := map (fun p => (fst p, move_energy c (snd p))) (store N).
(** The same step with all energies moved by [c]. *)
Definition move_step (c : R) (diag : list (invar * list R)) : list (invar * list R) := map (fun p => (fst p, map (fun x => x + c) (snd p))) diag.

(** No shell is so unlikely that the average energy leaves it out. *)
Definition no_negligible_shell (T : R) (mult : invar -> Z) (combs Nbegin Nend : nat) (store : nat -> shell) : Prop :=
  forall N, (Nbegin <= N < Nend)%nat -> shell_levels mult combs Nend store N = [] \/
    / 10 ^ 16 < partition T (shell_levels mult combs Nend store N) / partition T (chain_levels mult combs Nend store Nbegin).

(** Diagonal matrix elements: thermal average of an operator that has the value [m J i] in the i-th state of sector J. *)
Definition labelled (diag : list (invar * list R)) : list (invar * nat * R) :=
  flat_map (fun p => map (fun ix => (fst p, fst ix, snd ix)) (List.combine (seq 0 (length (snd p))) (snd p))) diag.
Definition thermal_average (mult : invar -> Z) (factor : R) (diag : list (invar * list R)) (m : invar -> nat -> R) : R :=
  rsum (fun x => let '(J, i, e) := x in IZR (mult J) * exp (- (factor * e)) * m J i) (labelled diag)
  / rsum (fun x => let '(J, i, e) := x in IZR (mult J) * exp (- (factor * e))) (labelled diag).
