(** What C62 and C63 talk about: the spectra a user asks for, and operators that have been transformed at every step. *)
From Coq Require Import List ZArith Ascii String.
From Verif Require Import Base Oprecalc_model.
Import ListNotations.
Local Open Scope string_scope.
Local Open Scope list_scope.

(** [x] is one of the words of [s]. *)
Inductive all_chars (p : ascii -> Prop) : string -> Prop :=
| ac_nil : all_chars p ""
| ac_cons c s : p c -> all_chars p s -> all_chars p (String c s).
Definition starts_blank (s : string) : Prop := s = "" \/ exists c s', s = String c s' /\ blank c = true.
Definition ends_blank (s : string) : Prop := s = "" \/ exists s' c, s = (s' ++ String c "")%string /\ blank c = true.
Definition word_of (s x : string) : Prop :=
  x <> "" /\ all_chars (fun c => blank c = false) x /\ exists a b, s = (a ++ x ++ b)%string /\ ends_blank a /\ starts_blank b.

(** The kinds of spectra: the parameter that lists them, the prefix of the output file, the kinds of the two operators, statistics,
    whether the two spin directions are separate. *)
Definition kinds (P : oparams) : list (string * string * optype * optype * bool * bool) :=
  [ (p_specs P, "corr", Ts, Ts, false, false); (p_specs P, "corr", Tp, Tp, false, false); (p_specs P, "corr", Tg, Tg, false, false);
    (p_specs P, "corr", Ts, Tg, false, false); (p_specs P, "corr", Tg, Ts, false, false);
    (p_specchit P, "chit", Ts, Ts, false, false); (p_specchit P, "chit", Ts, Tg, false, false);
    (p_specchit P, "chit", Tg, Ts, false, false); (p_specchit P, "chit", Tg, Tg, false, false);
    (p_spect P, "spin", Tt, Tt, false, false); (p_specot P, "orbspin", Tot, Tot, false, false);
    (p_specd P, "spec", Td, Td, true, true); (p_specgt P, "gt", Td, Td, true, true); (p_speci1t P, "i1t", Td, Td, true, true);
    (p_speci2t P, "i2t", Td, Td, true, true); (p_specq P, "specq", Tq, Tq, true, false) ].
(** Which algorithm is used in which run. *)
Inductive algo_for (P : oparams) : runtype -> string -> algo -> Prop :=
| af_gt : algo_for P RunNRG "gt" GT
| af_i1t : algo_for P RunNRG "i1t" I1T
| af_i2t : algo_for P RunNRG "i2t" I2T
| af_chit : algo_for P RunNRG "chit" CHIT
| af_first x al : In x ["corr"; "spin"; "orbspin"; "spec"; "specq"] -> In (al, true) [(FT, p_finite P); (FTmats, p_finitemats P)] -> algo_for P RunNRG x al
| af_dm x al : In x ["corr"; "spin"; "orbspin"; "spec"; "specq"] ->
    In (al, true) [(DMNRG, p_dmnrg P); (DMNRGmats, p_dmnrgmats P); (CFS, p_cfs P); (CFSgt, p_cfsgt P); (CFSls, p_cfsls P);
                   (FDM, p_fdm P); (FDMgt, p_fdmgt P); (FDMls, p_fdmls P); (FDMmats, p_fdmmats P)] -> algo_for P RunDM x al.
(** The spectrum is asked for: its name, made of those of two operators that exist (and the spin), is a word of the parameter. *)
Definition direction (P : oparams) (separate : bool) (spin : Z) (suffix : string) : Prop :=
  if (separate && p_isfield P)%bool then (spin = 1%Z /\ suffix = "-u") \/ (spin = (-1)%Z /\ suffix = "-d") else spin = 0%Z /\ suffix = "".
Definition requested {M} (P : oparams) (run : runtype) (a : operators M) (sp : spectrum) : Prop :=
  exists param separate suffix,
    In (param, sp_prefix sp, sp_t1 sp, sp_t2 sp, sp_fermionic sp, separate) (kinds P) /\
    In (sp_n1 sp) (map fst (set_of M a (sp_t1 sp))) /\ In (sp_n2 sp) (map fst (set_of M a (sp_t2 sp))) /\
    direction P separate (sp_spin sp) suffix /\
    sp_name sp = (sp_n1 sp ++ "-" ++ sp_n2 sp ++ suffix)%string /\ word_of param (sp_name sp) /\
    algo_for P run (sp_prefix sp) (sp_algo sp).

(** The operator transformed at step Ninit, trimmed, transformed at step Ninit+1, ..., transformed at step Ninit+k. *)
Fixpoint carried {M} (recalc : optype -> nat -> string -> M -> M) (trim : nat -> M -> M) (t : optype) (n : string) (m0 : M) (Ninit k : nat) : M :=
  match k with
  | 0%nat => recalc t Ninit n m0
  | S k' => recalc t (Ninit + S k')%nat n (trim (Ninit + k')%nat (carried recalc trim t n m0 Ninit k'))
  end.
(** Its value when step N is measured, or before the iteration. *)
Definition value_at {M} (recalc : optype -> nat -> string -> M -> M) (trim : nat -> M -> M) (a : operators M) (Ninit : nat) (at_step : option nat)
    (t : optype) (n : string) (v : M) : Prop :=
  exists m0, In (n, m0) (set_of M a t) /\ v = match at_step with None => m0 | Some N => carried recalc trim t n m0 Ninit (N - Ninit) end.
(** The steps at which spectra and expectation values are computed. *)
Definition measured_at (P : oparams) (run : runtype) (Ninit Nmax : nat) (at_step : option nat) : Prop :=
  match at_step with None => run = RunNRG /\ p_calc0 P = true | Some N => (Ninit <= N < Nmax)%nat end.

(** The density matrix and the partition function that enter the formula of an algorithm. *)
Definition density_for (al : algo) : option rho :=
  match al with
  | DMNRG | DMNRGmats | CFS | CFSgt | CFSls => Some Rho
  | FDM | FDMgt | FDMls | FDMmats => Some RhoFDM
  | FT | FTmats | GT | I1T | I2T | CHIT => None
  end.
Definition partition_for (al : algo) : option zfun :=
  match al with
  | FT | FTmats | CFS | CFSgt | CFSls => Some Zft
  | GT | I1T | I2T => Some Zgt
  | CHIT => Some Zchit
  | DMNRG | DMNRGmats | FDM | FDMgt | FDMls | FDMmats => None
  end.

(** Names of operators without the separator. *)
Definition no_dash (s : string) : Prop := all_chars (fun c => c <> "-"%char) s.
Definition plain_names {M} (a : operators M) : Prop :=
  (forall t, NoDup (map fst (set_of M a t)) /\ forall n, In n (map fst (set_of M a t)) -> no_dash n) /\
  (forall n t t', In t [Ts; Tp; Tg] -> In t' [Ts; Tp; Tg] -> In n (map fst (set_of M a t)) -> In n (map fst (set_of M a t')) -> t = t').
(** The files written at the end of a run. *)
Definition output_files {M} (P : oparams) (run : runtype) (a : operators M) : list string := map spec_fn (fst (make_oprecalc M P run a)).
