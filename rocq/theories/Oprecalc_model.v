(** Model of the choice of spectra and operators: /repo/c++/oprecalc.hpp (all but recalculate_operator_m and recalc_irreducible),
    measurements.hpp:189-235, core.hpp:265-338 (order of recalculation, measurement and trimming), nrg-general.hpp:132-190,
    params.hpp:590-603, misc.hpp:134-142, algo_*.hpp (names, density matrices and partition functions used), spec_fn in algo.hpp:75-78.
    The matrices of an operator are of an arbitrary type; the transformation of an operator of a given kind at a given step and the
    trimming to the kept states are arbitrary functions.  CUDA and logging are omitted. *)
From Coq Require Import List ZArith Ascii String Bool.
From Verif Require Import Base.
Import ListNotations.
Local Open Scope string_scope.
Local Open Scope list_scope.

(** ** string_token, misc.hpp:134-142: a set of the words of a string (operator>> of a stream skips isspace characters). *)
Definition blank (c : ascii) : bool :=
  let n := nat_of_ascii c in (Nat.eqb n 32 || (Nat.leb 9 n && Nat.leb n 13))%bool.
(** [w]: the word being read, "" if none. *)
Fixpoint words (w s : string) : list string :=
  match s with
  | "" => if String.eqb w "" then [] else [w]
  | String c s' => if blank c then (if String.eqb w "" then [] else [w]) ++ words "" s' else words (w ++ String c "")%string s'
  end.
Definition token_find (s x : string) : bool := existsb (String.eqb x) (words "" s).

(** ** Kinds of operators (the strings "s", "p", "g", "d", "t", "ot", "q" in the code) and algorithms. *)
Inductive optype := Ts | Tp | Tg | Td | Tt | Tot | Tq.
Definition optype_eqb (x y : optype) : bool :=
  match x, y with Ts, Ts | Tp, Tp | Tg, Tg | Td, Td | Tt, Tt | Tot, Tot | Tq, Tq => true | _, _ => false end.
Inductive algo := GT | I1T | I2T | CHIT | FT | FTmats | DMNRG | DMNRGmats | CFS | CFSgt | CFSls | FDM | FDMgt | FDMls | FDMmats.
(** algoname and algoname2 in algo_FT.hpp, algo_DMNRG.hpp, algo_CFS.hpp, algo_FDM.hpp. *)
Definition algoname (a : algo) : string :=
  match a with
  | GT => "GT" | I1T => "I1T" | I2T => "I2T" | CHIT => "CHIT" | FT => "FT" | FTmats => "FTmats" | DMNRG => "DMNRG" | DMNRGmats => "DMNRGmats"
  | CFS => "CFS" | CFSgt => "CFSgt" | CFSls => "CFSls" | FDM => "FDM" | FDMgt => "FDMgt" | FDMls => "FDMls" | FDMmats => "FDMmats"
  end.
(** rho_type(), algo.hpp:34, and the overrides; algo.hpp:58: "rhoFDM" selects rhoFDM, anything else rho.  [None]: the density matrix is
    not used by calc(). *)
Inductive rho := Rho | RhoFDM.
Definition rho_type (a : algo) : option rho :=
  match a with
  | GT | I1T | I2T | CHIT | FT | FTmats => None
  | DMNRG | DMNRGmats | CFS | CFSgt | CFSls => Some Rho
  | FDM | FDMgt | FDMls | FDMmats => Some RhoFDM
  end.
(** The partition functions of stats used by calc(): algo_FT.hpp:31, 69, 130, 172; algo_CFS.hpp:34, 86. *)
Inductive zfun := Zft | Zgt | Zchit.
Definition z_used (a : algo) : option zfun :=
  match a with GT | I1T | I2T => Some Zgt | CHIT => Some Zchit | FT | FTmats | CFS | CFSgt | CFSls => Some Zft | _ => None end.

Inductive runtype := RunNRG | RunDM.
Definition is_nrg (r : runtype) : bool := match r with RunNRG => true | RunDM => false end.

Record oparams := {
  p_specs : string; p_specchit : string; p_spect : string; p_specot : string; p_specd : string; p_specgt : string; p_speci1t : string;
  p_speci2t : string; p_specq : string;
  p_finite : bool; p_finitemats : bool; p_dmnrg : bool; p_dmnrgmats : bool; p_cfs : bool; p_cfsgt : bool; p_cfsls : bool;
  p_fdm : bool; p_fdmgt : bool; p_fdmls : bool; p_fdmmats : bool; p_fdmexpv : bool; p_fdmexpvn : nat; p_calc0 : bool;
  (** Sym->isfield() *)
  p_isfield : bool }.

(** params.hpp:590-597. *)
Definition cfs_flags (P : oparams) : bool := p_cfs P || p_cfsgt P || p_cfsls P.
Definition fdm_flags (P : oparams) : bool := p_fdm P || p_fdmgt P || p_fdmls P || p_fdmmats P || p_fdmexpv P.
Definition dmnrg_flags (P : oparams) : bool := p_dmnrg P || p_dmnrgmats P.
Definition need_rho (P : oparams) : bool := cfs_flags P || dmnrg_flags P.
Definition need_rhoFDM (P : oparams) : bool := fdm_flags P.

(** ** Spectra *)
Record spectrum := Spectrum {
  sp_prefix : string; sp_name : string; sp_algo : algo; sp_spin : Z; sp_fermionic : bool; sp_t1 : optype; sp_n1 : string; sp_t2 : optype; sp_n2 : string }.
(** algo.hpp:75-78: the file the spectrum is saved to, without suffix. *)
Definition spec_fn (sp : spectrum) : string := (sp_prefix sp ++ "_" ++ algoname (sp_algo sp) ++ "_dens_" ++ sp_name sp)%string.

(** oprecalc.hpp:117-162: the algorithms for which prepare_spec_algo is called. *)
Definition when (b : bool) (a : algo) : list algo := if b then [a] else [].
Definition prepare_spec (P : oparams) (run : runtype) (prefix : string) : list algo :=
  if String.eqb prefix "gt" then when (is_nrg run) GT
  else if String.eqb prefix "i1t" then when (is_nrg run) I1T
  else if String.eqb prefix "i2t" then when (is_nrg run) I2T
  else if String.eqb prefix "chit" then when (is_nrg run) CHIT
  else match run with
       | RunNRG => when (p_finite P) FT ++ when (p_finitemats P) FTmats
       | RunDM => when (p_dmnrg P) DMNRG ++ when (p_dmnrgmats P) DMNRGmats ++ when (p_cfs P) CFS ++ when (p_cfsgt P) CFSgt ++ when (p_cfsls P) CFSls ++
                  when (p_fdm P) FDM ++ when (p_fdmgt P) FDMgt ++ when (p_fdmls P) FDMls ++ when (p_fdmmats P) FDMmats
       end.

Section Operators.
  Variable M : Type.
  (** operators.hpp: maps from names to matrices, sorted by name. *)
  Record operators := Operators {
    o_s : list (string * M); o_p : list (string * M); o_g : list (string * M); o_d : list (string * M); o_t : list (string * M);
    o_ot : list (string * M); o_q : list (string * M) }.
  Definition set_of (a : operators) (t : optype) : list (string * M) :=
    match t with Ts => o_s a | Tp => o_p a | Tg => o_g a | Td => o_d a | Tt => o_t a | Tot => o_ot a | Tq => o_q a end.

  (** Oprecalc: the list of spectra [sl] and the set [ops]. *)
  Definition oprecalc : Type := list spectrum * list (optype * string).

  (** oprecalc.hpp:170. *)
  Definition spec_name (n1 n2 : string) (spin : Z) : string :=
    (n1 ++ "-" ++ n2 ++ (if Z.eqb spin 0 then "" else if Z.eqb spin 1 then "-u" else "-d"))%string.

  (** oprecalc.hpp:164-178. *)
  Definition loopover (P : oparams) (run : runtype) (a : operators) (tokens prefix : string) (t1 t2 : optype) (fermionic : bool) (spin : Z) (acc : oprecalc) : oprecalc :=
    fold_left (fun acc1 x1 =>
      fold_left (fun acc2 x2 =>
        let name := spec_name (fst x1) (fst x2) spin in
        if token_find tokens name then
          match prepare_spec P run prefix with
          | [] => acc2
          | l => (fst acc2 ++ map (fun al => Spectrum prefix name al spin fermionic t1 (fst x1) t2 (fst x2)) l, snd acc2 ++ [(t1, fst x1); (t2, fst x2)])
          end
        else acc2) (set_of a t2) acc1) (set_of a t1) acc.

  (** oprecalc.hpp:203-218: for (SPIN = varmin; SPIN <= varmax; SPIN += 2). *)
  Definition spins (P : oparams) : list Z := if p_isfield P then [(-1)%Z; 1%Z] else [0%Z].
  Definition loop_spins (P : oparams) (run : runtype) (a : operators) (tokens prefix : string) (acc : oprecalc) : oprecalc :=
    fold_left (fun acc' spin => loopover P run a tokens prefix Td Td true spin acc') (spins P) acc.

  (** oprecalc.hpp:181-222, the constructor. *)
  Definition make_oprecalc (P : oparams) (run : runtype) (a : operators) : oprecalc :=
    let L := loopover P run a in
    let acc := ([], []) in
    let acc := L (p_specs P) "corr" Ts Ts false 0%Z acc in
    let acc := L (p_specs P) "corr" Tp Tp false 0%Z acc in
    let acc := L (p_specs P) "corr" Tg Tg false 0%Z acc in
    let acc := L (p_specs P) "corr" Ts Tg false 0%Z acc in
    let acc := L (p_specs P) "corr" Tg Ts false 0%Z acc in
    let acc := L (p_specchit P) "chit" Ts Ts false 0%Z acc in
    let acc := L (p_specchit P) "chit" Ts Tg false 0%Z acc in
    let acc := L (p_specchit P) "chit" Tg Ts false 0%Z acc in
    let acc := L (p_specchit P) "chit" Tg Tg false 0%Z acc in
    let acc := L (p_spect P) "spin" Tt Tt false 0%Z acc in
    let acc := L (p_specot P) "orbspin" Tot Tot false 0%Z acc in
    let acc := loop_spins P run a (p_specd P) "spec" acc in
    let acc := loop_spins P run a (p_specgt P) "gt" acc in
    let acc := loop_spins P run a (p_speci1t P) "i1t" acc in
    let acc := loop_spins P run a (p_speci2t P) "i2t" acc in
    L (p_specq P) "specq" Tq Tq true 0%Z acc.

  (** ** Recalculation *)
  Variable empty : M.
  (** Sym->recalc_singlet(..., 1), (..., -1), recalc_doublet, etc., followed by recalc_global for kind g. *)
  Variable recalc : optype -> nat -> string -> M -> M.
  (** operators.hpp:108-119, 224-232. *)
  Variable trim : nat -> M -> M.

  Definition counted (ops : list (optype * string)) (t : optype) (n : string) : bool :=
    existsb (fun p => optype_eqb (fst p) t && String.eqb (snd p) n)%bool ops.
  (** oprecalc.hpp:34-43 do_s, do_g. *)
  Definition do_sg (P : oparams) (run : runtype) (ops : list (optype * string)) (N : nat) (t : optype) (n : string) : bool :=
    if is_nrg run then true
    else if (p_fdmexpv P && Nat.leb N (p_fdmexpvn P))%bool then true
    else counted ops t n.
  (** oprecalc.hpp:70-73 recalc_or_clear. *)
  Definition each (f : string -> M -> M) (l : list (string * M)) : list (string * M) := map (fun p => (fst p, f (fst p) (snd p))) l.
  Definition recalc_or_clear (selected : bool) (t : optype) (N : nat) (n : string) (m : M) : M := if selected then recalc t N n m else empty.
  (** oprecalc.hpp:76-101. *)
  Definition recalculate_operators (P : oparams) (run : runtype) (ops : list (optype * string)) (N : nat) (a : operators) : operators :=
    Operators
      (each (fun n m => recalc_or_clear (do_sg P run ops N Ts n) Ts N n m) (o_s a))
      (each (fun n m => recalc_or_clear (counted ops Tp n) Tp N n m) (o_p a))
      (each (fun n m => recalc_or_clear (do_sg P run ops N Tg n) Tg N n m) (o_g a))
      (each (fun n m => recalc_or_clear (counted ops Td n) Td N n m) (o_d a))
      (each (fun n m => recalc_or_clear (counted ops Tt n) Tt N n m) (o_t a))
      (each (fun n m => recalc_or_clear (counted ops Tot n) Tot N n m) (o_ot a))
      (each (fun n m => recalc_or_clear (counted ops Tq n) Tq N n m) (o_q a)).
  Definition trim_matrices (N : nat) (a : operators) : operators :=
    let f := each (fun _ m => trim N m) in
    Operators (f (o_s a)) (f (o_p a)) (f (o_g a)) (f (o_d a)) (f (o_t a)) (f (o_ot a)) (f (o_q a)).

  (** ** Measurements.  A spectrum holds references to two elements of the maps (algo.hpp:44). *)
  Definition deref (a : operators) (t : optype) (n : string) : option M :=
    option_map snd (find (fun p => String.eqb (fst p) n) (set_of a t)).
  (** [None]: before the iteration (docalc0). *)
  Inductive event :=
  | Contribution (at_step : option nat) (sp : spectrum) (op1 op2 : option M) (density : option rho) (z : option zfun)
  | Expectation (at_step : option nat) (t : optype) (n : string) (m : M)
  | FdmExpectation (at_step : option nat) (t : optype) (n : string) (m : M).
  (** What is available when the spectra are computed: measurements.hpp:211-218 (density matrices are loaded), 189-197 (calc_Z). *)
  Definition rho_loaded (P : oparams) (run : runtype) (r : rho) : bool :=
    match run, r with RunNRG, _ => false | RunDM, Rho => need_rho P | RunDM, RhoFDM => need_rhoFDM P end.
  Definition z_computed (P : oparams) (z : zfun) : bool :=
    match z with
    | Zft => true
    | Zgt => negb (String.eqb (p_specgt P) "") || negb (String.eqb (p_speci1t P) "") || negb (String.eqb (p_speci2t P) "")
    | Zchit => negb (String.eqb (p_specchit P) "")
    end.
  (** measurements.hpp:199-235. *)
  Definition measure (P : oparams) (run : runtype) (sl : list spectrum) (at_step : option nat) (ndx : nat) (a : operators) : list event :=
    map (fun sp => Contribution at_step sp (deref a (sp_t1 sp) (sp_n1 sp)) (deref a (sp_t2 sp) (sp_n2 sp)) (rho_type (sp_algo sp)) (z_used (sp_algo sp))) sl ++
    (if is_nrg run then map (fun p => Expectation at_step Ts (fst p) (snd p)) (o_s a) ++ map (fun p => Expectation at_step Tg (fst p) (snd p)) (o_g a)
     else if (p_fdmexpv P && Nat.eqb ndx (p_fdmexpvn P))%bool then
       map (fun p => FdmExpectation at_step Ts (fst p) (snd p)) (o_s a) ++ map (fun p => FdmExpectation at_step Tg (fst p) (snd p)) (o_g a)
     else []).

  (** core.hpp:265-271, 303-315: recalculation and measurement happen once in a step, before or after truncation; then the operators are
      trimmed. *)
  Fixpoint nrg_loop (P : oparams) (run : runtype) (o : oprecalc) (steps : list nat) (a : operators) : list event :=
    match steps with
    | [] => []
    | N :: steps' =>
        let a' := recalculate_operators P run (snd o) N a in
        measure P run (fst o) (Some N) N a' ++ nrg_loop P run o steps' (trim_matrices N a')
    end.
  (** nrg-general.hpp:155-172; core.hpp:318-330 docalc0.  The iteration visits Ninit, ..., Nmax-1 (C27). *)
  Definition run_phase (P : oparams) (run : runtype) (Ninit Nmax : nat) (a : operators) : list event :=
    let o := make_oprecalc P run a in
    (if (is_nrg run && p_calc0 P)%bool then measure P run (fst o) None (Ninit - 1) a else []) ++ nrg_loop P run o (seq Ninit (Nmax - Ninit)) a.
End Operators.
