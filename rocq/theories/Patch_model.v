(** Model of the patching of spectra from consecutive steps (FT and DMNRG algorithms): /repo/c++/spectrum.hpp:82-132,
    /repo/c++/step.hpp, /repo/c++/params.hpp:714-753 and the order in which the steps are visited (core.hpp:320-338,
    nrg-general.hpp:155-172).  Floating-point numbers are real numbers. *)
From Coq Require Import List ZArith Reals.
From Verif Require Import Base Bins_model.
Import ListNotations.
Local Open Scope R_scope.

(** params.hpp:639-641: the discretization schemes that pass validation. *)
Inductive scheme := Yoshida | Campo | Zitko.
(** The parameters used here. *)
Record pparams := { p_Lambda : R; p_discretization : scheme; p_bandrescale : R; p_z : R; p_channels : nat; p_substeps : bool; p_absolute : bool;
  p_goodE : R; p_NN1 : bool; p_NN2even : bool; p_NN2avg : bool; p_NNtanh : R; p_Ninit : nat; p_Nmax : nat; p_calc0 : bool }.

(** step.hpp:16-17: trueN and ndxN. *)
Record step := { s_true : Z; s_ndx : nat }.
(** step.hpp:21-24 set *)
Definition step_set (n : Z) : step := {| s_true := n; s_ndx := Z.to_nat (Z.max n 0) |}.
(** step.hpp:27 next *)
Definition step_next (s : step) : step := {| s_true := s_true s + 1; s_ndx := s_ndx s + 1 |}.

Section Patch.
  Variable P : pparams.

  (** params.hpp:717-730 SCALE *)
  Definition SCALE (N : Z) : R :=
    let scale := match p_discretization P with Yoshida => 0.5 * (1 + 1 / p_Lambda P) | _ => (1 - 1 / p_Lambda P) / ln (p_Lambda P) end in
    let scale :=
      if negb (p_substeps P) then scale * Rpower (p_Lambda P) (- IZR (N - 1) / 2 + 1 - p_z P)
      else scale * Rpower (p_Lambda P) (- IZR N / (2 * INR (p_channels P)) + 3 / 2 - p_z P) in
    scale * p_bandrescale P.
  (** params.hpp:744-753 *)
  Definition getEfactor : R := if (Nat.eqb (p_channels P) 1 && negb (p_NN1 P))%bool then p_Lambda P else sqrt (p_Lambda P).
  Definition getEmin : R := p_goodE P.
  Definition getEx : R := p_goodE P * getEfactor.
  Definition getEmax : R := p_goodE P * getEfactor ^ 2.
  (** step.hpp:30-33 *)
  Definition scale (s : step) : R := if p_absolute P then 1 else SCALE (s_true s + 1).
  (** step.hpp:52-56 *)
  Definition N_for_merging (s : step) : bool :=
    if p_NN1 P then true else if p_NN2avg P then true else if p_NN2even P then Nat.even (s_ndx s) else Nat.odd (s_ndx s).
  (** step.hpp:57-65 *)
  Definition is_first (s : step) : bool := Nat.eqb (s_ndx s) (p_Ninit P).
  Definition is_last (s : step) : bool := Nat.eqb (s_ndx s) (p_Nmax P - 1).

  (** spectrum.hpp:101-109 *)
  Definition fnc_linear (x : R) : R := x.
  Definition fnc_tanh_0 (x a : R) : R := tanh (a * (x - 0.5)).
  Definition fnc_tanh (x a : R) : R :=
    let f0 := fnc_tanh_0 0 a in let fx := fnc_tanh_0 x a in let f1 := fnc_tanh_0 1 a in (fx - f0) / (f1 - f0).
  Definition fnc (x : R) : R := if Rlt_dec 0 (p_NNtanh P) then fnc_tanh x (p_NNtanh P) else fnc_linear x.
  (** spectrum.hpp:96-113 windowfunction *)
  Definition windowfunction (E Emin Ex Emax : R) (s : step) : res R :=
    if (if Rle_dec E Ex then is_last s else false) then Ok 1
    else if (if Rle_dec Ex E then is_first s else false) then Ok 1
    else if Rle_dec E Emin then Ok 0 else if Rle_dec Emax E then Ok 0
    else if (if Rlt_dec Emin E then if Rle_dec E Ex then true else false else false) then Ok (fnc ((E - Emin) / (Ex - Emin)))
    else if (if Rlt_dec Ex E then if Rlt_dec E Emax then true else false else false) then Ok (1 - fnc ((E - Ex) / (Emax - Ex)))
    else Throw.

  (** spectrum.hpp:118-132 mergeNN2half *)
  Definition merge_bin (s : step) (f c : R * weight) : res (R * weight) :=
    let Emin := scale s * getEmin in let Ex := scale s * getEx in let Emax := scale s * getEmax in
    let energy := fst c in
    if (if Rlt_dec Emin energy then if Rlt_dec energy Emax then if Req_EM_T (wabs (snd c)) 0 then false else true else false else false) then
      let factor := if p_NN2avg P then 0.5 else 1 in
      let* w := windowfunction energy Emin Ex Emax s in
      Ok (fst f, wadd (snd f) (wscale w (wscale factor (snd c))))
    else Ok f.
  Fixpoint merge_bins (s : step) (f c : spikes) : res spikes :=
    match f, c with
    | a :: f', b :: c' => let* x := merge_bin s a b in let* r := merge_bins s f' c' in Ok (x :: r)
    | _, _ => Ok f
    end.
  Definition mergeNN2half (s : step) (fullspec cs : spikes) : res spikes :=
    let* _ := my_assert (Nat.eqb (length fullspec) (length cs)) in merge_bins s fullspec cs.
  (** spectrum.hpp:82-86 mergeNN2, one of the two halves. *)
  Definition mergeNN2 (s : step) (fullspec cs : spikes) : res spikes := if N_for_merging s then mergeNN2half s fullspec cs else Ok fullspec.
  (** One run: the spectrum of each step is merged in turn. *)
  Fixpoint merge_run (l : list (step * spikes)) (fullspec : spikes) : res spikes :=
    match l with
    | [] => Ok fullspec
    | (s, cs) :: l' => let* f := mergeNN2 s fullspec cs in merge_run l' f
    end.

  (** core.hpp:334: for (step.init(); !step.end(); step.next()); step.hpp:66 end.  The number of iterations left is the fuel
      that makes the definition structural: end holds after that many calls of next. *)
  Fixpoint loop_steps (fuel : nat) (s : step) : list step :=
    if Nat.leb (p_Nmax P) (s_ndx s) then [] else match fuel with O => [] | S k => s :: loop_steps k (step_next s) end.
  Definition nrg_steps : list step := loop_steps (p_Nmax P) (step_set (Z.of_nat (p_Ninit P))).
  (** The steps at which spectra are calculated.  In the first run (FT) docalc0 adds one before the loop (core.hpp:322,
      nrg-general.hpp:169); in the second run (DMNRG) there is none. *)
  Definition ft_steps : list step := (if p_calc0 P then [step_set (Z.of_nat (p_Ninit P) - 1)] else []) ++ nrg_steps.
  Definition dmnrg_steps : list step := nrg_steps.
End Patch.
