(** Model of the accumulation of delta peaks: /repo/c++/bins.hpp (Bins, Temp), /repo/c++/spectral.hpp (Spikes) and the parts of
    /repo/c++/spectrum.hpp that collect the data of a run (ChainBinning, SpectrumRealFreq::mergeCFS, trim, savebins,
    TempDependence).  Floating-point numbers are real numbers: rounding, overflow, infinities and NaN are not modelled.
    Warnings and other printing are omitted. *)
From Coq Require Import List ZArith Reals.
From Verif Require Import Base.
Import ListNotations.
Local Open Scope R_scope.

(** traits.hpp weight_traits: std::complex<double>. *)
Definition weight := (R * R)%type.
Definition wzero : weight := (0, 0).
Definition wadd (x y : weight) : weight := (fst x + fst y, snd x + snd y).
Definition wscale (c : R) (x : weight) : weight := (c * fst x, c * snd x).
Definition wmul (x y : weight) : weight := (fst x * fst y - snd x * snd y, fst x * snd y + snd x * fst y).
(** std::abs *)
Definition wabs (x : weight) : R := sqrt (fst x * fst x + snd x * snd x).

(** spectral.hpp:21-36 t_delta_peak and Spikes. *)
Definition spikes := list (R * weight).
(** spectral.hpp:31 sum_weights *)
Definition sum_weights (l : spikes) : weight := fold_left (fun acc p => wadd acc (snd p)) l wzero.

(** The parameters used here (params.hpp:372-399) and the two energy scales SCALE(0) and last_step_scale(). *)
Record bparams := { p_bins : nat; p_accumulation : R; p_linstep : R; p_emin : R; p_emax : R; p_discard_immediately : R; p_discard_trim : R;
  p_SCALE0 : R; p_last_scale : R }.

Definition log10 (x : R) : R := ln x / ln 10.
(** std::floor and std::ceil, as integers. *)
Definition floor (x : R) : Z := Int_part x.
Definition ceil (x : R) : Z := (- Int_part (- x))%Z.
(** DBL_MIN *)
Definition DBL_MIN : R := / 2 ^ 1022.

Section Bins.
  Variable P : bparams.

  (** bins.hpp:62-72 setlimits *)
  Definition emax : R := if Rlt_dec 0 (p_emax P) then p_emax P else p_SCALE0 P * Rpower 10 2.
  Definition emin : R := if Rlt_dec 0 (p_emin P) then p_emin P else p_last_scale P / Rpower 10 2.
  Definition limits_ok : bool := if Rlt_dec 0 emin then if Rlt_dec emin emax then true else false else false.
  Definition log10emin : Z := floor (log10 emin).
  Definition log10emax : Z := ceil (log10 emax).

  (** bins.hpp:99-103 loggrid_std; the conversion to size_t truncates. *)
  Definition loggrid_std : spikes :=
    let nrbins := Z.to_nat (floor ((IZR log10emax - IZR log10emin) * INR (p_bins P) + 1)) in
    map (fun i => (Rpower 10 (IZR log10emin + INR i / INR (p_bins P)), wzero)) (seq 0 nrbins).

  (** A loop for (e = start; cond; e = next) emit: the values emitted, if it terminates. *)
  Inductive for_loop {A} (cond : R -> Prop) (next : R -> R) (emit : R -> A) : R -> list A -> Prop :=
  | for_stop e : ~ cond e -> for_loop cond next emit e []
  | for_step e l : cond e -> for_loop cond next emit (next e) l -> for_loop cond next emit e (emit e :: l).

  (** ranges::sort by the first component; only applied to lists in which all weights are equal. *)
  Fixpoint insert_first (p : R * weight) (l : spikes) : spikes :=
    match l with
    | [] => [p]
    | q :: t => if Rle_dec (fst p) (fst q) then p :: l else q :: insert_first p t
    end.
  Definition sort_first (l : spikes) : spikes := fold_right insert_first [] l.

  (** bins.hpp:85-97 loggrid_acc *)
  Definition loggrid_acc (b : spikes) : Prop :=
    let a := p_accumulation P in
    exists l1 l2,
      for_loop (fun e => e <= emax) (fun e => e * Rpower 10 (1 / INR (p_bins P))) (fun e => ((emax - a) / emax * e + a, wzero)) emin l1 /\
      (if Rlt_dec 0 (p_linstep P) then for_loop (fun e => 0 < e) (fun e => e - p_linstep P) (fun e => (e, wzero)) a l2 else l2 = []) /\
      b = sort_first (l1 ++ l2 ++ [(DBL_MIN, wzero)]).

  (** bins.hpp:54, 74-83: the constructor. *)
  Definition construct (r : res spikes) : Prop :=
    if Nat.eqb (p_bins P) 0 then r = Throw
    else if limits_ok then
      if Rlt_dec 0 (p_accumulation P) then exists b, loggrid_acc b /\ r = (if Nat.leb 2 (length b) then Ok b else Throw)
      else r = Ok loggrid_std
    else r = Throw.

  (** bins[i].second += w *)
  Fixpoint add_at (i : nat) (w : weight) (l : spikes) : spikes :=
    match l, i with
    | [], _ => []
    | p :: t, O => (fst p, wadd (snd p) w) :: t
    | p :: t, S i' => p :: add_at i' w t
    end.

  (** bins.hpp:115-135 add_std *)
  Definition add_std (energy : R) (w : weight) (b : spikes) : res spikes :=
    match b with
    | [] => UB
    | _ =>
        if Rlt_dec energy emin then Ok (add_at 0 w b)
        else
          let x := (log10 energy - IZR log10emin) * INR (p_bins P) in
          let int_part := floor x in
          if Z.ltb int_part 0 then Ok (add_at 0 w b)
          else
            let index := Z.to_nat int_part in
            if Nat.leb (length b - 1) index then Ok (add_at (length b - 1) w b)
            else
              let rem := x - IZR int_part in
              Ok (add_at (index + 1) (wscale rem w) (add_at index (wscale (1 - rem) w) b))
    end.

  (** bins.hpp:137-157 add_acc *)
  Fixpoint add_acc_loop (energy : R) (w : weight) (b : spikes) : res spikes :=
    match b with
    | (e1, w1) :: (((e2, w2) :: t) as r) =>
        if Rle_dec e1 e2 then
          if Rle_dec e1 energy then
            if Rle_dec energy e2 then
              let dx := e2 - e1 in
              if Req_EM_T dx 0 then Ok ((e1, wadd w1 (wscale (1 / 2) w)) :: (e2, wadd w2 (wscale (1 / 2) w)) :: t)
              else
                let reldist := (energy - e1) / dx in
                Ok ((e1, wadd w1 (wscale (1 - reldist) w)) :: (e2, wadd w2 (wscale reldist w)) :: t)
            else let* r' := add_acc_loop energy w r in Ok ((e1, w1) :: r')
          else let* r' := add_acc_loop energy w r in Ok ((e1, w1) :: r')
        else Throw
    | _ => Ok b
    end.
  Definition add_acc (energy : R) (w : weight) (b : spikes) : res spikes :=
    match b with [] => UB | _ => add_acc_loop energy w b end.

  (** bins.hpp:106-113 add *)
  Definition add (energy : R) (w : weight) (b : spikes) : res spikes :=
    if Rlt_dec (wabs w) (p_discard_immediately P * energy) then Ok b
    else if Rlt_dec 0 (p_accumulation P) then add_acc energy w b
    else add_std energy w b.

  (** bins.hpp:161-170 merge *)
  Fixpoint merge_loop (b c : spikes) : res spikes :=
    match b, c with
    | (e1, w1) :: b', (e2, w2) :: c' =>
        if Req_EM_T e1 e2 then let* r := merge_loop b' c' in Ok ((e1, wadd w1 w2) :: r) else Throw
    | _, _ => Ok b
    end.
  Definition merge (b c : spikes) : res spikes := let* _ := my_assert (Nat.eqb (length b) (length c)) in merge_loop b c.

  (** bins.hpp:173-193 trim; the vector orig.size()-1 wraps around for an empty vector. *)
  Fixpoint trim_loop (b : spikes) : res spikes :=
    match b with
    | p :: ((q :: _) as r) =>
        if Rle_dec (fst p) (fst q) then
          let* t := trim_loop r in
          Ok (if Rle_dec (p_discard_trim P * (fst q - fst p)) (wabs (snd p)) then p :: t else t)
        else Throw
    | _ => Ok b
    end.
  Definition trim (b : spikes) : res spikes := match b with [] => UB | _ => trim_loop b end.

  (** spectrum.hpp:20-40 ChainBinning: the data of one step, spos and sneg. *)
  Definition chain := (spikes * spikes)%type.
  Definition chain_add (energy : R) (w : weight) (c : chain) : res chain :=
    if Rle_dec 0 energy then let* s := add energy w (fst c) in Ok (s, snd c)
    else let* s := add (- energy) w (snd c) in Ok (fst c, s).
  (** spectrum.hpp:35-38: add(pair, factor). *)
  Definition chain_add_factor (p : R * weight) (factor : weight) (c : chain) : res chain := chain_add (fst p) (wmul factor (snd p)) c.
  Fixpoint chain_add_all (l : spikes) (c : chain) : res chain :=
    match l with
    | [] => Ok c
    | p :: l' => let* c' := chain_add (fst p) (snd p) c in chain_add_all l' c'
    end.
  (** spectrum.hpp:39 *)
  Definition chain_total (c : chain) : weight := wadd (sum_weights (fst c)) (sum_weights (snd c)).
  (** spectrum.hpp:81-84 mergeCFS: fs, cs. *)
  Definition mergeCFS (fs cs : chain) : res chain :=
    let* p := merge (fst fs) (fst cs) in let* n := merge (snd fs) (snd cs) in Ok (p, n).
  (** One run: at every step a new ChainBinning is filled with the peaks of the step and merged into the full spectrum. *)
  Fixpoint collect_steps (empty : spikes) (steps : list spikes) (fs : chain) : res chain :=
    match steps with
    | [] => Ok fs
    | l :: steps' =>
        let* cs := chain_add_all l (empty, empty) in
        let* fs' := mergeCFS fs cs in
        collect_steps empty steps' fs'
    end.
  (** spectrum.hpp:74-77 *)
  Definition trim_both (fs : chain) : res chain := let* p := trim (fst fs) in let* n := trim (snd fs) in Ok (p, n).
  (** spectrum.hpp:153-175 savebins: the pairs (energy, weight) written to the file. *)
  Definition savebins (fs : chain) : res spikes :=
    let* p := mapM (fun p => if Rlt_dec 0 (fst p) then Ok p else Throw) (fst fs) in
    let* n := mapM (fun p => if Rlt_dec (- fst p) 0 then Ok (- fst p, snd p) else Throw) (snd fs) in
    Ok (p ++ n).
End Bins.

(** bins.hpp:195-211 Temp::add_value. *)
Fixpoint add_value (energy : R) (w : weight) (l : spikes) : spikes :=
  match l with
  | [] => [(energy, w)]
  | (e, x) :: t => if Req_EM_T e energy then (e, wadd x w) :: t else (e, x) :: add_value energy w t
  end.
