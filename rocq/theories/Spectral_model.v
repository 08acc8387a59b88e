(** Model of the spectral-function algorithms: /repo/c++/algo_FDM.hpp, /repo/c++/algo_CFS.hpp, /repo/c++/algo_DMNRG.hpp,
    /repo/c++/algo_FT.hpp (the real-frequency ones), /repo/c++/algo.hpp (BaseSpectrum::calc), the matrix products of
    /repo/c++/numerics.hpp and the state ranges of /repo/c++/eigen.hpp.
    The accumulator is represented by the sequence of calls cb->add(energy, weight), in the order in which they are made;
    the binning of these delta peaks is modelled separately (Bins_model).  Scalars, energies and weights are elements of an
    arbitrary algebraically closed field with conjugation; rounding is not modelled.  Boltzmann factors are arguments. *)
From Coq Require Import List ZArith.
From mathcomp Require Import ssreflect ssrfun ssrbool eqtype ssrnat fintype bigop ssralg ssrnum.
From Verif Require Import Base Invar_model Density_model.
Import GRing.Theory Num.Theory.
Local Open Scope ring_scope.
Set Implicit Arguments.
Unset Strict Implicit.
Unset Printing Implicit Defensive.

(** boost::irange(a, b). *)
Definition irange (a b : nat) : list nat := List.seq a (b - a).
(** for (j : js) for (i : is): the pairs (j, i) in the order of the loops. *)
Definition loop2 (js is_ : list nat) : list (nat * nat) := List.flat_map (fun j => List.map (fun i => (j, i)) is_) js.

(** matsubara.hpp:12-17 gf_type. *)
Inductive gf_type := bosonic | fermionic.

Section Spectral.
  Variable C : numClosedFieldType.
  Notation fmat := (fmat C).

  (** matsubara.hpp:15-17 gf_sign. *)
  Definition gf_sign (gt : gf_type) : C := match gt with bosonic => 1 | fermionic => -1 end.

  (** eigen.hpp Eigen: number of computed states, number of states after truncation, flag of the last step, and the energies
      abs_zero(i) and abs_G(i). *)
  Record sector := Sector { s_all : nat; s_post : nat; s_last : bool; s_zero : nat -> C; s_G : nat -> C }.
  (** eigen.hpp:354, 359-369 *)
  Definition boundary (s : sector) : nat := if s_last s then 0%N else s_post s.
  Definition kept (s : sector) : list nat := irange 0 (s_post s).
  Definition discarded (s : sector) : list nat := irange (s_post s) (s_all s).
  Definition Drange (s : sector) : list nat := irange (boundary s) (s_all s).
  Definition Krange (s : sector) : list nat := irange 0 (boundary s).

  (** Element access; the bounds are not checked in production. *)
  Definition el (M : fmat) (i j : nat) : res C := if (i < f_rows M)%N && (j < f_cols M)%N then Ok (f_el M i j) else UB.
  (** numerics_Eigen.hpp:141-145 submatrix_const with both ranges starting at 0. *)
  Definition submatrix (M : fmat) (r c : nat) : res fmat := if (r <= f_rows M)%N && (c <= f_cols M)%N then Ok (Fmat r c (f_el M)) else UB.
  Definition matrix_prod (A B : fmat) : fmat := Fmat (f_rows A) (f_cols B) (fun i j => \sum_(k < f_cols A) f_el A i k * f_el B k j).
  Definition matrix_adj_prod (A B : fmat) : fmat := Fmat (f_cols A) (f_cols B) (fun i j => \sum_(k < f_rows A) (f_el A k i)^* * f_el B k j).
  Definition empty_matrix : fmat := Fmat 0 0 (fun _ _ => 0).
  (** numerics.hpp:310-342 *)
  Definition prod_fit_left (A B : fmat) : res fmat :=
    if (f_rows A == 0%N) || (f_cols B == 0%N) then Ok empty_matrix
    else let* As := submatrix A (f_rows A) (f_rows B) in Ok (matrix_prod As B).
  Definition prod_fit_right (A B : fmat) : res fmat :=
    if (f_rows A == 0%N) || (f_cols B == 0%N) then Ok empty_matrix
    else let* Bs := submatrix B (f_cols A) (f_cols B) in Ok (matrix_prod A Bs).
  Definition prod_fit (A B : fmat) : res fmat := if (f_rows B <= f_cols A)%N then prod_fit_left A B else prod_fit_right A B.
  Definition prod_adj_fit_left (A B : fmat) : res fmat :=
    if (f_cols A == 0%N) || (f_cols B == 0%N) then Ok empty_matrix
    else let* As := submatrix A (f_rows B) (f_cols A) in Ok (matrix_adj_prod As B).

  (** A delta peak: energy and weight; spectrum.hpp:35-38, add(pair, factor). *)
  Definition peak := (C * C)%type.
  Definition add (p : peak) (factor : C) : peak := (fst p, factor * snd p).

  (** The arguments of Algo::calc: the sectors Ii (ket index i, columns) and Ij (row index j), the two operator blocks, the
      spectroscopic factor, the two sector labels and the density matrix. [bz E] is exp(-E/T). *)
  Record args := Args { a_i : sector; a_j : sector; a_op1 : fmat; a_op2 : fmat; a_factor : C; a_Ii : invar; a_Ij : invar }.
  Variables (gt : gf_type) (bz : C -> C).
  Notation sign := (gf_sign gt).

  Section Calc.
  Variables (a : args) (rho : densmat C).
  Notation si := (a_i a). Notation sj := (a_j a).

  (** *** algo_FDM.hpp *)
  Variable wnf : C.   (* stats.wnfactor[step.ndx()] *)
  (** algo_FDM.hpp:41-43 *)
  Definition ls_exp_weight (i j : nat) : res peak :=
    let* x := el (a_op1 a) j i in let* y := el (a_op2 a) j i in
    Ok (add (s_G sj j - s_G si i, x^* * y * ((- sign) * wnf) * bz (s_G sj j)) (a_factor a)).
  (** algo_FDM.hpp:44-46 *)
  Definition ls_rho_weight (rho_op2 : fmat) (i j : nat) : res peak :=
    let* x := el (a_op1 a) j i in let* y := el rho_op2 j i in
    Ok (add (s_G sj j - s_G si i, x^* * y * (- sign)) (a_factor a)).
  (** algo_FDM.hpp:31-56 *)
  Definition calc_FDMls : res (list peak) :=
    let* r := at_key rho (a_Ij a) in
    let* rho_op2 := prod_fit r (a_op2 a) in
    let* p1 := mapM (fun ji => ls_exp_weight (snd ji) (fst ji)) (loop2 (Drange sj) (Drange si)) in
    let* p2 := mapM (fun ji => ls_rho_weight rho_op2 (snd ji) (fst ji)) (loop2 (Krange sj) (Drange si)) in
    let* p3 := mapM (fun ji => ls_exp_weight (snd ji) (fst ji)) (loop2 (Drange sj) (Krange si)) in
    Ok (p1 ++ p2 ++ p3).
  (** algo_FDM.hpp:90-92 *)
  Definition gt_exp_weight (i j : nat) : res peak :=
    let* x := el (a_op1 a) j i in let* y := el (a_op2 a) j i in
    Ok (add (s_G sj j - s_G si i, x^* * y * wnf * bz (s_G si i)) (a_factor a)).
  (** algo_FDM.hpp:93-95 *)
  Definition gt_rho_weight (op2_rho : fmat) (i j : nat) : res peak :=
    let* x := el (a_op1 a) j i in let* y := el op2_rho j i in
    Ok (add (s_G sj j - s_G si i, x^* * y) (a_factor a)).
  (** algo_FDM.hpp:80-105 *)
  Definition calc_FDMgt : res (list peak) :=
    let* r := at_key rho (a_Ii a) in
    let* op2_rho := prod_fit (a_op2 a) r in
    let* p1 := mapM (fun ji => gt_exp_weight (snd ji) (fst ji)) (loop2 (Drange sj) (Drange si)) in
    let* p2 := mapM (fun ji => gt_exp_weight (snd ji) (fst ji)) (loop2 (Krange sj) (Drange si)) in
    let* p3 := mapM (fun ji => gt_rho_weight op2_rho (snd ji) (fst ji)) (loop2 (Drange sj) (Krange si)) in
    Ok (p1 ++ p2 ++ p3).
  (** algo_FDM.hpp:128-176: the calls to gt_cb and to ls_cb. *)
  Definition both (x : res peak) (y : res peak) : res (peak * peak) := let* p := x in let* q := y in Ok (p, q).
  Definition fdm_exp_weight (i j : nat) : res (peak * peak) :=
    let* x := el (a_op1 a) j i in let* y := el (a_op2 a) j i in
    Ok (add (s_G sj j - s_G si i, x^* * y * wnf * bz (s_G si i)) (a_factor a),
        add (s_G sj j - s_G si i, x^* * y * (- sign) * wnf * bz (s_G sj j)) (a_factor a)).
  Definition fdm_KD (rho_op2 : fmat) (i j : nat) : res (peak * peak) :=
    let* x := el (a_op1 a) j i in let* y := el (a_op2 a) j i in
    let* l := ls_rho_weight rho_op2 i j in
    Ok (add (s_G sj j - s_G si i, x^* * y * wnf * bz (s_G si i)) (a_factor a), l).
  Definition fdm_DK (op2_rho : fmat) (i j : nat) : res (peak * peak) :=
    let* g := gt_rho_weight op2_rho i j in
    let* x := el (a_op1 a) j i in let* y := el (a_op2 a) j i in
    Ok (g, add (s_G sj j - s_G si i, x^* * y * (- sign) * wnf * bz (s_G sj j)) (a_factor a)).
  Definition calc_FDM : res (list peak * list peak) :=
    let* rj := at_key rho (a_Ij a) in
    let* rho_op2 := prod_fit rj (a_op2 a) in
    let* ri := at_key rho (a_Ii a) in
    let* op2_rho := prod_fit (a_op2 a) ri in
    let* p1 := mapM (fun ji => fdm_exp_weight (snd ji) (fst ji)) (loop2 (Drange sj) (Drange si)) in
    let* p2 := mapM (fun ji => fdm_KD rho_op2 (snd ji) (fst ji)) (loop2 (Krange sj) (Drange si)) in
    let* p3 := mapM (fun ji => fdm_DK op2_rho (snd ji) (fst ji)) (loop2 (Drange sj) (Krange si)) in
    let p := p1 ++ p2 ++ p3 in
    Ok (List.map fst p, List.map snd p).

  (** *** algo_CFS.hpp; [last] is step.last(), [Z] is stats.Zft. *)
  Variables (last : bool) (Z : C).
  (** algo_CFS.hpp:27-56, with I1 = Ij, Ip = Ii. *)
  Definition cfs_ls_term1 (r1 rp : nat) : res peak :=
    let* x := el (a_op1 a) r1 rp in let* y := el (a_op2 a) r1 rp in
    Ok (add (s_zero sj r1 - s_zero si rp, x^* * y * bz (s_zero sj r1) * (- sign) / Z) (a_factor a)).
  Definition cfs_term3 (op2_rho : fmat) (rl rk : nat) : res peak :=
    let* x := el (a_op1 a) rl rk in let* y := el op2_rho rl rk in
    Ok (add (s_zero sj rl - s_zero si rk, x^* * y * (- sign)) (a_factor a)).
  Definition calc_CFSls : res (list peak) :=
    if last then mapM (fun ji => cfs_ls_term1 (fst ji) (snd ji)) (loop2 (kept sj) (kept si))
    else
      let* r := at_key rho (a_Ii a) in
      let* op2_rho := prod_fit_left (a_op2 a) r in
      mapM (fun ji => cfs_term3 op2_rho (fst ji) (snd ji)) (loop2 (discarded sj) (kept si)).
  (** algo_CFS.hpp:80-108 *)
  Definition cfs_gt_term1 (r1 rp : nat) : res peak :=
    let* x := el (a_op1 a) r1 rp in let* y := el (a_op2 a) r1 rp in
    Ok (add (s_zero sj r1 - s_zero si rp, x^* * y * bz (s_zero si rp) / Z) (a_factor a)).
  Definition cfs_term2 (op1_rho : fmat) (rk rl : nat) : res peak :=
    let* x := el op1_rho rl rk in let* y := el (a_op2 a) rk rl in
    Ok (add (s_zero sj rk - s_zero si rl, x * y) (a_factor a)).
  Definition calc_CFSgt : res (list peak) :=
    if last then mapM (fun ji => cfs_gt_term1 (fst ji) (snd ji)) (loop2 (kept sj) (kept si))
    else
      let* r := at_key rho (a_Ij a) in
      let* op1_rho := prod_adj_fit_left (a_op1 a) r in
      mapM (fun ji => cfs_term2 op1_rho (fst ji) (snd ji)) (loop2 (kept sj) (discarded si)).
  (** algo_CFS.hpp:130-143 *)
  Definition calc_CFS : res (list peak) := let* g := calc_CFSgt in let* l := calc_CFSls in Ok (g ++ l).

  (** *** algo_DMNRG.hpp:31-62; [guard E] tells whether |E| lies outside [Emin, Emax].  The products are computed by
      gemm_rowmajor: op2 rho^T and rho conj(op1). *)
  Variable guard : C -> bool.
  Definition dmnrg_term (sumA sumB op1 op2 : fmat) (rj rm : nat) : res (option peak) :=
    let energy := s_zero sj rj - s_zero si rm in
    if guard energy then Ok None
    else
      let* x := el op1 rj rm in let* y := el op2 rj rm in
      let* sa := el sumA rj rm in let* sb := el sumB rj rm in
      Ok (Some (add (energy, sa * x^* + (- sign) * (sb * y)) (a_factor a))).
  Definition calc_DMNRG : res (list peak) :=
    let* rhoi := at_key rho (a_Ii a) in
    let* rhoj := at_key rho (a_Ij a) in
    let ni := s_post si in
    let nj := s_post sj in
    if (ni == 0%N) || (nj == 0%N) then Ok nil
    else
      let* op2k := submatrix (a_op2 a) nj ni in
      let* op1k := submatrix (a_op1 a) nj ni in
      let* ri := submatrix rhoi ni ni in
      let* rj := submatrix rhoj nj nj in
      let sumA := Fmat nj ni (fun j i => \sum_(k < ni) f_el op2k j k * f_el ri i k) in
      let sumB := Fmat nj ni (fun j i => \sum_(k < nj) f_el rj j k * (f_el op1k k i)^*) in
      let* l := mapM (fun ji => dmnrg_term sumA sumB op1k op2k (fst ji) (snd ji)) (loop2 (kept sj) (kept si)) in
      Ok (List.flat_map (fun o => match o with Some p => cons p nil | None => nil end) l).

  (** *** algo_FT.hpp:28-43 *)
  Definition ft_term (r1 rp : nat) : res peak :=
    let* x := el (a_op1 a) r1 rp in let* y := el (a_op2 a) r1 rp in
    Ok (add (s_zero sj r1 - s_zero si rp, x^* * y * (((- sign) * bz (s_zero sj r1) + bz (s_zero si rp)) / Z)) (a_factor a)).
  Definition calc_FT : res (list peak) := mapM (fun ji => ft_term (fst ji) (snd ji)) (loop2 (kept sj) (kept si)).
  End Calc.

  (** algo.hpp:62-79 BaseSpectrum::calc: the blocks of op1 (a std::map keyed by the pair (Ij, Ii)) for which op2 has a block
      too, the check function and the projection accept and both sectors exist.  [calc] is Algo::calc; the peaks of all
      blocks are collected in the order of the loop. *)
  Definition find2 (m : list ((invar * invar) * fmat)) (Ij Ii : invar) : option fmat :=
    option_map snd (List.find (fun p => invar_eqb (fst (fst p)) Ij && invar_eqb (snd (fst p)) Ii) m).
  Definition block_args (op2 : list ((invar * invar) * fmat)) (diag : list (invar * sector)) (cf : invar -> invar -> bool) (project : invar -> bool)
    (ff : invar -> invar -> C) (b : (invar * invar) * fmat) : option args :=
    let Ij := fst (fst b) in let Ii := snd (fst b) in
    match find2 op2 Ij Ii with
    | None => None
    | Some m2 =>
        if ~~ cf Ij Ii then None
        else if ~~ project Ii || ~~ project Ij then None
        else match lookup diag Ii, lookup diag Ij with
             | Some di, Some dj => Some (Args di dj (snd b) m2 (ff Ii Ij) Ii Ij)
             | _, _ => None
             end
    end.
  Fixpoint collect {X} (calc : args -> res (list X)) (l : list (option args)) : res (list X) :=
    match l with
    | nil => Ok nil
    | cons None l' => collect calc l'
    | cons (Some a) l' => let* p := calc a in let* q := collect calc l' in Ok (p ++ q)
    end.
  Definition spectrum_calc {X} (calc : args -> res (list X)) (op1 op2 : list ((invar * invar) * fmat)) (diag : list (invar * sector))
    (cf : invar -> invar -> bool) (project : invar -> bool) (ff : invar -> invar -> C) : res (list X) :=
    collect calc (List.map (block_args op2 diag cf project ff) op1).
End Spectral.
