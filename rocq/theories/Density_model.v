(** Model of the density-matrix back-propagation: /repo/c++/dmnrg.hpp (init_rho, cdmI, calc_densitymatrix,
    init_rho_FDM, calc_fulldensitymatrix), /repo/c++/numerics_Eigen.hpp (rotate, rotate_diagonal),
    /repo/c++/operators.hpp (trace), /repo/c++/store.hpp (the containers read by them).
    Scalars are the elements of an arbitrary algebraically closed field with conjugation and absolute value (for
    instance the complex numbers); rounding is not modelled.  Real scalars are the case of real entries.
    Boltzmann factors exp(-E/T) are arguments. Profiling, printing and timing are omitted. *)
From Coq Require Import List ZArith.
From mathcomp Require Import ssreflect ssrfun ssrbool eqtype ssrnat fintype bigop ssralg ssrnum.
From Verif Require Import Base Invar_model Symmetry_model Subspaces_model.
Import GRing.Theory Num.Theory.
Local Open Scope ring_scope.
Set Implicit Arguments.
Unset Strict Implicit.
Unset Printing Implicit Defensive.

(** std::map<Invar, A>::find. *)
Definition lookup {A} (m : list (invar * A)) (J : invar) : option A :=
  option_map snd (List.find (fun p => invar_eqb (fst p) J) m).
(** std::map<Invar, A>::at. *)
Definition at_key {A} (m : list (invar * A)) (J : invar) : res A :=
  match lookup m J with Some a => Ok a | None => Throw end.

(** A loop that updates a variable and stops at the first exception. *)
Fixpoint foldM {A B} (f : A -> B -> res A) (l : list B) (a : A) : res A :=
  match l with
  | nil => Ok a
  | cons x l' => let* a' := f a x in foldM f l' a'
  end.

Section Density.
  Variable C : numClosedFieldType.

  (** EigenMatrix: number of rows and columns and the elements. *)
  Record fmat := Fmat { f_rows : nat; f_cols : nat; f_el : nat -> nat -> C }.

  Definition zero_matrix (n : nat) : fmat := Fmat n n (fun _ _ => 0).

  (** numerics.hpp:214-217 trace_real. *)
  Definition trace_real (m : fmat) : C := \sum_(i < f_rows m) 'Re (f_el m i i).

  (** numerics_Eigen.hpp:118-126: M += factor U^+ O U.  Operands that do not fit together are undefined behaviour
      (the assert is off in production). *)
  Definition rotate (M : fmat) (factor : C) (U O : fmat) : res fmat :=
    if (0 < f_rows U)%N && (0 < f_cols U)%N then
      if [&& f_rows M == f_cols U, f_rows U == f_rows O, f_cols O == f_rows U & f_cols U == f_cols M] then
        Ok (Fmat (f_rows M) (f_cols M) (fun r s =>
          f_el M r s + factor * \sum_(b < f_rows U) (\sum_(a < f_rows U) (f_el U a r)^* * f_el O a b) * f_el U b s))
      else UB
    else Ok M.

  (** numerics_Eigen.hpp:129-139: only the diagonal of O is used. *)
  Definition rotate_diagonal (M : fmat) (factor : C) (U O : fmat) : res fmat :=
    if (0 < f_rows U)%N && (0 < f_cols U)%N then
      if [&& f_rows M == f_cols U, f_rows U == f_rows O, f_cols O == f_rows U & f_cols U == f_cols M] then
        Ok (Fmat (f_rows M) (f_cols M) (fun r s =>
          f_el M r s + factor * \sum_(a < f_rows U) (f_el U a r)^* * (f_el O a a * f_el U a s)))
      else UB
    else Ok M.

  (** numerics_Eigen.hpp:141-145 with the ranges {0,n} and {0,size2}: the first n rows. *)
  Definition first_rows (U : fmat) (n : nat) : res fmat :=
    if (n <= f_rows U)%N then Ok (Fmat n (f_cols U) (f_el U)) else UB.

  (** One sector of a step as loaded from disk: eigen.hpp:355-357 getnrstored and eigen.hpp:239-242 the blocks of U
      (the index is not checked in production). *)
  Record eig := Eig { e_nrstored : nat; e_U : list fmat }.
  Definition get_block (e : eig) (i : nat) : res fmat := match List.nth_error (e_U e) i with Some u => Ok u | None => UB end.

  (** store.hpp:97-103 BackiterSub: block sizes, number of kept states, dimension. *)
  Record backsub := Backsub { b_rmax : list Z; b_kept : nat; b_dim : nat }.

  (** std::map of matrices (DensMatElements). *)
  Definition densmat := list (invar * fmat).
  Definition diaginfo := list (invar * eig).
  Definition backsubs := list (invar * backsub).

  (** store.hpp:105-113 BackiterSubs(diag, substruct): for every sector its kept count and dimension, with the block
      sizes of the structure (subspaces.hpp:100-103 at_or_null: no blocks if absent). *)
  Definition backiter_subs (infos : list (invar * (nat * nat))) (st : structure) : backsubs :=
    List.map (fun p => (fst p, Backsub (match lookup st (fst p) with Some d => sd_dims d | None => nil end) (fst (snd p)) (snd (snd p)))) infos.

  (** size_t to double. *)
  Definition zc (z : Z) : C := (Z.to_nat z)%:R.

  (** operators.hpp:87-91 DensMatElements::trace. *)
  Definition dm_trace (sy : symmetry) (rho : densmat) : res C :=
    foldM (fun acc p => let* m := mult sy (fst p) in Ok (acc + zc m * trace_real (snd p))) rho 0.

  (** dmnrg.hpp:163-200 cdmI: contribution of sector I1, block i, to rhoNEW. *)
  Definition cdmI (combs : nat) (diagonal : bool) (i : nat) (I1 : invar) (rhoN : fmat) (e : eig) (store : backsubs) (factor : C) (rhoNEW : fmat)
    : res fmat :=
    let* _ := my_assert (i < combs)%N in
    let dim := f_cols rhoNEW in
    let nromega := f_cols rhoN in
    if nromega == 0%N then Ok rhoNEW
    else if dim == 0%N then Ok rhoNEW
    else
      let* sub := at_key store I1 in
      let* rm := rmax (b_rmax sub) (Z.of_nat i) in
      if Z.eqb rm 0 then Ok rhoNEW
      else
        let* _ := my_assert (Z.eqb rm (Z.of_nat dim)) in
        let* _ := my_assert (nromega <= e_nrstored e)%N in
        let* U0 := get_block e i in
        let* U := first_rows U0 nromega in
        if diagonal then rotate_diagonal rhoNEW factor U rhoN else rotate rhoNEW factor U rhoN.

  Section Sym.
  Variables (sy : symmetry) (combs : nat) (t : tables).

  (** The list of (i, sub) for the loops over new_subspaces. *)
  Definition enumerate {A} (l : list A) : list (nat * A) := List.combine (List.seq 0 (List.length l)) l.

  (** dmnrg.hpp:203-223 calc_densitymatrix_iterN; [store] is store_all[N], [store_prev] is store_all[N-1]. *)
  Definition dm_block (diag : diaginfo) (rho : densmat) (store : backsubs) (J : invar) (acc : fmat) (isub : nat * invar) : res fmat :=
    match lookup rho (snd isub), lookup diag (snd isub) with
    | None, _ => Ok acc
    | _, None => Ok acc
    | Some r, Some e =>
        let* m1 := mult sy (snd isub) in
        let* m := mult sy J in
        cdmI combs false (fst isub) (snd isub) r e store (zc m1 / zc m) acc
    end.
  Definition dm_sector (diag : diaginfo) (rho : densmat) (store : backsubs) (p : invar * backsub) : res (invar * fmat) :=
    let dim := b_kept (snd p) in
    if dim == 0%N then Ok (fst p, zero_matrix dim)
    else
      let* ns := new_subspaces sy combs t (fst p) in
      let* M := foldM (dm_block diag rho store (fst p)) (enumerate ns) (zero_matrix dim) in
      Ok (fst p, M).
  Definition dm_iterN (diag : diaginfo) (rho : densmat) (store store_prev : backsubs) : res densmat :=
    mapM (dm_sector diag rho store) store_prev.

  (** [near x y] is num_equal(x, y). *)
  Variables (near : C -> C -> bool) (checkrho : bool).

  (** dmnrg.hpp:34-39 *)
  Definition check_trace_rho (rho : densmat) (ref : C) : res unit :=
    let* tr := dm_trace sy rho in if near tr ref then Ok tt else Throw.

  (** The data left on disk and in memory by the first pass: the spectra of step N and store_all[N]. *)
  Variables (diag_file : nat -> diaginfo) (store_all : nat -> backsubs).

  (** dmnrg.hpp:239-263 calc_densitymatrix (without resume): N runs from Ninit+n down to Ninit+1; the result lists the
      saved matrices, (step, matrix). *)
  Fixpoint calc_dm_loop (Ninit n : nat) (rho : densmat) : res (list (nat * densmat)) :=
    match n with
    | O => Ok nil
    | S n' =>
        let N := (Ninit + n)%N in
        let* prev := dm_iterN (diag_file N) rho (store_all N) (store_all (N - 1)%N) in
        let* _ := (if checkrho then check_trace_rho prev 1 else Ok tt) in
        let* rest := calc_dm_loop Ninit n' prev in
        Ok (cons ((N - 1)%N, prev) rest)
    end.
  Definition calc_densitymatrix (Ninit Nmax : nat) (rho : densmat) : res (list (nat * densmat)) :=
    let* _ := (if checkrho then check_trace_rho rho 1 else Ok tt) in
    calc_dm_loop Ninit (Nmax - 1 - Ninit)%N rho.

  (** dmnrg.hpp:140-158 init_rho, eigen.hpp:404-410 diagonal_exp, measurements.hpp:51-55 grand_canonical_Z.  Each sector
      of the truncated last step carries its number of stored and kept states and the factors exp(-scT E_i);
      [keepsec] is the projection (symmetry.hpp:137-148; constantly true without one). *)
  Record last_eig := LastEig { l_stored : nat; l_kept : nat; l_boltz : nat -> C }.
  Definition grand_canonical_Z (d : list (invar * last_eig)) : res C :=
    foldM (fun acc p => let* m := mult sy (fst p) in Ok (acc + zc m * \sum_(i < l_kept (snd p)) l_boltz (snd p) i)) d 0.
  Definition diagonal_over (n : nat) (f : nat -> C) (Z : C) : fmat := Fmat n n (fun i j => if i == j then f i / Z else 0).
  Definition init_rho (keepsec : invar -> bool) (d_in : list (invar * last_eig)) : res densmat :=
    let d := List.filter (fun p => keepsec (fst p)) d_in in
    let* Z := grand_canonical_Z d in
    let rho := List.map (fun p => (fst p, diagonal_over (l_stored (snd p)) (l_boltz (snd p)) Z)) d in
    let* _ := (if checkrho then check_trace_rho rho 1 else Ok tt) in
    Ok rho.

  (** nrg-general.hpp:131-137 prepare_rho: the matrices saved for the last and all earlier steps. *)
  Definition prepare_rho (Ninit Nmax : nat) (keepsec : invar -> bool) (d : list (invar * last_eig)) : res (list (nat * densmat)) :=
    let* rho := init_rho keepsec d in
    let* l := calc_densitymatrix Ninit Nmax rho in
    Ok (cons ((Nmax - 1)%N, rho) l).

  (** *** Full density matrix *)

  (** store.hpp:20-35, eigen.hpp:437-457: one sector of store[N]: kept, dimension, last flag and the factors
      exp(-abs_zero(i)/T). *)
  Record thermosub := Thermosub { th_kept : nat; th_dim : nat; th_last : bool; th_boltz : nat -> C }.
  Definition th_min (x : thermosub) : nat := if th_last x then 0%N else th_kept x.
  Definition thermosubs := list (invar * thermosub).
  Variables (store : nat -> thermosubs) (wn : nat -> C) (tiny : C -> bool).

  (** measurements.hpp:60-75, the component ZnDNd of calc_ZnD: sum over the states in all(). *)
  Definition ZnDN (s : thermosubs) : res C :=
    foldM (fun acc p => let* m := mult sy (fst p) in
                        Ok (acc + \sum_(th_min (snd p) <= i < th_dim (snd p)) zc m * th_boltz (snd p) i)) s 0.

  (** dmnrg.hpp:275-292 init_rho_FDM *)
  Definition fdm_matrix (N : nat) (Z : C) (x : thermosub) : fmat :=
    Fmat (th_dim x) (th_dim x) (fun i j => if [&& Z != 0, i == j, (th_min x <= i)%N & (i < th_dim x)%N] then th_boltz x i * wn N / Z else 0).
  Definition init_rho_FDM (N : nat) : res densmat :=
    let* Z := ZnDN (store N) in
    let rho := List.map (fun p => (fst p, fdm_matrix N Z (snd p))) (store N) in
    if checkrho && (wn N != 0) then
      let* tr := dm_trace sy rho in
      if near ((tr - wn N) / wn N) 0 then Ok rho else let* _ := my_assert (tiny (wn N)) in Ok rho
    else Ok rho.

  (** dmnrg.hpp:294-342 calc_fulldensitymatrix_iterN; [last] is step.last(N). *)
  Definition cdmI_if (diagonal : bool) (diag : diaginfo) (rho : densmat) (store_N : backsubs) (coef : C) (isub : nat * invar) (acc : fmat) : res fmat :=
    match lookup rho (snd isub), lookup diag (snd isub) with
    | None, _ => Ok acc
    | _, None => Ok acc
    | Some r, Some e => cdmI combs diagonal (fst isub) (snd isub) r e store_N coef acc
    end.
  Definition fdm_block (last : bool) (diag : diaginfo) (rhoFDM rhoDD : densmat) (store_N : backsubs) (J : invar) (acc : fmat) (isub : nat * invar)
    : res fmat :=
    let* m1 := mult sy (snd isub) in
    let* m := mult sy J in
    let coef := zc m1 / zc m in
    let* a1 := cdmI_if false diag rhoFDM store_N coef isub acc in
    if last then Ok a1 else cdmI_if true diag rhoDD store_N coef isub a1.
  Definition fdm_sector (last : bool) (diag : diaginfo) (rhoFDM rhoDD : densmat) (store_N : backsubs) (p : invar * backsub) : res (invar * fmat) :=
    let* subs := new_subspaces sy combs t (fst p) in
    let dim := b_kept (snd p) in
    if dim == 0%N then Ok (fst p, zero_matrix dim)
    else
      let* M := foldM (fdm_block last diag rhoFDM rhoDD store_N (fst p)) (enumerate subs) (zero_matrix dim) in
      Ok (fst p, M).
  Definition fdm_iterN (last : bool) (N : nat) (rhoFDM : densmat) : res densmat :=
    let* rhoDD := (if last then Ok nil else init_rho_FDM N) in
    mapM (fdm_sector last (diag_file N) rhoFDM rhoDD (store_all N)) (store_all (N - 1)%N).

  (** dmnrg.hpp:344-371 calc_fulldensitymatrix (without resume); 0/0 is a NaN, for which num_equal is false. *)
  Fixpoint calc_fdm_loop (Ninit Nmax n : nat) (rhoFDM : densmat) : res (list (nat * densmat)) :=
    match n with
    | O => Ok nil
    | S n' =>
        let N := (Ninit + n)%N in
        let* prev := fdm_iterN (N == (Nmax - 1)%N) N rhoFDM in
        let* _ := (if checkrho then
                     let* tr := dm_trace sy prev in
                     let expected := \sum_(N <= k < Nmax) wn k in
                     my_assert ((expected != 0) && near ((tr - expected) / expected) 0)
                   else Ok tt) in
        let* rest := calc_fdm_loop Ninit Nmax n' prev in
        Ok (cons ((N - 1)%N, prev) rest)
    end.

  (** nrg-general.hpp:139-149 prepare_rhoFDM (the part after calc_ZnD and fdm_thermodynamics). *)
  Definition prepare_rhoFDM (Ninit Nmax : nat) : res (list (nat * densmat)) :=
    let* rho := init_rho_FDM (Nmax - 1)%N in
    let* l := calc_fdm_loop Ninit Nmax (Nmax - 1 - Ninit)%N rho in
    Ok (cons ((Nmax - 1)%N, rho) l).
  End Sym.
End Density.
