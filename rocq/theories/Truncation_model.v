(** Truncation of the spectrum, splitting clean-up, criterion sorting, kept/discarded ranges and the
    restart loop.

    Energies and truncation criteria are only compared, subtracted and copied by this code, so they are
    modelled as integers (finite doubles are integer multiples of 2^-1074; rounding of the differences that
    are compared with [safeguard] and [fixeps] is not modelled).  NaN is not modelled.  [size_t] arithmetic is
    modelled modulo 2^64 at the one place where it can overflow. *)
From Coq Require Import List ZArith Lia Bool QArith Qminmax Qround.
From Verif Require Import Base.
Import ListNotations.
Local Open Scope Z_scope.

Definition len {A} (l : list A) : Z := Z.of_nat (length l).

(** [std::sort], [ranges::actions::sort]: any sorting algorithm gives the same list of numbers. *)
Fixpoint insert_sorted (x : Z) (l : list Z) : list Z :=
  match l with
  | [] => [x]
  | y :: t => if x <=? y then x :: l else y :: insert_sorted x t
  end.
Definition sort_values (l : list Z) : list Z := fold_right insert_sorted [] l.

(** [std::clamp] for lo <= hi. *)
Definition clamp (x lo hi : Z) : Z := if x <? lo then lo else if hi <? x then hi else x.

Definition count_le (c : Z) (l : list Z) : Z := len (filter (fun x => x <=? c) l).

(** Smallest and largest element; /repo/c++/truncation.hpp:35 [ranges::minmax_element] (never called on an
    empty list). *)
Definition min_element (l : list Z) : Z := fold_right Z.min (hd 0 l) l.
Definition max_element (l : list Z) : Z := fold_right Z.max (hd 0 l) l.

(** The parameters used by truncation; /repo/c++/params.hpp:164-197.
    [keep_all] is the value of keepall(step,P) (truncation.hpp:16-24), [keepenergy_on] is
    keepenergy > 0 and [ecut] the product keepenergy*step.unscale() (truncation.hpp:46). *)
Record tparams := {
  floquet : bool;
  keep_all : bool;
  keep : Z;
  keepenergy_on : bool;
  keepmin : Z;
  ecut : Z;
  safeguard : Z;
  safeguardmax : Z
}.

(** /repo/c++/params.hpp:622-625, the assertions of [Params::validate] on these parameters. *)
Definition validate_truncation (P : tparams) : res unit :=
  let* _ := my_assert (1 <? keep P) in
  if keepenergy_on P then my_assert (keepmin P <=? keep P) else Ok tt.

(** Reading the array [all] after nth_element + sort of its first elements: only the sorted prefix has known
    contents; a read beyond it is reported as [UB] (out of bounds, or an unspecified element). *)
Definition read (pre : list Z) (i : Z) : res Z :=
  if i <? 0 then UB else match nth_error pre (Z.to_nat i) with Some x => Ok x | None => UB end.

(** /repo/c++/truncation.hpp:55-61, the safeguard loop.  [fuel] is sorted_prefix - nrkeep, i.e. the loop test
    nrkeep < sorted_prefix is "fuel is not exhausted". *)
Fixpoint safeguard_loop (fuel : nat) (pre : list Z) (sg budget nrkeep cnt : Z) : res Z :=
  match fuel with
  | O => Ok nrkeep
  | S f =>
      let* a := read pre nrkeep in
      let* b := read pre (nrkeep - 1) in
      if (a - b <=? sg) && (cnt <? budget) then safeguard_loop f pre sg budget (nrkeep + 1) (cnt + 1)
      else Ok nrkeep
  end.

(** /repo/c++/truncation.hpp:42-46, the requested number of states. *)
Definition requested (P : tparams) (crits : list Z) : res Z :=
  if keepenergy_on P then
    if keep P <? keepmin P then UB (* std::clamp with lo > hi *)
    else Ok (clamp (1 + count_le (ecut P) crits) (keepmin P) (keep P))
  else Ok (keep P).

(** /repo/c++/truncation.hpp:27-65.  [crits] is the concatenation of the criteria of all sectors. *)
Definition highest_retained (P : tparams) (crits : list Z) : res Z :=
  let total := len crits in
  let* _ := my_assert (negb (total =? 0)) in
  let* _ := if floquet P then Ok tt else my_assert (min_element crits =? 0) in
  if keep_all P then Ok (max_element crits) else
  let* nrkeep := requested P crits in
  if total <=? nrkeep then Ok (max_element crits) else
  let budget := if 0 <? safeguard P then safeguardmax P else 0 in
  let sorted_prefix := Z.min total ((Z.max 1 nrkeep + budget) mod 2 ^ 64) in
  if sorted_prefix =? 0 then UB (* nth_element with all.begin()-1 *) else
  let pre := firstn (Z.to_nat sorted_prefix) (sort_values crits) in
  let* nrkeep2 :=
    if 0 <? safeguard P
    then safeguard_loop (Z.to_nat (sorted_prefix - nrkeep)) pre (safeguard P) (safeguardmax P) nrkeep 0
    else Ok nrkeep in
  read pre (clamp nrkeep2 1 total - 1).

(** One sector of [DiagInfo] as seen by truncation: criteria of the computed states, dimension of the sector. *)
Record sector := { crit : list Z; sdim : Z }.
Definition nrcomputed (s : sector) : Z := len (crit s).

(** Result of [truncate_prepare]: the number of kept states per sector, with or without exception NotEnough
    (the counts are stored before the exception is thrown, truncation.hpp:90-101). *)
Inductive prepared := Enough (kept : list Z) | NotEnough (kept : list Z).

(** /repo/c++/truncation.hpp:88-103 and eigen.hpp:382-385.  [all_last] = step.last() &&
    P.keep_all_states_in_last_step().  highest_crit() of an empty sector is c.back() of an empty vector. *)
Definition nr_kept (all_last : bool) (cmax : Z) (s : sector) : Z :=
  if all_last then nrcomputed s else count_le cmax (crit s).

Definition insufficient (all_last : bool) (cmax : Z) (s : sector) : res bool :=
  if negb (nr_kept all_last cmax s =? nrcomputed s) then Ok false
  else match crit s with
       | [] => UB
       | _ => Ok (negb (last (crit s) 0 =? cmax) && (nrcomputed s <? sdim s))
       end.

Definition truncate_prepare (P : tparams) (all_last : bool) (sectors : list sector) : res prepared :=
  let* cmax := highest_retained P (concat (map crit sectors)) in
  let kept := map (nr_kept all_last cmax) sectors in
  let* bad := mapM (insufficient all_last cmax) sectors in
  Ok (if existsb (fun b => b) bad then NotEnough kept else Enough kept).

(** *** Splitting clean-up, /repo/c++/splitting.hpp *)

(** splitting.hpp:14-24 [cluster_splitting]. *)
Fixpoint cluster_splitting (cl : list Z) : bool :=
  match cl with
  | [] => false
  | x :: t => existsb (fun y => negb (x =? y)) t || cluster_splitting t
  end.

(** std::unordered_map<t_eigen,t_eigen>: [find] and [insert] (which does not overwrite). *)
Definition find_key (m : list (Z * Z)) (k : Z) : option Z :=
  option_map snd (find (fun kv => fst kv =? k) m).
Definition insert_key (m : list (Z * Z)) (k v : Z) : list (Z * Z) :=
  match find_key m k with Some _ => m | None => m ++ [(k, v)] end.

(** splitting.hpp:51-57 [process_cluster]; [cl] is the range [i0,i1). *)
Definition process_cluster (cl : list Z) (m : list (Z * Z)) : list (Z * Z) :=
  match cl with
  | [] => m
  | h :: t =>
      if (1 <? len cl) && cluster_splitting cl
      then fold_left (fun m x => if negb (x =? h) then insert_key m x h else m) t m
      else m
  end.

(** splitting.hpp:58-65: the loop over the sorted energies; [e0] and [cl] are the energy and the range of the
    current cluster. *)
Fixpoint cluster_loop (eps e0 : Z) (cl rest : list Z) (m : list (Z * Z)) : list (Z * Z) :=
  match rest with
  | [] => process_cluster cl m
  | x :: r =>
      if eps <=? x - e0 then cluster_loop eps x [x] r (process_cluster cl m)
      else cluster_loop eps e0 (cl ++ [x]) r m
  end.

(** splitting.hpp:46-66, the constructor of [Clusters] (my_assert on the number of energies). *)
Definition cluster_mapping (eps : Z) (energies : list Z) : res (list (Z * Z)) :=
  match sort_values energies with
  | [] => Throw
  | e0 :: rest => Ok (cluster_loop eps e0 [e0] rest [])
  end.

(** splitting.hpp:33-43 [fix_it]: replacement of one value. *)
Definition replace (m : list (Z * Z)) (x : Z) : Z :=
  match find_key m x with Some y => y | None => x end.

(** splitting.hpp:33-43 with eigen.hpp:508-513 [sorted_energies_rel_zero]: the corrected energies of every
    sector, given the zero-offset energies of every sector. *)
Definition fix_splittings (eps : Z) (sectors : list (list Z)) : res (list (list Z)) :=
  let* m := cluster_mapping eps (concat sectors) in
  Ok (map (map (replace m)) sectors).

(** *** From raw eigenvalues to kept counts *)

(** eigen.hpp:489-492 [find_Egs]: smallest first eigenvalue over the sectors ([front] of an empty vector, or
    dereferencing end() of an empty map, is undefined). *)
Definition find_Egs (raw : list (list Z)) : res Z :=
  if existsb (fun v => match v with [] => true | _ => false end) raw then UB
  else match raw with [] => UB | _ => Ok (min_element (map (hd 0) raw)) end.

(** core.hpp:183-195 for P.floquet = false: initialize_diag_energy_reference, fix_diag_splittings,
    truncate_prepare.  [dims] are the sector dimensions, in the same order. *)
Definition prepare_step (P : tparams) (fixeps : Z) (all_last : bool) (raw : list (list Z)) (dims : list Z)
  : res (list (list Z) * prepared) :=
  let* egs := find_Egs raw in
  let rel := map (map (fun x => x - egs)) raw in
  let* corr := fix_splittings fixeps rel in
  let* p := truncate_prepare P all_last (map (fun cd => {| crit := fst cd; sdim := snd cd |}) (combine corr dims)) in
  Ok (corr, p).

(** *** Sorting by criterion, eigen.hpp:288-322 *)

(** eigen.hpp:299-303: [p] is the result of std::sort on 0..n-1 with comparator c[a] < c[b].  std::sort is not
    stable, so [p] is an argument; see [sorts_by] in Truncation_spec.v for its contract. *)
Definition permuted {A} (d : A) (p : list nat) (l : list A) : list A := map (fun i => nth i l d) p.

Record eigenpairs (V : Type) := { ep_c : list Z; ep_v : list Z; ep_corr : list Z; ep_rows : list V }.
Arguments ep_c {V}. Arguments ep_v {V}. Arguments ep_corr {V}. Arguments ep_rows {V}.

(** eigen.hpp:304-322. *)
Definition perform_sort_by_c {V} (dv : V) (p : list nat) (e : eigenpairs V) : eigenpairs V :=
  {| ep_c := permuted 0 p (ep_c e); ep_v := permuted 0 p (ep_v e);
     ep_corr := permuted 0 p (ep_corr e); ep_rows := permuted dv p (ep_rows e) |}.

(** *** Index ranges, eigen.hpp:350-375 and 433-455 *)

(** boost::irange(a, b) for a <= b. *)
Definition irange (a b : nat) : list nat := seq a (b - a).

(** eigen.hpp:350-353: nrpost (-1 = None), number of computed states, matrix dimension, last flag. *)
Record eigen_ranges := { e_nrpost : option nat; e_nrcomputed : nat; e_dim : nat; e_last : bool }.
Definition getnrpost (e : eigen_ranges) : nat :=
  match e_nrpost e with None => e_nrcomputed e | Some n => n end.
Definition boundary (e : eigen_ranges) : nat := if e_last e then 0%nat else getnrpost e.
Definition kept_range (e : eigen_ranges) : list nat := irange 0 (getnrpost e).
Definition discarded_range (e : eigen_ranges) : list nat := irange (getnrpost e) (e_nrcomputed e).
Definition Drange (e : eigen_ranges) : list nat := irange (boundary e) (e_nrcomputed e).
Definition Krange (e : eigen_ranges) : list nat := irange 0 (boundary e).

(** eigen.hpp:433-455 [StoredEigen]: all() = irange(last ? 0 : kept, dim). *)
Definition stored_all (e : eigen_ranges) (last : bool) : list nat :=
  irange (if last then 0%nat else getnrpost e) (e_dim e).

(** *** Restart loop, core.hpp:173-204 *)

(** diag.hpp:306-309 (dsyevr, zheevr): number of eigenpairs requested for a matrix of dimension [dim];
    ceil(ratio*dim) clamped to 1..dim, everything for ratio = 1. *)
Definition nr_to_compute (ratio : Q) (dim : Z) : Z :=
  if Qeq_bool ratio 1 then dim else clamp (Qceiling (ratio * inject_Z dim)) 1 dim.

(** core.hpp:185-201.  [attempt ratio] is one pass through the try block (load_or_compute_diag ...
    truncate_prepare): [Ok (Enough _)] is a normal end, [Ok (NotEnough _)] the exception NotEnough, [Throw]/[UB]
    anything else.  [fuel] bounds the number of passes; [None] means the loop has not ended by then. *)
Fixpoint do_diag_loop (fuel : nat) (attempt : Q -> res prepared) (may_restart : bool) (factor ratio : Q)
  : option (res prepared * nat) :=
  match fuel with
  | O => None
  | S f =>
      match attempt ratio with
      | Ok (NotEnough k) =>
          if negb may_restart then Some (Ok (NotEnough k), 1%nat)
          else match do_diag_loop f attempt may_restart factor (Qmin (ratio * factor) 1) with
               | None => None
               | Some (r, n) => Some (r, S n)
               end
      | r => Some (r, 1%nat)
      end
  end.

(** One attempt on given full spectra: every sector is diagonalised up to [nr_to_compute] states.
    params.hpp:767-768 [DiagParams]: a non-positive ratio falls back to P.diagratio. *)
Definition attempt_on (P : tparams) (fixeps : Z) (al : bool) (diagratio : Q) (full : list (list Z)) (ratio : Q) : res prepared :=
  let r := if Qle_bool ratio 0 then diagratio else ratio in
  let* x := prepare_step P fixeps al (map (fun v => firstn (Z.to_nat (nr_to_compute r (len v))) v) full) (map len full) in
  Ok (snd x).

