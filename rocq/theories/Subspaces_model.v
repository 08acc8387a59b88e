(** Model of /repo/c++/subspaces.hpp and of the sector bookkeeping in /repo/c++/core.hpp (new_subspaces,
    SubspaceDimensions and SubspaceStructure constructors).
    [size_t] values are [Z] in [0, 2^64); the conversions that narrow to [int] are explicit. *)
From Coq Require Import List ZArith Bool String.
From Verif Require Import Base Invar_model Symmetry_model.
Import ListNotations.
Local Open Scope Z_scope.

Definition two32 : Z := 2 ^ 32.
Definition two64 : Z := 2 ^ 64.
(** Conversion to 32-bit [int] (modular, as all supported compilers do and C++20 requires). *)
Definition to_int (z : Z) : Z := (z + 2 ^ 31) mod two32 - 2 ^ 31.
(** Conversion to 64-bit [size_t]. *)
Definition to_size (z : Z) : Z := z mod two64.

(** Previous-step spectra: only the number of stored states of each sector matters here. std::map, keys distinct. *)
Definition sizes := list (invar * Z).

(** eigen.hpp:533-538 - [DiagInfo::size_subspace]: 0 for an absent sector, asserts <= 1000000. *)
Definition size_subspace (dp : sizes) (I : invar) : res Z :=
  let v := match find (fun p => invar_eqb (fst p) I) dp with Some (_, n) => n | None => 0 end in
  let* _ := my_assert ((0 <=? v) && (v <=? 1000000)) in Ok v.

(** subspaces.hpp:22-26 *)
Record subdims := { sd_dims : list Z; sd_anc : list invar }.

(** core.hpp:46-56 - constructor ([ignore_inequality] = false is the only value used in production). *)
Fixpoint dims_of (sy : symmetry) (combs : nat) (t : tables) (dp : sizes) (I : invar) (ignore : bool) (i : nat) (anc : list invar)
  : res (list Z) :=
  match anc with
  | [] => Ok []
  | a :: anc' =>
      let* q := QN_subspace combs t i in
      let* c := triangle sy I a q in
      let* n := (if c || ignore then size_subspace dp a else Ok 0) in
      let* r := dims_of sy combs t dp I ignore (S i) anc' in
      Ok (n :: r)
  end.
Definition mk_subdims (sy : symmetry) (combs : nat) (t : tables) (dp : sizes) (I : invar) (anc : list invar) : res subdims :=
  let* d := dims_of sy combs t dp I false 0 anc in Ok {| sd_dims := d; sd_anc := anc |}.

(** subspaces.hpp:30-33 [rmax], 35-38 [exists]; the index is a [size_t]. *)
Definition rmax (d : list Z) (i : Z) : res Z :=
  let* _ := my_assert (i <? Z.of_nat (List.length d)) in
  match nth_error d (Z.to_nat i) with Some n => Ok n | None => UB end.
Definition exists_block (d : list Z) (i : Z) : res bool := let* n := rmax d i in Ok (0 <? n).

(** subspaces.hpp:39-42 [offset]: accumulate over the first i entries in size_t. *)
Definition accumulate_size (l : list Z) : Z := fold_left (fun acc x => to_size (acc + x)) l 0.
Definition offset (d : list Z) (i : Z) : res Z :=
  let* _ := my_assert (i <? Z.of_nat (List.length d)) in Ok (accumulate_size (firstn (Z.to_nat i) d)).

(** subspaces.hpp:46-48 [view], 52-54 [part]: half-open ranges; 49-51 [view_mma], 55-57 [part_mma], 43-45 [chunk]:
    1-based index, [i-1] in size_t. *)
Definition view (d : list Z) (i : Z) : res (Z * Z) :=
  let* o := offset d i in let* n := rmax d i in Ok (o, to_size (o + n)).
Definition part (d : list Z) (i : Z) : res (Z * Z) := let* o := offset d i in let* n := rmax d i in Ok (o, to_size (o + n)).
Definition view_mma (d : list Z) (i1 : Z) : res (Z * Z) := view d (to_size (i1 - 1)).
Definition part_mma (d : list Z) (i1 : Z) : res (Z * Z) := part d (to_size (i1 - 1)).
Definition chunk (d : list Z) (i1 : Z) : res (Z * Z) :=
  let* o := offset d (to_size (i1 - 1)) in let* n := rmax d (to_size (i1 - 1)) in Ok (o, n).

(** subspaces.hpp:58 [total]: the accumulator is an [int] ([accumulate(dims, 0)]). *)
Definition dims_total (d : list Z) : Z := fold_left (fun acc x => to_int (to_size acc + x)) d 0.

(** subspaces.hpp:60-64 *)
Definition offdiag_contributes (d : list Z) (i1 j1 : Z) : res bool :=
  let n := Z.of_nat (List.length d) in
  let* _ := my_assert ((1 <=? i1) && (i1 <=? n) && (1 <=? j1) && (j1 <=? n)) in
  let* _ := my_assert (negb (i1 =? j1)) in
  let* a := exists_block d (to_size (i1 - 1)) in
  if a then exists_block d (to_size (j1 - 1)) else Ok false.

(** std::set<Invar>::insert - ordered, unique. *)
Fixpoint set_insert (x : invar) (s : list invar) : list invar :=
  match s with
  | [] => [x]
  | y :: s' => if invar_ltb x y then x :: s else if invar_ltb y x then y :: set_insert x s' else s
  end.

(** core.hpp:66-75 - sectors of the next step. *)
Fixpoint filterM {A} (f : A -> res bool) (l : list A) : res (list A) :=
  match l with
  | [] => Ok []
  | x :: t => let* b := f x in let* r := filterM f t in Ok (if b then x :: r else r)
  end.
Fixpoint new_subspaces_all (sy : symmetry) (combs : nat) (t : tables) (prev : list invar) (acc : list invar) : res (list invar) :=
  match prev with
  | [] => Ok acc
  | J :: prev' =>
      let* all := new_subspaces sy combs t J in
      let* ne := filterM (allowed sy) all in
      new_subspaces_all sy combs t prev' (fold_left (fun s x => set_insert x s) ne acc)
  end.

(** core.hpp:59-63 - SubspaceStructure: map from sector to dimensions (ordered by the set). *)
Definition structure := list (invar * subdims).
Definition mk_structure (sy : symmetry) (combs : nat) (t : tables) (dp : sizes) : res structure :=
  let* new := new_subspaces_all sy combs t (map fst dp) [] in
  mapM (fun I => let* anc := ancestors sy combs t I in
                 let* d := mk_subdims sy combs t dp I anc in Ok (I, d)) new.

(** std::sort with std::greater on pair<size_t, Invar>: p before q iff q < p lexicographically. The sort is modelled as
    insertion sort; C06 shows that the result does not depend on the sorting algorithm. *)
Definition pair_gt (p q : Z * invar) : bool :=
  if fst q <? fst p then true else if fst p <? fst q then false else invar_ltb (snd q) (snd p).
Fixpoint insert_desc (p : Z * invar) (l : list (Z * invar)) : list (Z * invar) :=
  match l with
  | [] => [p]
  | q :: l' => if pair_gt p q then p :: l else q :: insert_desc p l'
  end.
Definition sort_desc (l : list (Z * invar)) : list (Z * invar) := fold_right insert_desc [] l.

(** subspaces.hpp:111-136 - TaskList. *)
Definition tasks_with_sizes (s : structure) : list (Z * invar) :=
  sort_desc (map (fun p => (to_size (dims_total (sd_dims (snd p))), fst p))
                 (filter (fun p => negb (dims_total (sd_dims (snd p)) =? 0)) s)).
Definition task_list (s : structure) : list invar := map snd (tasks_with_sizes s).

(** subspaces.hpp:138-146 - used by the MPI scheduler. *)
Definition tasks_descending (sy : symmetry) (combs : nat) (t : tables) (dp : sizes) (tasks : list invar) : res (list (Z * invar)) :=
  let* l := mapM (fun I => let* anc := ancestors sy combs t I in
                           let* d := mk_subdims sy combs t dp I anc in Ok (to_size (dims_total (sd_dims d)), I)) tasks in
  Ok (sort_desc l).
