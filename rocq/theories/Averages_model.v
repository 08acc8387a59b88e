(** Model of the averaging with interpolation in /repo/tools/intavg/intavg.cc (merge_meshes, interpolate, avg) and
    /repo/tools/tdavg/tdavg.cc (read_files, merge_meshes, interpolate, avg).  The objects LinInt keep their state between the evaluations
    (Interp_model).  Real numbers without rounding; a value that is not a finite number is [None].  The readers are in Tables_model. *)
From Coq Require Import List ZArith Reals Bool.
From Verif Require Import Base Interp_model Tables_model.
Import ListNotations.
Local Open Scope R_scope.

Definition oadd (a b : option R) : option R := match a, b with Some x, Some y => Some (x + y) | _, _ => None end.
Definition osub (a b : option R) : option R := match a, b with Some x, Some y => Some (x - y) | _, _ => None end.
Definition odiv (a : option R) (n : nat) : option R := match a with Some x => rdiv x (INR n) | None => None end.

(** intavg.cc:209, tdavg.cc:289 EPS *)
Definition EPS : R := 1 / 1000000.
(** intavg.cc:211, tdavg.cc:291 eq_approx; a comparison with a value that is not a finite number is false. *)
Definition eq_approx (a b : R) : bool := match rdiv (a - b) a with Some q => Rltb (Rabs q) EPS | None => false end.
(** std::sort; the sorted sequence of numbers is unique. *)
Fixpoint insert (x : R) (l : list R) : list R := match l with [] => [x] | y :: t => if Rltb x y then x :: l else y :: insert x t end.
Definition sort (l : list R) : list R := fold_right insert [] l.
(** std::unique: every element is compared with the last one that was kept. *)
Fixpoint unique_from (a : R) (l : list R) : list R :=
  match l with [] => [] | b :: t => if eq_approx a b then unique_from a t else b :: unique_from b t end.
Definition unique (l : list R) : list R := match l with [] => [] | a :: t => a :: unique_from a t end.
(** intavg.cc:213-225, tdavg.cc:293-303 merge_meshes; here the abscissae of each data set. *)
Definition merge_meshes (xss : list (list R)) : list R := unique (sort (List.concat xss)).

(** intavg.cc:236-243: the sum over the data sets at one point; the objects keep their state. *)
Fixpoint sum_calls (x : R) (f : list linint) (sum : option R) : res (option R * list linint) :=
  match f with
  | [] => Ok (sum, [])
  | s :: t => let* (y, s') := call x s in let* (r, t') := sum_calls x t (oadd sum y) in Ok (r, s' :: t')
  end.
(** intavg.cc:232-248 avg *)
Fixpoint avg (Nz : nat) (mesh : list R) (f : list linint) : res (list (R * option R)) :=
  match mesh with
  | [] => Ok []
  | x :: t => let* (sum, f') := sum_calls x f (Some 0) in let* r := avg Nz t f' in Ok ((x, odiv sum Nz) :: r)
  end.
(** intavg.cc:262-274 main after the reading; 65: at least one data set *)
Definition intavg (input : list table) : res (list (R * option R)) :=
  match input with
  | [] => Throw
  | _ => let* f := mapM (construct false) input in avg (length input) (merge_meshes (map (map fst) input)) f
  end.

(** tdavg.  A block: the temperatures and the values. *)
Notation block := (list (R * list R)).
(** tdavg.cc:315-318: column j, sorted; data[i][k].second[j] beyond the end is undefined. *)
Definition column (j : nat) (b : block) : res table :=
  let* v := mapM (fun p => match nth_error (snd p) j with Some y => Ok (fst p, y) | None => UB end) b in Ok (sort_pairs R Rltb v).
(** tdavg.cc:309-324 interpolate, for the column j of all blocks (the program stores the objects by block and column). *)
Definition interpolate_column (j : nat) (data : list block) : res (list linint) := mapM (fun b => let* v := column j b in construct false v) data.
(** tdavg.cc:333-336: the sum over the blocks for one column at one temperature. *)
Fixpoint td_sum (Nz : nat) (T : R) (f : list (linint * option linint)) (sum : option R) : res (option R * list (linint * option linint)) :=
  match f with
  | [] => Ok (sum, [])
  | (s, r) :: t =>
      let* (y, s') := call T s in
      let sum := oadd sum (odiv y Nz) in
      let* (sum, r') := match r with
                        | None => Ok (sum, None)
                        | Some q => let* (z, q') := call T q in Ok (osub sum (odiv z Nz), Some q')
                        end in
      let* (v, t') := td_sum Nz T t sum in Ok (v, (s', r') :: t')
  end.
(** tdavg.cc:332-337: all columns. *)
Fixpoint td_row (Nz : nat) (T : R) (cols : list (list (linint * option linint))) : res (list (option R) * list (list (linint * option linint))) :=
  match cols with
  | [] => Ok ([], [])
  | f :: t => let* (v, f') := td_sum Nz T f (Some 0) in let* (vs, t') := td_row Nz T t in Ok (v :: vs, f' :: t')
  end.
(** tdavg.cc:326-342 avg *)
Fixpoint td_avg (Nz : nat) (mesh : list R) (cols : list (list (linint * option linint))) : res (list (R * list (option R))) :=
  match mesh with
  | [] => Ok []
  | T :: t => let* (v, cols') := td_row Nz T cols in let* r := td_avg Nz t cols' in Ok ((T, v) :: r)
  end.
(** The objects of the column j, with those of the reference beside them. *)
Definition td_objects (input : list block) (reference : option (list block)) (j : nat) : res (list (linint * option linint)) :=
  let* f := interpolate_column j input in
  match reference with
  | None => Ok (map (fun s => (s, None)) f)
  | Some d => let* g := interpolate_column j d in Ok (combine f (map Some g))
  end.
(** tdavg.cc:189-208 read_files (the tests of the numbers of blocks) and 359-378 main *)
Definition tdavg (columns : nat) (input : list block) (reference : option (list block)) : res (list (R * list (option R))) :=
  match input with
  | [] => Throw
  | _ =>
      let* _ := my_assert (match reference with None => true | Some d => Nat.eqb (length input) (length d) end) in
      let* cols := mapM (td_objects input reference) (seq 0 columns) in
      td_avg (length input) (merge_meshes (map (map fst) input)) cols
  end.
