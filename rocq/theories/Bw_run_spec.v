(** What a run of the tool [bw] is supposed to write, independently of the model, except for the record of the options. *)
From Coq Require Import List ZArith Reals Bool Sorting String.
From Verif Require Import Interp_spec Bw_model Bw_spec.
Import ListNotations.
Local Open Scope string_scope.
Local Open Scope list_scope.
Local Open Scope R_scope.

(** The raw data of all the files, merged: ascending frequencies, weights averaged over the files. *)
Definition merged (nz : Z) (raw peaks : list (R * R)) : Prop :=
  StronglySorted Rlt (map fst peaks) /\ (forall x, In x (map fst peaks) <-> In x (map fst raw)) /\
  (forall x y, In (x, y) peaks -> y = weight_at raw x / IZR nz) /\ rsum (map snd peaks) = rsum (map snd raw) / IZR nz.

(** The smallest width and the smallest frequency in the output, with their defaults. *)
Definition lower (o : options) : R := if Rlt_dec (o_bmin o) 0 then (if Rlt_dec 0 (o_dyn o) then 0 else o_ratio o - 1) else o_bmin o.
Definition trimmed (o : options) : R := if Rlt_dec (o_trim o) 0 then 10 * o_min o else o_trim o.

Record valid (o : options) : Prop := {
  v_b0 : 0 < o_b0 o; v_nz : (1 <= o_nz o)%Z; v_min : 0 < o_min o; v_max : o_min o < o_max o; v_ratio : 1 < o_ratio o; v_q : 0 < o_q o;
  v_bmin : lower o <= o_b0 o; v_dyn : 0 < o_dyn o -> o_min o * o_ratio o < o_max o }.

(** The files hold the pairs of numbers in [bufs], one file for every z, in its own directory unless the option -o is given. *)
Definition readable (files : string -> option binary) (o : options) (bufs : list (list (R * R))) : Prop :=
  List.length bufs = Z.to_nat (o_nz o) /\
  forall i l, nth_error bufs i = Some l -> files (if o_one o && (o_nz o =? 1)%Z then o_name o else (tostring (S i) ++ "/" ++ o_name o)%string) = Some {| values := flat_map (fun p : R * R => [fst p; snd p]) l; rest := 0 |}.

(** With the option -p, negative values are replaced. *)
Definition shown (positive : bool) (y : R) : R := if positive then (if Rlt_dec y 0 then / 10 ^ 16 else y) else y.

(** The rows of a file: those whose frequency is not too small. *)
Definition rows (trim : R) (m data : list R) : list (R * R) := filter (fun p : R * R => if Rle_dec trim (Rabs (fst p)) then true else false) (combine m data).
Definition tabulate (f : nat -> R) (n : nat) : list R := map f (seq 0 n).

(** The files written in one pass. *)
Definition pass_files (o : options) (peaks : list (R * R)) (i : nat) (m a b' : list R) (z : R) : list (string * list (R * R)) :=
  let n := List.length m in
  let below := integral m a in
  let inner := fun k => integral m a k - z in
  let above := fun k => integral m a (n - 1) - integral m a k in
  let name (s : string) := (s ++ tostring i ++ ".dat")%string in
  (if o_savemore o || (i =? o_iter o)%nat then [(name "a", rows (trimmed o) m a)] else []) ++
  (if o_saveall o then [(name "inta", rows 0 m (tabulate below n)); (name "intb", rows 0 m (tabulate inner n)); (name "intc", rows 0 m (tabulate above n));
     (name "deriva", rows 0 m (tabulate (log_slope m below) n)); (name "derivb", rows 0 m (tabulate (log_slope m inner) n)); (name "derivc", rows 0 m (tabulate (log_slope m above) n));
     (name "bpos", rows 0 m (tabulate (fun k => adapted (o_q o) (o_b0 o) (log_slope m inner k) (log_slope m above k)) n));
     (name "bneg", rows 0 m (tabulate (fun k => adapted (o_q o) (o_b0 o) (log_slope m below k) (log_slope m inner k)) n))] else []) ++
  (if o_savemore o then [(name "b", rows (trimmed o) (map fst peaks) b')] else []).

(** [passes o peaks i m b fs]: after [i] passes the mesh is [m], the widths of the peaks are [b] and the files [fs] have been written. *)
Inductive passes (o : options) (peaks : list (R * R)) : nat -> list R -> list R -> list (string * list (R * R)) -> Prop :=
| first_pass : forall m, initial_mesh (o_min o) (o_max o) (o_ratio o) m ->
    passes o peaks 0 m (map (fun _ => o_b0 o) peaks)
      (if o_savemore o then [("b.dat", rows (trimmed o) (map fst peaks) (map (fun _ => o_b0 o) peaks))] else [])
| next_pass : forall i m b fs a z b' m', passes o peaks i m b fs ->
    a = map (fun E => shown (o_positive o) (broadened peaks b E)) m -> integral_at_zero m a z ->
    Forall2 (fun (p : R * R) y => new_width (o_q o) (o_b0 o) (lower o) m a (fst p) y) peaks b' -> next_mesh (o_dyn o) m a m' ->
    passes o peaks (S i) m' b' (fs ++ pass_files o peaks (S i) m a b' z).
