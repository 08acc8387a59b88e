(** Model of the tools that average raw spectra over the discretisation twist z and evaluate them:
    /repo/tools/binavg/binavg.hpp, /repo/tools/broaden/broaden.hpp, /repo/tools/mats/mats.cc and
    /repo/tools/specmoments/specmoments.cc.  Floating-point numbers are real numbers; NaN frequencies (which std::map cannot
    order) are therefore excluded.  A file is the list of doubles it holds and the number of bytes left over. *)
From Coq Require Import List ZArith Reals Arith Bool.
From Verif Require Import Base.
Import ListNotations.
Local Open Scope R_scope.

Record binfile := { doubles : list R; leftover : nat }.

(** binavg.hpp:89-126, mats.cc:104-146, specmoments.cc:128-172 [load]: [None] is a file that cannot be opened (exit).
    broaden.hpp:136-172 does the same checks through nr_doubles and nr_rows.  In binavg and mats the number of lines is kept
    in an int; it is unbounded here. *)
Definition load (nrcol : nat) (f : option binfile) : res (list R) :=
  match f with
  | None => Throw
  | Some b => if (leftover b =? 0)%nat && (length (doubles b) mod (1 + nrcol) =? 0)%nat then Ok (doubles b) else Throw
  end.
(** read_files: files 1..Nz in order. *)
Definition read_files (Nz nrcol : nat) (dir : nat -> option binfile) : res (list (list R)) := mapM (fun i => load nrcol (dir i)) (seq 1 Nz).

(** std::map<double,double>: a list sorted by the key.  binavg.hpp:143-150: find, then insert or add. *)
Fixpoint map_add (f v : R) (m : list (R * R)) : list (R * R) :=
  match m with
  | [] => [(f, v)]
  | (g, w) :: t => if Rlt_dec f g then (f, v) :: m else if Rlt_dec g f then (g, w) :: map_add f v t else (g, w + v) :: t
  end.
(** broaden.hpp:360: spec[freq] += value, an absent entry being created with the value zero. *)
Fixpoint map_plus (f v : R) (m : list (R * R)) : list (R * R) :=
  match m with
  | [] => [(f, 0 + v)]
  | (g, w) :: t => if Rlt_dec f g then (f, 0 + v) :: m else if Rlt_dec g f then (g, w) :: map_plus f v t else (g, w + v) :: t
  end.

(** The lines l = 0..size/cols-1 of one buffer: elements cols*l and cols*l+col. *)
Definition lines (nrcol col : nat) (b : list R) : list (R * R) :=
  map (fun l => (nth ((1 + nrcol) * l) b 0, nth ((1 + nrcol) * l + col) b 0)) (seq 0 (length b / (1 + nrcol))).
Definition merge_with (add : R -> R -> list (R * R) -> list (R * R)) (Nz nrcol col : nat) (buffers : list (list R)) : list (R * R) :=
  let spec := fold_left (fun m b => fold_left (fun m p => add (fst p) (snd p) m) (lines nrcol col b) m) buffers [] in
  map (fun p => (fst p, snd p / INR Nz)) spec.
(** binavg.hpp:136-165, mats.cc:164-197, specmoments.cc:183-214; the result is (vfreq, vspec). *)
Definition merge := merge_with map_add.
(** broaden.hpp:352-376 *)
Definition merge_broaden := merge_with map_plus.
Definition averaged (mrg : nat -> nat -> nat -> list (list R) -> list (R * R)) (Nz nrcol col : nat) (dir : nat -> option binfile) : res (list (R * R)) :=
  let* b := read_files Nz nrcol dir in Ok (mrg Nz nrcol col b).

(** ** Evaluation *)
(** Sum over the pairs, in order. *)
Definition accum (g : R -> R -> R) (l : list (R * R)) : R := fold_left (fun s p => s + g (fst p) (snd p)) l 0.

(** specmoments.cc:216-223 filter *)
Definition spm_filter (low high : R) (posonly negonly : bool) (l : list (R * R)) : list (R * R) :=
  map (fun p => let f := fst p in
    let v := if Rlt_dec (Rabs f) low then 0 else snd p in
    let v := if Rlt_dec high (Rabs f) then 0 else v in
    let v := if Rlt_dec f 0 then (if posonly then 0 else v) else v in
    let v := if Rlt_dec 0 f then (if negonly then 0 else v) else v in
    (f, v)) l.
(** specmoments.cc:226-246 moments: the numbers mom0..mom4. *)
Definition moment (k : nat) (l : list (R * R)) : R := accum (fun f w => w * f ^ k) l.
Definition moments (l : list (R * R)) : list R := map (fun k => moment k l) (seq 0 5).
(** specmoments.cc:249-292 central_moments: mom0, mom1, cmom2, cmom3, cmom4; zero weight is an error. *)
Definition central (mean : R) (k : nat) (l : list (R * R)) : R := accum (fun f w => w * (f - mean) ^ k) l.
Definition central_moments (l : list (R * R)) : res (list R) :=
  let weight := moment 0 l in
  if Req_EM_T weight 0 then Throw else
  let mean := moment 1 l / weight in
  Ok [moment 0 l; moment 1 l; central mean 2 l / weight; central mean 3 l / weight; central mean 4 l / weight].

(** broaden.hpp:378-387 filter *)
Definition br_filter (low high : R) (keeppositive keepnegative : bool) (l : list (R * R)) : list (R * R) :=
  map (fun p => let f := fst p in
    let v := if Rlt_dec (Rabs f) low then 0 else snd p in
    let v := if Rlt_dec high (Rabs f) then 0 else v in
    let v := if Rle_dec 0 f then (if keeppositive then v else 0) else v in
    let v := if Rlt_dec f 0 then (if keepnegative then v else 0) else v in
    (f, v)) l.

(** broaden.hpp:389-424 integrals_for_sumrules.  1/(1-exp(-x)) is infinite exactly for x = 0 and is then left out. *)
Definition bosefactor (x : R) : option R := if Req_EM_T (1 - exp (- x)) 0 then None else Some (1 / (1 - exp (- x))).
Record sumrules := { s_sum : R; s_pos : R; s_neg : R; s_fermi : R; s_bose : R; s_fermiinv : R; s_boseinv : R }.
Definition integrals_for_sumrules (T : R) (l : list (R * R)) : sumrules :=
  let bose s f w := match bosefactor (s * f / T) with Some b => b * w | None => 0 end in
  {| s_sum := accum (fun _ w => w) l;
     s_pos := accum (fun f w => if Rlt_dec 0 f then w else 0) l;
     s_neg := accum (fun f w => if Rlt_dec f 0 then w else 0) l;
     s_fermi := accum (fun f w => 1 / (1 + exp (- f / T)) * w) l;
     s_bose := accum (bose 1) l;
     s_fermiinv := accum (fun f w => 1 / (1 + exp (f / T)) * w) l;
     s_boseinv := accum (bose (-1)) l |}.

(** broaden.hpp:499-515 calc_cumulative: the position in the spectrum only moves forward. *)
Fixpoint advance (m : R) (sum : R) (rest : list (R * R)) : R * list (R * R) :=
  match rest with
  | (f, w) :: t => if Rlt_dec f m then advance m (sum + w) t else (sum, rest)
  | [] => (sum, [])
  end.
Fixpoint cumulative_from (mesh : list R) (sum : R) (rest : list (R * R)) : list R :=
  match mesh with
  | [] => []
  | m :: t => let (s, r) := advance m sum rest in s :: cumulative_from t s r
  end.
Definition calc_cumulative (mesh : list R) (l : list (R * R)) : list R := cumulative_from mesh 0 l.

(** mats.cc:201-225.  A complex number is a pair; omegan for the statistics 'f' and 'b'; compute divides a real weight by
    the complex number i*omega_n - freq; 0 when both vanish is not a number and is [None]. *)
Definition omegan (fermi : bool) (T : R) (n : nat) : R := T * PI * (if fermi then 2 * INR n + 1 else 2 * INR n).
Definition kernel (om f w : R) : option (R * R) :=
  let d := om * om + f * f in
  if Req_EM_T d 0 then None else Some (- f * w / d, - om * w / d).
Definition compute1 (om : R) (l : list (R * R)) : option (R * R) :=
  fold_left (fun s p => match s, kernel om (fst p) (snd p) with Some (a, b), Some (c, d) => Some (a + c, b + d) | _, _ => None end) l (Some (0, 0)).
Definition compute (fermi : bool) (T : R) (nrmats : nat) (l : list (R * R)) : list (option (R * R)) :=
  map (fun n => compute1 (omegan fermi T n) l) (seq 0 nrmats).

(** ** Broadening kernels *)
Section Kernels.
  Variables (alpha omega0 accumulation sqrtpi : R) (gaussian normalization : bool).
  (** exp(-sqr(log(x)/a - g)): for x = 0 the logarithm is minus infinity and the value 0; for negative x it is NaN ([None]). *)
  Definition gausslog (x a g : R) : option R :=
    if Rlt_dec 0 x then Some (exp (- (Rsqr (ln x / a - g)))) else if Req_EM_T x 0 then Some 0 else None.
  Definition opposite (e ept : R) : bool :=
    (if Rlt_dec e 0 then if Rlt_dec 0 ept then true else false else false) || (if Rlt_dec 0 e then if Rlt_dec ept 0 then true else false else false).
  (** broaden.hpp:428-433 BR_L_orig; at e = 0 the quotient is 0/0 ([None]). *)
  Definition BR_L_orig (e ept : R) : option R :=
    if opposite e ept then Some 0 else if Req_EM_T ept 0 then Some 0 else
    match gausslog (e / ept) alpha (alpha / 4) with
    | Some x => if Req_EM_T e 0 then None else Some (x / (alpha * Rabs e * sqrtpi))
    | None => None
    end.
  (** broaden.hpp:436-453 BR_L_acc; the second test sees the values left by the first. *)
  Definition BR_L_acc (e0 ept0 : R) : option R :=
    let both := if Rlt_dec accumulation e0 then if Rlt_dec accumulation ept0 then true else false else false in
    let '(e, ept) := if both then (e0 - accumulation, ept0 - accumulation) else (e0, ept0) in
    let both := if Rlt_dec e (- accumulation) then if Rlt_dec ept (- accumulation) then true else false else false in
    let '(e, ept) := if both then (e - (- accumulation), ept - (- accumulation)) else (e, ept) in
    BR_L_orig e ept.
  (** broaden.hpp:458-465 BR_G, BR_G_alpha *)
  Definition BR_Gw (width e ept : R) : R := exp (- (Rsqr ((e - ept) / width))) / (width * sqrtpi).
  (** broaden.hpp:467-470 BR_h0 *)
  Definition BR_h0 (x : R) : option R := if Rlt_dec omega0 (Rabs x) then Some 1 else gausslog (Rabs x / omega0) alpha 0.
  (** broaden.hpp:475-477 BR_h *)
  Definition BR_h (e ept : R) : option R := BR_h0 (if normalization then ept else e).
  (** broaden.hpp:481-491 bfnc; the assertion on h throws. [None] inside is not-a-number. *)
  Definition bfnc (e ept : R) : res (option R) :=
    if gaussian then Ok (Some (BR_Gw alpha e ept)) else
    match BR_h e ept with
    | None => Throw
    | Some h =>
        if Rle_dec 0 h then if Rle_dec h 1 then
          Ok (match BR_L_acc e ept with Some l => Some (l * h + BR_Gw omega0 e ept * (1 - h)) | None => None end)
        else Throw else Throw
    end.
  (** broaden.hpp:493-501 broaden at one mesh point *)
  Definition broaden1 (l : list (R * R)) (m : R) : res (option R) :=
    fold_left (fun s p => let* s' := s in let* k := bfnc m (fst p) in
                          Ok (match s', k with Some x, Some y => Some (x + snd p * y) | _, _ => None end)) l (Ok (Some 0)).
  Definition broaden (l : list (R * R)) (mesh : list R) : res (list (option R)) := mapM (broaden1 l) mesh.
End Kernels.

(** ** Output mesh *)
(** broaden.hpp:111-125 make_mesh: for (z = max; z > min; z /= ratio). *)
Inductive mesh_loop (min ratio : R) : R -> list R -> Prop :=
| mesh_stop z : ~ min < z -> mesh_loop min ratio z []
| mesh_next z l : min < z -> mesh_loop min ratio (z / ratio) l -> mesh_loop min ratio z (z :: l).
(** std::sort of doubles. *)
Fixpoint insert (x : R) (l : list R) : list R :=
  match l with [] => [x] | y :: t => if Rle_dec x y then x :: l else y :: insert x t end.
Fixpoint sort (l : list R) : list R := match l with [] => [] | x :: t => insert x (sort t) end.
Inductive make_mesh (min max ratio a : R) (add_positive add_negative : bool) : res (list R) -> Prop :=
| mm_assert : ~ (min < max /\ 1 < ratio) -> make_mesh min max ratio a add_positive add_negative Throw
| mm_ok zs : min < max -> 1 < ratio -> mesh_loop min ratio max zs ->
    make_mesh min max ratio a add_positive add_negative
      (Ok (sort (flat_map (fun z => let x := a + z * ((max - a) / max) in
                                    (if add_positive then [x] else []) ++ (if add_negative then [- x] else [])) zs))).
