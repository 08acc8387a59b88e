(** Model of the tool [bw], adaptive broadening of raw spectral functions: /repo/tools/bw/bw.cc.  Its class LinInt (526-612) is
    modelled in Interp_model.v ([interpolate false]).
    Numbers are real numbers, without rounding; where the C++ expression would give an infinity or NaN the definitions say so.
    [debug = true] is a build in which [assert] is active (a failed [assert] is [Throw]); the default build type is Release
    (/repo/CMakeLists.txt:104-105), where [assert] does nothing ([debug = false]).
    Reading of the command line is not modelled: a record holds the values of the options.  Messages on the terminal are not
    modelled.  The options q and -d (dyn_mesh) are modelled for every real value; a quotient by zero in [calc_b] is [UB], which
    here only means that the model says nothing (the program goes on with infinities and NaN). *)
From Coq Require Import List ZArith Reals Bool String.
From Coq Require DecimalString.
From Verif Require Import Base Interp_model.
Import ListNotations.
Local Open Scope string_scope.
Local Open Scope list_scope.
Local Open Scope R_scope.

Definition cassert (debug b : bool) : res unit := if debug && negb b then Throw else Ok tt.

(** bw.cc:36-50: the options, after the command line has been read. *)
Record options := { o_min : R; o_max : R; o_ratio : R; o_iter : nat; o_trim : R; o_positive : bool; o_b0 : R; o_bmin : R; o_q : R;
  o_savemore : bool; o_saveall : bool; o_dyn : R; o_one : bool; o_name : string; o_nz : Z }.

(** bw.cc:159-163 tostring *)
Definition tostring (n : nat) : string := DecimalString.NilEmpty.string_of_uint (Nat.to_uint n).

(** bw.cc:167-214 load: the contents of a binary file are the numbers in it and the number of the bytes left over.
    [None]: the file cannot be opened or read. *)
Record binary := { values : list R; rest : nat }.
Definition file_name (o : options) (i : nat) : string :=
  if o_one o && (o_nz o =? 1)%Z then o_name o else (tostring i ++ "/" ++ o_name o)%string.
Fixpoint pairs (l : list R) : list (R * R) := match l with x :: y :: t => (x, y) :: pairs t | _ => [] end.
Definition load (files : string -> option binary) (o : options) (i : nat) : res (list (R * R)) :=
  match files (file_name o i) with
  | None => Throw
  | Some f => if ((8 * List.length (values f) + rest f) mod 16 =? 0)%nat then Ok (pairs (values f)) else Throw
  end.

(** bw.cc:217-222 read_files *)
Definition read_files (files : string -> option binary) (o : options) : res (list (list (R * R))) :=
  mapM (load files o) (seq 1 (Z.to_nat (o_nz o))).

(** bw.cc:225-257 merge: the map from frequencies to weights, in ascending order. *)
Fixpoint add_peak (p : R * R) (m : list (R * R)) : list (R * R) :=
  match m with
  | [] => [p]
  | h :: t =>
    if Rltb (fst p) (fst h) then p :: h :: t
    else if Rltb (fst h) (fst p) then h :: add_peak p t
    else (fst h, snd h + snd p) :: t
  end.
Definition merge (nz : Z) (bufs : list (list (R * R))) : list (R * R) :=
  let spec := fold_left (fun m p => add_peak p m) (List.concat bufs) [] in
  map (fun p : R * R => (fst p, snd p / IZR nz)) spec.

(** bw.cc:262-277 integrate_a *)
Fixpoint integrate_loop (debug : bool) (w0 a0 : R) (rest : list (R * R)) (sum : R) : res (list R) :=
  match rest with
  | [] => Ok []
  | (w1, a1) :: t =>
    let* _ := cassert debug (Rltb w0 w1) in
    let sum := sum + (a1 + a0) * (w1 - w0) / 2 in
    let* l := integrate_loop debug w1 a1 t sum in
    Ok (sum :: l)
  end.
Definition integrate_a (debug : bool) (mesh a : list R) : res (list R) :=
  match combine mesh a with
  | [] => UB
  | (w0, a0) :: t => let* l := integrate_loop debug w0 a0 t 0 in Ok (0 :: l)
  end.

(** bw.cc:282-303 combinations *)
Fixpoint at_zero (w : list (R * R)) : R :=
  match w with
  | (w0, i0) :: (((w1, i1) :: _) as t) => if Rltb w0 0 && Rltb 0 w1 then (i0 + i1) / 2 else at_zero t
  | _ => - 1
  end.
Definition combinations (mesh inta : list R) : list R * list R :=
  let omega0 := at_zero (combine mesh inta) in
  let omegainf := last inta 0 in
  (map (fun x => x - omega0) inta, map (fun x => omegainf - x) inta).

(** std::sort *)
Fixpoint insert (x : R) (l : list R) : list R := match l with [] => [x] | h :: t => if Rleb x h then x :: l else h :: insert x t end.
Fixpoint sort (l : list R) : list R := match l with [] => [] | h :: t => insert h (sort t) end.

(** bw.cc:306-325 make_mesh.  The loop runs as long as z < max; [fuel] bounds the number of the steps, [None] = still running. *)
Fixpoint mesh_loop (fuel : nat) (z max ratio : R) : option (list R * R) :=
  match fuel with
  | O => None
  | S f => if Rltb z max then match mesh_loop f (z * ratio) max ratio with Some (l, z') => Some (z :: - z :: l, z') | None => None end
           else Some ([], z)
  end.
Definition make_mesh (fuel : nat) (debug : bool) (o : options) : option (res (list R)) :=
  match cassert debug (Rltb (o_min o) (o_max o) && Rltb 1 (o_ratio o)) with
  | Ok _ =>
    match mesh_loop fuel (o_min o) (o_max o) (o_ratio o) with
    | None => None
    | Some (l, z) => let z := z * o_ratio o in Some (Ok (sort (l ++ [z; - z])))
    end
  | _ => Some Throw
  end.

(** bw.cc:329-332 initial_b *)
Definition initial_b (o : options) (peaks : list (R * R)) : list R := map (fun _ => o_b0 o) peaks.

(** bw.cc:339-350 bfnc, used with E and omega of the same sign, or omega = 0 and E > 0.  For omega = 0 the quotient E/omega is
    infinite and so is the logarithm, and the exponential function gives 0. *)
Definition bfnc (E alpha omega : R) : R :=
  let div := alpha * Rabs E * sqrt PI in
  let gamma := alpha / 4 in
  if Req_EM_T omega 0 then 0 else
  let ln := ln (E / omega) in
  exp (- Rsqr (ln / alpha - gamma)) / div.

(** bw.cc:407-429 broaden: the value at one point of the mesh. *)
Definition same_sign (x y : R) : bool := Bool.eqb (Rltb x 0) (Rltb y 0).
Definition spectrum (peaks : list (R * R)) (b : list R) (E : R) : R :=
  fold_left (fun s (p : (R * R) * R) => if same_sign E (fst (fst p)) then s + snd (fst p) * bfnc E (snd p) (fst (fst p)) else s) (combine peaks b) 0.
Definition broaden_at (positive : bool) (peaks : list (R * R)) (b : list R) (E : R) : R :=
  let s := spectrum peaks b E in
  if Rltb s 0 && positive then / 10 ^ 16 else s.
Definition broaden (o : options) (mesh : list R) (peaks : list (R * R)) (b : list R) : list R := map (broaden_at (o_positive o) peaks b) mesh.

(** bw.cc:450-472 save: the rows of the file; real numbers are finite. *)
Definition save_rows (trim : R) (mesh data : list R) : list (R * R) :=
  filter (fun p : R * R => negb (negb (if Req_EM_T trim 0 then true else false) && Rltb (Rabs (fst p)) trim)) (combine mesh data).
Definition save_name (name : string) (iter : nat) : string := (name ++ (if (0 <? iter)%nat then tostring iter else "") ++ ".dat")%string.
Definition file := (string * list (R * R))%type.
Definition save (name : string) (mesh data : list R) (iter : nat) (trim : R) : file := (save_name name iter, save_rows trim mesh data).

(** bw.cc:475-485 calc_b *)
Definition calc_b1 (q b0 d1 d2 : R) : res R :=
  match rdiv 1 (q + Rabs d1), rdiv 1 (q + Rabs d2) with
  | Some part1, Some part2 => let avg := q * (part1 + part2) / 2 in Ok (b0 * avg)
  | _, _ => UB
  end.
Definition calc_b (o : options) (logd1 logd2 : list R) : res (list R) :=
  mapM (fun d : R * R => calc_b1 (o_q o) (o_b0 o) (fst d) (snd d)) (combine logd1 logd2).

(** bw.cc:491-520 calc_deriv.  The quotient of the logarithms is finite when f1/f0 is a positive number and |w1| differs from |w0|. *)
Definition deriv1 (w0 w1 f0 f1 : R) : R :=
  if Req_EM_T f0 0 then 0 else
  if Rltb 0 (f1 / f0) then
    let log1 := ln (f1 / f0) in
    let log2 := ln (Rabs (w1 / w0)) in
    if Req_EM_T log2 0 then 0 else log1 / log2
  else 0.
Fixpoint deriv_loop (debug : bool) (w0 f0 : R) (rest : list (R * R)) : res (list R) :=
  match rest with
  | [] => Ok []
  | (w1, f1) :: t =>
    let* _ := cassert debug (Rltb w0 w1) in
    let* l := deriv_loop debug w1 f1 t in
    Ok (deriv1 w0 w1 f0 f1 :: l)
  end.
Definition calc_deriv (debug : bool) (mesh inta : list R) : res (list R) :=
  match combine mesh inta with
  | [] => UB
  | (w0, f0) :: t => let* l := deriv_loop debug w0 f0 t in Ok (0 :: l)
  end.

(** bw.cc:614-638 recalc_b.  Each of the two interpolation objects is queried in the order of its
    peaks; the peaks are in ascending order ([merge]), so the results for the negative ones come first. *)
Definition positives (debug : bool) (bmin : R) (y : option R) : res R :=
  match y with
  | None => UB
  | Some new_b => let* _ := cassert debug (Rltb 0 new_b) in Ok (if Rltb bmin new_b then new_b else bmin)
  end.
Definition recalc_b (debug : bool) (bmin : R) (mesh bpos bneg : list R) (peaks : list (R * R)) : res (list R) :=
  let freqs := map fst peaks in
  let* yneg := interpolate false (combine mesh bneg) (filter (fun f => Rltb f 0) freqs) in
  let* ypos := interpolate false (combine mesh bpos) (filter (fun f => negb (Rltb f 0)) freqs) in
  mapM (positives debug bmin) (yneg ++ ypos).

(** bw.cc:352-403 refine_mesh.  [wanted]: the test error_ratio > dyn_mesh; a quotient by y = 0 is infinite, or NaN if the
    prediction is 0 as well. *)
Definition wanted (dyn : R) (w2 a2 w1 a1 w0 a0 : R) : bool :=
  let deriv := (a2 - a1) / (w2 - w1) in
  let predicted := a1 + deriv * (w0 - w1) in
  if Req_EM_T a0 0 then negb (if Req_EM_T predicted 0 then true else false) else Rltb dyn (Rabs ((a0 - predicted) / a0)).
Definition between (lo x hi : R) : list R := if Rltb lo x && Rltb x hi then [x] else [].
(** The loop over the negative points from the third one on; [p2], [p1]: the two points before. *)
Fixpoint refine_neg (dyn : R) (p2 p1 : R * R) (l : list (R * R)) : list R :=
  match l with
  | [] => []
  | p0 :: t =>
    if Rltb (fst p0) 0 then
      (if wanted dyn (fst p2) (snd p2) (fst p1) (snd p1) (fst p0) (snd p0) then between (fst p1) (- sqrt (fst p0 * fst p1)) (fst p0) else [])
      ++ fst p0 :: refine_neg dyn p1 p0 t
    else []
  end.
(** The loop over the positive points, downwards; it does not look at the element of index 0. *)
Fixpoint refine_pos (dyn : R) (p2 p1 : R * R) (l : list (R * R)) : list R :=
  match l with
  | [] => []
  | [_] => []
  | p0 :: t =>
    if Rltb 0 (fst p0) then
      (if wanted dyn (fst p2) (snd p2) (fst p1) (snd p1) (fst p0) (snd p0) then between (fst p0) (sqrt (fst p0 * fst p1)) (fst p1) else [])
      ++ fst p0 :: refine_pos dyn p1 p0 t
    else []
  end.
Definition refine_mesh (debug : bool) (dyn : R) (mesh a : list R) : res (list R) :=
  let* _ := cassert debug (6 <=? List.length mesh)%nat in
  match combine mesh a, rev (combine mesh a) with
  | p0 :: p1 :: up, q0 :: q1 :: down =>
    Ok (sort ((fst p0 :: between (fst p0) (- sqrt (fst p0 * fst p1)) (fst p1) ++ fst p1 :: refine_neg dyn p0 p1 up)
           ++ (fst q0 :: between (fst q1) (sqrt (fst q0 * fst q1)) (fst q0) ++ fst q1 :: refine_pos dyn q0 q1 down)))
  | _, _ => UB
  end.

(** bw.cc:642-653 defaults *)
Definition defaults (debug : bool) (o : options) : res options :=
  let bmin := if Rltb 0 (o_dyn o) then (if Rltb (o_bmin o) 0 then 0 else o_bmin o)
              else (if Rltb (o_bmin o) 0 then o_ratio o - 1 else o_bmin o) in
  let* _ := cassert (debug && negb (Rltb 0 (o_dyn o))) (Rleb bmin (o_b0 o)) in
  let trim := if Rltb (o_trim o) 0 then o_min o * 10 else o_trim o in
  Ok {| o_min := o_min o; o_max := o_max o; o_ratio := o_ratio o; o_iter := o_iter o; o_trim := trim; o_positive := o_positive o; o_b0 := o_b0 o;
        o_bmin := bmin; o_q := o_q o; o_savemore := o_savemore o; o_saveall := o_saveall o; o_dyn := o_dyn o; o_one := o_one o; o_name := o_name o; o_nz := o_nz o |}.

(** bw.cc:671-720: one pass of the loop: the new b, the new mesh and the files written, in order. *)
Definition iteration (debug : bool) (o : options) (peaks : list (R * R)) (iter : nat) (mesh b : list R) : res (list R * list R * list file) :=
  let a := broaden o mesh peaks b in
  let fa := if o_savemore o || (iter =? o_iter o)%nat then [save "a" mesh a iter (o_trim o)] else [] in
  let* inta := integrate_a debug mesh a in
  let (intb, intc) := combinations mesh inta in
  let fi := if o_saveall o then [save "inta" mesh inta iter 0; save "intb" mesh intb iter 0; save "intc" mesh intc iter 0] else [] in
  let* deriva := calc_deriv debug mesh inta in
  let* derivb := calc_deriv debug mesh intb in
  let* derivc := calc_deriv debug mesh intc in
  let fd := if o_saveall o then [save "deriva" mesh deriva iter 0; save "derivb" mesh derivb iter 0; save "derivc" mesh derivc iter 0] else [] in
  let* bpos := calc_b o derivb derivc in
  let* bneg := calc_b o deriva derivb in
  let* b := recalc_b debug (o_bmin o) mesh bpos bneg peaks in
  let fb := if o_saveall o then [save "bpos" mesh bpos iter 0; save "bneg" mesh bneg iter 0] else [] in
  let fs := if o_savemore o then [save "b" (map fst peaks) b iter (o_trim o)] else [] in
  let* mesh' := if Rltb 0 (o_dyn o) then refine_mesh debug (o_dyn o) mesh a else Ok mesh in
  Ok (b, mesh', fa ++ fi ++ fd ++ fb ++ fs).
Fixpoint iterations (debug : bool) (o : options) (peaks : list (R * R)) (iters : list nat) (mesh b : list R) : res (list file) :=
  match iters with
  | [] => Ok []
  | i :: t =>
    let* (bm, fs) := iteration debug o peaks i mesh b in
    let* gs := iterations debug o peaks t (snd bm) (fst bm) in
    Ok (fs ++ gs)
  end.

(** bw.cc:149-153 and 655-730 main: the files written. [None] = still running.  A negative number of iterations is like 0. *)
Definition bw (fuel : nat) (debug : bool) (files : string -> option binary) (o : options) : option (res (list file)) :=
  if negb (Rltb 0 (o_b0 o)) then Some Throw else
  if negb (1 <=? o_nz o)%Z then Some Throw else
  match (let* o := defaults debug o in let* bufs := read_files files o in Ok (o, merge (o_nz o) bufs)) with
  | Ok (o, peaks) =>
    match make_mesh fuel debug o with
    | None => None
    | Some (Ok mesh) =>
      let b := initial_b o peaks in
      let f0 := if o_savemore o then [save "b" (map fst peaks) b 0 (o_trim o)] else [] in
      Some (let* fs := iterations debug o peaks (seq 1 (o_iter o)) mesh b in Ok (f0 ++ fs))
    | Some r => Some (match r with UB => UB | _ => Throw end)
    end
  | Throw => Some Throw
  | UB => Some UB
  end.
