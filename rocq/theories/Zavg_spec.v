(** What is claimed of the averaging and evaluation tools.  A raw spectrum is a table of rows (frequency, weight columns). *)
From Coq Require Import List Reals.
From Verif Require Import Base Zavg_model.
Import ListNotations.
Local Open Scope R_scope.

Fixpoint rsum {A} (f : A -> R) (l : list A) : R := match l with [] => 0 | a :: l' => f a + rsum f l' end.
(** A table with [nrcol] weight columns and the file holding it. *)
Definition table (nrcol : nat) (rows : list (list R)) : Prop := forall r, In r rows -> length r = S nrcol.
Definition file_of (rows : list (list R)) : binfile := {| doubles := concat rows; leftover := 0 |}.
Definition freq (r : list R) : R := nth 0 r 0.
Definition value (col : nat) (r : list R) : R := nth col r 0.
Definition delta (f g : R) : R := if Req_EM_T f g then 1 else 0.

Fixpoint ascending (l : list R) : Prop :=
  match l with a :: (b :: _) as t => a < b /\ ascending t | _ => True end.
Fixpoint sorted (l : list R) : Prop :=
  match l with a :: (b :: _) as t => a <= b /\ sorted t | _ => True end.

(** Mean over the tables 1..Nz of the sum over rows of g(frequency) * weight. *)
Definition mean_over (Nz col : nat) (tab : nat -> list (list R)) (g : R -> R) : R :=
  rsum (fun i => rsum (fun r => g (freq r) * value col r) (tab i)) (seq 1 Nz) / INR Nz.
(** The same for an averaged spectrum. *)
Definition integral (g : R -> R) (l : list (R * R)) : R := rsum (fun p => g (fst p) * snd p) l.

(** Frequency windows of the two filters. *)
Definition spm_window (low high : R) (posonly negonly : bool) (f : R) : R :=
  if Rlt_dec (Rabs f) low then 0 else if Rlt_dec high (Rabs f) then 0 else
  if Rlt_dec f 0 then (if posonly then 0 else 1) else if Rlt_dec 0 f then (if negonly then 0 else 1) else 1.
Definition br_window (low high : R) (keeppositive keepnegative : bool) (f : R) : R :=
  if Rlt_dec (Rabs f) low then 0 else if Rlt_dec high (Rabs f) then 0 else
  if Rle_dec 0 f then (if keeppositive then 1 else 0) else (if keepnegative then 1 else 0).

Definition shifted (c : R) (l : list (R * R)) : list (R * R) := map (fun p => (fst p + c, snd p)) l.
Definition nonnegative (l : list (R * R)) : Prop := forall f w, In (f, w) l -> 0 <= w.
