(** What is claimed of the patching of spectra. *)
From Coq Require Import List ZArith Reals.
From Verif Require Import Base Bins_model Bins_spec Patch_model.
Import ListNotations.
Local Open Scope R_scope.

(** Valid parameters: the validated ones (Lambda > 1, Ninit < Nmax, at least one channel) and positive energy scales. *)
Definition pvalid (P : pparams) : Prop :=
  1 < p_Lambda P /\ 0 < p_bandrescale P /\ 0 < p_goodE P /\ (1 <= p_channels P)%nat /\ (p_Ninit P < p_Nmax P)%nat.

(** The window of step n: lower edge, peak, upper edge. *)
Definition lower (P : pparams) (s : step) : R := scale P s * p_goodE P.
Definition peak (P : pparams) (s : step) : R := scale P s * (p_goodE P * getEfactor P).
Definition upper (P : pparams) (s : step) : R := scale P s * (p_goodE P * getEfactor P ^ 2).
(** The factor with which a weight at energy E calculated at the step [s] enters the final spectrum. *)
Definition share_of (P : pparams) (s : step) (E : R) (x : R) : Prop :=
  forall w, wabs w <> 0 -> mergeNN2 P s [(E, (0, 0))] [(E, w)] = Ok [(E, (x * fst w, x * snd w))].
(** Sum of the factors over a list of steps. *)
Inductive share_sum (P : pparams) (E : R) : list step -> R -> Prop :=
| share_nil : share_sum P E [] 0
| share_cons s l x y : share_of P s E x -> share_sum P E l y -> share_sum P E (s :: l) (x + y).

(** Regular step n. *)
Definition st (n : nat) : step := {| s_true := Z.of_nat n; s_ndx := n |}.
(** The chains of steps joined together: all steps (N/N+1), the even or the odd ones (N/N+2), or both sorts and averaged. *)
Definition steps_of (P : pparams) (sel : nat -> bool) : list nat := filter sel (seq (p_Ninit P) (p_Nmax P - p_Ninit P)).
Definition chains (P : pparams) : list (list nat) :=
  if p_NN1 P then [steps_of P (fun _ => true)]
  else if p_NN2avg P then [steps_of P Nat.even; steps_of P Nat.odd]
  else if p_NN2even P then [steps_of P Nat.even] else [steps_of P Nat.odd].
(** The energies covered by a chain: from the peak of its lowest window to the peak of its highest one; where the chain ends
    with the last step, down to the lower edge, where it starts with the first step, up to the upper edge. *)
Definition covered (P : pparams) (c : list nat) (E : R) : Prop :=
  match c with
  | [] => False
  | n0 :: _ =>
      let nl := last c n0 in
      (peak P (st nl) <= E \/ (nl = (p_Nmax P - 1)%nat /\ lower P (st nl) < E)) /\
      (E <= peak P (st n0) \/ (n0 = p_Ninit P /\ E < upper P (st n0)))
  end.
(** The settings for which consecutive windows of a chain fit together: the ratio of the scales of consecutive merged steps is
    the ratio of the window edges. *)
Definition fitting (P : pparams) : Prop :=
  p_absolute P = false /\
  (if p_NN1 P then p_NN2avg P = false /\ (p_substeps P = false \/ p_channels P = 1%nat)
   else p_channels P = 1%nat \/ (p_channels P = 2%nat /\ p_substeps P = true)).
(** The sum over a list of steps, each with its own spectrum, of the weights in bin k times the factors x. *)
Fixpoint weighted (x : step -> R -> R) (l : list (step * spikes)) (e : R) (k : nat) : weight :=
  match l with
  | [] => (0, 0)
  | (s, cs) :: l' => (x s e * fst (weight_at cs k) + fst (weighted x l' e k), x s e * snd (weight_at cs k) + snd (weighted x l' e k))
  end.
