(** Specification: what the columns of the file "td" mean. *)
From Coq Require Import List ZArith Reals String.
From Verif Require Import Base Invar_model Symmetry_model Symmetry_spec Thermo_spec.
Import ListNotations.
Local Open Scope string_scope.
Local Open Scope R_scope.

(** Magnetic quantum numbers of a multiplet with [d] members: -(d-1)/2, ..., (d-1)/2. *)
Definition magnetic (d : Z) : list R := map (fun j => INR j - (IZR d - 1) / 2) (seq 0 (Z.to_nat d)).
(** The physical states of a sector: one magnetic quantum number for each degenerate label. *)
Fixpoint members_of (sg : signature) (fs : list (mult_kind * string)) (J : invar) : list (list (string * R)) :=
  match fs with
  | [] => [[]]
  | (k, n) :: fs' => flat_map (fun m => map (cons (n, m)) (members_of sg fs' J)) (magnetic (mult_factor k (val 0%Z (get sg J n))))
  end.
Definition members (sy : symmetry) (J : invar) := members_of (sy_sig sy) (sy_mult sy) J.

(** Where an operator finds its value: a quantum number as it is; the label 2*m+1 of a spin projection; [c] times the magnetic
    quantum number of a degenerate label. *)
Inductive source := Label (n : string) | Projection (n : string) | Magnetic (c : Z) (n : string).
Definition source_name (s : source) : string := match s with Label n | Projection n | Magnetic _ n => n end.
Definition sources (op : string) : list source :=
  match op with
  | "Sz" => [Magnetic 1 "SS"; Projection "SSZ"; Projection "SZ"]
  | "Jz" => [Magnetic 1 "JJ"]
  | "Tz" => [Magnetic 1 "T"; Label "TZ"]
  | "Q" => [Label "Q"; Magnetic 2 "II"]
  | "Q1" => [Label "Q1"; Magnetic 2 "II1"]
  | "Q2" => [Label "Q2"; Magnetic 2 "II2"]
  | "Q3" => [Label "Q3"]
  | _ => []
  end.
Fixpoint lookup (n : string) (l : list (string * R)) : R := match l with [] => 0 | (d, x) :: l' => if String.eqb d n then x else lookup n l' end.
Definition source_value (sy : symmetry) (J : invar) (ms : list (string * R)) (s : source) : R :=
  match s with
  | Label n => IZR (val 0%Z (get (sy_sig sy) J n))
  | Projection n => (IZR (val 0%Z (get (sy_sig sy) J n)) - 1) / 2
  | Magnetic c n => IZR c * lookup n ms
  end.
(** The source a symmetry offers: the one that is among its quantum numbers. *)
Definition offered (sy : symmetry) (op : string) : option source :=
  find (fun s => existsb (fun p => String.eqb (fst p) (source_name s)) (sy_sig sy)) (sources op).

(** Thermal average over all physical states of a step; [factor] is the inverse temperature. *)
Definition physical_states (sy : symmetry) (diag : list (invar * list R)) : list (invar * R * list (string * R)) :=
  flat_map (fun p => flat_map (fun e => map (fun ms => (fst p, e, ms)) (members sy (fst p))) (snd p)) diag.
Definition average_over (sy : symmetry) (factor : R) (diag : list (invar * list R)) (f : invar -> list (string * R) -> R) : R :=
  rsum (fun x => let '(J, e, ms) := x in exp (- (factor * e)) * f J ms) (physical_states sy diag)
  / rsum (fun x => let '(J, e, ms) := x in exp (- (factor * e))) (physical_states sy diag).

Inductive meaning := First (op : string) | Second (op : string) | Variance (op : string).
Definition meaning_of (name : string) : option meaning :=
  match name with
  | "<Sz>" => Some (First "Sz") | "<Sz^2>" => Some (Second "Sz") | "<Jz^2>" => Some (Second "Jz")
  | "<Tz>" => Some (First "Tz") | "<Tz^2>" => Some (Second "Tz")
  | "<Q>" => Some (First "Q") | "<Q^2>" => Some (Second "Q") | "<sQ^2>" => Some (Variance "Q")
  | "<Q1>" => Some (First "Q1") | "<Q1^2>" => Some (Second "Q1") | "<sQ1^2>" => Some (Variance "Q1")
  | "<Q2>" => Some (First "Q2") | "<Q2^2>" => Some (Second "Q2") | "<sQ2^2>" => Some (Variance "Q2")
  | "<Q3>" => Some (First "Q3") | "<Q3^2>" => Some (Second "Q3") | "<sQ3^2>" => Some (Variance "Q3")
  | _ => None
  end.
Definition meant_value (sy : symmetry) (factor : R) (diag : list (invar * list R)) (s : source) (mean : meaning) : R :=
  let av k := average_over sy factor diag (fun J ms => source_value sy J ms s ^ k) in
  match mean with First _ => av 1%nat | Second _ => av 2%nat | Variance _ => av 2%nat - av 1%nat ^ 2 end.
Definition operator_of (m : meaning) : string := match m with First op | Second op | Variance op => op end.

(** The right content of a column. *)
Definition right_content (sy : symmetry) (factor : R) (diag : list (invar * list R)) (Teff : R) (name : string) (x : R) : Prop :=
  let l := step_levels (degeneracy sy) factor diag in
  match name with
  | "T" => x = Teff
  | "<E>" => x = average 1 l (fun e => e)
  | "<E^2>" => x = average 1 l (fun e => e ^ 2)
  | "C" => x = heat_capacity 1 l
  | "F" => x = free_energy 1 l
  | "S" => x = entropy 1 l
  | _ => exists m s, meaning_of name = Some m /\ offered sy (operator_of m) = Some s /\ x = meant_value sy factor diag s m
  end.
