(** Model of the coefficient tables of /repo/c++/symmetry: the arithmetic expressions in coefnew/*.dat, the tables of
    recalc_irreduc() and recalc_doublet/triplet/... in nrg-recalc-*.hpp and the lines of make_matrix() in sym-*-impl.hpp.
    The tables themselves are in the generated files Coef_tab_*.v. *)
From Coq Require Import List ZArith Reals Bool String.
From Verif Require Import Base Invar_model Symmetry_model.
Import ListNotations.
Local Open Scope Z_scope.

(** Arithmetic expressions of the tables.  [cV n] is the n-th quantum number of the sector the table is parametrised by;
    [cH n] is the spin (isospin) S(x) = ISO(x) = (x-1)/2 of the multiplicity x (invar.hpp:8-13); [cW e k] is
    Power(e, k/2) (numerics.hpp:197); [cG l k] is Power(-1, NN + k + sum of c * q_n over (n, c) in l), NN = step.getnn().
    A decimal literal denotes the fraction with the smallest denominator that is read as the same [double]. *)
Inductive cexpr :=
| cN (z : Z) | cQ (n : Z) (d : positive) | cV (n : nat) | cH (n : nat)
| cA (a b : cexpr) | cB (a b : cexpr) | cM (a b : cexpr) | cD (a b : cexpr) | cO (a : cexpr)
| cR (a : cexpr) | cW (a : cexpr) (k : Z) | cG (l : list (nat * Z)) (k : Z).

Definition obind {A B} (x : option A) (f : A -> option B) : option B := match x with Some a => f a | None => None end.
Definition omap2 {A B C} (f : A -> B -> C) (x : option A) (y : option B) : option C :=
  match x, y with Some a, Some b => Some (f a b) | _, _ => None end.

(** Exponent of -1: parity of an integer. *)
Definition signR (z : Z) : R := if Z.even z then 1%R else (-1)%R.

Fixpoint gsum (q : list Z) (l : list (nat * Z)) : option Z :=
  match l with
  | [] => Some 0
  | (n, c) :: l' => omap2 (fun x r => c * x + r) (nth_error q n) (gsum q l')
  end.

(** Value of an expression in a sector with quantum numbers [q].  Real numbers instead of [double]: rounding is not
    modelled.  [None]: the C++ expression divides by zero or takes the root of a negative number (its value is an infinity
    or NaN, or depends on one). *)
Fixpoint ceval (q : list Z) (nn : Z) (e : cexpr) : option R :=
  match e with
  | cN z => Some (IZR z)
  | cQ n d => Some (IZR n / IZR (Zpos d))%R
  | cV n => option_map IZR (nth_error q n)
  | cH n => option_map (fun x => (IZR x - 1) / 2)%R (nth_error q n)
  | cA a b => omap2 Rplus (ceval q nn a) (ceval q nn b)
  | cB a b => omap2 Rminus (ceval q nn a) (ceval q nn b)
  | cM a b => omap2 Rmult (ceval q nn a) (ceval q nn b)
  | cD a b => obind (ceval q nn a) (fun x => obind (ceval q nn b) (fun y => if Req_EM_T y 0 then None else Some (x / y)%R))
  | cO a => option_map Ropp (ceval q nn a)
  | cR a => obind (ceval q nn a) (fun x => if Rle_dec 0 x then Some (sqrt x) else None)
  | cW a k => obind (ceval q nn a) (fun x =>
                if Z.even k then if Z.leb 0 k then Some (powerRZ x (k / 2)) else if Req_EM_T x 0 then None else Some (powerRZ x (k / 2))
                else if Z.leb 0 k then if Rle_dec 0 x then Some (powerRZ (sqrt x) k) else None
                else if Rlt_dec 0 x then Some (powerRZ (sqrt x) k) else None)
  | cG l k => option_map (fun s => signR (nn + k + s)) (gsum q l)
  end.

(** One component of an expression Invar(...): an integer-linear function of one quantum number, or (q + k) % 3. *)
Inductive sh := ShLin (n : nat) (m k : Z) | ShMod3 (n : nat) (k : Z).
Definition sh_val (q : list Z) (s : sh) : option Z :=
  match s with
  | ShLin n m k => option_map (fun x => m * x + k) (nth_error q n)
  | ShMod3 n k => option_map (fun x => Z.rem (x + k) 3) (nth_error q n)
  end.
Fixpoint mapO {A B} (f : A -> option B) (l : list A) : option (list B) :=
  match l with [] => Some [] | x :: l' => omap2 cons (f x) (mapO f l') end.
(** [Invar(...)].  The default constructor [Invar()] (empty list; only used by NONE, which has one quantum number that is
    always 0) gives the zero vector, invar.hpp:53. *)
Definition sh_apply (l : list sh) (q : list Z) : option (list Z) :=
  match l with [] => Some (repeat 0 (List.length q)) | _ => mapO (sh_val q) l end.

(** recalc_irreduc: one table [recalc_f] (i1, ip, factor) with its target opch[ch][fnr] and the bra sector I1 as a function
    of the ket sector Ip.  Factors are functions of Ip. *)
Record irr_table := mk_irr { it_ch : Z; it_fnr : Z; it_shift : list sh; it_rows : list (Z * Z * option cexpr) }.
(** recalc_doublet, recalc_triplet, ...: one call of recalc_general: Ip as a function of I1, the quantum numbers of the
    operator, and the rows (i1, ip, IN1, INp, factor) as functions of I1. *)
Record ten_table := mk_ten { tt_name : string; tt_shift : list sh; tt_iop : list Z; tt_rows : list (Z * Z * list sh * list sh * option cexpr) }.
(** Lines of make_matrix: (i, j, ch, fnr, chain coefficient, factor); (i, ch, chain coefficient, number); (i, j, ch, chain
    coefficient, factor).  Factors are functions of the sector I. *)
Notation off_line := (Z * Z * Z * Z * string * option cexpr)%type.
Notation diag_line := (Z * Z * string * option cexpr)%type.
Notation dof_line := (Z * Z * Z * string * option cexpr)%type.
Record mode := mk_mode { mo_name : string; mo_off : list off_line; mo_diag : list diag_line; mo_dof : list dof_line }.

(** Everything for one symmetry type and number of channels. *)
Record coef_set := mk_coef {
  cs_name : string; cs_channels : nat; cs_sym : symmetry; cs_tab : tables;
  cs_irr : list irr_table; cs_ten : list ten_table; cs_modes : list mode }.

(** [recalc_f_coupled(I1, Ip, Invar_f)], recalc.hpp:77 and symmetry.hpp:240: true except for QST and SPSU2T, which test
    triangle_inequality(I1, Ip, Invar_f) (sym-QST-impl.hpp:13,108-110, sym-SPSU2T-impl.hpp:13,82-84).  If it is false the
    block is not computed. *)
Definition Invar_f (cs : coef_set) : option invar :=
  if String.eqb (cs_name cs) "QST"%string then Some [1; 2; 1] else if String.eqb (cs_name cs) "SPSU2T"%string then Some [2; 1] else None.
Definition coupled (cs : coef_set) (I1 Ip : invar) : res bool :=
  match Invar_f cs with Some f => triangle (cs_sym cs) I1 Ip f | None => Ok true end.
