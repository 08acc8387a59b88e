(** A normaliser for the coefficient expressions: every value is written as a sum of terms
    P(x,y) * product of sqrt(a_i)^(e_i), with P an integer polynomial and a_i positive constants or linear functions of
    one of two nonnegative variables.  Soundness: [norm_sound]. *)
From Coq Require Import List ZArith Reals Lia Lra Bool.
From Verif Require Import Base Coef_model.
Import ListNotations.
Local Open Scope Z_scope.

(** ** Polynomials in one and two variables (dense, low degree first) *)
Notation poly1 := (list Z).
Notation poly := (list (list Z)).

Fixpoint padd1 (p q : poly1) : poly1 :=
  match p, q with
  | [], _ => q
  | _, [] => p
  | a :: p', b :: q' => a + b :: padd1 p' q'
  end.
Definition pscale1 (c : Z) (p : poly1) : poly1 := map (Z.mul c) p.
Fixpoint pmul1 (p q : poly1) : poly1 :=
  match p with
  | [] => []
  | a :: p' => padd1 (pscale1 a q) (0 :: pmul1 p' q)
  end.
Fixpoint padd (p q : poly) : poly :=
  match p, q with
  | [], _ => q
  | _, [] => p
  | a :: p', b :: q' => padd1 a b :: padd p' q'
  end.
Definition pscale (c : poly1) (p : poly) : poly := map (pmul1 c) p.
Fixpoint pmul0 (p q : poly) : poly :=
  match p with
  | [] => []
  | a :: p' => padd (pscale a q) ([] :: pmul0 p' q)
  end.
Definition pneg (p : poly) : poly := map (map Z.opp) p.
(** products with 1 and -1 are frequent *)
Definition pmul (p q : poly) : poly :=
  match p with
  | [[1]] => q
  | [[-1]] => pneg q
  | _ => match q with
         | [[1]] => p
         | [[-1]] => pneg p
         | _ => match p, q with [[a]], [[b]] => [[a * b]] | _, _ => pmul0 p q end
         end
  end.
Definition pconst (z : Z) : poly := [[z]].
Fixpoint ppow (p : poly) (n : nat) : poly := match n with O => pconst 1 | S n' => pmul p (ppow p n') end.
Definition pzero (p : poly) : bool := forallb (forallb (Z.eqb 0)) p.
Definition peq (p q : poly) : bool := pzero (padd p (pneg q)).

(** ** Factors *)
(** (v, a, b): a * x + b if v = 0, a * y + b otherwise. *)
Notation atom := (nat * Z * Z)%type.
Definition atom_wf (t : atom) : bool := let '(_, a, b) := t in (0 <=? a) && (0 <? b).
Definition atom_poly (t : atom) : poly :=
  let '(v, a, b) := t in match a with 0 => [[b]] | _ => match v with O => [[b]; [a]] | _ => [[b; a]] end end.
Definition atom_cmp (s t : atom) : comparison :=
  let '(v, a, b) := s in let '(v', a', b') := t in
  match Nat.compare v v' with Eq => match Z.compare a a' with Eq => Z.compare b b' | c => c end | c => c end.
(** Exponents are in units of 1/2. *)
Notation mono := (list (atom * Z)).

Fixpoint mmul (m : mono) : mono -> mono :=
  match m with
  | [] => fun n => n
  | (s, e) :: m' =>
      (fix go (n : mono) : mono :=
         match n with
         | [] => m
         | (t, f) :: n' =>
             match atom_cmp s t with
             | Eq => if e + f =? 0 then mmul m' n' else (s, e + f) :: mmul m' n'
             | Lt => (s, e) :: mmul m' n
             | Gt => (t, f) :: go n'
             end
         end)
  end.
Definition minv (m : mono) : mono := map (fun p => (fst p, - snd p)) m.
Definition meven (m : mono) : bool := forallb (fun p => Z.even (snd p)) m.
Definition mhalf (m : mono) : mono := map (fun p => (fst p, Z.div2 (snd p))) m.

(** Common part of two products: smallest exponents; the quotients are polynomials.  None if some exponents differ by an odd
    number of halves. *)
Definition apow (s : atom) (e : Z) : poly := ppow (atom_poly s) (Z.to_nat (Z.div2 e)).
Fixpoint mcommon (m : mono) : mono -> option (mono * poly * poly) :=
  match m with
  | [] =>
      (fix go (n : mono) : option (mono * poly * poly) :=
         match n with
         | [] => Some ([], pconst 1, pconst 1)
         | (t, f) :: n' =>
             if Z.even f then
               match go n' with
               | Some (r, p, q) => if 0 <=? f then Some (r, p, pmul (apow t f) q) else Some ((t, f) :: r, pmul (apow t (- f)) p, q)
               | None => None
               end
             else None
         end)
  | (s, e) :: m' =>
      (fix go (n : mono) : option (mono * poly * poly) :=
         match n with
         | [] =>
             if Z.even e then
               match mcommon m' [] with
               | Some (r, p, q) => if 0 <=? e then Some (r, pmul (apow s e) p, q) else Some ((s, e) :: r, p, pmul (apow s (- e)) q)
               | None => None
               end
             else None
         | (t, f) :: n' =>
             match atom_cmp s t with
             | Eq =>
                 if Z.even (e - f) then
                   match mcommon m' n' with
                   | Some (r, p, q) => if f <=? e then Some ((s, f) :: r, pmul (apow s (e - f)) p, q) else Some ((s, e) :: r, p, pmul (apow s (f - e)) q)
                   | None => None
                   end
                 else None
             | Lt =>
                 if Z.even e then
                   match mcommon m' n with
                   | Some (r, p, q) => if 0 <=? e then Some (r, pmul (apow s e) p, q) else Some ((s, e) :: r, p, pmul (apow s (- e)) q)
                   | None => None
                   end
                 else None
             | Gt =>
                 if Z.even f then
                   match go n' with
                   | Some (r, p, q) => if 0 <=? f then Some (r, p, pmul (apow t f) q) else Some ((t, f) :: r, pmul (apow t (- f)) p, q)
                   | None => None
                   end
                 else None
             end
         end)
  end.

(** ** Sums of terms *)
Notation nf := (poly * mono)%type.
Notation msum := (list (poly * mono)).

(** Trial division, unverified: the result is checked by [factor]. *)
Fixpoint ptrim1 (p : poly1) : poly1 :=
  match p with [] => [] | a :: p' => match ptrim1 p' with [] => if a =? 0 then [] else [a] | q => a :: q end end.
Fixpoint ptrim (p : poly) : poly :=
  match p with
  | [] => []
  | a :: p' => match ptrim p' with [] => match ptrim1 a with [] => [] | a' => [a'] end | q => ptrim1 a :: q end
  end.
(** division of c_0 + c_1 y + ... by a y + b *)
Fixpoint div1_aux (a b : Z) (p : poly1) : option (poly1 * Z) :=  (* quotient, and remainder so far *)
  match p with
  | [] => Some ([], 0)
  | c :: p' =>
      match div1_aux a b p' with
      | None => None
      | Some (q, r) => (* p' = q * (a y + b) + r ; p = c + y p' = y q (ay+b) + r y + c *)
          if r mod a =? 0 then let k := r / a in Some (k :: q, c - k * b) else None
      end
  end.
Definition div1 (a b : Z) (p : poly1) : option poly1 :=
  match div1_aux a b p with Some (q, 0) => Some (ptrim1 q) | _ => None end.
Fixpoint divx_aux (a b : Z) (p : poly) : option (poly * poly1) :=
  match p with
  | [] => Some ([], [])
  | c :: p' =>
      match divx_aux a b p' with
      | None => None
      | Some (q, r) =>
          if forallb (fun z => z mod a =? 0) r then
            let k := map (fun z => z / a) r in Some (k :: q, padd1 c (map (fun z => - (b * z)) k))
          else None
      end
  end.
Definition divx (a b : Z) (p : poly) : option poly :=
  match divx_aux a b p with Some (q, r) => if forallb (Z.eqb 0) r then Some (ptrim q) else None | _ => None end.
Definition divy (a b : Z) (p : poly) : option poly := mapO (div1 a b) p.
Definition divc (c : Z) (p : poly) : option poly :=
  if forallb (forallb (fun z => z mod c =? 0)) p then Some (map (map (fun z => z / c)) p) else None.
Definition div_atom (t : atom) (p : poly) : option poly :=
  let '(v, a, b) := t in if a =? 0 then divc b p else match v with O => divx a b p | _ => divy a b p end.
Fixpoint extract (fuel : nat) (t : atom) (p : poly) (k : Z) : poly * Z :=
  match fuel with
  | O => (p, k)
  | S f => match div_atom t p with Some q => extract f t q (k + 1) | None => (p, k) end
  end.
Definition is_const (p : poly) : option Z := match p with [[z]] => Some z | _ => None end.
Definition primes : list Z := [2; 3; 5; 7; 11; 13; 17; 19; 23; 29; 31; 37; 41; 43; 47].
Definition cand_c : list atom := map (fun p => (0%nat, 0, p)) primes.
Definition cand_l (v : nat) : list atom :=
  map (fun b => (v, 1, Z.of_nat b)) (seq 1 26) ++ map (fun b => (v, 2, 2 * Z.of_nat b - 1)) (seq 1 16).
Definition pdegx (p : poly) : nat := pred (length p).
Definition pdegy (p : poly) : nat := fold_right Nat.max 0%nat (map (fun r => pred (length r)) p).
Fixpoint extract_all (l : list atom) (p : poly) (m : mono) (deg : poly -> nat) : poly * mono :=
  match l with
  | [] => (p, m)
  | t :: l' => match deg p with
               | O => (p, m)
               | d => let (p', k) := extract (S d) t p 0 in
                      extract_all l' p' (if k =? 0 then m else mmul [(t, 2 * k)] m) deg
               end
  end.
(** prime factors of a positive number: leftover and factors *)
Fixpoint zextract (fuel : nat) (q g k : Z) : Z * Z :=
  match fuel with
  | O => (g, k)
  | S f => let (d, r) := Z.div_eucl g q in if r =? 0 then zextract f q d (k + 1) else (g, k)
  end.
Fixpoint zfactors (l : list Z) (g : Z) : Z * mono :=
  match l with
  | [] => (g, [])
  | q :: l' => if g =? 1 then (1, []) else
               let (g', k) := zextract 64 q g 0 in
               let (r, m) := zfactors l' g' in
               (r, if k =? 0 then m else ((0%nat, 0, q), 2 * k) :: m)
  end.
Definition split_factors (p : poly) : poly * mono :=
  match p with
  | [[Zpos g]] => let (r, m) := zfactors primes (Zpos g) in (pconst r, m)
  | [[Zneg g]] => let (r, m) := zfactors primes (Zpos g) in (pconst (- r), m)
  | _ =>
  let p0 := ptrim p in
  let g := fold_right Z.gcd 0 (concat p0) in
  let (r, m1) := zfactors primes g in
  let c := g / r in
  let p1 := if c =? 1 then p0 else map (map (fun z => z / c)) p0 in
  match p1 with
  | [[Zpos b]; [Zpos a]] => (pconst 1, mmul [((0%nat, Zpos a, Zpos b), 2)] m1)
  | [[Zneg b]; [Zneg a]] => (pconst (-1), mmul [((0%nat, Zpos a, Zpos b), 2)] m1)
  | [[Zpos b; Zpos a]] => (pconst 1, mmul [((1%nat, Zpos a, Zpos b), 2)] m1)
  | [[Zneg b; Zneg a]] => (pconst (-1), mmul [((1%nat, Zpos a, Zpos b), 2)] m1)
  | _ =>
  let (p2, m2) := extract_all (cand_l 0) p1 m1 pdegx in
  extract_all (cand_l 1) p2 m2 pdegy
  end end.
(** product of the factors found, as a polynomial *)
Definition mpoly (m : mono) : poly := fold_right (fun p q => pmul (apow (fst p) (snd p)) q) (pconst 1) m.
Definition mono_wf (m : mono) : bool := forallb (fun p => atom_wf (fst p)) m.
Definition nonneg_even (m : mono) : bool := forallb (fun p => Z.even (snd p) && (0 <=? snd p)) m.
Definition factor (n : nf) : nf :=
  let (p, m) := n in
  match p with
  | [[1]] | [[-1]] => n
  | _ =>
  let (q, f) := split_factors p in
  if mono_wf f && nonneg_even f && peq p (pmul q (mpoly f)) then (q, mmul f m) else n
  end.

Definition nadd (a b : nf) : option nf :=
  match mcommon (snd a) (snd b) with
  | Some (r, p, q) => Some (padd (pmul p (fst a)) (pmul q (fst b)), r)
  | None => None
  end.
Fixpoint sinsert (a : nf) (s : msum) : msum :=
  match s with
  | [] => [a]
  | b :: s' => match nadd a b with Some c => c :: s' | None => b :: sinsert a s' end
  end.
Definition sadd (s t : msum) : msum := fold_right sinsert t s.
Definition nmul (a b : nf) : nf := (pmul (fst a) (fst b), mmul (snd a) (snd b)).
Definition smul (s t : msum) : msum := fold_right (fun a r => sadd (map (nmul a) t) r) [] s.
Definition nneg (a : nf) : nf := (pneg (fst a), snd a).
Definition sneg (s : msum) : msum := map nneg s.
Definition sclean (s : msum) : msum := filter (fun a => negb (pzero (fst a))) s.
Definition szero (s : msum) : bool := forallb (fun a => pzero (fst a)) s.
Definition sfactor (s : msum) : msum := map factor (sclean s).

Definition sinv (s : msum) : option msum :=
  match sfactor s with
  | [(p, m)] => match is_const p with Some 1 => Some [(pconst 1, minv m)] | Some (-1) => Some [(pconst (-1), minv m)] | _ => None end
  | _ => None
  end.
Definition ssqrt (s : msum) : option msum :=
  match sfactor s with
  | [] => Some []
  | [(p, m)] => match is_const p with Some 1 => if meven m then Some [(pconst 1, mhalf m)] else None | _ => None end
  | _ => None
  end.
(** positive (not merely nonnegative) argument *)
Definition ssqrt_pos (s : msum) : option msum := match sfactor s with [] => None | _ => ssqrt s end.
Fixpoint spow (s : msum) (n : nat) : msum := match n with O => [(pconst 1, [])] | S n' => smul s (spow s n') end.

(** ** Expressions *)
(** What is known about a quantum number: a fixed value, an offset plus the variable x (v = 0) or y (v = 1), or an offset
    plus an arbitrary integer. *)
Inductive scomp := SFix (z : Z) | SGen (v : nat) (c : Z) | SAny (c : Z).

Definition qpoly (sg : list scomp) (n : nat) : option poly :=
  match nth_error sg n with
  | Some (SFix z) => Some (pconst z)
  | Some (SGen v c) => Some (match v with O => [[c]; [1]] | _ => [[c; 1]] end)
  | _ => None
  end.
Definition geven (l : list (nat * Z)) : bool := forallb (fun p => Z.even (snd p)) l.
Definition in_range (sg : list scomp) (l : list (nat * Z)) : bool := forallb (fun p => Nat.ltb (fst p) (length sg)) l.
Definition half : nf := (pconst 1, [((0%nat, 0, 2), -2)]).

(** [fl]: factorise the result; sums inside sums need not be. *)
Definition sfac (fl : bool) (s : msum) : msum := if fl then sfactor s else s.
Fixpoint norm_f (sg : list scomp) (odd fl : bool) (e : cexpr) : option msum :=
  match e with
  | cN z => Some [(pconst z, [])]
  | cQ n d => obind (sinv [(pconst (Zpos d), [])]) (fun i => Some (smul [(pconst n, [])] i))
  | cV n => option_map (fun p => sfac fl [(p, [])]) (qpoly sg n)
  | cH n => option_map (fun p => sfac fl [nmul (padd p (pconst (-1)), []) half]) (qpoly sg n)
  | cA a b => obind (norm_f sg odd false a) (fun s => obind (norm_f sg odd false b) (fun t => Some (sfac fl (sadd s t))))
  | cB a b => obind (norm_f sg odd false a) (fun s => obind (norm_f sg odd false b) (fun t => Some (sfac fl (sadd s (sneg t)))))
  | cM a b => obind (norm_f sg odd true a) (fun s => obind (norm_f sg odd true b) (fun t => Some (smul s t)))
  | cD a b => obind (norm_f sg odd true a) (fun s => obind (norm_f sg odd true b) (fun t => obind (sinv t) (fun i => Some (smul s i))))
  | cO a => option_map sneg (norm_f sg odd fl a)
  | cR a => obind (norm_f sg odd true a) ssqrt
  | cW a k => obind (norm_f sg odd true a) (fun s =>
                if Z.even k then
                  if 0 <=? k then Some (spow s (Z.to_nat (k / 2))) else obind (sinv s) (fun i => Some (spow i (Z.to_nat (- k / 2))))
                else if 0 <=? k then obind (ssqrt s) (fun r => Some (spow r (Z.to_nat k)))
                else obind (ssqrt_pos s) (fun r => obind (sinv r) (fun i => Some (spow i (Z.to_nat (- k))))))
  | cG l k => if geven l && in_range sg l then Some [(pconst (if Bool.eqb odd (Z.odd k) then 1 else -1), [])] else None
  end.
Definition norm (sg : list scomp) (odd : bool) (e : cexpr) : option msum := norm_f sg odd true e.

(** Expressions without the sign (-1)^NN. *)
Fixpoint no_sign (e : cexpr) : bool :=
  match e with
  | cN _ | cQ _ _ | cV _ | cH _ => true
  | cA a b | cB a b | cM a b | cD a b => no_sign a && no_sign b
  | cO a | cR a | cW a _ => no_sign a
  | cG _ _ => false
  end.
