(** Symbolic sectors: sectors whose quantum numbers are fixed, "c + x" with x >= 0 unknown, or "root + c".  Definitions only;
    soundness in Coef_sector_sound.v. *)
From Coq Require Import List ZArith Reals Bool String.
From Verif Require Import Base Invar_model Symmetry_model Coef_model Coef_norm Coef_cert Coef_spec.
Import ListNotations.
Local Open Scope string_scope.
Local Open Scope list_scope.
Local Open Scope Z_scope.

Notation ssec := (list scomp).

Definition soff (c : scomp) (k : Z) : scomp :=
  match c with SFix z => SFix (z + k) | SGen v c => SGen v (c + k) | SAny c => SAny (c + k) end.
Definition scomp_eqb (a b : scomp) : option bool :=
  match a, b with
  | SFix x, SFix y => Some (x =? y)
  | SGen v x, SGen w y => if Nat.eqb v w then Some (x =? y) else None
  | SAny x, SAny y => Some (x =? y)
  | _, _ => None
  end.
Fixpoint ssec_eqb (a b : ssec) : option bool :=
  match a, b with
  | [], [] => Some true
  | x :: a', y :: b' => omap2 andb (scomp_eqb x y) (ssec_eqb a' b')
  | _, _ => None
  end.

(** Invar(...) shifts *)
Definition sh_comp (p : nat) (s : sh) (c : scomp) : option scomp :=
  match s with
  | ShLin n m k => if Nat.eqb n p then
                     if m =? 1 then Some (soff c k) else match c with SFix z => Some (SFix (m * z + k)) | _ => None end
                   else None
  | ShMod3 n k => if Nat.eqb n p then match c with SFix z => Some (SFix (Z.rem (z + k) 3)) | _ => None end else None
  end.
Fixpoint sshift_from (p : nat) (l : list sh) (a : ssec) : option ssec :=
  match l, a with
  | [], [] => Some []
  | s :: l', c :: a' => omap2 cons (sh_comp p s c) (sshift_from (S p) l' a')
  | _, _ => None
  end.
Definition sshift (l : list sh) (a : ssec) : option ssec :=
  match l with [] => Some (map (fun _ => SFix 0) a) | _ => sshift_from 0 l a end.
Definition unsh_comp (p : nat) (s : sh) (c : scomp) : option scomp :=
  match s with
  | ShLin n m k => if Nat.eqb n p then
                     if m =? 1 then Some (soff c (- k)) else if m =? -1 then match c with SFix z => Some (SFix (- (z - k))) | _ => None end else None
                   else None
  | ShMod3 n k => if Nat.eqb n p then match c with SFix z => Some (SFix ((z - k) mod 3)) | _ => None end else None
  end.
Fixpoint sunshift_from (p : nat) (l : list sh) (a : ssec) : option ssec :=
  match l, a with
  | [], [] => Some []
  | s :: l', c :: a' => omap2 cons (unsh_comp p s c) (sunshift_from (S p) l' a')
  | _, _ => None
  end.
Definition is_fix0 (c : scomp) : bool := match c with SFix z => z =? 0 | _ => false end.
Definition sunshift (l : list sh) (a : ssec) : option ssec :=
  match l with [] => if forallb is_fix0 a then Some a else None | _ => sunshift_from 0 l a end.

(** Invar::combine with a fixed vector *)
Fixpoint scombine (tl : list qtype) (a : ssec) (b : invar) : option ssec :=
  match tl, a, b with
  | [], _, _ => Some a
  | Additive :: tl', c :: a', y :: b' => option_map (cons (soff c y)) (scombine tl' a' b')
  | Multiplicative :: tl', SFix z :: a', y :: b' => if parity_ok z then option_map (cons (SFix (z * y))) (scombine tl' a' b') else None
  | Mod3 :: tl', SFix z :: a', y :: b' => if mod3_ok z then option_map (cons (SFix (Z.rem (z + y) 3))) (scombine tl' a' b') else None
  | _, _, _ => None
  end.

(** Invar::get: position and content *)
Definition sget (sg : signature) (a : ssec) (n : string) : option (nat * scomp) :=
  match index_of sg n 0 with
  | None => None
  | Some i =>
      match nth_error a i, nth_error (qntype sg) i with
      | Some (SFix z), Some Multiplicative => if parity_ok z then Some (i, SFix z) else None
      | Some (SFix z), Some Mod3 => if mod3_ok z then Some (i, SFix z) else None
      | Some c, Some Additive => Some (i, c)
      | _, _ => None
      end
  end.
Definition leb_c (m : Z) (c : scomp) : option bool :=
  match c with SFix z => Some (m <=? z) | SGen _ c => if m <=? c then Some true else None | SAny _ => None end.
Fixpoint sallowed_of (sg : signature) (l : list (string * Z)) (a : ssec) : option bool :=
  match l with
  | [] => Some true
  | (n, m) :: l' => obind (sget sg a n) (fun c => obind (leb_c m (snd c)) (fun x => obind (sallowed_of sg l' a) (fun r => Some (x && r))))
  end.
Definition sallowed (s : symmetry) (a : ssec) : option bool := sallowed_of (sy_sig s) (sy_allowed s) a.

Definition stri_test (k : tri_kind) (c1 c2 : scomp) (z : Z) : option bool :=
  match c1, c2, k with
  | SFix x, SFix y, _ => Some (tri_test k x y z)
  | SGen v x, SGen w y, TSU2 =>
      if Nat.eqb v w then
        if (Z.abs (x - y) <=? z - 1) && (y - z <=? x - 1) && (x - z <=? y - 1) then if z + 1 <=? x + y then Some true else None
        else Some false
      else None
  | SGen v x, SGen w y, TSU2T =>
      if Nat.eqb v w then
        if (Z.abs (x - y) <=? z) && (y - z <=? x) && (x - z <=? y) then if z <=? x + y then Some true else None
        else Some false
      else None
  | SAny x, SAny y, TU1 => Some (x =? y + z)
  | _, _, _ => None
  end.
Fixpoint stri_of (sg : signature) (l : list (tri_kind * string)) (a b : ssec) (q : invar) : option bool :=
  match l with
  | [] => Some true
  | (k, n) :: l' =>
      match sget sg a n, sget sg b n, get sg q n with
      | Some (_, c1), Some (_, c2), Ok z => obind (stri_test k c1 c2 z) (fun x => if x then stri_of sg l' a b q else Some false)
      | _, _, _ => None
      end
  end.
Definition stri (s : symmetry) (a b : ssec) (q : invar) : option bool := stri_of (sy_sig s) (sy_tri s) a b q.

Definition comp_poly (c : scomp) : option poly :=
  match c with SFix z => Some (pconst z) | SGen O c => Some [[c]; [1]] | SGen _ c => Some [[c; 1]] | SAny _ => None end.
(** multiplicities, in factored form *)
Definition comp_msum (k : mult_kind) (c : scomp) : option msum :=
  let '(a, b) := match k with MMult => (1, 0) | MOrb => (2, 1) end in
  match c with
  | SFix z => Some [(pconst (a * z + b), [])]
  | SGen v c => if 0 <? a * c + b then Some [(pconst 1, [((v, a, a * c + b), 2)])] else None
  | SAny _ => None
  end.
Fixpoint smult_of (sg : signature) (l : list (mult_kind * string)) (a : ssec) : option msum :=
  match l with
  | [] => Some [(pconst 1, [])]
  | (k, n) :: l' => obind (sget sg a n) (fun c => obind (comp_msum k (snd c)) (fun p => obind (smult_of sg l' a) (fun r => Some (smul p r))))
  end.
Definition smult (s : symmetry) (a : ssec) : option msum := smult_of (sy_sig s) (sy_mult s) a.

Definition prod_eq_dec_Z (a b : Z * Z) : {a = b} + {a <> b}.
Proof. decide equality; apply Z.eq_dec. Defined.

(** ** Finite maps *)
Inductive trie (A : Type) := TE | TN (l : trie A) (v : option A) (r : trie A).
Arguments TE {A}. Arguments TN {A} l v r.
Fixpoint tget {A} (t : trie A) (k : positive) : option A :=
  match t with
  | TE => None
  | TN l v r => match k with xH => v | xO k' => tget l k' | xI k' => tget r k' end
  end.
Fixpoint tset {A} (t : trie A) (k : positive) (f : option A -> A) : trie A :=
  match t, k with
  | TE, xH => TN TE (Some (f None)) TE
  | TE, xO k' => TN (tset TE k' f) None TE
  | TE, xI k' => TN TE None (tset TE k' f)
  | TN l v r, xH => TN l (Some (f v)) r
  | TN l v r, xO k' => TN (tset l k' f) v r
  | TN l v r, xI k' => TN l v (tset r k' f)
  end.
Definition tkey (i : Z) : positive := match i with Z0 => xH | Zpos p => xO p | Zneg p => xI p end.

(** ** Values: (b, s) is s, times (-1)^NN if b. *)
Notation fv := (bool * msum)%type.
Definition fmul (a b : fv) : fv := (xorb (fst a) (fst b), smul (snd a) (snd b)).
Definition sfactor_at (p : ssec) (f : option cexpr) (c : option cert) : option fv :=
  match c with
  | Some c' => match cert_at p false c' with
               | Some s => Some (ce_flip c', s)
               | None => obind f (fun e => if no_sign e then option_map (pair false) (norm p false e) else None)
               end
  | None => obind f (fun e => if no_sign e then option_map (pair false) (norm p false e) else None)
  end.

(** Elements found by one of their indices. *)
Notation rows := (trie (list (Z * fv))).
Definition index (E : list (Z * Z * fv)) : rows :=
  fold_right (fun e t => let '(i, k, v) := e in tset t (tkey i) (fun o => (k, v) :: match o with Some l => l | None => [] end)) TE E.
Definition tfind (t : rows) (i : Z) : list (Z * fv) := match tget t (tkey i) with Some l => l | None => [] end.

(** A block between the sector at hand and another one, whose multiplicity is [sb_w]: elements by family of the sector at hand
    and by family of the other one. *)
Record sblk := mk_sblk { sb_to : ssec; sb_w : msum; sb_row : rows; sb_col : rows }.

(** products of the elements of one family with those of all families j >= lb *)
Definition prods (w : msum) (lb : Z) (u : list (Z * fv)) (c : rows) : list (Z * fv) :=
  flat_map (fun p => let v := (fst (snd p), smul w (snd (snd p))) in
    map (fun q => (fst q, fmul v (snd q))) (filter (fun q => lb <=? fst q) (tfind c (fst p)))) u.
(** sums of the products with the same j and the same sign *)
Fixpoint collect1 (j : Z) (b : bool) (s : msum) (l : list (Z * bool * msum)) : list (Z * bool * msum) :=
  match l with
  | [] => [(j, b, s)]
  | (k, b', t) :: l' => if (j =? k) && Bool.eqb b b' then (k, b', sadd s t) :: l' else (k, b', t) :: collect1 j b s l'
  end.
Definition collect (l : list (Z * fv)) : list (Z * bool * msum) := fold_right (fun p r => collect1 (fst p) (fst (snd p)) (snd (snd p)) r) [] l.
(** the sums are 0 for all j *)
Definition vanish (l : list (Z * fv)) : bool := forallb (fun p => szero (snd p)) (collect l).

(** pairs of blocks to the same sector *)
Definition spair (s s' : sblk) : option (list (sblk * sblk)) :=
  match ssec_eqb (sb_to s) (sb_to s') with Some true => Some [(s, s')] | Some false => Some [] | None => None end.
Definition spairs (S S' : list sblk) : option (list (sblk * sblk)) :=
  option_map (@List.concat _) (mapO (fun p => spair (fst p) (snd p)) (list_prod S S')).
Definition unit_w : msum := [(pconst 1, [])].
Definition sov (w : msum) (lb i : Z) (P : list (sblk * sblk)) : list (Z * fv) :=
  flat_map (fun p => prods w lb (tfind (sb_row (fst p)) i) (sb_col (snd p))) P.
Definition sovw (lb i : Z) (P : list (sblk * sblk)) : list (Z * fv) :=
  flat_map (fun p => prods (sb_w (fst p)) lb (tfind (sb_row (fst p)) i) (sb_col (snd p))) P.

Section Sets.
  Variable cs : coef_set.
  Notation sy := (cs_sym cs).
  Notation tab := (cs_tab cs).

  Definition scoupled (a b : ssec) : option bool := match Invar_f cs with Some f => stri sy a b f | None => Some true end.
  Definition sblock (a1 ap : ssec) (other : ssec) : option bool := obind (sallowed sy other) (fun x => if x then scoupled a1 ap else Some false).
  Definition tblock (t : ten_table) (a1 ap : ssec) (other : ssec) : option bool :=
    obind (sallowed sy other) (fun x => if x then stri sy a1 ap (tt_iop t) else Some false).
  (** The families of sector [a] with the sectors they are built from; None: not decided. *)
  Definition sfam_of (a b : ssec) (q : invar) : option bool := obind (sallowed sy b) (fun x => if x then stri sy a b q else Some false).
  Notation fams := (trie ssec).
  Fixpoint sfams_from (a : ssec) (i : positive) (l : list (invar * invar)) : option fams :=
    match l with
    | [] => Some TE
    | (d, q) :: l' =>
        obind (scombine (ts sy) a d) (fun b => obind (sfam_of a b q) (fun x => obind (sfams_from a (Pos.succ i) l') (fun r =>
          Some (if x then tset r (xO i) (fun _ => b) else r))))
    end.
  Definition sfams (a : ssec) : option fams := sfams_from a 1 (List.combine (tb_In tab) (tb_QN tab)).
  Definition has (fl : fams) (i : Z) : option ssec := if 1 <=? i then tget fl (tkey i) else None.

  (** elements of a table *)
  Notation erow := (Z * Z * option cexpr * option cert)%type.
  Fixpoint sentries (rs : list erow) (fl1 flp : fams) (p : ssec) : option (list (Z * Z * fv)) :=
    match rs with
    | [] => Some []
    | (i, k, f, c) :: rs' =>
        match has fl1 i, has flp k with
        | Some _, Some _ => omap2 (fun v r => (i, k, v) :: r) (sfactor_at p f c) (sentries rs' fl1 flp p)
        | _, _ => sentries rs' fl1 flp p
        end
    end.
  Fixpoint stentries (t : ten_table) (rs : list erow) (fl1 flp : fams) (p : ssec) : option (list (Z * Z * fv)) :=
    match rs with
    | [] => Some []
    | (i, k, f, c) :: rs' =>
        match has fl1 i, has flp k with
        | Some A, Some B =>
            match stri sy A B (tt_iop t) with
            | Some true => omap2 (fun v r => (i, k, v) :: r) (sfactor_at p f c) (stentries t rs' fl1 flp p)
            | Some false => stentries t rs' fl1 flp p
            | None => None
            end
        | _, _ => stentries t rs' fl1 flp p
        end
    end.
  Definition smk (to : ssec) (x : option bool) (e : unit -> option (list (Z * Z * fv))) : option (list sblk) :=
    obind x (fun x => if x then obind (smult sy to) (fun m => obind (e tt) (fun E => Some [mk_sblk to m (index E) (index (transpose E))])) else Some []).
  Definition crows (t : irr_table) (c : list (option cert)) : list erow := List.combine (it_rows t) c.
  Definition trows (t : ten_table) (c : list (option cert)) : list erow :=
    List.combine (map (fun r => let '(i, k, _, _, f) := r in (i, k, f)) (tt_rows t)) c.
  Definition sirr_below (a : ssec) (fa : fams) (d : irr_table * list (option cert)) : option (list sblk) :=
    let (t, c) := d in
    obind (sunshift (it_shift t) a) (fun ap => smk ap (sblock a ap ap) (fun _ => obind (sfams ap) (fun fp => sentries (crows t c) fa fp ap))).
  Definition sirr_above (a : ssec) (fa : fams) (d : irr_table * list (option cert)) : option (list sblk) :=
    let (t, c) := d in
    obind (sshift (it_shift t) a) (fun a1 => smk a1 (sblock a1 a a1) (fun _ => obind (sfams a1) (fun f1 => option_map transpose (sentries (crows t c) f1 fa a)))).
  Definition sten_below (a : ssec) (fa : fams) (d : ten_table * list (option cert)) : option (list sblk) :=
    let (t, c) := d in
    obind (sshift (tt_shift t) a) (fun ap => smk ap (tblock t a ap ap) (fun _ => obind (sfams ap) (fun fp => stentries t (trows t c) fa fp a))).
  Definition sten_above (a : ssec) (fa : fams) (d : ten_table * list (option cert)) : option (list sblk) :=
    let (t, c) := d in
    obind (sunshift (tt_shift t) a) (fun a1 => smk a1 (tblock t a1 a a1) (fun _ => obind (sfams a1) (fun f1 => option_map transpose (stentries t (trows t c) f1 fa a1)))).
  Definition sall {T} (f : T -> option (list sblk)) (l : list T) : option (list (T * list sblk)) :=
    mapO (fun t => option_map (pair t) (f t)) l.
  Definition of_op (x : Z * Z) (l : list (irr_table * list (option cert) * list sblk)) : list sblk :=
    List.concat (map snd (filter (fun d => op_eqb (it_ch (fst (fst d)), it_fnr (fst (fst d))) x) l)).
  Definition of_name (n : string) (l : list (ten_table * list (option cert) * list sblk)) : list sblk :=
    List.concat (map snd (filter (fun d => String.eqb (tt_name (fst (fst d))) n) l)).
  Definition ops : list (Z * Z) := nodup prod_eq_dec_Z (map (fun t => (it_ch t, it_fnr t)) (cs_irr cs)).
  Definition true_ix (fl : fams) : list Z :=
    filter (fun i => match has fl i with Some _ => true | None => false end) (map Z.of_nat (seq 1 (List.length (tb_In tab)))).

  (** mult(I) * down_up + up_down - n * mult(I) * delta = 0 for all i and j >= i.  Pairs with i > j follow by symmetry. *)
  Definition check_car (C : list (list (option cert))) (n : Z) (a : ssec) : bool :=
    match smult sy a, sfams a with
    | Some m, Some fa =>
        match sall (sirr_below a fa) (List.combine (cs_irr cs) C), sall (sirr_above a fa) (List.combine (cs_irr cs) C) with
        | Some L, Some U =>
            forallb (fun x => forallb (fun y =>
              match spairs (of_op x L) (of_op y L), spairs (of_op y U) (of_op x U) with
              | Some lo, Some up =>
                  let d := if op_eqb x y then smul [(pconst (- n), [])] m else [] in
                  forallb (fun i => vanish ((i, (false, d)) :: sov m i i lo ++ sovw i i up)) (true_ix fa)
              | _, _ => false
              end) ops) ops
        | _, _ => false
        end
    | _, _ => false
    end.
  (** the closed forms belong to the tables *)
  Fixpoint all2 {A B} (p : A -> B -> bool) (l : list A) (l' : list B) : bool :=
    match l, l' with [], [] => true | x :: r, y :: r' => p x y && all2 p r r' | _, _ => false end.
  Definition cert_rows (rs : list (Z * Z * option cexpr)) (l : list (option cert)) : bool :=
    all2 (fun (r : Z * Z * option cexpr) c => match c, snd r with None, _ => true | Some c, Some e => cert_ok e c | Some _, None => false end) rs l.
  Definition certs_ok (C : list (list (option cert))) : bool := all2 (fun t l => cert_rows (it_rows t) l) (cs_irr cs) C.

  (** shapes covering all sectors; every SU(2) number is split into 1..c-1 and c + x *)
  Definition comp_shapes (c : Z) (v : nat) (d : string * qtype) : nat * list scomp :=
    match snd d with
    | Multiplicative => (v, [SFix 1; SFix (-1)])
    | Mod3 => (v, [SFix 0; SFix 1; SFix 2])
    | Additive =>
        if is_kind cs TSU2 (fst d) then (S v, SGen v c :: map (fun k => SFix (Z.of_nat k)) (seq 1 (Z.to_nat c - 1)))
        else if is_kind cs TSU2T (fst d) then (S v, SGen v c :: map (fun k => SFix (Z.of_nat k)) (seq 0 (Z.to_nat c)))
        else (v, if String.eqb (cs_name cs) "NONE" then [SFix 0] else [SAny 0])
    end.
  Fixpoint shapes_of (c : Z) (v : nat) (sg : signature) : list ssec :=
    match sg with
    | [] => [[]]
    | d :: sg' => let (v', l) := comp_shapes c v d in flat_map (fun x => map (cons x) (shapes_of c v' sg')) l
    end.
  Definition shapes (c : Z) : list ssec := shapes_of c 0 (sy_sig sy).
End Sets.

(** Search of closed forms for all factors. *)
Definition find_certs (cs : coef_set) : list (list (option cert)) :=
  let kinds := snd (fold_left (fun st d => let '(v, l) := st in
    if match snd d with Additive => is_kind cs TSU2 (fst d) || is_kind cs TSU2T (fst d) | _ => false end then (S v, l ++ [Some v]) else (v, l ++ [None]))
    (sy_sig (cs_sym cs)) (O, [])) in
  map (fun t => map (fun r : Z * Z * option cexpr => obind (snd r) (make_cert kinds)) (it_rows t)) (cs_irr cs).
