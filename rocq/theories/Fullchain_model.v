(** Model of a whole NRG run: /repo/c++/core.hpp [nrg_loop], [iterate], [do_diag] and [after_diag] (without truncation
    criteria, measurements and files), /repo/c++/recalc.hpp [split_in_blocks], [recalc_f], the functions recalc_irreduc() of
    /repo/c++/symmetry/nrg-recalc-*.hpp, /repo/c++/stats.hpp [update], /repo/c++/eigen.hpp (ground-state energy, truncation).
    The Hamiltonian of a sector, the structure of the sectors and the coefficient tables are the models of Hamilton_model.v,
    Subspaces_model.v and Coef_tab_*.v; the diagonaliser is an argument (see Linalg_model.v).
    Not modelled: rounding, the correction of splittings (fixeps = 0), substeps, Floquet runs, restarts with more states,
    CUDA and MPI.  A std::map is a list in the order of insertion; it is only searched by key here. *)
From Coq Require Import List ZArith String.
From mathcomp Require Import ssreflect ssrfun ssrbool eqtype ssrnat fintype bigop ssralg ssrnum.
From Verif Require Import Base Invar_model Symmetry_model Subspaces_model Density_model Recalc_model Hamilton_model Linalg_model Coef_model.
Import ListNotations GRing.Theory Num.Theory.
Local Open Scope string_scope.
Local Open Scope list_scope.
Local Open Scope ring_scope.
Set Implicit Arguments.
Unset Strict Implicit.
Unset Printing Implicit Defensive.

(** make_matrix of sym-QSZ-impl.hpp:106-129,186-193, sym-U1-impl.hpp:176-190, sym-NONE-impl.hpp, sym-SPU1-impl.hpp, ...: the lines for
    the settings P.polarized, P.pol2x2 and P.rungs. *)
Definition find_mode (cs : coef_set) (name : string) : option mode := List.find (fun m => String.eqb (mo_name m) name) (cs_modes cs).
Definition lines (cs : coef_set) (polarized pol2x2 rungs : bool) : option mode :=
  if pol2x2 then find_mode cs "pol2x2"
  else if polarized then find_mode cs "polarized"
  else match find_mode cs "default" with
       | Some m => Some m
       | None => match find_mode cs "nonpolarized" with
                 | None => None
                 | Some a => if rungs then match find_mode cs "nonpolarized rungs" with
                                           | Some b => Some (mk_mode "rungs" (mo_off a ++ mo_off b) (mo_diag a ++ mo_diag b) (mo_dof a ++ mo_dof b))
                                           | None => None
                                           end
                             else Some a
                 end
       end.

Section Fullchain.
  Variable C : numClosedFieldType.

  (** An integer as a scalar. *)
  Definition zC (z : Z) : C := (Z.to_nat z)%:R - (Z.to_nat (- z))%:R.
  (** Value of a constant of the tables.  The sets of tables considered here have no other factors; [None]: not modelled. *)
  Definition const_val (e : option cexpr) : option C :=
    match e with Some (cN z) => Some (zC z) | Some (cQ n d) => Some (zC n / zC (Zpos d)) | _ => None end.

  (** coef.hpp:134-148: the chain coefficients: site and channel (an unsigned number). *)
  Record chain_coef := ChainCoef {
    cc_xi : nat -> Z -> C; cc_zeta : nat -> Z -> C; cc_xiR : nat -> Z -> C; cc_zetaR : nat -> Z -> C;
    cc_delta : nat -> Z -> C; cc_kappa : nat -> Z -> C }.
  Variables (K : chain_coef) (channels : nat).
  (** coef.hpp:150-164, and the macros OFFDIAG, OFFDIAG_UP, OFFDIAG_MIX, DIAG, RUNGHOP, ISOSPINX, ... of the files sym-*-impl.hpp:
      hopping terms take the coefficient of site N, terms of the added site that of site N+1.  " half" marks diag_function_half. *)
  Definition coef_at (name : string) (N : nat) (ch : Z) : option C :=
    let n := Z.of_nat channels in
    if String.eqb name "xi" || String.eqb name "xiUP" then Some (cc_xi K N ch)
    else if String.eqb name "xiDOWN" then Some (cc_xi K N (Z.add ch n))
    else if String.eqb name "xiUPDO" then Some (cc_xi K N (Z.add ch (Z.mul 2 n)))
    else if String.eqb name "xiDOUP" then Some (cc_xi K N (Z.add ch (Z.mul 3 n)))
    else if String.eqb name "xiR" then Some (cc_xiR K N ch)
    else if String.eqb name "kappa" then Some (cc_kappa K N ch)
    else if String.eqb name "zeta" || String.eqb name "zetaUP" || String.eqb name "zetaUP half" then Some (cc_zeta K N.+1 ch)
    else if String.eqb name "zetaDOWN" || String.eqb name "zetaDOWN half" then Some (cc_zeta K N.+1 (Z.add ch n))
    else if String.eqb name "zetaDOUP" then Some (cc_zeta K N.+1 (Z.add ch (Z.mul 3 n)))
    else if String.eqb name "zetaR" then Some (cc_zetaR K N.+1 ch)
    else if String.eqb name "2*delta" then Some (2%:R * cc_delta K N.+1 ch)
    else None.
  (** matrix.hpp:69-94: diag_function and diag_function_half. *)
  Definition half_of (name : string) : C :=
    if String.eqb name "zetaUP half" || String.eqb name "zetaDOWN half" then 1 / 2%:R else 1.

  Definition both (a b : option C) : option C := match a, b with Some x, Some y => Some (x * y) | _, _ => None end.
  (** The lines of make_matrix as calls. *)
  Definition off_call (N : nat) (l : off_line) : option (call C) :=
    match l with (i, j, ch, fnr, name, e) =>
      match both (const_val e) (coef_at name N ch) with
      | Some x => Some (COffdiag i j (Z.to_nat ch) (Z.to_nat fnr) (Some x))
      | None => None
      end
    end.
  Definition diag_call (N : nat) (l : diag_line) : option (call C) :=
    match l with (i, ch, name, e) =>
      match const_val e, coef_at name N ch with Some n, Some z => Some (CDiag i n z (half_of name)) | _, _ => None end
    end.
  Definition dof_call (N : nat) (l : dof_line) : option (call C) :=
    match l with (i, j, ch, name, e) =>
      match both (const_val e) (coef_at name N ch) with Some x => Some (CDiagOff i j x) | None => None end
    end.
  Definition calls_of (N : nat) (m : mode) : option (list (call C)) :=
    match mapO (off_call N) (mo_off m), mapO (diag_call N) (mo_diag m), mapO (dof_call N) (mo_dof m) with
    | Some a, Some b, Some c => Some (a ++ b ++ c)
    | _, _, _ => None
    end.

  (** ** Eigenvectors in blocks *)

  (** One sector after a step: number of stored states, energies relative to the ground state, blocks of the eigenvectors. *)
  Record keig := KEig { ke_n : nat; ke_val : list C; ke_U : list (fmat C) }.

  (** numerics_Eigen.hpp:141-145: all rows, the columns of a range; outside the matrix: undefined. *)
  Definition columns (m : fmat C) (p : Z * Z) : res (fmat C) :=
    if Z.leb 0 (fst p) && Z.leb (fst p) (snd p) && Z.leb (snd p) (Z.of_nat (f_cols m)) then
      Ok (Fmat (f_rows m) (Z.to_nat (snd p - fst p)) (fun r a => f_el m r (Nat.add (Z.to_nat (fst p)) a)))
    else UB.
  (** recalc.hpp:18-34 *)
  Definition split_in_blocks (d : list Z) (e : raw_eigen C) : res (list (fmat C)) :=
    let* _ := my_assert (Nat.ltb 0 (r_count e) && Nat.leb (r_count e) (f_cols (r_vec e))) in
    mapM (fun i => let* p := part d (Z.of_nat i) in columns (r_vec e) p) (List.seq 0 (List.length d)).
  (** eigen.hpp:389-392, 248-253: the first k rows of every block are kept; more rows than there are would be uninitialised. *)
  Definition truncate_blocks (k : nat) (e : raw_eigen C) (U : list (fmat C)) : res (list (fmat C)) :=
    if Nat.leb k (r_count e) then Ok (List.map (fun u => Fmat k (f_cols u) (f_el u)) U) else UB.

  (** eigen.hpp:481-484: lowest energy of all sectors.  No sector, or one without energies: undefined. *)
  Definition lowest (e : raw_eigen C) : res C := if Nat.ltb 0 (r_count e) then Ok (r_val e 0%N) else UB.
  Definition find_Egs (diag : list (invar * raw_eigen C)) : res C :=
    match diag with
    | [] => UB
    | p :: diag' => let* x := lowest (snd p) in
                    foldM (fun m q => let* y := lowest (snd q) in Ok (if y < m then y else m)) diag' x
    end.

  (** ** Operators of the last site *)

  (** eigen.hpp:243-246: 1-based; out of range is undefined. *)
  Definition ublock (e : keig) (i : Z) : res (fmat C) :=
    match List.nth_error (ke_U e) (Z.to_nat (i - 1)) with Some u => if Z.leb 1 i then Ok u else UB | None => UB end.
  (** numerics_Eigen.hpp:97-104: M += factor A B^+ (see C61); operands that do not fit together: undefined. *)
  Definition product (M : fmat C) (factor : C) (A B : fmat C) : res (fmat C) :=
    if (0 < f_rows A)%N && (0 < f_cols A)%N && (0 < f_rows B)%N && (0 < f_cols B)%N then
      if [&& f_rows M == f_rows A, f_cols A == f_cols B & f_rows B == f_cols M] then
        Ok (Fmat (f_rows M) (f_cols M) (fun r s => f_el M r s + factor * \sum_(a < f_cols A) f_el A r a * (f_el B s a)^*))
      else UB
    else Ok M.
  (** recalc.hpp:68-117 *)
  Definition recalc_f (diag : list (invar * keig)) (I1 Ip : invar) (table : list (Z * Z * option cexpr)) : res (fmat C) :=
    let* e1 := at_key diag I1 in
    let* ep := at_key diag Ip in
    let* _ := my_assert (Z.ltb (Z.of_nat (ke_n e1)) 1000000 && Z.ltb (Z.of_nat (ke_n ep)) 1000000) in
    foldM (fun f row => match row with (i1, ip, x) =>
      match const_val x with
      | None => UB
      | Some z => let* U1 := ublock e1 i1 in let* Up := ublock ep ip in product f z U1 Up
      end end) table (Fmat (ke_n e1) (ke_n ep) (fun _ _ => 0)).
  (** symmetry.hpp:242-247 *)
  Definition stored (diag : list (invar * keig)) (J : invar) : bool :=
    match lookup diag J with Some e => Nat.ltb 0 (ke_n e) | None => false end.
  Definition have_stored (diag : list (invar * keig)) (I1 Ip : invar) : bool := stored diag I1 && stored diag Ip.

  (** std::map::operator[] and assignment. *)
  Definition set2 {V} (m : list ((invar * invar) * V)) (I J : invar) (v : V) : list ((invar * invar) * V) :=
    ((I, J), v) :: List.filter (fun p => ~~ (invar_eqb (fst (fst p)) I && invar_eqb (snd (fst p)) J)) m.
  Fixpoint update_nth {A} (l : list A) (n : nat) (f : A -> A) : list A :=
    match l, n with [], _ => [] | x :: l', 0%nat => f x :: l' | x :: l', S n' => x :: update_nth l' n' f end.
  (** opch[ch][fnr][II] = m; out of range: undefined. *)
  Definition set_op (o : opch_t C) (ch fnr : Z) (I J : invar) (m : fmat C) : res (opch_t C) :=
    if Z.ltb ch 0 || Z.ltb fnr 0 then UB else
    match List.nth_error o (Z.to_nat ch) with
    | Some fs => if Nat.ltb (Z.to_nat fnr) (List.length fs)
                 then Ok (update_nth o (Z.to_nat ch) (fun fs => update_nth fs (Z.to_nat fnr) (fun t => set2 t I J m))) else UB
    | None => UB
    end.
  (** operators.hpp:166-173: no matrices at first. *)
  Definition new_opch (perchannel : nat) : opch_t C := List.repeat (List.repeat [] perchannel) channels.
  (** nrg-recalc-*.hpp recalc_irreduc: for every sector Ip and every table.  An expression for I1 that cannot be evaluated does not
      occur. *)
  Definition recalc_one (diag : list (invar * keig)) (Ip : invar) (o : opch_t C) (t : irr_table) : res (opch_t C) :=
    match sh_apply (it_shift t) Ip with
    | None => UB
    | Some I1 => if have_stored diag I1 Ip then let* m := recalc_f diag I1 Ip (it_rows t) in set_op o (it_ch t) (it_fnr t) I1 Ip m else Ok o
    end.
  Definition recalc_irreduc (tabs : list irr_table) (perchannel : nat) (diag : list (invar * keig)) : res (opch_t C) :=
    foldM (fun o p => foldM (recalc_one diag (fst p)) tabs o) diag (new_opch perchannel).

  (** ** The iteration *)

  (** What is carried from step to step: spectra (number of stored states, energies), operators of the last site,
      stats.total_energy. *)
  Record nstate := NState { ns_prev : list (invar * (nat * list C)); ns_opch : opch_t C; ns_total : C }.

  Variables (cs : coef_set) (mo : mode) (spin perchannel : nat).
  (** The diagonaliser; the outcome of truncate_prepare (number of states kept, which may depend on all spectra). *)
  Variables (dia : fmat C -> res (raw_eigen C)) (keep : nat -> list (invar * raw_eigen C) -> invar -> nat).
  (** step.scale() before step N (SCALE(N), or 1), and P.nrg_step_scale_factor(). *)
  Variables (scale : nat -> C) (stp : C).
  Let sy := cs_sym cs.
  Let tab := cs_tab cs.
  Let combs := List.length (tb_In tab).

  (** core.hpp:106-113, diag engine: all tasks. *)
  Definition diagonalisations (N : nat) (calls : list (call C)) (st : nstate) (tasks : list invar) : res (list (invar * raw_eigen C)) :=
    mapM (fun J => let* h := hamiltonian sy combs tab (scale N.+1) stp spin (ns_prev st) (ns_opch st) J calls in
                   let* e := dia h in Ok (J, e)) tasks.
  (** core.hpp:272-299 for one sector: blocks of the eigenvectors, truncation, energies relative to the ground state. *)
  Definition finish_sector (N : nat) (sub : structure) (diag : list (invar * raw_eigen C)) (Egs : C) (p : invar * raw_eigen C) : res (invar * keig) :=
    let* sd := at_key sub (fst p) in
    let* U := split_in_blocks (sd_dims sd) (snd p) in
    let k := keep N diag (fst p) in
    let* U' := truncate_blocks k (snd p) U in
    Ok (fst p, KEig k (List.map (fun r => r_val (snd p) r - Egs) (List.seq 0 (r_count (snd p)))) U').
  (** core.hpp:301-315 [iterate]; stats.hpp:68-75. *)
  Definition nrg_step (N : nat) (st : nstate) : res nstate :=
    match calls_of N mo with
    | None => UB
    | Some calls =>
        let* sub := mk_structure sy combs tab (List.map (fun p => (fst p, Z.of_nat (fst (snd p)))) (ns_prev st)) in
        let* diag := diagonalisations N calls st (task_list sub) in
        let* Egs := find_Egs diag in
        let* kept := mapM (finish_sector N sub diag Egs) diag in
        let* opch := recalc_irreduc (cs_irr cs) perchannel kept in
        Ok (NState (List.map (fun p => (fst p, (ke_n (snd p), ke_val (snd p)))) kept) opch (ns_total st + Egs * scale N.+1))
    end.
  (** core.hpp:331-338 [nrg_loop]: n steps starting with step N. *)
  Fixpoint nrg_run (N n : nat) (st : nstate) : res nstate :=
    match n with
    | 0%nat => Ok st
    | S n' => let* st' := nrg_step N st in nrg_run N.+1 n' st'
    end.
End Fullchain.
