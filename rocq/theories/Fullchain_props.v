(** C65: the states of an NRG run are states of the whole Wilson chain. *)
From Coq Require Import List ZArith.
From mathcomp Require Import ssreflect ssrfun ssrbool eqtype ssrnat fintype bigop ssralg ssrnum.
From Verif Require Import Base Invar_model Density_model Hamilton_model Linalg_model Linalg_spec Linalg_aux Coef_model Coef_tables Coef_tab_SL
  Fullchain_terms Fullchain_model Fullchain_spec Fullchain_final Fullchain_spectral Fullchain_aux.
Import ListNotations GRing.Theory Num.Theory.
Local Open Scope ring_scope.

(** C65: for any truncation.  If the data before step N0 represent (H, F) - orthonormal states, all matrix elements of the Hamiltonian
    and of the creation operators between them - then the data after n more steps represent the Hamiltonian of the chain with n more
    sites and the creation operators of its last site.  No energy is negative, and none lies below the ground-state energy of the chain. *)
Theorem C65_any_truncation (C : numClosedFieldType) cs se mo (K : chain_coef C) dia keep scale stp N0 n (T : finType) (H : oper C T) F st s u :
  applies cs se mo -> diagonaliser dia -> scales scale stp -> real_levels cs se K ->
  in_order cs st -> represents cs H F (scale N0) st u ->
  run K cs mo dia keep scale stp N0 n st = Ok s ->
  exists u' : invar -> nat -> chain cs T n -> C,
    in_order cs s /\
    represents cs (chain_ops cs se K N0 H F n).1 (chain_ops cs se K N0 H F n).2 (scale (Nat.add N0 n)) s u' /\
    (Nat.lt 0 n -> forall J r, Nat.lt r (stored_states s J) -> 0 <= energy s J r) /\
    forall b, (forall w, b * inner w w <= elem w (chain_ops cs se K N0 H F n).1 w) ->
      forall J r, Nat.lt r (stored_states s J) -> b <= scale (Nat.add N0 n) * energy s J r + ns_total s.
Proof. exact (@any_truncation C cs se mo K dia keep scale stp N0 n T H F st s u). Qed.
Print Assumptions C65_any_truncation.
Example C65_any_truncation_case (C : numClosedFieldType) n :
  applies coef_sl_1ch Plain ex_mode /\ diagonaliser (ideal_dia C) /\ scales (ex_scale C) 2%:R /\ real_levels coef_sl_1ch Plain (ex_K C) /\
  in_order coef_sl_1ch (ex_st C) /\ represents coef_sl_1ch (ex_H C) (ex_F C) (ex_scale C 0) (ex_st C) (ex_u C) /\
  exists s, run (ex_K C) coef_sl_1ch ex_mode (ideal_dia C) (keep_three C) (ex_scale C) 2%:R 0 n (ex_st C) = Ok s.
Proof. exact (conj ex_applies (conj (ideal_diagonaliser C) (conj (ex_scales C) (conj (ex_real C) (conj (ex_order C) (conj (ex_represents C) (ex_cut C n))))))). Qed.

(** C65: without truncation the run is the exact diagonalisation of the chain: every stored state is an eigenstate with the stored
    energy, the states are complete, and the lowest energy is zero. *)
Theorem C65_exact (C : numClosedFieldType) cs se mo (K : chain_coef C) dia keep scale stp N0 n (T : finType) (H : oper C T) F st s u :
  applies cs se mo -> diagonaliser dia -> scales scale stp -> real_levels cs se K ->
  in_order cs st -> represents cs H F (scale N0) st u ->
  run K cs mo dia keep scale stp N0 n st = Ok s -> no_truncation dia keep -> complete st u ->
  exists u' : invar -> nat -> chain cs T n -> C,
    represents cs (chain_ops cs se K N0 H F n).1 (chain_ops cs se K N0 H F n).2 (scale (Nat.add N0 n)) s u' /\
    complete s u' /\
    (forall J r x, Nat.lt r (stored_states s J) ->
      \sum_y u' J r y * (chain_ops cs se K N0 H F n).1 y x = (scale (Nat.add N0 n) * energy s J r + ns_total s) * u' J r x) /\
    List.list_sum (List.map (fun p => fst (snd p)) (ns_prev s)) = (#|T| * local_states cs ^ n)%N /\
    (Nat.lt 0 n -> exists J, Nat.lt 0 (stored_states s J) /\ energy s J 0 = 0).
Proof. exact (@without_truncation C cs se mo K dia keep scale stp N0 n T H F st s u). Qed.
Print Assumptions C65_exact.
Example C65_exact_case (C : numClosedFieldType) :
  no_truncation (ideal_dia C) (keep_all C) /\ complete (ex_st C) (ex_u C) /\
  exists s, run (ex_K C) coef_sl_1ch ex_mode (ideal_dia C) (keep_all C) (ex_scale C) 2%:R 0 6 (ex_st C) = Ok s.
Proof. exact (conj (all_kept C) (conj (ex_complete C) (ex_full C))). Qed.

(** C65: a run cannot fail if the diagonaliser does not, some states are kept in every step and less than a million in each sector. *)
Theorem C65_succeeds (C : numClosedFieldType) cs se mo (K : chain_coef C) dia keep scale stp N0 n (T : finType) (H : oper C T) F st u :
  applies cs se mo -> diagonaliser dia -> scales scale stp -> real_levels cs se K ->
  in_order cs st -> represents cs H F (scale N0) st u ->
  (forall h, f_cols h = f_rows h -> (0 < f_rows h)%N -> exists e, dia h = Ok e) -> (exists J, Nat.lt 0 (stored_states st J)) ->
  sensible keep -> (forall J k e, List.In (J, (k, e)) (ns_prev st) -> (Z.of_nat k <= 1000000)%Z) ->
  exists s, run K cs mo dia keep scale stp N0 n st = Ok s /\ exists J, Nat.lt 0 (stored_states s J).
Proof. exact (@succeeds C cs se mo K dia keep scale stp N0 n T H F st u). Qed.
Print Assumptions C65_succeeds.
Example C65_succeeds_case (C : numClosedFieldType) :
  (forall h, f_cols h = f_rows h -> (0 < f_rows h)%N -> exists e, ideal_dia C h = Ok e) /\ (exists J, Nat.lt 0 (stored_states (ex_st C) J)) /\ sensible (keep_three C).
Proof. exact (conj (ex_total C) (conj (ex_some C) (three_sensible C))). Qed.

(** C65: nor can a run without truncation of a chain that is short enough. *)
Theorem C65_exact_succeeds (C : numClosedFieldType) cs se mo (K : chain_coef C) dia keep scale stp N0 n (T : finType) (H : oper C T) F st u M :
  applies cs se mo -> diagonaliser dia -> scales scale stp -> real_levels cs se K ->
  in_order cs st -> represents cs H F (scale N0) st u ->
  (forall h, f_cols h = f_rows h -> (0 < f_rows h)%N -> exists e, dia h = Ok e) -> (exists J, Nat.lt 0 (stored_states st J)) ->
  no_truncation dia keep -> (forall J k e, List.In (J, (k, e)) (ns_prev st) -> (Z.of_nat k <= M)%Z) ->
  (M * Z.of_nat (local_states cs) ^ Z.of_nat n < 1000000)%Z ->
  exists s, run K cs mo dia keep scale stp N0 n st = Ok s.
Proof. exact (fun H1 H2 H3 H4 H5 H6 H7 H8 => @succeeds_full C cs se mo K dia keep scale stp N0 n T H F st u H1 H2 H3 H4 H5 H6 H7 H8 M). Qed.
Print Assumptions C65_exact_succeeds.
Example C65_exact_succeeds_case (C : numClosedFieldType) :
  no_truncation (ideal_dia C) (keep_all C) /\ (forall J k e, List.In (J, (k, e)) (ns_prev (ex_st C)) -> (Z.of_nat k <= 1)%Z) /\
  (1 * Z.of_nat (local_states coef_sl_1ch) ^ Z.of_nat 6 < 1000000)%Z.
Proof. exact (conj (all_kept C) (conj (ex_sizes C) (Logic.eq_refl : (1 * Z.of_nat (local_states coef_sl_1ch) ^ Z.of_nat 6 ?= 1000000)%Z = Lt))). Qed.

(** C65: the terms of the chain are built from fermion operators: if those of the cluster anticommute, so do those of the whole chain,
    and a site has all states of its orbitals. *)
Theorem C65_canonical (C : numClosedFieldType) cs se mo (T : finType) (G : list (oper C T)) n : applies cs se mo -> fermions G ->
  fermions (all_orbitals cs G n) /\ List.length (all_orbitals cs G n) = Nat.add (List.length G) (Nat.mul n (List.length (cs_irr cs))) /\
  local_states cs = Nat.pow 2 (List.length (cs_irr cs)).
Proof. exact (@canonical C cs se mo T G n). Qed.
Print Assumptions C65_canonical.
Example C65_canonical_case (C : numClosedFieldType) : applies coef_sl_1ch Plain ex_mode /\ fermions [ex_F C sl_1ch_t1].
Proof. exact (conj ex_applies (ex_fermions C)). Qed.

(** C65: the Hamiltonian of the chain is Hermitian. *)
Theorem C65_hermitian (C : numClosedFieldType) cs se (K : chain_coef C) N0 (T : finType) (H : oper C T) F n : real_levels cs se K ->
  (forall x y, adj H x y = H x y) -> forall x y, adj (chain_ops cs se K N0 H F n).1 x y = (chain_ops cs se K N0 H F n).1 x y.
Proof. exact (@chain_hermitian C cs se K N0 T H F n). Qed.
Print Assumptions C65_hermitian.
Example C65_hermitian_case (C : numClosedFieldType) : real_levels coef_sl_1ch Plain (ex_K C) /\ forall x y, adj (ex_H C) x y = ex_H C x y.
Proof. exact (conj (ex_real C) (ex_hermitian C)). Qed.

(** C65: the drivers of C60 are diagonalisers. *)
Theorem C65_driver (C : numClosedFieldType) lp max_size complex name upper ratio saveram : lapack_contract lp ->
  diagonaliser (fun m : fmat C => diagonalise (2 ^ 31 - 1) lp max_size complex name upper m ratio saveram).
Proof. exact (@driver_is_one C lp max_size complex name upper ratio saveram). Qed.
Print Assumptions C65_driver.
Example C65_driver_case (C : numClosedFieldType) : lapack_contract (ex_lapack C).
Proof. exact (ex_contract C). Qed.

(** C65: every Hermitian matrix can be diagonalised, so a diagonaliser that always answers exists. *)
Theorem C65_diagonalisable (C : numClosedFieldType) n m : (0 < n)%N -> exists w U, lowest_eigenpairs (C := C) n (hermitian m) n w U.
Proof. exact (@eigenpairs_exist C n m). Qed.
Print Assumptions C65_diagonalisable.
Example C65_diagonalisable_case : (0 < 2)%N.
Proof. exact isT. Qed.
