(** The theorems of C65. *)
From Coq Require Import List ZArith Lia String.
From Verif Require Import Base Invar_model Density_model Recalc_model Hamilton_model Linalg_model Linalg_spec Linalg_diag
  Coef_model Coef_tables Fullchain_terms Fullchain_check Fullchain_model Fullchain_spec Fullchain_run Fullchain_car.
From mathcomp Require Import ssreflect ssrfun ssrbool eqtype ssrnat seq fintype bigop ssralg ssrnum.
Import GRing.Theory Num.Theory.
Local Open Scope ring_scope.

Section Final.
Variables (C : numClosedFieldType) (cs : coef_set) (se : setting) (mo : mode) (K : chain_coef C) (dia : fmat C -> res (raw_eigen C))
  (keep : nat -> list (invar * raw_eigen C) -> invar -> nat) (scale : nat -> C) (stp : C) (N0 n : nat) (T : finType) (H : oper C T)
  (F : irr_table -> oper C T) (st s : nstate C) (u : invar -> nat -> T -> C).
Hypotheses (Happ : applies cs se mo) (Hdia : diagonaliser dia) (Hsc : scales scale stp) (Hlev : real_levels cs se K)
  (Hord : in_order cs st) (Hrep : represents cs H F (scale N0) st u).

Lemma any_truncation : run K cs mo dia keep scale stp N0 n st = Ok s ->
  exists u' : invar -> nat -> chain cs T n -> C,
    in_order cs s /\
    represents cs (chain_ops cs se K N0 H F n).1 (chain_ops cs se K N0 H F n).2 (scale (Nat.add N0 n)) s u' /\
    (Nat.lt 0 n -> forall J r, Nat.lt r (stored_states s J) -> 0 <= energy s J r) /\
    forall b, (forall w, b * inner w w <= elem w (chain_ops cs se K N0 H F n).1 w) ->
      forall J r, Nat.lt r (stored_states s J) -> b <= scale (Nat.add N0 n) * energy s J r + ns_total s.
Proof.
  move=> Hrun. have [u' [O R P _]] := run_inv C cs se mo Happ K dia keep scale stp Hdia Hsc Hlev N0 st T H F u Hord Hrep n s Hrun.
  exists u'. split=> //. split=> //. split=> //. move=> b Hb J r Hr. exact: (lower_bound _ _ _ _ _ _ _ _ R b Hb J r Hr).
Qed.
Lemma without_truncation : run K cs mo dia keep scale stp N0 n st = Ok s -> no_truncation dia keep -> complete st u ->
  exists u' : invar -> nat -> chain cs T n -> C,
    represents cs (chain_ops cs se K N0 H F n).1 (chain_ops cs se K N0 H F n).2 (scale (Nat.add N0 n)) s u' /\
    complete s u' /\
    (forall J r x, Nat.lt r (stored_states s J) ->
      \sum_y u' J r y * (chain_ops cs se K N0 H F n).1 y x = (scale (Nat.add N0 n) * energy s J r + ns_total s) * u' J r x) /\
    List.list_sum (List.map (fun p => fst (snd p)) (ns_prev s)) = (#|T| * local_states cs ^ n)%N /\
    (Nat.lt 0 n -> exists J, Nat.lt 0 (stored_states s J) /\ energy s J 0 = 0).
Proof.
  move=> Hrun HT Hc. have [u' [O R P Q]] := run_inv C cs se mo Happ K dia keep scale stp Hdia Hsc Hlev N0 st T H F u Hord Hrep n s Hrun.
  have [Hc' Hz] := Q HT Hc. exists u'. split=> //. split=> //. split; [|split=> //].
  - move=> J r x Hr. exact: (exact_state _ _ _ _ _ _ _ _ O R Hc').
  - rewrite (number_of_states _ _ _ _ _ _ _ _ O R Hc'). exact: chain_size.
Qed.
Hypotheses (Htot : forall h, f_cols h = f_rows h -> (0 < f_rows h)%N -> exists e, dia h = Ok e) (Hne : exists J, Nat.lt 0 (stored_states st J)).
Lemma succeeds : sensible keep -> (forall J k e, List.In (J, (k, e)) (ns_prev st) -> (Z.of_nat k <= 1000000)%Z) ->
  exists s', run K cs mo dia keep scale stp N0 n st = Ok s' /\ exists J, Nat.lt 0 (stored_states s' J).
Proof.
  move=> Hk Hsz. have [s' [E [_ X]]] := run_succ C cs se mo Happ K dia keep scale stp Hdia Hsc Hlev N0 st T H F u Hord Hrep n Htot Hk Hsz Hne. by exists s'.
Qed.
Lemma succeeds_full M : no_truncation dia keep -> (forall J k e, List.In (J, (k, e)) (ns_prev st) -> (Z.of_nat k <= M)%Z) ->
  (M * Z.of_nat (local_states cs) ^ Z.of_nat n < 1000000)%Z -> exists s', run K cs mo dia keep scale stp N0 n st = Ok s'.
Proof.
  move=> Hk Hsz Hb. have [s' [E _]] := run_succ_full C cs se mo Happ K dia keep scale stp Hdia Hsc Hlev N0 st T H F u Hord Hrep n M Htot Hk Hsz Hne Hb. by exists s'.
Qed.
End Final.

Lemma canonical (C : numClosedFieldType) cs se mo (T : finType) (G : list (oper C T)) n : applies cs se mo -> fermions G ->
  fermions (all_orbitals cs G n) /\ List.length (all_orbitals cs G n) = Nat.add (List.length G) (Nat.mul n (List.length (cs_irr cs))) /\
  local_states cs = Nat.pow 2 (List.length (cs_irr cs)).
Proof.
  move=> Happ HG. have [Hck _] := applies_ok cs se mo Happ. split; [exact: (fermions_chain C cs se mo Hck)|]. split; [exact: orbitals_number|]. exact: (site_states cs se mo).
Qed.
Lemma chain_hermitian (C : numClosedFieldType) cs se (K : chain_coef C) N0 (T : finType) (H : oper C T) F n : real_levels cs se K ->
  (forall x y, adj H x y = H x y) -> forall x y, adj (chain_ops cs se K N0 H F n).1 x y = (chain_ops cs se K N0 H F n).1 x y.
Proof. exact: herm_chain. Qed.
Lemma driver_is_one (C : numClosedFieldType) lp ms complex name up ratio sr : lapack_contract lp ->
  diagonaliser (fun m : fmat C => diagonalise (2 ^ 31 - 1) lp ms complex name up m ratio sr).
Proof. move=> L h e E S D. by have [? [? [? [? ?]]]] := diagonalise_eigenpairs L S D E; split=> //; apply/andP. Qed.
