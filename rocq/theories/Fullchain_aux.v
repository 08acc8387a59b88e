(** Examples for C65: one orbital of spinless electrons, and a chain attached to it. *)
From Coq Require Import List ZArith Lia String Reals Lra.
From Verif Require Import Base Invar_model Invar_proofs Symmetry_model Density_model Density_sums Recalc_model Hamilton_model Linalg_model Linalg_spec Linalg_diag Linalg_aux Patch_model
  Coef_model Coef_tables Coef_tab_SL Fullchain_terms Fullchain_model Fullchain_spec Fullchain_rot Fullchain_run Fullchain_car Fullchain_spectral Fullchain_scale.
From mathcomp Require Import ssreflect ssrfun ssrbool eqtype ssrnat seq fintype bigop ssralg ssrnum.
Import GRing.Theory Num.Theory.
Local Open Scope ring_scope.

Section Example.
Variable C : numClosedFieldType.
(** Hopping 1, energy 1 on every site; scales 2^-N. *)
Definition ex_K : chain_coef C := ChainCoef (fun _ _ => 1) (fun _ _ => 1) (fun _ _ => 0) (fun _ _ => 0) (fun _ _ => 0) (fun _ _ => 0).
Definition ex_scale (N : nat) : C := 2%:R ^- N.
Definition ex_mode : mode := mk_mode "default" sl_1ch_m0_o sl_1ch_m0_d sl_1ch_m0_f.
(** The orbital: empty (energy 0) or occupied (energy 1). *)
Definition ex_T : finType := ordinal_finType 2.
Definition ex_H : oper C ex_T := fun x y => if (nat_of_ord x == 1%N) && (nat_of_ord y == 1%N) then 1 else 0.
Definition ex_F (t : irr_table) : oper C ex_T := fun x y => if (nat_of_ord x == 1%N) && (nat_of_ord y == 0%N) then 1 else 0.
Definition ex_st : nstate C :=
  NState [:: ([:: 0%Z], (1%N, [:: 0])); ([:: 1%Z], (1%N, [:: 1]))] [:: [:: [:: (([:: 1%Z], [:: 0%Z]), Fmat 1%N 1%N (fun _ _ => 1))]]] 0.
Definition ex_u (J : invar) (r : nat) (x : ex_T) : C := if invar_eqb J [:: Z.of_nat (nat_of_ord x)] then 1 else 0.
(** Keep everything; keep at most three states in a sector. *)
Definition keep_all (N : nat) (diag : list (invar * raw_eigen C)) (J : invar) : nat := match lookup diag J with Some e => r_count e | None => 0%N end.
Definition keep_three (N : nat) (diag : list (invar * raw_eigen C)) (J : invar) : nat := match lookup diag J with Some e => Nat.min (r_count e) 3 | None => 0%N end.

Lemma ex_applies : applies coef_sl_1ch Plain ex_mode.
Proof. split; [|split]; [cbn; tauto|cbn; tauto|reflexivity]. Qed.
Lemma ex_scales : scales ex_scale 2%:R.
Proof.
  move=> N. rewrite /ex_scale. split; [by rewrite invr_gt0 exprn_gt0 // ltr0n|]. rewrite exprS invfM mulrC mulrA divff ?mul1r //. by rewrite pnatr_eq0.
Qed.
Lemma ex_real : real_levels coef_sl_1ch Plain ex_K.
Proof. move=> N z s t Hin. case: s Hin => c Hin; rewrite /cval /ex_K; first [exact: rpred1|exact: rpred0]. Qed.
Lemma lookup_cases J : lookup (ns_prev ex_st) J = if invar_eqb [:: 0%Z] J then Some (1%N, [:: 0]) else if invar_eqb [:: 1%Z] J then Some (1%N, [:: 1]) else None.
Proof. rewrite /lookup. cbn [ns_prev ex_st List.find fst]. case: (invar_eqb [:: 0%Z] J) => //. by case: (invar_eqb [:: 1%Z] J). Qed.
Lemma stored_cases J : Nat.lt 0 (stored_states ex_st J) -> J = [:: 0%Z] \/ J = [:: 1%Z].
Proof.
  rewrite /stored_states lookup_cases. case E1: (invar_eqb [:: 0%Z] J); [apply (proj1 (invar_eqb_eq _ _)) in E1; by left|].
  case E2: (invar_eqb [:: 1%Z] J); [apply (proj1 (invar_eqb_eq _ _)) in E2; by right|]. rewrite /=. lia.
Qed.
Lemma ex_order : in_order coef_sl_1ch ex_st.
Proof.
  split.
  - repeat constructor; rewrite /=; intuition discriminate.
  - move=> J n e [[<- <- <-]|[[<- <- <-]|[]]]; split=> //; split=> //.
  - move=> J r. split; [|exact: rpred0]. rewrite /energy lookup_cases. case: (invar_eqb _ _); [|case: (invar_eqb _ _)]; [| |exact: rpred0]; case: r => [|[|r]]; first [exact: rpred0|exact: rpred1].
  - move=> t J J' [<-|[]] HL H1 H2. have S1 := stored_cases _ H1. have S2 := stored_cases _ H2. clear H1 H2. case: S1 HL => ->; case: S2 => -> //= _. by eexists.
Qed.
Lemma ord2 (f : ex_T -> C) : \sum_x f x = f (Ordinal (isT : (0 < 2)%N)) + f (Ordinal (isT : (1 < 2)%N)).
Proof. rewrite big_ord_recl big_ord_recl big_ord0 addr0. congr (f _ + f _); exact: val_inj. Qed.
Lemma ex_represents : represents coef_sl_1ch ex_H ex_F (ex_scale 0) ex_st ex_u.
Proof.
  have Sr J r : Nat.lt r (stored_states ex_st J) -> (J = [:: 0%Z] \/ J = [:: 1%Z]) /\ r = 0%N.
  { move=> Hr. have Hs : Nat.lt 0 (stored_states ex_st J) by lia. split; [exact: stored_cases|]. move: Hr. case: (stored_cases _ Hs) => ->; rewrite /stored_states /=; lia. }
  split.
  - move=> J r J' r' /Sr [HJ ->] /Sr [HJ' ->]. case: HJ => ->; case: HJ' => ->; rewrite /inner ord2 /ex_u /same /=; by rewrite ?rmorph1 ?rmorph0 ?mulr1 ?mulr0 ?mul0r ?addr0 ?add0r.
  - move=> J r J' r' /Sr [HJ ->] /Sr [HJ' ->]. case: HJ => ->; case: HJ' => ->; rewrite /elem !ord2 /ex_u /ex_H /same /energy /ex_scale /=; by rewrite ?expr0 ?invr1 ?rmorph1 ?rmorph0 ?mulr1 ?mulr0 ?mul0r ?addr0 ?add0r.
  - move=> t J r J' r' [<-|[]] /Sr [HJ ->] /Sr [HJ' ->]. case: HJ => ->; case: HJ' => ->; rewrite /elem !ord2 /ex_u /ex_F /=; by rewrite ?rmorph1 ?rmorph0 ?mulr1 ?mulr0 ?mul0r ?addr0 ?add0r.
Qed.
Lemma ex_complete : complete ex_st ex_u.
Proof.
  move=> x y. rewrite /= big_cons big_cons big_nil !big_ord_recl !big_ord0 /ex_u /= !addr0.
  case: x => [[|[|x]] Hx] //; case: y => [[|[|y]] Hy] //; rewrite /=; by rewrite ?rmorph1 ?rmorph0 ?mulr1 ?mulr0 ?mul0r ?addr0 ?add0r.
Qed.
Lemma all_kept : no_truncation (ideal_dia C) keep_all.
Proof. split; [by move=> N diag J e; rewrite /keep_all => ->|exact: ideal_full]. Qed.
Lemma three_sensible : sensible keep_three.
Proof.
  split.
  - move=> N diag J e. rewrite /keep_three => ->. lia.
  - move=> N [|[J e] diag] // _ Hp. exists J, e. have El : lookup ((J, e) :: diag) J = Some e by rewrite /lookup /= invar_eqb_refl. split=> //. rewrite /keep_three El. have := Hp _ (or_introl erefl). rewrite /=. lia.
Qed.
Lemma ex_total (h : fmat C) : f_cols h = f_rows h -> (0 < f_rows h)%N -> exists e, ideal_dia C h = Ok e.
Proof. move=> _. exact: ideal_total. Qed.
Lemma ex_sizes J k e : List.In (J, (k, e)) (ns_prev ex_st) -> (Z.of_nat k <= 1)%Z.
Proof. move=> [[_ <- _]|[[_ <- _]|[]]]; lia. Qed.
Lemma ex_some : exists J, Nat.lt 0 (stored_states ex_st J).
Proof. exists [:: 0%Z]. rewrite /stored_states /=. lia. Qed.
(** Six added sites, all 128 states; any number of sites, at most three states in a sector. *)
Lemma ex_full : exists s, run ex_K coef_sl_1ch ex_mode (ideal_dia C) keep_all ex_scale 2%:R 0 6 ex_st = Ok s.
Proof.
  have [|s [E _]] := run_succ_full C coef_sl_1ch Plain ex_mode ex_applies ex_K (ideal_dia C) keep_all ex_scale 2%:R (ideal_diagonaliser C) ex_scales ex_real 0 ex_st ex_T ex_H ex_F ex_u ex_order ex_represents 6 1%Z ex_total all_kept ex_sizes ex_some; [|by exists s].
  by [].
Qed.
Lemma ex_cut n : exists s, run ex_K coef_sl_1ch ex_mode (ideal_dia C) keep_three ex_scale 2%:R 0 n ex_st = Ok s.
Proof.
  have [||s [E _]] := run_succ C coef_sl_1ch Plain ex_mode ex_applies ex_K (ideal_dia C) keep_three ex_scale 2%:R (ideal_diagonaliser C) ex_scales ex_real 0 ex_st ex_T ex_H ex_F ex_u ex_order ex_represents n ex_total three_sensible; [|exact: ex_some|by exists s].
  move=> J k e /ex_sizes. lia.
Qed.
Lemma ex_fermions : fermions [:: ex_F sl_1ch_t1].
Proof.
  move=> [|[|i]] [|[|j]] A B x y //= [<-] [<-]. rewrite /anti /addo /mulo !ord2 /adj /ex_F /unit_op.
  case: x => [[|[|x]] Hx] //; case: y => [[|[|y]] Hy] //; rewrite /= -?val_eqE /=; by rewrite ?rmorph1 ?rmorph0 ?mulr1 ?mulr0 ?mul0r ?addr0 ?add0r.
Qed.
Lemma ex_hermitian x y : adj ex_H x y = ex_H x y.
Proof. rewrite /adj /ex_H andbC. case: (_ && _); [exact: rmorph1|exact: rmorph0]. Qed.
End Example.
