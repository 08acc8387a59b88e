(** Forms of the lemmas used by Spectral_props, and concrete cases. *)
From Coq Require Import List ZArith Lia Permutation Ring.
From Verif Require Import Cring Base Invar_model Symmetry_model Symmetry_spec Symmetry_tables Subspaces_model
  Density_model Density_spec Density_sums Density_proofs Density_chain Density_fdm Density_expect Density_aux Spectral_model Spectral_spec Spectral_proofs Spectral_sum.
From mathcomp Require Import ssreflect ssrfun ssrbool eqtype ssrnat seq fintype bigop ssralg order ssrnum.
Import GRing.Theory Num.Theory.
Local Open Scope ring_scope.
Set Implicit Arguments.
Unset Strict Implicit.
Unset Printing Implicit Defensive.

Section Forms.
  Variables (C : numClosedFieldType) (gt : gf_type) (bz : C -> C) (a : args C) (rho : densmat C).
  Hypothesis Hfit : fits a.

  Lemma fdm_greater wnf ri : matrix_for rho (a_Ii a) (a_i a) ri ->
    exists l, calc_FDMgt bz a rho wnf = Ok l /\
      Permutation l (List.map (greater (a_factor a) (s_G (a_j a)) (s_G (a_i a)) (s_all (a_i a)) (f_el (a_op1 a)) (f_el (a_op2 a))
          (shell_matrix (refined (a_i a)) (f_el ri) (fun i => wnf * bz (s_G (a_i a) i))))
        (transitions (s_all (a_j a)) (s_all (a_i a)) (refined (a_j a)) (refined (a_i a)))).
  Proof.
    move=> Hi. eexists. split; first exact: (FDMgt_list bz wnf Hfit Hi). apply: Permutation_map. exact: fdm_pairs_transitions.
  Qed.
  Lemma fdm_lesser wnf rj : matrix_for rho (a_Ij a) (a_j a) rj ->
    exists l, calc_FDMls gt bz a rho wnf = Ok l /\
      Permutation l (List.map (lesser (statistics C gt) (a_factor a) (s_G (a_j a)) (s_G (a_i a)) (s_all (a_j a)) (f_el (a_op1 a)) (f_el (a_op2 a))
          (shell_matrix (refined (a_j a)) (f_el rj) (fun j => wnf * bz (s_G (a_j a) j))))
        (transitions (s_all (a_j a)) (s_all (a_i a)) (refined (a_j a)) (refined (a_i a)))).
  Proof.
    move=> Hj. eexists. split; first exact: (FDMls_list gt bz wnf Hfit Hj). apply: Permutation_map. exact: fdm_pairs_transitions.
  Qed.
  Lemma fdm_both wnf ri rj : matrix_for rho (a_Ii a) (a_i a) ri -> matrix_for rho (a_Ij a) (a_j a) rj ->
    exists lg ll, calc_FDM gt bz a rho wnf = Ok (lg, ll) /\ calc_FDMgt bz a rho wnf = Ok lg /\ calc_FDMls gt bz a rho wnf = Ok ll.
  Proof.
    move=> Hi Hj. do 2 eexists. split; first exact: (FDM_list gt bz wnf Hfit Hi Hj). split; [exact: (FDMgt_list bz wnf Hfit Hi)|exact: (FDMls_list gt bz wnf Hfit Hj)].
  Qed.

  Lemma greater_part_eq ri : cfs_greater a ri = greater_part a (f_el ri).
  Proof. by rewrite /cfs_greater /greater_part loop2_prod /kept /discarded /irange subn0. Qed.
  Lemma lesser_part_eq rj : cfs_lesser gt a rj = lesser_part gt a (f_el rj).
  Proof. by rewrite /cfs_lesser /lesser_part loop2_prod /kept /discarded /irange subn0. Qed.
  Lemma map_id_on {T} (f : T -> T) l : (forall x, f x = x) -> List.map f l = l.
  Proof. move=> H. by elim: l => [//|x l IH] /=; rewrite H IH. Qed.

  Lemma cfs_parts Z ri rj : matrix_for rho (a_Ii a) (a_i a) ri -> matrix_for rho (a_Ij a) (a_j a) rj -> s_last (a_i a) = false -> s_last (a_j a) = false ->
    calc_CFSgt bz a rho false Z = Ok (List.map (rescale (- statistics C gt)) (lesser_part gt a (f_el rj))) /\
    calc_CFSls gt bz a rho false Z = Ok (List.map (rescale (- statistics C gt)) (greater_part a (f_el ri))).
  Proof. move=> Hi Hj Li Lj. rewrite -greater_part_eq -lesser_part_eq. split; [exact: CFSgt_list|exact: CFSls_list]. Qed.
  Lemma cfs_total Z ri rj : matrix_for rho (a_Ii a) (a_i a) ri -> matrix_for rho (a_Ij a) (a_j a) rj -> s_last (a_i a) = false -> s_last (a_j a) = false ->
    calc_CFS gt bz a rho false Z = Ok (match gt with fermionic => lesser_part gt a (f_el rj) ++ greater_part a (f_el ri)
      | bosonic => List.map (@negate C) (lesser_part gt a (f_el rj) ++ greater_part a (f_el ri)) end)%list.
  Proof.
    move=> Hi Hj Li Lj. rewrite (CFS_list gt bz Z Hfit Hi Hj Li Lj) greater_part_eq lesser_part_eq. case: gt; congr (Ok _).
    - apply: List.map_ext => p. by rewrite /rescale /negate /= mulN1r.
    - rewrite map_id_on // => -[e w]. by rewrite /rescale /= opprK mul1r.
  Qed.
  Lemma cfs_last Z : calc_CFS gt bz a rho true Z =
    Ok (List.map (thermal_greater bz Z a) (List.list_prod (kept_states (a_j a)) (kept_states (a_i a))) ++
        List.map (thermal_lesser gt bz Z a) (List.list_prod (kept_states (a_j a)) (kept_states (a_i a))))%list.
  Proof. rewrite (CFS_last gt bz rho Z Hfit) !loop2_prod /kept /irange !subn0. by []. Qed.
  Lemma ft_all Z : calc_FT gt bz a Z =
    Ok (List.map (fun ji => joined (thermal_greater bz Z a ji) (thermal_lesser gt bz Z a ji)) (List.list_prod (kept_states (a_j a)) (kept_states (a_i a)))).
  Proof. rewrite (FT_list gt bz Z Hfit) !loop2_prod /kept /irange !subn0. by []. Qed.
  Lemma dmnrg_all guard ri rj : covers_kept rho (a_Ii a) (a_i a) ri -> covers_kept rho (a_Ij a) (a_j a) rj ->
    calc_DMNRG gt a rho guard = Ok (List.map (both_parts gt a (transpose (f_el ri)) (transpose (f_el rj)))
      (List.filter (fun ji => ~~ guard (s_zero (a_j a) (fst ji) - s_zero (a_i a) (snd ji))) (List.list_prod (kept_states (a_j a)) (kept_states (a_i a))))).
  Proof. move=> Hi Hj. rewrite (DMNRG_list gt Hfit guard Hi Hj) /accepted !loop2_prod /kept /irange !subn0. by []. Qed.
  Lemma dmnrg_symmetric guard ri rj : covers_kept rho (a_Ii a) (a_i a) ri -> covers_kept rho (a_Ij a) (a_j a) rj ->
    symmetric_on (s_post (a_i a)) (f_el ri) -> symmetric_on (s_post (a_j a)) (f_el rj) ->
    calc_DMNRG gt a rho guard = Ok (List.map (both_parts gt a (f_el ri) (f_el rj))
      (List.filter (fun ji => ~~ guard (s_zero (a_j a) (fst ji) - s_zero (a_i a) (snd ji))) (List.list_prod (kept_states (a_j a)) (kept_states (a_i a))))).
  Proof. move=> Hi Hj Si Sj. rewrite (DMNRG_symmetric gt Hfit guard Hi Hj Si Sj) /accepted !loop2_prod /kept /irange !subn0. by []. Qed.
End Forms.

Section SumRule.
  Variables (C : numClosedFieldType) (sh : shipped_table) (near : C -> C -> bool) (checkrho : bool) (tiny : C -> bool).
  Hypothesis near_refl : forall x, near x x.
  Variables (Ninit Nmax : nat) (diag_file : nat -> diaginfo C) (store_all : nat -> backsubs) (store : nat -> thermosubs C) (wn : nat -> C)
    (bz : C -> C) (wnf : nat -> C) (E : nat -> invar -> nat -> C) (l : list (nat * densmat C)) (gt : gf_type) (A B : nat -> invar -> nat -> nat -> C).
  Hypotheses (Hfp : first_pass sh Ninit Nmax diag_file store_all) (Hfd : fdm_data Ninit Nmax diag_file store_all store wn)
    (Hcd : complete_data sh Ninit Nmax diag_file store_all store wn bz wnf E)
    (Hl : prepare_rhoFDM (sh_sym sh) (sh_combs sh) (sh_tab sh) near checkrho diag_file store_all store wn tiny Ninit Nmax = Ok l).
  Lemma fdm_shells_succeed N rho : (Ninit <= N < Nmax)%N -> In (N, rho) l ->
    (exists ps, shell_peaks (sh_sym sh) (fun a => calc_FDMgt bz a rho (wnf N)) (E N) (A N) (B N) (store N) = Ok ps) /\
    (exists ps, shell_peaks (sh_sym sh) (fun a => calc_FDMls gt bz a rho (wnf N)) (E N) (A N) (B N) (store N) = Ok ps).
  Proof.
    move=> HN Hin. split.
    - have [ps [E1 _]] := shell_gt near_refl Hfp Hfd Hcd Hl (A N) (B N) HN Hin. by exists ps.
    - have [ps [E1 _]] := shell_ls near_refl Hfp Hfd Hcd Hl gt (A N) (B N) HN Hin. by exists ps.
  Qed.
  Hypotheses (HA : followed sh Ninit Nmax diag_file A) (HB : followed sh Ninit Nmax diag_file B).
  Lemma fdm_sum_rule gpeaks lpeaks rho0 :
    (forall N rho, (Ninit <= N < Nmax)%N -> In (N, rho) l ->
     shell_peaks (sh_sym sh) (fun a => calc_FDMgt bz a rho (wnf N)) (E N) (A N) (B N) (store N) = Ok (gpeaks N) /\
     shell_peaks (sh_sym sh) (fun a => calc_FDMls gt bz a rho (wnf N)) (E N) (A N) (B N) (store N) = Ok (lpeaks N)) ->
    In (Ninit, rho0) l ->
    \sum_(Ninit <= N < Nmax) total_weight (gpeaks N) =
      shell_average (sh_sym sh) (Ninit == (Nmax - 1)%N) rho0 (store Ninit) (wn Ninit) (dagger_times (dim_of (store Ninit)) (A Ninit) (B Ninit)) /\
    \sum_(Ninit <= N < Nmax) total_weight (lpeaks N) =
      - statistics C gt * shell_average (sh_sym sh) (Ninit == (Nmax - 1)%N) rho0 (store Ninit) (wn Ninit) (times_dagger (dim_of (store Ninit)) (A Ninit) (B Ninit)).
  Proof.
    move=> Hp H0. split.
    - apply: (fdm_gt_sum near_refl Hfp Hfd Hcd Hl HA HB) => // N rho HN Hin. by case: (Hp N rho HN Hin).
    - apply: (fdm_ls_sum near_refl Hfp Hfd Hcd Hl HA HB) => // N rho HN Hin. by case: (Hp N rho HN Hin).
  Qed.
End SumRule.

(** *** Concrete cases *)
Section Cases.
  Variable C : numClosedFieldType.
  Definition cs_sector : sector C := Sector 2 1 false (fun i => i%:R) (fun i => i%:R).
  Definition cs_op : fmat C := Fmat 2 2 (fun _ _ => 1).
  Definition cs_rho : fmat C := Fmat 1 1 (fun _ _ => 1).
  Definition cs_args : args C := Args cs_sector cs_sector cs_op cs_op 1 (key 0) (key 1).
  Definition cs_dm : densmat C := [:: (key 0, cs_rho); (key 1, cs_rho)].
  Lemma cs_fits : fits cs_args. Proof. by []. Qed.
  Lemma cs_mi : matrix_for cs_dm (a_Ii cs_args) (a_i cs_args) cs_rho. Proof. by []. Qed.
  Lemma cs_mj : matrix_for cs_dm (a_Ij cs_args) (a_j cs_args) cs_rho. Proof. by []. Qed.
  Lemma case_C23 : fits cs_args /\ matrix_for cs_dm (a_Ii cs_args) (a_i cs_args) cs_rho /\ matrix_for cs_dm (a_Ij cs_args) (a_j cs_args) cs_rho /\
    transitions (s_all (a_j cs_args)) (s_all (a_i cs_args)) (refined (a_j cs_args)) (refined (a_i cs_args)) = [:: (0, 1); (1, 0); (1, 1)]%N.
  Proof. by []. Qed.

  (** Bosons: one step before the last; the code subtracts what should be added. *)
  Lemma case_greater : greater_part cs_args (f_el cs_rho) = [:: (1, 1)].
  Proof. by rewrite /greater_part /greater /= big_ord_recl big_ord0 addr0 conjC1 !mul1r subr0. Qed.
  Lemma case_lesser gt : lesser_part gt cs_args (f_el cs_rho) = [:: (-1, - statistics C gt)].
  Proof. by rewrite /lesser_part /lesser' /= big_ord_recl big_ord0 addr0 conjC1 !mulr1 mul1r sub0r. Qed.
  Lemma perm_total (l l' : list (peak C)) : Permutation l l' -> \sum_(p <- l) (fst p + 1) * snd p = \sum_(p <- l') (fst p + 1) * snd p.
  Proof. exact: big_perm_list. Qed.
  Lemma case_C43 bz Z : fits cs_args /\ matrix_for cs_dm (a_Ii cs_args) (a_i cs_args) cs_rho /\ matrix_for cs_dm (a_Ij cs_args) (a_j cs_args) cs_rho /\
    s_last (a_i cs_args) = false /\ s_last (a_j cs_args) = false /\
    exists l, calc_CFS bosonic bz cs_args cs_dm false Z = Ok l /\ ~ Permutation l (lesser_part bosonic cs_args (f_el cs_rho) ++ greater_part cs_args (f_el cs_rho)).
  Proof.
    do 5 (split=> //). eexists. split; first exact: (cfs_total bosonic bz cs_fits Z cs_mi cs_mj).
    rewrite case_greater case_lesser => /perm_total. rewrite /= !big_cons !big_nil /= addNr !mul0r !add0r !addr0 !mulr1 mulrN1 => E.
    have : (1 + 1) + (1 + 1) == 0 :> C by rewrite -{1}E addNr. by rewrite -!(natrD _ 1 1) -natrD pnatr_eq0.
  Qed.
  (** Fermions: the lesser algorithm alone returns the greater part of the step. *)
  Lemma case_C43_parts bz Z : fits cs_args /\ matrix_for cs_dm (a_Ii cs_args) (a_i cs_args) cs_rho /\ matrix_for cs_dm (a_Ij cs_args) (a_j cs_args) cs_rho /\
    s_last (a_i cs_args) = false /\ s_last (a_j cs_args) = false /\
    exists l, calc_CFSls fermionic bz cs_args cs_dm false Z = Ok l /\ l = greater_part cs_args (f_el cs_rho) /\ ~ Permutation l (lesser_part fermionic cs_args (f_el cs_rho)).
  Proof.
    do 5 (split=> //). have [_ E] := cfs_parts fermionic bz cs_fits Z cs_mi cs_mj erefl erefl. eexists. split; first exact: E.
    have -> : List.map (rescale (- statistics C fermionic)) (greater_part cs_args (f_el cs_rho)) = greater_part cs_args (f_el cs_rho).
    { by rewrite case_greater /= /rescale /= opprK mul1r. }
    split=> //. rewrite case_greater case_lesser => /perm_total. rewrite /= !big_cons !big_nil /= addNr !mul0r !addr0 !mulr1. move/eqP.
    by rewrite -(natrD _ 1 1) pnatr_eq0.
  Qed.
  Lemma case_C43_C44 : fits cs_args /\ matrix_for cs_dm (a_Ii cs_args) (a_i cs_args) cs_rho /\ matrix_for cs_dm (a_Ij cs_args) (a_j cs_args) cs_rho /\
    covers_kept cs_dm (a_Ii cs_args) (a_i cs_args) cs_rho /\ symmetric_on 1 (f_el cs_rho) /\
    greater_part cs_args (f_el cs_rho) = [:: (1, 1)] /\ lesser_part bosonic cs_args (f_el cs_rho) = [:: (-1, -1)].
  Proof. do 5 (split=> //). split; [exact: case_greater|exact: case_lesser]. Qed.

  (** Complex density matrix. *)
  Definition cx_i : sector C := Sector 2 2 false (fun _ => 0) (fun _ => 0).
  Definition cx_j : sector C := Sector 1 1 false (fun _ => 1) (fun _ => 1).
  Definition cx_A : fmat C := Fmat 1 2 (fun _ i => if i == 0%N then 1 else 0).
  Definition cx_B : fmat C := Fmat 1 2 (fun _ i => if i == 0%N then 0 else 1).
  Definition cx_ri : fmat C := Fmat 2 2 (fun i j => if i == j then 1 else if i == 0%N then 'i else - 'i).
  Definition cx_rj : fmat C := Fmat 1 1 (fun _ _ => 1).
  Definition cx_args : args C := Args cx_i cx_j cx_A cx_B 1 (key 0) (key 1).
  Definition cx_dm : densmat C := [:: (key 0, cx_ri); (key 1, cx_rj)].
  Lemma cx_fits : fits cx_args. Proof. by []. Qed.
  Lemma cx_herm : hermitian 2 (f_el cx_ri).
  Proof. move=> [|[|i]] [|[|j]] // _ _ /=; rewrite ?conjC1 //; by rewrite ?rmorphN ?conjCi ?opprK. Qed.
  Lemma cx_peaks gt ri rj : \sum_(p <- List.map (both_parts gt cx_args ri rj) [:: (0, 0); (0, 1)]%N) snd p = ri 1%N 0%N.
  Proof.
    rewrite /both_parts /joined /greater /lesser' /= !big_cons !big_nil /= !big_ord_recl !big_ord0 /= !conjC1 !conjC0.
    by rewrite ?(mul1r, mul0r, mulr0, oppr0, addr0, add0r).
  Qed.
  Lemma case_C44 gt : fits cx_args /\ covers_kept cx_dm (a_Ii cx_args) (a_i cx_args) cx_ri /\ covers_kept cx_dm (a_Ij cx_args) (a_j cx_args) cx_rj /\
    hermitian (s_post (a_i cx_args)) (f_el cx_ri) /\ hermitian (s_post (a_j cx_args)) (f_el cx_rj) /\
    exists l, calc_DMNRG gt cx_args cx_dm (fun _ => false) = Ok l /\
      ~ Permutation l (List.map (both_parts gt cx_args (f_el cx_ri) (f_el cx_rj)) (List.list_prod (kept_states (a_j cx_args)) (kept_states (a_i cx_args)))).
  Proof.
    split; first by []. split; first by []. split; first by []. split; first exact: cx_herm. split; first by move=> [|i] [|j] // _ _ /=; rewrite conjC1.
    eexists. split; first by apply: (dmnrg_all gt cx_fits); split. move=> HP. have := big_perm_list (fun p : peak C => snd p) HP.
    rewrite [LHS](cx_peaks gt (transpose (f_el cx_ri)) (transpose (f_el cx_rj))) [RHS](cx_peaks gt (f_el cx_ri) (f_el cx_rj)) /transpose /= => E3.
    have : 'i + 'i == 0 :> C by rewrite {2}E3 subrr. rewrite -mulr2n mulrn_eq0 /=. by rewrite (negbTE (neq0Ci C)).
  Qed.

  (** The sum rule: the three-step case of Density_aux, with the operator that counts (1 in the sector of charge 1 at the
      first step, 0 elsewhere) and all energies 0. *)
  Definition case_Z (N : nat) : C :=
    \sum_(p <- case_store C N) \sum_(discarded_from (N == (3 - 1)%N) (snd p) <= i < th_dim (snd p)) zc C (degeneracy (sh_sym case_sh) (fst p)) * th_boltz (snd p) i.
  Definition case_wnf (N : nat) : C := case_wn C N / case_Z N.
  Fixpoint case_A (N : nat) : invar -> nat -> nat -> C :=
    match N with
    | 0%N => fun J _ _ => if invar_eqb J (key 1) then 1 else 0
    | N'.+1 => fun J b a => carried case_sh (case_df C N'.+1) (case_A N') J b a
    end.
  Lemma case_followed : followed case_sh 0 3 (case_df C) case_A.
  Proof. move=> [|N] J b a // _. by rewrite subn1. Qed.
  Lemma case_complete : complete_data case_sh 0 3 (case_df C) case_sa (case_store C) (case_wn C) (fun _ => 1) case_wnf (fun _ _ _ => 0).
  Proof.
    split.
    - move=> N J x HN /in_map_iff [[z d] [[<- <-] Hin]] /=.
      have Hd : d = (1, 0)%N \/ d = (1, 1)%N \/ d = (0, 1)%N by exact: (case_blocks Hin).
      split; first by case: Hd => [->|[->|->]]. split; first by move=> b /in_map_iff [[z' d'] [[_ <-] _]].
      move=> e _ /in_map_iff [[z' d'] [[Ez <-] Hin']]. subst z'. have -> : d' = d by exact: (case_fun Hin' Hin).
      case: Hd => [->|[->|->]]; by rewrite /square /= !big_cons big_nil.
    - move=> N J x i HN /in_map_iff [[z d] [[_ <-] _]] /=. by rewrite /case_wnf /case_Z !mulr1.
  Qed.
  Lemma case_C42 : first_pass case_sh 0 3 (case_df C) case_sa /\ fdm_data 0 3 (case_df C) case_sa (case_store C) (case_wn C) /\
    complete_data case_sh 0 3 (case_df C) case_sa (case_store C) (case_wn C) (fun _ => 1) case_wnf (fun _ _ _ => 0) /\
    followed case_sh 0 3 (case_df C) case_A /\ case_A 1 (key 0) 0%N 1%N = - (12%:R / 25%:R).
  Proof.
    split; first exact: case_first_pass. split; first exact: case_fdm_data. split; first exact: case_complete. split; first exact: case_followed. exact: case_C39.
  Qed.
End Cases.
