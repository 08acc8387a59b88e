(** One step of the program. *)
From Coq Require Import List ZArith Lia String Permutation.
From Verif Require Import Base Invar_model Invar_spec Invar_proofs Symmetry_model Symmetry_spec Symmetry_tables Subspaces_model Subspaces_proofs Subspaces_step Density_model Density_sums Density_struct Recalc_model
  Hamilton_model Hamilton_pos Hamilton_spec Hamilton_step Linalg_model Linalg_spec Linalg_diag
  Coef_model Coef_tables Fullchain_terms Fullchain_check Fullchain_model Fullchain_spec Fullchain_facts Fullchain_struct Fullchain_sums Fullchain_elem Fullchain_match Fullchain_prog Fullchain_ham Fullchain_rot Fullchain_ops Cring.
From mathcomp Require Import ssreflect ssrfun ssrbool eqtype ssrnat seq fintype bigop ssralg order ssrnum.
Import GRing.Theory Num.Theory.
Local Open Scope ring_scope.

Local Opaque Fullchain_model.zC.

Lemma mapM_exists {A B} (f : A -> res B) l : (forall x, List.In x l -> exists y, f x = Ok y) -> exists ys, mapM f l = Ok ys.
Proof.
  elim: l => [|x l IH] Hl; [by exists [::]|]. have [y Ey] := Hl x (or_introl erefl). have [|ys Eys] := IH; [by move=> z Hz; apply Hl; right|].
  exists (y :: ys). by rewrite /= Ey /= Eys.
Qed.
Lemma mapM_each {A B} (f : A -> res B) l ys : mapM f l = Ok ys -> forall x, List.In x l -> exists y, f x = Ok y /\ List.In y ys.
Proof.
  move=> Hm. apply mapM_Ok_inv in Hm. elim: Hm => [|x y l' ys' Hx _ IH] z //=. case=> [<-|Hz]; [exists y; by split; [|left]|]. have [y' [H1 H2]] := IH z Hz. exists y'. by split; [|right].
Qed.

(** Lowest energy. *)
Section Lowest.
Variable C : numClosedFieldType.
Lemma find_Egs_ok (diag : list (invar * raw_eigen C)) : diag <> [::] -> (forall p, List.In p diag -> Nat.lt 0 (r_count (snd p)) /\ r_val (snd p) 0%N \is Num.real) ->
  exists Egs, find_Egs diag = Ok Egs /\ (exists p, List.In p diag /\ Egs = r_val (snd p) 0%N) /\ forall p, List.In p diag -> Egs <= r_val (snd p) 0%N.
Proof.
  case: diag => [//|p0 diag] _ Hall. rewrite /find_Egs /lowest. have [P0 R0] := Hall p0 (or_introl erefl). have -> : Nat.ltb 0 (r_count (snd p0)) = true by apply Nat.ltb_lt. cbn [bind].
  have [b [Hb [H1 [H2 H3]]]] : exists b, foldM (fun m0 q => let* y := (if Nat.ltb 0 (r_count (snd q)) then Ok (r_val (snd q) 0%N) else UB) in Ok (if y < m0 then y else m0)) diag (r_val (snd p0) 0%N) = Ok b /\
     b \is Num.real /\ (exists p, List.In p (p0 :: diag) /\ b = r_val (snd p) 0%N) /\ (forall p, List.In p (p0 :: diag) -> b <= r_val (snd p) 0%N).
  { apply (foldM_inv (P := fun l (b : C) => b \is Num.real /\ (exists p, List.In p (p0 :: l) /\ b = r_val (snd p) 0%N) /\ (forall p, List.In p (p0 :: l) -> b <= r_val (snd p) 0%N))).
    - split; [done|]. split; [exists p0; by split; [left|]|]. by move=> p [<-|[]].
    - move=> l1 x l2 b El [B1 [[p [Bp1 Bp2]] B3]]. have [Px Rx] : Nat.lt 0 (r_count (snd x)) /\ r_val (snd x) 0%N \is Num.real by apply Hall; right; rewrite El; apply List.in_or_app; right; left.
      have -> : Nat.ltb 0 (r_count (snd x)) = true by apply Nat.ltb_lt. cbn [bind]. eexists. split; [reflexivity|].
      have Hin : forall q, List.In q (p0 :: l1 ++ [:: x]) -> q = x \/ List.In q (p0 :: l1).
      { move=> q [<-|Hq]; [right; by left|]. apply List.in_app_or in Hq. case: Hq => [Hq|[<-|[]]]; [right; by right|by left]. }
      have Hix : List.In x (p0 :: l1 ++ [:: x]) by right; apply List.in_or_app; right; left.
      have Hip : List.In p (p0 :: l1 ++ [:: x]). { case: Bp1 => [<-|Hp]; [by left|]. right. apply List.in_or_app. by left. }
      case: (real_ltP Rx B1) => Hc.
      + split; [done|]. split; [by exists x|]. move=> q /Hin [->|Hq] //. apply: Order.POrderTheory.le_trans (Order.POrderTheory.ltW Hc) _. exact: B3.
      + split; [done|]. split; [by exists p|]. move=> q /Hin [->|Hq] //. exact: B3. }
  exists b. split; [exact: Hb|]. by split.
Qed.
End Lowest.

Section Final.
Variables (C : numClosedFieldType) (cs : coef_set) (se : setting) (m : mode) (sh : shipped_table).
Hypotheses (Hck : check cs se m = true) (Hsh : List.In sh shipped) (Hma : matches cs sh).
Add Ring Cr : (field_ring C).
Notation zC := (zC C).
Notation d := (List.length (tb_In (cs_tab cs))).
Notation site := (ordinal_finType (local_states cs)).
Notation lab l := (Z.of_nat (S (nat_of_ord l))).
Notation anc := (anc cs).
Notation isec := (isec cs).
Variables (K : chain_coef C) (N : nat) (st : nstate C) (sc0 sc : C) (T : finType) (H : oper C T) (F : irr_table -> oper C T) (u : invar -> nat -> T -> C).
Hypotheses (Hord : in_order cs st) (Hrep : represents cs H F sc0 st u).
Notation dp := (List.map (fun p => (fst p, Z.of_nat (fst (snd p)))) (ns_prev st)).
Hypothesis Hsmall : forall J n, List.In (J, n) dp -> (0 <= n <= 1000000)%Z.
Notation D J := (dimlist cs dp J).
Notation n J := (Z.to_nat (zsum (D J))).
Notation stored := (stored_states st).

Variable E : invar -> raw_eigen C.
Notation v J r p := (f_el (r_vec (E J)) r p).
Hypothesis Hpos : 0 < sc.
Notation eig_ok := (eig_ok C cs se K N st sc T H F u).
Notation new_state := (new_state C cs st T u E).
Variables (tasks : list invar) (k : invar -> nat) (Egs : C) (o : opch_t C).
Definition vals_of (J : invar) : list C := List.map (fun r => r_val (E J) r - Egs) (List.seq 0 (r_count (E J))).
Hypotheses (Hnd : NoDup tasks) (Htask : forall J, List.In J tasks -> isec J /\ eig_ok J (E J)) (Hk : forall J, List.In J tasks -> Nat.le (k J) (r_count (E J))).
Hypotheses (Ho : forall t J J', List.In t (cs_irr cs) -> leads t J' J -> List.In J tasks -> List.In J' tasks ->
     Nat.lt 0 (k J) -> Nat.lt 0 (k J') -> exists w, opget C o (Z.to_nat (it_ch t)) (Z.to_nat (it_fnr t)) J J' = Some w /\ op_ok C cs st E k t J J' w).
Hypotheses (Hg1 : exists J, List.In J tasks /\ Egs = r_val (E J) 0%N) (Hg2 : forall J, List.In J tasks -> Egs <= r_val (E J) 0%N).

Definition st' : nstate C := NState (List.map (fun J => (J, (k J, vals_of J))) tasks) o (ns_total st + Egs * sc).
Lemma keys' : List.map fst (ns_prev st') = tasks.
Proof. rewrite /st' /= List.map_map. exact: List.map_id. Qed.
Lemma lookup' J : lookup (ns_prev st') J = if List.in_dec (list_eq_dec Z.eq_dec) J tasks then Some (k J, vals_of J) else None.
Proof.
  case: (List.in_dec _ J tasks) => HJ.
  - apply lookup_In; [by rewrite keys'|]. apply List.in_map_iff. by exists J.
  - case El: (lookup _ J) => [e|] //. exfalso. apply HJ. apply lookup_Some in El. apply (List.in_map fst) in El. by rewrite keys' in El.
Qed.
Lemma stored' J r : Nat.lt r (stored_states st' J) -> List.In J tasks /\ Nat.lt r (k J) /\ Nat.lt r (r_count (E J)).
Proof. rewrite /stored_states lookup'. case: (List.in_dec _ J tasks) => HJ /=; [|lia]. move=> Hr. have := Hk J HJ. split=> //. lia. Qed.
Lemma stored_in J : List.In J tasks -> stored_states st' J = k J.
Proof. move=> HJ. rewrite /stored_states lookup'. by case: (List.in_dec _ J tasks). Qed.
Lemma energy' J r : List.In J tasks -> Nat.lt r (r_count (E J)) -> energy st' J r = r_val (E J) r - Egs.
Proof.
  move=> HJ Hr. rewrite /energy lookup'. case: (List.in_dec _ J tasks) => // _ /=. rewrite /vals_of.
  rewrite (List.nth_indep _ 0 (r_val (E J) 0%N - Egs)); [|by rewrite List.map_length List.seq_length].
  rewrite (List.map_nth (fun r => r_val (E J) r - Egs)). by rewrite List.seq_nth.
Qed.
Lemma val_real J r : List.In J tasks -> Nat.lt r (r_count (E J)) -> r_val (E J) r \is Num.real.
Proof. move=> HJ Hr. have [Hs He] := Htask J HJ. exact: (value_real C cs se K N st sc T H F u E J r). Qed.
Lemma count_pos J : List.In J tasks -> Nat.lt 0 (r_count (E J)).
Proof. move=> HJ. have [_ [h [_ [_ _ /andP [H1 _] _]]]] := Htask J HJ. by apply/ltP. Qed.
Lemma Egs_real : Egs \is Num.real.
Proof. case: Hg1 => J [HJ ->]. apply val_real => //. exact: count_pos. Qed.

Lemma final_order : in_order cs st'.
Proof.
  split.
  - by rewrite keys'.
  - move=> J n0 e Hin. apply List.in_map_iff in Hin. case: Hin => J0 [[E1 E2 E3] HJ]. subst. split; [exact: (proj1 (Htask J HJ))|]. rewrite /vals_of List.map_length List.seq_length. exact: Hk.
  - move=> J r. split.
    + rewrite /energy lookup'. case: (List.in_dec _ J tasks) => HJ /=; [|exact: real0]. case: (List.nth_in_or_default r (vals_of J) 0) => [Hin|->]; [|exact: real0].
      apply List.in_map_iff in Hin. case: Hin => r0 [<- Hr0]. apply List.in_seq in Hr0. apply: realB; [apply val_real => //; lia|exact: Egs_real].
    + case: Hord => _ _ Hre _. have [_ Ht] := Hre J r. apply: realD => //. apply: realM; [exact: Egs_real|exact: gtr0_real].
  - move=> t J J' Ht Hl H1 H2. have [HJ [K1 _]] := stored' _ _ H1. have [HJ' [K2 _]] := stored' _ _ H2. have [w [W1 [W2 [W3 _]]]] := Ho t J J' Ht Hl HJ HJ' K1 K2.
    exists w. by rewrite !stored_in.
Qed.
Lemma final_rep : represents cs (next_H se K N H F) (fun t => on_site (create C t)) sc st' new_state.
Proof.
  split.
  - move=> J r J' r' H1 H2. have [HJ [K1 R1]] := stored' _ _ H1. have [HJ' [K2 R2]] := stored' _ _ H2. have [S1 E1] := Htask J HJ. have [S2 E2] := Htask J' HJ'.
    exact: (inner_new C cs se m sh Hck Hsh Hma K N st sc0 sc T H F u Hord Hrep Hsmall E).
  - move=> J r J' r' H1 H2. have [HJ [K1 R1]] := stored' _ _ H1. have [HJ' [K2 R2]] := stored' _ _ H2. have [S1 E1] := Htask J HJ. have [S2 E2] := Htask J' HJ'.
    rewrite (energy_new C cs se m sh Hck Hsh Hma K N st sc T H F u Hord Hsmall E) // energy' //. case: (same J J' r r') => //. rewrite /st' /=. rewrite -[LHS]mul1r -[RHS]mul1r; cnorm C; ring.
  - move=> t J r J' r' Ht H1 H2. have [HJ [K1 R1]] := stored' _ _ H1. have [HJ' [K2 R2]] := stored' _ _ H2. have [S1 E1] := Htask J HJ. have [S2 E2] := Htask J' HJ'.
    rewrite (op_new C cs se m Hck st sc0 T H F u Hrep E) //. case Hl: (leads t J' J) => //.
    have [w [W1 [_ [_ W3]]]] := Ho t J J' Ht Hl HJ HJ' (Nat.le_lt_trans 0 r _ (Nat.le_0_l r) K1) (Nat.le_lt_trans 0 r' _ (Nat.le_0_l r') K2). rewrite /op_matrix -/(opget C o (Z.to_nat (it_ch t)) (Z.to_nat (it_fnr t)) J J') W1 W3 //.
Qed.
Lemma final_nonneg J r : Nat.lt r (stored_states st' J) -> 0 <= energy st' J r.
Proof.
  move=> Hr. have [HJ [_ R]] := stored' _ _ Hr. rewrite energy' // subr_ge0. apply: Order.POrderTheory.le_trans (Hg2 J HJ) _. have [_ [h [_ [_ _ _ Hle]]]] := Htask J HJ. apply: (le_ascending Hle) => //. by apply/ltP.
Qed.
Lemma final_complete : (forall J, List.In J tasks <-> isec J /\ exists i, Nat.lt i d /\ (0 < size_p dp (anc i J))%Z) ->
  (forall J, List.In J tasks -> k J = r_count (E J) /\ r_count (E J) = n J) -> complete st u ->
  complete st' new_state /\ exists J, Nat.lt 0 (stored_states st' J) /\ energy st' J 0 = 0.
Proof.
  move=> Hiff Hfull Hc. split.
  - move=> x y. rewrite /st' /= sum_mapped /=. rewrite -(complete_new C cs se m sh Hck Hsh Hma K N st sc T H F u Hord Hsmall E tasks Hnd Hiff _ Hc x y).
    + apply sum_in => J HJ. by have [-> _] := Hfull J HJ.
    + move=> J HJ. have [_ E1] := Htask J HJ. by have [_ F1] := Hfull J HJ.
  - case: Hg1 => J [HJ EE]. exists J. rewrite stored_in //. have [-> _] := Hfull J HJ. split; [exact: count_pos|]. rewrite energy'; [|done|exact: count_pos]. by rewrite EE subrr.
Qed.
End Final.

Section Step.
Variables (C : numClosedFieldType) (cs : coef_set) (se : setting) (m : mode) (sh : shipped_table).
Hypotheses (Hck : check cs se m = true) (Hsh : List.In sh shipped) (Hma : matches cs sh).
Notation d := (List.length (tb_In (cs_tab cs))).
Notation isec := (isec cs).
Notation anc := (anc cs).
Variables (K : chain_coef C) (dia : fmat C -> res (raw_eigen C)) (keep : nat -> list (invar * raw_eigen C) -> invar -> nat) (scale : nat -> C) (stp : C).
Hypothesis Hdia : diagonaliser dia.
Variables (N : nat) (st : nstate C) (T : finType) (H : oper C T) (F : irr_table -> oper C T) (u : invar -> nat -> T -> C).
Hypotheses (Hord : in_order cs st) (Hrep : represents cs H F (scale N) st u) (Hstp : scale N.+1 * stp = scale N) (Hpos : 0 < scale N.+1) (Hpos0 : 0 < scale N).
Hypothesis Hlev : forall z s t, List.In (z, s, t) (levels cs se) -> cval K N s \is Num.real.
Notation dp := (List.map (fun p => (fst p, Z.of_nat (fst (snd p)))) (ns_prev st)).
Notation D J := (dimlist cs dp J).
Notation n J := (Z.to_nat (zsum (D J))).
Notation step := (nrg_step K (cs_channels cs) cs m (multiplicity cs) (per_channel cs) dia keep scale stp).
Notation sc := (scale N.+1).
Notation eig_ok := (eig_ok C cs se K N st sc T H F u).

(** The diagonalisations. *)
Lemma diags_ok calls tasks diag : NoDup tasks ->
  (forall J, List.In J tasks -> isec J /\ (0 < zsum (D J))%Z) ->
  (forall J, isec J -> exists h, hamiltonian (cs_sym cs) d (cs_tab cs) sc stp (multiplicity cs) (ns_prev st) (ns_opch st) J calls = Ok h /\ matrix_ok C cs se K N st sc T H F u J h) ->
  diagonalisations cs (multiplicity cs) dia scale stp N calls st tasks = Ok diag ->
  exists E : invar -> raw_eigen C, diag = List.map (fun J => (J, E J)) tasks /\
    forall J, List.In J tasks -> exists h, dia h = Ok (E J) /\ f_rows h = n J /\ eig_ok J (E J).
Proof.
  move=> Hnd Ht Hm Hd. apply mapM_Ok_inv in Hd.
  have G : List.map fst diag = tasks /\ forall p, List.In p diag -> exists h, dia h = Ok (snd p) /\ f_rows h = n (fst p) /\ eig_ok (fst p) (snd p).
  { clear Hnd. elim: Hd Ht => [|J p ts ps Hf _ IH] Ht; [by split|]. have [|I1 I2] := IH; [by move=> J' HJ'; apply Ht; right|]. have [HJ Hz] := Ht J (or_introl erefl).
    have [h [Eh Hh]] := Hm J HJ. rewrite Eh in Hf. cbn [bind] in Hf. case Ee: (dia h) Hf => [e| |] //= [Ep]. subst p. split; [by rewrite /= I1|].
    move=> q [<-|Hq]; [|exact: I2]. exists h. cbn [fst snd]. split=> //. case: (Hh) => R1 [R2 _]. split=> //. exists h. split=> //. apply: (Hdia _ _ Ee) => //. rewrite R1. apply/ltP. lia. }
  case: G => G1 G2. have Hnd' : NoDup (List.map fst diag) by rewrite G1.
  pose E J := match lookup diag J with Some e => e | None => Raw 0 (fun _ => 0) (Fmat 0 0 (fun _ _ => 0)) end.
  have HE : forall p, List.In p diag -> E (fst p) = snd p. { move=> [J e] Hp. by rewrite /E (lookup_In Hnd' Hp). }
  exists E. split.
  - rewrite -G1 List.map_map. rewrite -{1}(List.map_id diag). apply List.map_ext_in => p Hp. rewrite HE //. by case: p Hp.
  - move=> J HJ. rewrite -G1 in HJ. apply List.in_map_iff in HJ. case: HJ => p [EJ Hp]. subst J. rewrite HE //. exact: G2.
Qed.

Lemma step_inv s' : step N st = Ok s' -> exists u' : invar -> nat -> prod_finType T (ordinal_finType (local_states cs)) -> C, [/\ in_order cs s', represents cs (T := prod_finType T (ordinal_finType (local_states cs))) (next_H se K N H F) (fun t => on_site (create C t)) sc s' u',
  forall J r, Nat.lt r (stored_states s' J) -> 0 <= energy s' J r &
  no_truncation dia keep -> complete st u -> complete s' u' /\ exists J, Nat.lt 0 (stored_states s' J) /\ energy s' J 0 = 0].
Proof.
  rewrite /nrg_step. case Ec: (calls_of _ _ _ _) => [calls|] //. case Es: (mk_structure _ _ _ _) => [sub| |] //=. case Ed: (diagonalisations _ _ _ _ _ _ _ _ _) => [diag| |] //=.
  case Eg: (find_Egs diag) => [Egs| |] //=. case Ek: (mapM _ diag) => [kp| |] //=. case Eo: (recalc_irreduc _ _ _ _) => [o| |] //=. case=> <-.
  have dsec := dp_sec C cs st Hord.
  have Hsmall := sizes_small cs se m sh Hck Hsh Hma dp (dp_nodup C cs st Hord) dsec sub Es.
  have [Tn [Ti Tl]] := tasks_are cs se m sh Hck Hsh Hma dp dsec Hsmall sub Es.
  have [calls' [Ec' Hm]] := matrices C cs se m sh Hck Hsh Hma K N st (scale N) sc stp T H F u Hord Hrep Hstp Hpos Hpos0 Hlev Hsmall.
  rewrite Ec in Ec'. case: Ec' => Ec'. subst calls'.
  have Ht : forall J, List.In J (task_list sub) -> isec J /\ (0 < zsum (D J))%Z. { move=> J HJ. split; [by have [? _] := proj1 (Ti J) HJ|by have [_ ?] := Tl J HJ]. }
  have [E [Ediag HE]] := diags_ok calls (task_list sub) diag Tn Ht Hm Ed.
  set tasks := task_list sub in Tn Ti Tl Ht Ediag HE.
  have Htask : forall J, List.In J tasks -> isec J /\ eig_ok J (E J). { move=> J HJ. split; [exact: (proj1 (Ht J HJ))|]. have [h [_ [_ ?]]] := HE J HJ. done. }
  have in_diag : forall J, List.In J tasks -> List.In (J, E J) diag by move=> J HJ; rewrite Ediag; apply List.in_map_iff; exists J.
  have Hne : diag <> [::] by move=> X; rewrite X in Eg.
  have Hall : forall p, List.In p diag -> Nat.lt 0 (r_count (snd p)) /\ r_val (snd p) 0%N \is Num.real.
  { move=> p Hp. rewrite Ediag in Hp. apply List.in_map_iff in Hp. case: Hp => J [<- HJ]. cbn [snd]. have [Hs He] := Htask J HJ.
    have P : Nat.lt 0 (r_count (E J)) by have [h [_ [_ _ /andP [? _] _]]] := He; apply/ltP. split=> //. exact: (value_real C cs se K N st sc T H F u E J 0). }
  have [Egs' [Eg' [[p [Hp1 Hp2]] Hp3]]] := find_Egs_ok C diag Hne Hall. rewrite Eg in Eg'. case: Eg' => Eg'. rewrite -Eg' in Hp2 Hp3.
  have Hg1 : exists J, List.In J tasks /\ Egs = r_val (E J) 0%N. { rewrite Ediag in Hp1. apply List.in_map_iff in Hp1. case: Hp1 => J [EJ HJ]. subst p. by exists J. }
  have Hg2 : forall J, List.In J tasks -> Egs <= r_val (E J) 0%N. { move=> J HJ. exact: (Hp3 (J, E J) (in_diag J HJ)). }
  pose k J := keep N diag J. pose vals := vals_of C E Egs.
  have fin : forall J, List.In J tasks -> finish_sector keep N sub diag Egs (J, E J) = if Nat.leb (k J) (r_count (E J)) then Ok (J, kb C cs st E k vals J) else UB.
  { move=> J HJ. apply (finish_ok C cs se m sh Hck Hsh Hma K N st sc T H F u Hord Hsmall E tasks k vals Htask) => //. by have [-> _] := Tl J HJ. }
  have Hk : forall J, List.In J tasks -> Nat.le (k J) (r_count (E J)).
  { move=> J HJ. have [y [Ey _]] := mapM_each _ _ _ Ek (J, E J) (in_diag J HJ). rewrite fin // in Ey. case El: (Nat.leb _ _) Ey => // _. by apply Nat.leb_le. }
  have Ekp : kp = kept C cs st E tasks k vals.
  { have Ek2 : mapM (finish_sector keep N sub diag Egs) diag = Ok (List.map (fun p => (fst p, kb C cs st E k vals (fst p))) diag).
    { apply mapM_ok => q Hq. rewrite Ediag in Hq. apply List.in_map_iff in Hq. case: Hq => J [<- HJ]. rewrite fin //. cbn [fst]. have := Hk J HJ. by move=> /Nat.leb_le ->. }
    rewrite Ek in Ek2. case: Ek2 => ->. rewrite Ediag List.map_map. done. }
  subst kp.
  have [Io _] := irreduc C cs se m Hck K N st sc T H F u E tasks k vals Tn Htask. have Ho := Io o Eo.
  exists (new_state C cs st T u E).
  have -> : NState (List.map (fun p => (fst p, (ke_n (snd p), ke_val (snd p)))) (kept C cs st E tasks k vals)) o (ns_total st + Egs * sc) = Fullchain_step.st' C st sc E tasks k Egs o.
  { rewrite /Fullchain_step.st' /kept List.map_map. done. }
  split.
  - exact: (final_order C cs se K N st sc T H F u Hord E Hpos tasks k Egs o Tn Htask Hk Ho Hg1).
  - exact: (final_rep C cs se m sh Hck Hsh Hma K N st (scale N) sc T H F u Hord Hrep Hsmall E tasks k Egs o Tn Htask Hk Ho).
  - exact: (final_nonneg C cs se K N st sc T H F u E tasks k Egs o Tn Htask Hk Hg2).
  - move=> [A1 A2] Hc. apply (final_complete C cs se m sh Hck Hsh Hma K N st sc T H F u Hord Hsmall E tasks k Egs o Tn Htask Hg1 Ti) => // J HJ.
    have [h [Eh [Rh _]]] := HE J HJ. split; [|by rewrite (A2 _ _ Eh) Rh]. apply A1. apply lookup_In; [|exact: in_diag]. rewrite Ediag List.map_map. by rewrite List.map_id.
Qed.

(** Without failures outside this code the step succeeds. *)
Lemma step_succ (M : Z) : (0 <= M <= 1000000)%Z -> (forall h, f_cols h = f_rows h -> (0 < f_rows h)%N -> exists e, dia h = Ok e) ->
  (forall N diag J e, lookup diag J = Some e -> (Z.of_nat (r_count e) <= Z.of_nat d * M)%Z -> Nat.le (keep N diag J) (r_count e) /\ (Z.of_nat (keep N diag J) < 1000000)%Z) ->
  (forall N diag, diag <> [::] -> (forall p, List.In p diag -> Nat.lt 0 (r_count (snd p)) /\ (Z.of_nat (r_count (snd p)) <= Z.of_nat d * M)%Z) -> exists J e, lookup diag J = Some e /\ Nat.lt 0 (keep N diag J)) ->
  (forall J k e, List.In (J, (k, e)) (ns_prev st) -> (Z.of_nat k <= M)%Z) -> (exists J, Nat.lt 0 (stored_states st J)) ->
  exists s', step N st = Ok s' /\ (forall J k e, List.In (J, (k, e)) (ns_prev s') -> (Z.of_nat k <= 1000000 /\ Z.of_nat k <= Z.of_nat d * M)%Z) /\ exists J, Nat.lt 0 (stored_states s' J).
Proof.
  move=> HM Hd Hkeep Hsome Hsz0 [A HA]. have Hsz : forall J k e, List.In (J, (k, e)) (ns_prev st) -> (Z.of_nat k <= 1000000)%Z by move=> J k0 e /Hsz0; lia.
  have dsec := dp_sec C cs st Hord.
  have Hsmall : forall J n, List.In (J, n) dp -> (0 <= n <= 1000000)%Z.
  { move=> J n0 Hin. split; [exact: (proj2 (dsec J n0 Hin))|]. apply List.in_map_iff in Hin. case: Hin => [[J' [k e]] [Eq Hin]]. injection Eq => E1 E2. simpl in *. subst. exact: (Hsz _ _ _ Hin). }
  have [new [Es [_ [_ _]]]] := structure_is cs se m sh Hck Hsh Hma dp dsec Hsmall. move: Es. set sub := List.map _ new. move=> Es.
  have [Tn [Ti Tl]] := tasks_are cs se m sh Hck Hsh Hma dp dsec Hsmall sub Es.
  have [calls [Ec Hm]] := matrices C cs se m sh Hck Hsh Hma K N st (scale N) sc stp T H F u Hord Hrep Hstp Hpos Hpos0 Hlev Hsmall.
  have Ht : forall J, List.In J (task_list sub) -> isec J /\ (0 < zsum (D J))%Z. { move=> J HJ. split; [by have [? _] := proj1 (Ti J) HJ|by have [_ ?] := Tl J HJ]. }
  have [diag Ed] : exists diag, diagonalisations cs (multiplicity cs) dia scale stp N calls st (task_list sub) = Ok diag.
  { apply mapM_exists => J HJ. have [HsJ Hz] := Ht J HJ. have [h [Eh [R1 [R2 _]]]] := Hm J HsJ. rewrite Eh. cbn [bind]. have [|e Ee] := Hd h R2; [rewrite R1; apply/ltP; lia|]. rewrite Ee. by exists (J, e). }
  have [E [Ediag HE]] := diags_ok calls (task_list sub) diag Tn Ht Hm Ed.
  set tasks := task_list sub in Tn Ti Tl Ht Ediag HE.
  have Htask : forall J, List.In J tasks -> isec J /\ eig_ok J (E J). { move=> J HJ. split; [exact: (proj1 (Ht J HJ))|]. have [h [_ [_ ?]]] := HE J HJ. done. }
  have in_diag : forall J, List.In J tasks -> List.In (J, E J) diag by move=> J HJ; rewrite Ediag; apply List.in_map_iff; exists J.
  have Hne : diag <> [::].
  { have HsA : isec A. { rewrite /stored_states in HA. case El: (lookup (ns_prev st) A) HA => [[k e]|] HA'; [|exfalso; clear -HA'; cbn in HA'; lia]. apply lookup_Some in El. case: Hord => _ HS _ _. exact: (proj1 (HS _ _ _ El)). }
    have [_ [_ [Hd0 _]]] := ck_sym cs se m Hck. have HJ : List.In (child cs 0 A) tasks.
    { apply Ti. split; [exact: (child_sec cs se m Hck)|]. exists 0%N. split=> //. rewrite (anc_child cs se m Hck) // size_stored. lia. }
    move=> X. have := in_diag _ HJ. by rewrite X. }
  have Hbd : forall J, List.In J tasks -> (Z.of_nat (r_count (E J)) <= Z.of_nat d * M)%Z.
  { move=> J HJ. have [_ [h [[R1 _] [_ _ /andP [_ /leP L] _]]]] := Htask J HJ.
    have Z1 : (zsum (D J) <= Z.of_nat d * M)%Z.
    { rewrite -(dimlist_length cs dp J). apply zsum_bound; [lia|]. move=> x Hx. apply List.in_map_iff in Hx. case: Hx => i [<- _].
      case: (Z.le_gt_cases (size_p dp (anc i J)) 0) => Q; [lia|]. apply (size_pos cs) in Q. apply List.in_map_iff in Q. case: Q => [[J' [k0 e0]] [Eq Hin]]. injection Eq => E1 E2. cbn [fst snd] in E1. rewrite -E1. exact: (Hsz0 _ _ _ Hin). }
    lia. }
  have Hall : forall p, List.In p diag -> Nat.lt 0 (r_count (snd p)) /\ r_val (snd p) 0%N \is Num.real.
  { move=> p Hp. rewrite Ediag in Hp. apply List.in_map_iff in Hp. case: Hp => J [<- HJ]. cbn [snd]. have [Hs He] := Htask J HJ.
    have P : Nat.lt 0 (r_count (E J)) by have [h [_ [_ _ /andP [? _] _]]] := He; apply/ltP. split=> //. exact: (value_real C cs se K N st sc T H F u E J 0). }
  have [Egs [Eg _]] := find_Egs_ok C diag Hne Hall.
  pose k J := keep N diag J. pose vals := vals_of C E Egs.
  have lk : forall J, List.In J tasks -> lookup diag J = Some (E J). { move=> J HJ. apply lookup_In; [|exact: in_diag]. rewrite Ediag List.map_map. by rewrite List.map_id. }
  have Ek : mapM (finish_sector keep N sub diag Egs) diag = Ok (List.map (fun p => (fst p, kb C cs st E k vals (fst p))) diag).
  { apply mapM_ok => q Hq. rewrite Ediag in Hq. apply List.in_map_iff in Hq. case: Hq => J [<- HJ].
    rewrite (finish_ok C cs se m sh Hck Hsh Hma K N st sc T H F u Hord Hsmall E tasks k vals Htask) //; [|by have [-> _] := Tl J HJ]. cbn [fst]. have [/Nat.leb_le L _] := Hkeep N diag J _ (lk J HJ) (Hbd J HJ). by rewrite L. }
  have Ekp : List.map (fun p => (fst p, kb C cs st E k vals (fst p))) diag = kept C cs st E tasks k vals by rewrite Ediag List.map_map.
  have [_ Is] := irreduc C cs se m Hck K N st sc T H F u E tasks k vals Tn Htask. have [|o Eo] := Is; [by move=> J HJ; have [_ ?] := Hkeep N diag J _ (lk J HJ) (Hbd J HJ)|].
  exists (Fullchain_step.st' C st sc E tasks k Egs o). split; [|split].
  - rewrite /nrg_step Ec Es. cbn [bind]. rewrite Ed. cbn [bind]. rewrite Eg. cbn [bind]. rewrite Ek. cbn [bind]. rewrite Ekp Eo. cbn [bind]. by rewrite /Fullchain_step.st' /kept List.map_map.
  - move=> J k0 e Hin. apply List.in_map_iff in Hin. case: Hin => J0 [[E1 E2 _] HJ]. subst J0 k0. have [? ?] := Hkeep N diag J _ (lk J HJ) (Hbd J HJ). have [_ ?] : (0 <= 0)%Z /\ (Z.of_nat (r_count (E J)) <= Z.of_nat d * M)%Z := conj (Z.le_refl 0) (Hbd J HJ). rewrite /k. lia.
  - have Hall2 : forall p, List.In p diag -> Nat.lt 0 (r_count (snd p)) /\ (Z.of_nat (r_count (snd p)) <= Z.of_nat d * M)%Z.
    { move=> p Hp. split; [exact: (proj1 (Hall p Hp))|]. rewrite Ediag in Hp. apply List.in_map_iff in Hp. case: Hp => J [<- HJ]. exact: Hbd. }
    have [J [e [He Hp]]] := Hsome N diag Hne Hall2. have HJ : List.In J tasks. { apply lookup_Some in He. rewrite Ediag in He. apply List.in_map_iff in He. by case: He => J0 [[<- _] ?]. }
    exists J. by rewrite (stored_in C st sc E tasks k Egs o Tn J HJ).
Qed.
End Step.
