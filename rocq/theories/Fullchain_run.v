(** The whole run. *)
From Coq Require Import List ZArith Lia String Permutation.
From Verif Require Import Base Invar_model Invar_spec Invar_proofs Symmetry_model Symmetry_spec Symmetry_tables Subspaces_model Subspaces_proofs Subspaces_step Density_model Density_sums Density_struct Recalc_model
  Hamilton_model Hamilton_pos Hamilton_spec Hamilton_step Linalg_model Linalg_spec Linalg_diag
  Coef_model Coef_tables Fullchain_terms Fullchain_check Fullchain_model Fullchain_spec Fullchain_facts Fullchain_struct Fullchain_sums Fullchain_elem Fullchain_match Fullchain_prog Fullchain_ham Fullchain_rot Fullchain_ops Fullchain_step Cring.
From mathcomp Require Import ssreflect ssrfun ssrbool eqtype ssrnat seq fintype bigop ssralg ssrnum.
Import GRing.Theory Num.Theory.
Local Open Scope ring_scope.

Local Opaque Fullchain_model.zC.

Lemma run_snoc (C : numClosedFieldType) K channels cs mo spin per dia keep scale stp N n (st : nstate C) :
  nrg_run K channels cs mo spin per dia keep scale stp N n.+1 st =
  (let* s := nrg_run K channels cs mo spin per dia keep scale stp N n st in nrg_step K channels cs mo spin per dia keep scale stp (Nat.add N n) s).
Proof.
  elim: n N st => [|n IH] N st.
  - cbn [nrg_run bind]. rewrite Nat.add_0_r. by case: (nrg_step _ _ _ _ _ _ _ _ _ _ N st).
  - change (nrg_run K channels cs mo spin per dia keep scale stp N n.+2 st) with (let* s := nrg_step K channels cs mo spin per dia keep scale stp N st in nrg_run K channels cs mo spin per dia keep scale stp N.+1 n.+1 s).
    change (nrg_run K channels cs mo spin per dia keep scale stp N n.+1 st) with (let* s := nrg_step K channels cs mo spin per dia keep scale stp N st in nrg_run K channels cs mo spin per dia keep scale stp N.+1 n s).
    case: (nrg_step _ _ _ _ _ _ _ _ _ _ N st) => [s| |] //. cbn [bind]. rewrite IH. by have -> : Nat.add N.+1 n = Nat.add N n.+1 by lia.
Qed.
Lemma rungs_lines : List.forallb (fun cs => if is_considered cs Rungs then match find_mode cs "default"%string with Some _ => false | None => true end else true) all_coef = true.
Proof. vm_cast_no_check (erefl true). Qed.
Lemma applies_ok cs se mo : applies cs se mo -> check cs se mo = true /\ exists sh, List.In sh shipped /\ matches cs sh.
Proof.
  move=> [Hcs [Hc Hl]].
  have Hi : is_considered cs se = true.
  { rewrite /is_considered. apply List.existsb_exists. exists (cs_name cs, cs_channels cs, se). split=> //. rewrite String.eqb_refl Nat.eqb_refl. by case: (se). }
  split; [|exact: (coef_shipped cs se)].
  have A := check_all_ok. rewrite /check_all in A. apply (proj1 (List.forallb_forall _ _)) with (x := cs) in A => //. apply (proj1 (List.forallb_forall _ _)) with (x := se) in A; [|by case: (se); cbn; tauto].
  rewrite Hi in A. case Em: (get_mode cs se) A => [m0|] // A. suff -> : mo = m0 by []. move: Hl Em.
  have Hd : se = Rungs -> List.find (fun m1 => String.eqb (mo_name m1) "default"%string) (cs_modes cs) = None.
  { move=> ES. rewrite ES in Hi. have R := proj1 (List.forallb_forall _ _) rungs_lines cs Hcs. rewrite Hi in R. rewrite -/(find_mode cs "default"%string). by case: (find_mode cs _) R. }
  rewrite /lines_for /lines /get_mode /find_mode. clear -Hd. case: se Hd => Hd.
  - case: (List.find _ _) => [a|]; [by move=> [->] [->]|]. case: (List.find _ _) => [b|] //. by move=> [->] [->].
  - by move=> -> [->].
  - by move=> -> [->].
  - move: Hd => /= Hd. rewrite (Hd erefl). case: (List.find _ _) => [a|] //. case: (List.find _ _) => [b|] //. by move=> [->] [->].
Qed.

Lemma site_states cs se mo : applies cs se mo -> local_states cs = Nat.pow 2 (List.length (cs_irr cs)).
Proof.
  have G : List.forallb (fun cs => if List.existsb (fun c => String.eqb (cs_name cs) (fst (fst c)) && Nat.eqb (cs_channels cs) (snd (fst c))) considered then Nat.eqb (List.length (tb_In (cs_tab cs))) (Nat.pow 2 (List.length (cs_irr cs))) else true) all_coef = true by vm_cast_no_check (erefl true).
  move=> [Hcs [Hc _]]. apply (proj1 (List.forallb_forall _ _)) with (x := cs) in G => //. move: G. have -> : List.existsb (fun c => String.eqb (cs_name cs) (fst (fst c)) && Nat.eqb (cs_channels cs) (snd (fst c))) considered = true.
  { apply List.existsb_exists. exists (cs_name cs, cs_channels cs, se). split=> //. by rewrite String.eqb_refl Nat.eqb_refl. }
  by move/Nat.eqb_eq.
Qed.

Section Run.
Variables (C : numClosedFieldType) (cs : coef_set) (se : setting) (mo : mode).
Hypothesis Happ : applies cs se mo.
Variables (K : chain_coef C) (dia : fmat C -> res (raw_eigen C)) (keep : nat -> list (invar * raw_eigen C) -> invar -> nat) (scale : nat -> C) (stp : C).
Hypotheses (Hdia : diagonaliser dia) (Hsc : scales scale stp) (Hlev : real_levels cs se K).
Variables (N0 : nat) (st : nstate C) (T : finType) (H : oper C T) (F : irr_table -> oper C T) (u : invar -> nat -> T -> C).
Hypotheses (Hord : in_order cs st) (Hrep : represents cs H F (scale N0) st u).
Notation run := (run K cs mo dia keep scale stp N0).
Notation ops n := (chain_ops cs se K N0 H F n).

Lemma run_inv n s : run n st = Ok s -> exists u' : invar -> nat -> chain cs T n -> C,
  [/\ in_order cs s, represents cs (T := chain cs T n) (ops n).1 (ops n).2 (scale (Nat.add N0 n)) s u',
      Nat.lt 0 n -> forall J r, Nat.lt r (stored_states s J) -> 0 <= energy s J r &
      no_truncation dia keep -> complete st u -> complete s u' /\ (Nat.lt 0 n -> exists J, Nat.lt 0 (stored_states s J) /\ energy s J 0 = 0)].
Proof.
  have [Hck [sh [Hsh Hma]]] := applies_ok cs se mo Happ.
  elim: n s => [|n IH] s.
  - case=> <-. exists u. cbn [chain_ops fst snd]. rewrite Nat.add_0_r. split=> //; try (by move=> X; exfalso; lia). move=> _ Hc. split=> // X. exfalso; lia.
  - rewrite /Fullchain_spec.run run_snoc -/(Fullchain_spec.run K cs mo dia keep scale stp N0 n st). case Er: (run n st) => [s1| |] //= Es. have [u1 [O1 R1 _ C1]] := IH s1 Er.
    have [P0 E0] := Hsc (Nat.add N0 n). have [P1 _] := Hsc (Nat.add N0 n).+1.
    have [u' [O2 R2 N2 C2]] := step_inv C cs se mo sh Hck Hsh Hma K dia keep scale stp Hdia (Nat.add N0 n) s1 (chain cs T n) (ops n).1 (ops n).2 u1 O1 R1 E0 P1 P0 (Hlev (Nat.add N0 n)) s Es.
    exists u'. split=> //.
    + rewrite Nat.add_succ_r. exact: R2.
    + move=> NT Hc. have [C3 _] := C1 NT Hc. have [C4 C5] := C2 NT C3. by split.
Qed.

Lemma run_succ n : (forall h, f_cols h = f_rows h -> (0 < f_rows h)%N -> exists e, dia h = Ok e) -> sensible keep ->
  (forall J k e, List.In (J, (k, e)) (ns_prev st) -> (Z.of_nat k <= 1000000)%Z) -> (exists J, Nat.lt 0 (stored_states st J)) ->
  exists s, run n st = Ok s /\ (forall J k e, List.In (J, (k, e)) (ns_prev s) -> (Z.of_nat k <= 1000000)%Z) /\ exists J, Nat.lt 0 (stored_states s J).
Proof.
  move=> Hd Hk Hsz Hne. have [Hck [sh [Hsh Hma]]] := applies_ok cs se mo Happ.
  elim: n => [|n [s1 [Er [S1 S2]]]]; [by exists st|]. have [u1 [O1 R1 _ _]] := run_inv n s1 Er. have [P0 E0] := Hsc (Nat.add N0 n). have [P1 _] := Hsc (Nat.add N0 n).+1.
  have [Hk1 Hk2] := Hk.
  have [|||s [Es [S3 S4]]] := step_succ C cs se mo sh Hck Hsh Hma K dia keep scale stp Hdia (Nat.add N0 n) s1 (chain cs T n) (ops n).1 (ops n).2 u1 O1 R1 E0 P1 P0 (Hlev (Nat.add N0 n)) 1000000%Z _ Hd _ _ S1 S2.
  - lia.
  - move=> N diag J e He _. exact: Hk1 He.
  - move=> N diag Hn Hp. apply Hk2 => // p Hin. exact: (proj1 (Hp p Hin)).
  - exists s. split; [|by split=> // J k e /S3 [? _]]. rewrite /Fullchain_spec.run run_snoc -/(Fullchain_spec.run K cs mo dia keep scale stp N0 n st) Er. exact: Es.
Qed.

(** Without truncation: as long as the blocks are small enough. *)
Lemma run_succ_full n (M : Z) : (forall h, f_cols h = f_rows h -> (0 < f_rows h)%N -> exists e, dia h = Ok e) -> no_truncation dia keep ->
  (forall J k e, List.In (J, (k, e)) (ns_prev st) -> (Z.of_nat k <= M)%Z) -> (exists J, Nat.lt 0 (stored_states st J)) ->
  (M * Z.of_nat (local_states cs) ^ Z.of_nat n < 1000000)%Z ->
  exists s, run n st = Ok s /\ (forall J k e, List.In (J, (k, e)) (ns_prev s) -> (Z.of_nat k <= M * Z.of_nat (local_states cs) ^ Z.of_nat n)%Z) /\ exists J, Nat.lt 0 (stored_states s J).
Proof.
  move=> Hd [Hk _] Hsz Hne. have [Hck [sh [Hsh Hma]]] := applies_ok cs se mo Happ.
  have Hd0 : (1 <= Z.of_nat (local_states cs))%Z. { rewrite (site_states cs se mo Happ). rewrite Nat2Z.inj_pow. have := Z.pow_pos_nonneg 2 (Z.of_nat (List.length (cs_irr cs))). lia. }
  set q := Z.of_nat (local_states cs) in Hd0 *.
  have HM : (0 < M)%Z.
  { case: Hne => J. rewrite /stored_states. case El: (lookup (ns_prev st) J) => [[k e]|] HJ; [|exfalso; clear -HJ; cbn in HJ; lia]. cbn [fst] in HJ. apply lookup_Some in El. have := Hsz _ _ _ El. lia. }
  elim: n => [|n IH]; [rewrite Z.mul_1_r => _; by exists st|]. rewrite Nat2Z.inj_succ Z.pow_succ_r; [|lia]. move=> Hb.
  have Hpw : (0 < q ^ Z.of_nat n)%Z by apply Z.pow_pos_nonneg; lia.
  have Hb0 : (M * q ^ Z.of_nat n <= M * (q * q ^ Z.of_nat n))%Z by nia.
  have [|s1 [Er [S1 S2]]] := IH; [lia|].
  have [u1 [O1 R1 _ _]] := run_inv n s1 Er. have [P0 E0] := Hsc (Nat.add N0 n). have [P1 _] := Hsc (Nat.add N0 n).+1.
  have Eq : (M * (q * q ^ Z.of_nat n) = q * (M * q ^ Z.of_nat n))%Z by lia.
  have [|||s [Es [S3 S4]]] := step_succ C cs se mo sh Hck Hsh Hma K dia keep scale stp Hdia (Nat.add N0 n) s1 (chain cs T n) (ops n).1 (ops n).2 u1 O1 R1 E0 P1 P0 (Hlev (Nat.add N0 n)) (M * q ^ Z.of_nat n)%Z _ Hd _ _ S1 S2.
  - nia.
  - move=> N diag J e He Hr. rewrite (Hk _ _ _ _ He). rewrite -/(local_states cs) -/q in Hr. lia.
  - move=> N diag Hn Hp. case: diag Hn Hp => [|[J e] diag] // _ Hp. exists J, e. have El : lookup ((J, e) :: diag) J = Some e by rewrite /lookup /= invar_eqb_refl.
    split=> //. rewrite (Hk _ _ _ _ El). exact: (proj1 (Hp _ (or_introl erefl))).
  - exists s. split; [|split=> // J k e /S3 [_ ?]; rewrite Eq; done]. rewrite /Fullchain_spec.run run_snoc -/(Fullchain_spec.run K cs mo dia keep scale stp N0 n st) Er. exact: Es.
Qed.
End Run.

(** ** Consequences of the representation *)
Section Conseq.
Variables (C : numClosedFieldType) (cs : coef_set) (T : finType) (H : oper C T) (F : irr_table -> oper C T) (sc : C) (st : nstate C) (u : invar -> nat -> T -> C).
Hypotheses (Hord : in_order cs st) (Hrep : represents cs H F sc st u).

Lemma same_refl J r : same J J r r = true.
Proof. by rewrite /same invar_eqb_refl Nat.eqb_refl. Qed.
Lemma lower_bound b : (forall w, b * inner w w <= elem w H w) -> forall J r, Nat.lt r (stored_states st J) -> b <= sc * energy st J r + ns_total st.
Proof.
  move=> Hb J r Hr. have := Hb (u J r). by rewrite (rp_orth Hrep Hr Hr) (rp_energy Hrep Hr Hr) same_refl mulr1.
Qed.
Lemma stored_of p : List.In p (ns_prev st) -> stored_states st (fst p) = fst (snd p).
Proof. case: Hord => Hn _ _ _. case: p => [A e] Hin. by rewrite /stored_states (lookup_In Hn Hin). Qed.

Lemma pick_sector J (f : invar -> C) : List.In J (List.map fst (ns_prev st)) -> (forall A, invar_eqb J A = false -> f A = 0) -> \sum_(p <- ns_prev st) f (fst p) = f J.
Proof.
  case: Hord => Hn _ _ _. elim: (ns_prev st) Hn => [|q l IH] Hn // Hin Hf. cbn [List.map] in Hn, Hin. inversion Hn as [|? ? N1 N2]; subst. rewrite big_cons. case: Hin => [EJ|Hin].
  - subst J. rewrite (sum_in _ _ (fun _ => 0)); [by rewrite big1 // addr0|]. move=> e He. apply Hf. case Eq: (invar_eqb _ _) => //. exfalso. apply (proj1 (invar_eqb_eq _ _)) in Eq. apply N1. rewrite Eq. exact: List.in_map.
  - rewrite IH //. rewrite Hf ?add0r //. case Eq: (invar_eqb _ _) => //. exfalso. apply (proj1 (invar_eqb_eq _ _)) in Eq. subst. contradiction.
Qed.
Lemma stored_key J r : Nat.lt r (stored_states st J) -> List.In J (List.map fst (ns_prev st)).
Proof. rewrite /stored_states. case El: (lookup (ns_prev st) J) => [e|]; [|lia]. move=> _. apply lookup_Some in El. apply (List.in_map fst) in El. exact: El. Qed.

Hypothesis Hc : complete st u.
Lemma exact_state J r : Nat.lt r (stored_states st J) -> forall x, \sum_y u J r y * H y x = (sc * energy st J r + ns_total st) * u J r x.
Proof.
  move=> Hr x.
  transitivity (\sum_(p <- ns_prev st) \sum_(r' < fst (snd p)) elem (u J r) H (u (fst p) r') * u (fst p) r' x).
  { transitivity (\sum_z (\sum_y u J r y * H y z) * (if z == x then 1 else 0)).
    { rewrite [RHS](bigD1 x) //= eqxx mulr1 [X in _ = _ + X]big1 ?addr0 // => z Hz. by rewrite (negbTE Hz) mulr0. }
    under eq_bigr => z _. { rewrite -Hc mulr_sumr. over. }
    rewrite exchange_big /=. apply eq_bigr => p _. under eq_bigr => z _. { rewrite mulr_sumr. over. } rewrite exchange_big /=. apply eq_bigr => r' _.
    rewrite /elem exchange_big /= [RHS]mulr_suml. apply eq_bigr => z _. by rewrite mulrA -mulr_suml. }
  pose g A := \sum_(r' < stored_states st A) elem (u J r) H (u A r') * u A r' x.
  rewrite (sum_in _ _ (fun p => g (fst p))); [|by move=> p Hp; rewrite /g stored_of]. rewrite (pick_sector J g).
  - rewrite /g (bigD1 (Ordinal (introT ltP Hr))) //= (rp_energy Hrep Hr Hr) same_refl big1 ?addr0 // => r' Hr'. rewrite (rp_energy Hrep Hr); [|by apply/ltP; exact: ltn_ord].
    rewrite /same invar_eqb_refl /=. case Eq: (Nat.eqb r r'); [|by rewrite mul0r]. exfalso. apply Nat.eqb_eq in Eq. move/eqP: Hr' => Hr'. apply Hr'. exact: val_inj.
  - exact: (stored_key J r).
  - move=> A EA. apply big1 => r' _. rewrite (rp_energy Hrep Hr); [|by apply/ltP; exact: ltn_ord]. by rewrite /same EA /= mul0r.
Qed.
(** Every energy of H is among them: a vector that is orthogonal to all stored states is zero; the number of states. *)
Lemma number_of_states : List.list_sum (List.map (fun p => fst (snd p)) (ns_prev st)) = #|T|.
Proof.
  suff E : (List.list_sum (List.map (fun p => fst (snd p)) (ns_prev st)))%:R = #|T|%:R :> C by apply/eqP; rewrite -(eqr_nat C); apply/eqP.
  transitivity (\sum_(x : T) (if x == x then 1 else 0) : C); [|by rewrite (eq_bigr (fun _ => 1)) ?sumr_const // => i _; rewrite eqxx].
  under [RHS]eq_bigr => x _ do rewrite -Hc. rewrite exchange_big /=.
  rewrite (sum_in _ _ (fun p => (fst (snd p))%:R)).
  - elim: (ns_prev st) => [|p l IH]; [by rewrite big_nil|]. rewrite big_cons -IH /=. by rewrite natrD.
  - move=> p Hp. rewrite exchange_big /=. rewrite (eq_bigr (fun _ => 1)) ?sumr_const ?card_ord // => r _.
    have Hr : Nat.lt r (stored_states st (fst p)) by rewrite stored_of //; apply/ltP; exact: ltn_ord. have O := rp_orth Hrep Hr Hr. rewrite same_refl in O. rewrite -O /inner. apply eq_bigr => x _. by rewrite mulrC.
Qed.
End Conseq.
Lemma chain_size cs (T : finType) n : #|chain cs T n| = (#|T| * local_states cs ^ n)%N.
Proof. elim: n => [|n IH] /=; [by rewrite muln1|]. by rewrite card_prod IH card_ord expnSr mulnA. Qed.
