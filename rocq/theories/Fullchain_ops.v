(** One step: the blocks of the eigenvectors and the operators of the new site that the program calculates from them. *)
From Coq Require Import List ZArith Lia String Permutation.
From Verif Require Import Base Invar_model Invar_spec Invar_proofs Symmetry_model Symmetry_spec Symmetry_tables Subspaces_model Subspaces_proofs Subspaces_step Density_model Density_sums Density_struct Recalc_model
  Hamilton_model Hamilton_pos Hamilton_spec Hamilton_step Linalg_model Linalg_spec Linalg_diag
  Coef_model Coef_tables Fullchain_terms Fullchain_check Fullchain_model Fullchain_spec Fullchain_facts Fullchain_struct Fullchain_sums Fullchain_elem Fullchain_match Fullchain_prog Fullchain_ham Fullchain_rot Cring.
From mathcomp Require Import ssreflect ssrfun ssrbool eqtype ssrnat seq fintype bigop ssralg ssrnum.
Import GRing.Theory Num.Theory.
Local Open Scope ring_scope.

Local Opaque Fullchain_model.zC.

(** ** Loops and tables *)
Lemma foldM_Ok {A B} (P : list B -> A -> Prop) (f : A -> B -> res A) l a b : foldM f l a = Ok b -> P [::] a ->
  (forall l1 x a0 a1, List.In x l -> P l1 a0 -> f a0 x = Ok a1 -> P (l1 ++ [:: x]) a1) -> P l b.
Proof.
  move=> Hf H0 Hs. suff G : forall l2 l1 a0, (forall x, List.In x l2 -> List.In x l) -> P l1 a0 -> foldM f l2 a0 = Ok b -> P (l1 ++ l2) b by apply: (G l [::] a).
  elim=> [|x l2 IH] l1 a0 Hi Hp /=; [by case=> <-; rewrite cats0|]. case Ex: (f a0 x) => [a1| |] //= Hr. rewrite -cat1s catA. apply: (IH _ a1) => //.
  - move=> y Hy. apply Hi. by right.
  - apply: (Hs _ _ a0) => //. apply Hi. by left.
Qed.
Lemma foldM_cat {A B} (f : A -> B -> res A) l1 l2 a : foldM f (l1 ++ l2) a = (let* b := foldM f l1 a in foldM f l2 b).
Proof. elim: l1 a => [|x l1 IH] a //=. by case: (f a x) => //=. Qed.
Lemma foldM_map {A B D} (f : A -> B -> res A) (g : D -> B) l a : foldM (fun a x => f a (g x)) l a = foldM f (List.map g l) a.
Proof. elim: l a => [|x l IH] a //=. by case: (f a (g x)) => //=. Qed.
Lemma foldM_nested {A B D} (g : D -> A -> B -> res A) (l : list D) (tabs : list B) (a : A) :
  foldM (fun o p => foldM (g p) tabs o) l a = foldM (fun o q => g (fst q) o (snd q)) (List.flat_map (fun p => List.map (pair p) tabs) l) a.
Proof. elim: l a => [|p l IH] a //=. rewrite foldM_cat -foldM_map /=. by case: (foldM (g p) tabs a) => //=. Qed.

Lemma update_length {A} (l : list A) n f : List.length (update_nth l n f) = List.length l.
Proof. elim: l n => [|x l IH] [|n] //=. by rewrite IH. Qed.
Lemma update_nthE {A} (l : list A) n f k : List.nth_error (update_nth l n f) k = if Nat.eqb k n then option_map f (List.nth_error l n) else List.nth_error l k.
Proof. elim: l n k => [|x l IH] [|n] [|k] //=. - by case: (Nat.eqb k n). Qed.
Lemma update_In {A} (l : list A) n f y : List.In y (update_nth l n f) -> List.In y l \/ exists x, List.In x l /\ y = f x.
Proof.
  elim: l n => [|x l IH] [|n] //=.
  - case=> [<-|H]; [right; exists x; by split; [left|]|left; by right].
  - case=> [<-|H]; [left; by left|]. case: (IH _ H) => [H'|[z [Hz Ez]]]; [left; by right|right; exists z; by split; [right|]].
Qed.
Lemma set2E {V} (t : list ((invar * invar) * V)) I1 J1 w I2 J2 : map_find2 (set2 t I1 J1 w) I2 J2 = if invar_eqb I1 I2 && invar_eqb J1 J2 then Some w else map_find2 t I2 J2.
Proof.
  rewrite /map_find2 /set2 /=. case E12: (invar_eqb I1 I2 && invar_eqb J1 J2) => //.
  elim: t => [|[[A B] x] t IH] //=. case EA: (invar_eqb A I1 && invar_eqb B J1) => /=.
  - rewrite IH. case EB: (invar_eqb A I2 && invar_eqb B J2) => //. exfalso. move/andP: EA => [E1 E2]. move/andP: EB => [E3 E4].
    apply (proj1 (invar_eqb_eq _ _)) in E1. apply (proj1 (invar_eqb_eq _ _)) in E2. apply (proj1 (invar_eqb_eq _ _)) in E3. apply (proj1 (invar_eqb_eq _ _)) in E4. subst. by rewrite !invar_eqb_refl in E12.
  - case: (invar_eqb A I2 && invar_eqb B J2) => //.
Qed.

Section Tables.
Variable C : numClosedFieldType.
Definition opget (o : opch_t C) (ch fnr : nat) (J1 J2 : invar) : option (fmat C) :=
  match List.nth_error o ch with
  | Some fs => match List.nth_error fs fnr with Some t => map_find2 t J1 J2 | None => None end
  | None => None
  end.
Definition shape (channels per : nat) (o : opch_t C) : Prop := List.length o = channels /\ forall fs, List.In fs o -> List.length fs = per.
Lemma new_shape channels per : shape channels per (new_opch C channels per).
Proof. split; [exact: List.repeat_length|]. move=> fs H. apply List.repeat_spec in H. subst. exact: List.repeat_length. Qed.
Lemma set_op_ok channels per o ch fnr J1 J2 w : shape channels per o -> (0 <= ch)%Z -> (0 <= fnr)%Z -> Nat.lt (Z.to_nat ch) channels -> Nat.lt (Z.to_nat fnr) per ->
  exists o', set_op o ch fnr J1 J2 w = Ok o' /\ shape channels per o' /\
    forall c f I1 I2, opget o' c f I1 I2 = if Nat.eqb c (Z.to_nat ch) && Nat.eqb f (Z.to_nat fnr) && (invar_eqb J1 I1 && invar_eqb J2 I2) then Some w else opget o c f I1 I2.
Proof.
  move=> [S1 S2] H1 H2 H3 H4. rewrite /set_op. have -> : Z.ltb ch 0 = false by apply Z.ltb_ge. have -> : Z.ltb fnr 0 = false by apply Z.ltb_ge. cbn [orb].
  case Efs: (List.nth_error o (Z.to_nat ch)) => [fs|]; [|apply List.nth_error_None in Efs; lia].
  have Lf := S2 _ (List.nth_error_In _ _ Efs). have -> : Nat.ltb (Z.to_nat fnr) (List.length fs) = true by apply Nat.ltb_lt; lia.
  eexists. split; [reflexivity|]. split; [split|].
  - by rewrite update_length.
  - move=> gs Hg. apply update_In in Hg. case: Hg => [Hg|[x [Hx ->]]]; [exact: S2|]. rewrite update_length. exact: S2.
  - move=> c f I1 I2. rewrite /opget update_nthE. case Ec: (Nat.eqb c (Z.to_nat ch)); cbn [andb]; [|done]. apply Nat.eqb_eq in Ec. subst c. rewrite Efs. cbn [option_map].
    rewrite update_nthE. case Ef: (Nat.eqb f (Z.to_nat fnr)); cbn [andb]; [|done]. apply Nat.eqb_eq in Ef. subst f.
    case Et: (List.nth_error fs (Z.to_nat fnr)) => [t|]; [|apply List.nth_error_None in Et; lia]. cbn [option_map]. exact: set2E.
Qed.
Lemma product_ok (M A B : fmat C) z : f_rows M = f_rows A -> f_cols A = f_cols B -> f_rows B = f_cols M ->
  exists M', product M z A B = Ok M' /\ f_rows M' = f_rows M /\ f_cols M' = f_cols M /\
    forall r s, Nat.lt r (f_rows A) -> Nat.lt s (f_rows B) -> f_el M' r s = f_el M r s + z * \sum_(a < f_cols A) f_el A r a * (f_el B s a)^*.
Proof.
  move=> H1 H2 H3. rewrite /product H1 H2 H3 !eqxx. cbn [andb]. case E: (_ && _ && _ && _).
  - eexists. split; [reflexivity|]. rewrite /= -H2 -H3. by split; [|split].
  - exists M. split; [reflexivity|]. split; [done|split; [done|]]. move=> r s /ltP Hr /ltP Hs. have E' : f_cols B = 0%N.
    { apply/eqP. rewrite -leqn0 leqNgt. apply/negP => P. move: E. by rewrite P (leq_ltn_trans _ Hr) // (leq_ltn_trans _ Hs). }
    rewrite E'. by rewrite big_ord0 mulr0 addr0.
Qed.
End Tables.
Section Ops.
Variables (C : numClosedFieldType) (cs : coef_set) (se : setting) (m : mode) (sh : shipped_table).
Hypotheses (Hck : check cs se m = true) (Hsh : List.In sh shipped) (Hma : matches cs sh).
Add Ring Cr : (field_ring C).
Notation zC := (zC C).
Notation d := (List.length (tb_In (cs_tab cs))).
Notation site := (ordinal_finType (local_states cs)).
Notation lab l := (Z.of_nat (S (nat_of_ord l))).
Notation anc := (anc cs).
Notation isec := (isec cs).
Variables (K : chain_coef C) (N : nat) (st : nstate C) (sc0 sc : C) (T : finType) (H : oper C T) (F : irr_table -> oper C T) (u : invar -> nat -> T -> C).
Hypotheses (Hord : in_order cs st) (Hrep : represents cs H F sc0 st u).
Notation dp := (List.map (fun p => (fst p, Z.of_nat (fst (snd p)))) (ns_prev st)).
Hypothesis Hsmall : forall J n, List.In (J, n) dp -> (0 <= n <= 1000000)%Z.
Notation D J := (dimlist cs dp J).
Notation n J := (Z.to_nat (zsum (D J))).
Notation stored := (stored_states st).

Variable E : invar -> raw_eigen C.
Notation v J r p := (f_el (r_vec (E J)) r p).
Notation eig_ok := (eig_ok C cs se K N st sc T H F u).
Variables (tasks : list invar) (k : invar -> nat) (vals : invar -> list C).
Hypotheses (Hnd : NoDup tasks) (Htask : forall J, List.In J tasks -> isec J /\ eig_ok J (E J)).

(** The blocks of a sector. *)
Definition kb (J : invar) : keig C :=
  KEig (k J) (vals J) (List.map (fun i => Fmat (k J) (bsize (D J) i) (fun r a => v J r (row (D J) i a))) (List.seq 0 d)).
Definition kept : list (invar * keig C) := List.map (fun J => (J, kb J)) tasks.
Lemma keys_kept : List.map fst kept = tasks.
Proof. rewrite /kept List.map_map. exact: List.map_id. Qed.
Lemma lookup_kept J : List.In J tasks -> lookup kept J = Some (kb J).
Proof. move=> HJ. apply lookup_In; [by rewrite keys_kept|]. apply List.in_map_iff. by exists J. Qed.
Lemma lookup_kept_none J : ~ List.In J tasks -> lookup kept J = None.
Proof. move=> HJ. case El: (lookup kept J) => [e|] //. exfalso. apply HJ. apply lookup_Some in El. apply (List.in_map fst) in El. by rewrite keys_kept in El. Qed.

Lemma part_ok J i : isec J -> Nat.lt i d -> part (D J) (Z.of_nat i) = Ok (Z.of_nat (offn (D J) i), Z.of_nat (Nat.add (offn (D J) i) (szn (D J) i))).
Proof. move=> HJ Hi. apply (view_ok (D J)); [exact: (good_D C cs se m sh Hck Hsh Hma st Hord Hsmall)|by rewrite D_length]. Qed.
Lemma finish_ok keep sub diag Egs J : List.In J tasks -> lookup sub J = Some {| sd_dims := D J; sd_anc := anclist cs J |} ->
  k J = keep N diag J -> vals J = List.map (fun r => r_val (E J) r - Egs) (List.seq 0 (r_count (E J))) ->
  finish_sector keep N sub diag Egs (J, E J) = if Nat.leb (k J) (r_count (E J)) then Ok (J, kb J) else UB.
Proof.
  move=> HJ Hsub Hk Hv. have [Hs [h [[Hn _] [He1 He2 /andP [He3 He4] _]]]] := Htask J HJ.
  rewrite /finish_sector /at_key. cbn [fst snd]. rewrite Hsub. cbn [bind sd_dims]. rewrite /split_in_blocks.
  have -> : Nat.ltb 0 (r_count (E J)) && Nat.leb (r_count (E J)) (f_cols (r_vec (E J))) = true.
  { apply/andP. split; [apply Nat.ltb_lt; by apply/ltP|apply Nat.leb_le; rewrite He2; by apply/leP]. }
  cbn [my_assert bind]. rewrite D_length.
  rewrite (mapM_ok _ (fun i => Fmat (r_count (E J)) (bsize (D J) i) (fun r a => v J r (row (D J) i a)))).
  - cbn [bind]. rewrite /truncate_blocks -Hk. case: (Nat.leb (k J) (r_count (E J))) => //. cbn [bind]. rewrite -Hv List.map_map /kb. done.
  - move=> i Hi. apply List.in_seq in Hi. rewrite part_ok; [|done|lia]. cbn [bind]. rewrite /columns. cbn [fst snd].
    have Ht := off_total _ (good_D C cs se m sh Hck Hsh Hma st Hord Hsmall J Hs) i. rewrite D_length in Ht.
    have -> : Z.leb 0 (Z.of_nat (offn (D J) i)) && Z.leb (Z.of_nat (offn (D J) i)) (Z.of_nat (Nat.add (offn (D J) i) (szn (D J) i))) && Z.leb (Z.of_nat (Nat.add (offn (D J) i) (szn (D J) i))) (Z.of_nat (f_cols (r_vec (E J)))) = true.
    { apply/andP. split; [apply/andP; split; apply Z.leb_le; lia|]. apply Z.leb_le. rewrite He2 Hn. lia. }
    rewrite He1. congr (Ok (Fmat _ _ _)).
    + rewrite /bsize -/(szn (D J) i). lia.
    + by rewrite Nat2Z.id.
Qed.

(** ** One block of an operator *)
Lemma ublock_ok J i : Nat.lt i d -> ublock (kb J) (Z.of_nat (S i)) = Ok (Fmat (k J) (bsize (D J) i) (fun r a => v J r (row (D J) i a))).
Proof.
  move=> Hi. rewrite /ublock /kb. cbn [ke_U]. have -> : Z.to_nat (Z.of_nat (S i) - 1) = i by lia.
  have Es : List.nth_error (List.seq 0 d) i = Some i.
  { rewrite (List.nth_error_nth' _ 0%N); [|by rewrite List.seq_length]. by rewrite List.seq_nth. }
  have := List.map_nth_error (fun i => Fmat (k J) (bsize (D J) i) (fun r a => v J r (row (D J) i a))) i (List.seq 0 d) Es. move=> ->.
  have -> : Z.leb 1 (Z.of_nat (S i)) = true by apply Z.leb_le; lia. done.
Qed.
Definition op_ok (t : irr_table) (J J' : invar) (w : fmat C) : Prop :=
  f_rows w = k J /\ f_cols w = k J' /\ forall r r', Nat.lt r (k J) -> Nat.lt r' (k J') -> f_el w r r' = \sum_(e <- it_rows t) at_row C cs st E J r J' r' e.
Lemma recalc_ok t J J' : List.In t (cs_irr cs) -> List.In J tasks -> List.In J' tasks -> leads t J' J ->
  (Z.of_nat (k J) < 1000000)%Z -> (Z.of_nat (k J') < 1000000)%Z -> exists w, recalc_f kept J J' (it_rows t) = Ok w /\ op_ok t J J' w.
Proof.
  move=> Ht HJ HJ' Hl Hk Hk'. rewrite /recalc_f /at_key !lookup_kept //. cbn [bind ke_n kb].
  have -> : Z.ltb (Z.of_nat (k J)) 1000000 && Z.ltb (Z.of_nat (k J')) 1000000 = true by apply/andP; split; apply Z.ltb_lt. cbn [my_assert bind].
  have [HsJ _] := Htask J HJ. have [HsJ' _] := Htask J' HJ'.
  apply (foldM_inv (P := fun (rs : list (Z * Z * option cexpr)) (w : fmat C) => f_rows w = k J /\ f_cols w = k J' /\ forall r r', Nat.lt r (k J) -> Nat.lt r' (k J') -> f_el w r r' = \sum_(e <- rs) at_row C cs st E J r J' r' e)).
  - by split; [|split] => //= r r' _ _; rewrite big_nil.
  - move=> l1 [[i1 ip] x] l2 w El [W1 [W2 W3]].
    have Hin : List.In (i1, ip, x) (it_rows t) by rewrite El; apply List.in_or_app; right; left.
    have [[z Ez] Hm] := table_rows cs se m Hck t i1 ip x Ht Hin. subst x. have [y [q [Ey [Eq [Hy [Hq EI]]]]]] := moves_spec cs t ip i1 Hm.
    rewrite Eq Ey !ublock_ok // /const_val. cbn [bind].
    have Hy' : (y < local_states cs)%N by apply/ltP. have Hq' : (q < local_states cs)%N by apply/ltP. pose ly : site := Ordinal Hy'. pose lq : site := Ordinal Hq'.
    have [J1 [EJ1 [HJ1 EA]]] := moves_child cs se m Hck t q y J' Ht Hq Hy EI HsJ'.
    have EJ : J1 = J. { move: Hl. rewrite /leads EJ1 => Hl. by apply (proj1 (invar_eqb_eq _ _)) in Hl. }
    subst J1.
    have Eb : bsize (D J) q = bsize (D J') y by rewrite (bsize_D C cs st J lq : bsize (D J) q = stored (anc q J)) (bsize_D C cs st J' ly : bsize (D J') y = stored (anc y J')) EA.
    pose A := Fmat (k J) (bsize (D J) q) (fun r a => v J r (row (D J) q a)). pose B := Fmat (k J') (bsize (D J') y) (fun r a => v J' r (row (D J') y a)).
    have [w' [P1 [P2 [P3 P4]]]] := product_ok C w A B (zC z) W1 Eb (esym W2). exists w'. split; [exact: P1|]. split; [by rewrite P2|]. split; [by rewrite P3|].
    move=> r r' Hr Hr'. rewrite P4 // W3 // big_cat /= big_cons big_nil addr0. congr (_ + _). rewrite /at_row.
    have -> : Z.to_nat (Z.of_nat q.+1 - 1) = q by lia. have -> : Z.to_nat (Z.of_nat y.+1 - 1) = y by lia. done.
Qed.
Lemma recalc_inv t J J' w : recalc_f kept J J' (it_rows t) = Ok w -> List.In J tasks -> List.In J' tasks -> (Z.of_nat (k J) < 1000000)%Z /\ (Z.of_nat (k J') < 1000000)%Z.
Proof.
  move=> Hw HJ HJ'. move: Hw. rewrite /recalc_f /at_key !lookup_kept //. cbn [bind ke_n kb]. case Ea: (_ && _) => //= _. move/andP: Ea => [/Z.ltb_lt E1 /Z.ltb_lt E2]. done.
Qed.

(** ** All operators *)
Notation per := (per_channel cs).
Notation chs := (cs_channels cs).
Lemma stored_kept J : Fullchain_model.stored kept J = true <-> List.In J tasks /\ Nat.lt 0 (k J).
Proof.
  rewrite /Fullchain_model.stored. case: (List.in_dec (list_eq_dec Z.eq_dec) J tasks) => Hin.
  - rewrite lookup_kept //. cbn [ke_n kb]. rewrite Nat.ltb_lt. by split=> [?|[? ?]].
  - rewrite lookup_kept_none //. split=> [//|[? ?] //].
Qed.
Definition Inv (done_ : list (invar * irr_table)) (o : opch_t C) : Prop := shape C chs per o /\ (forall q, List.In q done_ -> List.In (snd q) (cs_irr cs)) /\
  forall J' t J, List.In (J', t) done_ -> leads t J' J -> List.In J tasks -> List.In J' tasks -> Nat.lt 0 (k J) -> Nat.lt 0 (k J') ->
    exists w, opget C o (Z.to_nat (it_ch t)) (Z.to_nat (it_fnr t)) J J' = Some w /\ op_ok t J J' w.
Lemma leads_unique t t' J J' : List.In t (cs_irr cs) -> List.In t' (cs_irr cs) -> isec J' -> leads t J' J -> leads t' J' J -> it_ch t = it_ch t' -> it_fnr t = it_fnr t' -> t = t'.
Proof.
  move=> Ht Ht' HsJ L1 L2 E1 E2. apply (table_unique cs se m Hck t t') => //. move: L1 L2. rewrite /leads (shift_ok cs se m Hck t J' Ht HsJ) (shift_ok cs se m Hck t' J' Ht' HsJ) => L1 L2.
  apply (proj1 (invar_eqb_eq _ _)) in L1. apply (proj1 (invar_eqb_eq _ _)) in L2. rewrite -L2 in L1. have D1 := delta_sec cs se m Hck t Ht. have D2 := delta_sec cs se m Hck t' Ht'.
  apply (Fullchain_facts.vadd_inj J'); [exact: (sec_len cs _ _ HsJ D1)|exact: (sec_len cs _ _ HsJ D2)|]. by rewrite (Fullchain_facts.vadd_comm J') L1 Fullchain_facts.vadd_comm.
Qed.
Lemma one_ok done_ o J' t : Inv done_ o -> List.In J' tasks -> List.In t (cs_irr cs) ->
  (forall o', recalc_one kept J' o t = Ok o' -> Inv (done_ ++ [:: (J', t)]) o') /\
  ((forall J, List.In J tasks -> (Z.of_nat (k J) < 1000000)%Z) -> exists o', recalc_one kept J' o t = Ok o').
Proof.
  move=> [Is [It Ig]] HJ' Ht. have [HsJ' _] := Htask J' HJ'. have [R1 [R2 [R3 R4]]] := table_range cs se m Hck t Ht.
  rewrite /recalc_one (shift_ok cs se m Hck t J' Ht HsJ'). set J1 := Fullchain_check.vadd (delta_of t) J'.
  have L1 : leads t J' J1 by rewrite /leads (shift_ok cs se m Hck t J' Ht HsJ'); exact: invar_eqb_refl.
  have lead1 : forall J, leads t J' J -> J = J1. { move=> J. rewrite /leads (shift_ok cs se m Hck t J' Ht HsJ') => L. by apply (proj1 (invar_eqb_eq _ _)) in L. }
  have It' : forall q, List.In q (done_ ++ [:: (J', t)]) -> List.In (snd q) (cs_irr cs). { move=> q Hq. apply List.in_app_or in Hq. case: Hq => [Hq|[<-|[]]] //. exact: It. }
  case Eh: (have_stored kept J1 J').
  - move/andP: Eh => [/stored_kept [HJ1 P1] /stored_kept [_ P2]]. split.
    + move=> o'. case Er: (recalc_f kept J1 J' (it_rows t)) => [w| |] //=. have [k1 k2] := recalc_inv t J1 J' w Er HJ1 HJ'. have [w' [Ew Hw]] := recalc_ok t J1 J' Ht HJ1 HJ' L1 k1 k2.
      rewrite Er in Ew. case: Ew => Ew. subst w'. have [o1 [So [So2 So3]]] := set_op_ok C chs per o (it_ch t) (it_fnr t) J1 J' w Is R3 R4 R1 R2.
      rewrite So. case=> <-. split=> //. split; [by apply It'|]. move=> J2' t2 J2 Hin L2 HJ2 HJ2' K1 K2. rewrite So3. case Ec: (_ && _ && _).
      * move/andP: Ec => [/andP [Ec Ef] /andP [Ei Ej]]. apply Nat.eqb_eq in Ec. apply Nat.eqb_eq in Ef. apply (proj1 (invar_eqb_eq _ _)) in Ei. apply (proj1 (invar_eqb_eq _ _)) in Ej. subst J2 J2'.
        exists w. split=> //. suff -> : t2 = t by []. apply List.in_app_or in Hin.
        have Ht2 : List.In t2 (cs_irr cs). { case: Hin => [Hin|[[<-]|[]]] //. exact: (It _ Hin). }
        have [Q1 [Q2 [Q3 Q4]]] := table_range cs se m Hck t2 Ht2. apply (leads_unique t2 t J1 J') => //; lia.
      * apply List.in_app_or in Hin. case: Hin => [Hin|[[E1 E2]|[]]]; [exact: Ig|]. subst J2' t2. exfalso. have EJ := lead1 _ L2. subst J2. by rewrite !Nat.eqb_refl !invar_eqb_refl in Ec.
    + move=> Hall. have [w [Ew _]] := recalc_ok t J1 J' Ht HJ1 HJ' L1 (Hall _ HJ1) (Hall _ HJ'). rewrite Ew. cbn [bind]. have [o1 [So _]] := set_op_ok C chs per o (it_ch t) (it_fnr t) J1 J' w Is R3 R4 R1 R2. by exists o1.
  - split; [|by move=> _; exists o]. move=> o' [<-]. split=> //. split; [by apply It'|]. move=> J2' t2 J2 Hin L2 HJ2 HJ2' K1 K2. apply List.in_app_or in Hin. case: Hin => [Hin|[[E1 E2]|[]]]; [exact: Ig|]. subst J2' t2. exfalso.
    have EJ := lead1 _ L2. subst J2. move: Eh. rewrite /have_stored. have -> : Fullchain_model.stored kept J1 = true by apply stored_kept. by have -> : Fullchain_model.stored kept J' = true by apply stored_kept.
Qed.

Lemma irreduc : 
  (forall o, recalc_irreduc chs (cs_irr cs) per kept = Ok o -> forall t J J', List.In t (cs_irr cs) -> leads t J' J -> List.In J tasks -> List.In J' tasks ->
     Nat.lt 0 (k J) -> Nat.lt 0 (k J') -> exists w, opget C o (Z.to_nat (it_ch t)) (Z.to_nat (it_fnr t)) J J' = Some w /\ op_ok t J J' w) /\
  ((forall J, List.In J tasks -> (Z.of_nat (k J) < 1000000)%Z) -> exists o, recalc_irreduc chs (cs_irr cs) per kept = Ok o).
Proof.
  rewrite /recalc_irreduc (foldM_nested (fun p => recalc_one kept (fst p))).
  pose qs := List.flat_map (fun p => List.map (pair p) (cs_irr cs)) kept. rewrite -/qs.
  have in_qs : forall q, List.In q qs <-> List.In (fst q) kept /\ List.In (snd q) (cs_irr cs).
  { move=> [p t]. rewrite /qs List.in_flat_map. split.
    - move=> [p' [Hp Hin]]. apply List.in_map_iff in Hin. case: Hin => t' [[E1 E2] Hin]. by subst.
    - move=> [Hp Ht]. exists p. split=> //. apply List.in_map_iff. by exists t. }
  have in_kept : forall p, List.In p kept -> List.In (fst p) tasks. { move=> p Hp. apply (List.in_map fst) in Hp. by rewrite keys_kept in Hp. }
  pose nm (q : invar * keig C * irr_table) := (fst (fst q), snd q).
  have I0 : Inv (List.map nm [::]) (new_opch C chs per) by split; [exact: new_shape|].
  split.
  - move=> o Ho. have := foldM_Ok (fun l o => Inv (List.map nm l) o) _ _ _ _ Ho I0. move=> G.
    have [_ [_ Hg]] : Inv (List.map nm qs) o.
    { apply: G => l1 q a0 a1 /in_qs [Hq1 Hq2] Ha He. rewrite List.map_app. cbn [List.map]. exact: (proj1 (one_ok _ _ _ _ Ha (in_kept _ Hq1) Hq2)). }
    move=> t J J' Ht Hl HJ HJ' K1 K2. apply Hg => //. apply List.in_map_iff. exists ((J', kb J'), t). split=> //. apply in_qs. split=> //. apply List.in_map_iff. by exists J'.
  - move=> Hall. have [o [Ho _]] : exists o, foldM (fun o q => recalc_one kept (fst (fst q)) o (snd q)) qs (new_opch C chs per) = Ok o /\ Inv (List.map nm qs) o.
    { apply (foldM_inv (P := fun l (o : opch_t C) => Inv (List.map nm l) o)) => // l1 q l2 b El Hb.
      have /in_qs [Hq1 Hq2] : List.In q qs by rewrite El; apply List.in_or_app; right; left.
      have [H1 H2] := one_ok _ _ _ _ Hb (in_kept _ Hq1) Hq2. have [b' Hb'] := H2 Hall. exists b'. split=> //. rewrite List.map_app. cbn [List.map]. exact: H1. }
    by exists o.
Qed.
End Ops.
