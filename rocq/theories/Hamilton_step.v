(** The whole Hamiltonian of a sector. *)
From Coq Require Import List ZArith Lia.
From Verif Require Import Base Invar_model Invar_spec Symmetry_model Symmetry_spec Symmetry_tables Symmetry_proofs Symmetry_factor Symmetry_dim
  Subspaces_model Subspaces_proofs Subspaces_step Density_model Density_struct Recalc_model Hamilton_model Hamilton_pos Hamilton_spec Hamilton_proofs Cring.
From mathcomp Require Import ssreflect ssrfun ssrbool eqtype ssrnat seq fintype bigop ssralg ssrnum.
Import GRing.Theory Num.Theory.
Local Open Scope ring_scope.

Section Diag.
Variable C : numClosedFieldType.
Variables (stp : C) (d : list Z) (anc : list invar) (prev : list (invar * (nat * list C))).
Hypothesis Hd : good d.
Let tot := Z.to_nat (zsum d).
(** Every non-empty block has its energies. *)
Hypothesis Hen : forall i, Nat.lt i (List.length d) -> Nat.lt 0 (szn d i) ->
  exists A e, List.nth_error anc i = Some A /\ lookup prev A = Some e /\ Nat.le (szn d i) (List.length (snd e)).

Definition diag_done (h : fmat C) (P : nat -> nat -> bool) : Prop :=
  f_rows h = tot /\ f_cols h = tot /\ (forall r c, r <> c -> f_el h r c = 0) /\
  forall i a, valid d i a -> f_el h (row d i a) (row d i a) = if P i a then stp * old_energy C anc prev i a else 0.

Definition body (i : nat) (h : fmat C) (k : nat) : res (fmat C) :=
  match List.nth_error anc i with
      | None => UB
      | Some A =>
          let* e := at_key prev A in
          match List.nth_error (snd e) k with
          | None => UB
          | Some x => set_diag h (Nat.add (Z.to_nat (Z.of_nat (offn d i))) k) (stp * x)
          end
      end.
Lemma diag_inner i : Nat.lt i (List.length d) -> forall n m h, Nat.le (Nat.add m n) (szn d i) ->
  diag_done h (fun k a => Nat.ltb k i || (Nat.eqb k i && Nat.ltb a m)) ->
  exists h', foldM (body i) (List.seq m n) h = Ok h' /\
    diag_done h' (fun k a => Nat.ltb k i || (Nat.eqb k i && Nat.ltb a (Nat.add m n))).
Proof.
  move=> Hi. elim=> [|n IH] m h Hn Hh.
  - exists h. split; [done|]. by rewrite Nat.add_0_r.
  - have Hpos : Nat.lt 0 (szn d i) by lia. have [A [e [EA [Ee Le]]]] := Hen i Hi Hpos.
    have [x Ex] : exists x, List.nth_error (snd e) m = Some x.
    { case E : (List.nth_error (snd e) m) => [x|]; [by exists x|]. apply List.nth_error_None in E. lia. }
    cbn [List.seq foldM]. have EB : body i h m = set_diag h (Nat.add (offn d i) m) (stp * x) by rewrite /body EA /at_key Ee /= Ex Nat2Z.id.
    rewrite EB.
    move: (Hh) => [R [Co [O D]]].
    have Hm : valid d i m by split; [done|]; rewrite /bsize; fold (szn d i); lia.
    have Hlt := pos_total d Hd i m Hi (proj2 Hm).
    rewrite /set_diag R Co. replace (Nat.ltb _ tot) with true by (symmetry; apply Nat.ltb_lt; exact Hlt). cbn [andb bind].
    have G : diag_done (Fmat tot tot (fun a b => if Nat.eqb a (Nat.add (offn d i) m) && Nat.eqb b (Nat.add (offn d i) m) then stp * x else f_el h a b))
       (fun k a => Nat.ltb k i || (Nat.eqb k i && Nat.ltb a (S m))).
    { split; [done|]. split; [done|]. split.
      - move=> r c Hrc /=. case E1 : (Nat.eqb r _); case E2 : (Nat.eqb c _) => /=; try exact (O _ _ Hrc).
        apply Nat.eqb_eq in E1. apply Nat.eqb_eq in E2. congruence.
      - move=> k a Hk /=. have P := pos_eq d Hd k a i m (proj2 Hk) (proj2 Hm).
        case E1 : (Nat.eqb (row d k a) (Nat.add (offn d i) m)) => /=.
        + apply Nat.eqb_eq in E1. destruct (proj1 P E1) as [-> ->]. rewrite Nat.eqb_refl. replace (Nat.ltb m (S m)) with true by (symmetry; apply Nat.ltb_lt; lia).
          rewrite orbT /old_energy EA Ee. by rewrite (List.nth_error_nth _ _ 0 Ex).
        + rewrite D //. have -> : (Nat.ltb k i || (Nat.eqb k i && Nat.ltb a m)) = (Nat.ltb k i || (Nat.eqb k i && Nat.ltb a (S m))); [|done].
          case E2 : (Nat.ltb k i) => //=. case E3 : (Nat.eqb k i) => //=. apply Nat.eqb_eq in E3. subst k.
          apply Nat.eqb_neq in E1. have Hne : a <> m by move=> E4; apply E1; subst. 
          apply/idP/idP => H; [apply Nat.ltb_lt in H|apply Nat.ltb_lt in H]; apply Nat.ltb_lt; lia. }
    have [h' [E' G']] := IH (S m) _ ltac:(lia) G. exists h'. split; [exact E'|].
    replace (Nat.add m (S n)) with (Nat.add (S m) n) by lia. exact G'.
Qed.

Lemma diag_outer : forall n i h, Nat.add i n = List.length d -> diag_done h (fun k a => Nat.ltb k i) ->
  exists h', foldM (fun h i => diag_block stp d anc prev i h) (List.seq i n) h = Ok h' /\ diag_done h' (fun k a => Nat.ltb k (Nat.add i n)).
Proof.
  elim=> [|n IH] i h Hn Hh.
  - exists h. split; [done|]. by rewrite Nat.add_0_r.
  - have Hi : Nat.lt i (List.length d) by lia.
    have [h1 [E1 G1]] : exists h1, diag_block stp d anc prev i h = Ok h1 /\ diag_done h1 (fun k a => Nat.ltb k (S i)).
    { rewrite /diag_block (view_ok d Hd i Hi). cbn [bind fst snd].
      replace (Z.to_nat (Z.of_nat (Nat.add (offn d i) (szn d i)) - Z.of_nat (offn d i))) with (szn d i) by lia.
      have H0 : diag_done h (fun k a => Nat.ltb k i || (Nat.eqb k i && Nat.ltb a 0)).
      { move: Hh => [R [Co [O D]]]. split; [done|]. split; [done|]. split; [done|]. move=> k a Hk. rewrite D //.
        replace (Nat.ltb a 0) with false by (symmetry; apply Nat.ltb_ge; lia). by rewrite andbF orbF. }
      have [h1 [E G]] := diag_inner i Hi (szn d i) 0 h ltac:(lia) H0.
      exists h1. split; [exact E|]. move: G => [R [Co [O D]]]. split; [done|]. split; [done|]. split; [done|].
      move=> k a Hk. rewrite D //. have -> : (Nat.ltb k i || (Nat.eqb k i && Nat.ltb a (Nat.add 0 (szn d i)))) = Nat.ltb k (S i); [|done].
      case E3 : (Nat.eqb k i).
      - apply Nat.eqb_eq in E3. subst k. replace (Nat.ltb a (Nat.add 0 (szn d i))) with true by (symmetry; apply Nat.ltb_lt; exact (proj2 Hk)).
        rewrite orbT. symmetry. apply Nat.ltb_lt. lia.
      - rewrite orbF. apply Nat.eqb_neq in E3. apply/idP/idP => H; apply Nat.ltb_lt in H; apply Nat.ltb_lt; lia. }
    cbn [List.seq foldM]. rewrite E1. cbn [bind]. have [h' [E' G']] := IH (S i) h1 ltac:(lia) G1.
    exists h'. split; [exact E'|]. by replace (Nat.add i (S n)) with (Nat.add (S i) n) by lia.
Qed.

Lemma diag_all : exists h, foldM (fun h i => diag_block stp d anc prev i h) (List.seq 0 (List.length d)) (zero_matrix C tot) = Ok h /\
  whole C d h /\ forall i a j b, valid d i a -> valid d j b ->
    completed C h (row d i a) (row d j b) = if Nat.eqb i j && Nat.eqb a b then stp * old_energy C anc prev i a else 0.
Proof.
  have H0 : diag_done (zero_matrix C tot) (fun k a => Nat.ltb k 0) by split; [done|]; split; [done|]; split; [done|]; move=> i a Hi /=.
  have [h [E [R [Co [O D]]]]] := diag_outer (List.length d) 0 (zero_matrix C tot) erefl H0.
  exists h. split; [exact E|]. split.
  - split; [done|]. split; [done|]. move=> r c H. apply O. lia.
  - move=> i a j b Hi Hj. have P := pos_eq d Hd i a j b (proj2 Hi) (proj2 Hj). rewrite /completed.
    case E1 : (Nat.eqb i j && Nat.eqb a b).
    + move: E1 => /andP [E1 E2]. apply Nat.eqb_eq in E1. apply Nat.eqb_eq in E2. subst j b. rewrite Nat.leb_refl D //.
      replace (Nat.ltb i _) with true; [done|]. symmetry. apply Nat.ltb_lt. exact (proj1 Hi).
    + have Hne : row d i a <> row d j b.
      { move=> Heq. destruct (proj1 P Heq) as [-> ->]. rewrite !Nat.eqb_refl in E1. discriminate. }
      case: (Nat.leb _ _); [exact: O|]. rewrite O ?rmorph0 //. by apply: nesym.
Qed.
End Diag.

Section Ham.
Variable C : numClosedFieldType.
Variables (sh : shipped_table) (scale stp : C) (spin : nat) (prev : list (invar * (nat * list C))) (opch : opch_t C) (J : invar).
Hypothesis Hsh : List.In sh shipped.
Hypothesis HJ : admissible (ts (sh_sym sh)) J.
Hypothesis Hsp : spectra C prev.
Hypothesis Hm : forall A x, List.In (A, x) prev -> multiplet (sh_sym sh) A.
Let dp : sizes := List.map (fun p => (fst p, Z.of_nat (fst (snd p)))) prev.

Lemma dp_ok A n : List.In (A, n) dp -> multiplet (sh_sym sh) A /\ (0 <= n <= 1000000)%Z.
Proof.
  move=> H. apply List.in_map_iff in H. case: H => [[A' [n' e]] [E Hin]]. injection E => E1 E2. subst. split; [exact (Hm _ _ Hin)|].
  have := proj2 Hsp _ _ _ Hin. rewrite /=. lia.
Qed.

Lemma find_dp A : List.find (fun p => invar_eqb (fst p) A) dp =
  option_map (fun p => (fst p, Z.of_nat (fst (snd p)))) (List.find (fun p => invar_eqb (fst p) A) prev).
Proof. rewrite /dp. elim: prev => [|p l IH] //=. by case: (invar_eqb (fst p) A). Qed.

Lemma structure_of : exists d anc, ancestors (sh_sym sh) (sh_combs sh) (sh_tab sh) J = Ok anc /\
  mk_subdims (sh_sym sh) (sh_combs sh) (sh_tab sh) dp J anc = Ok {| sd_dims := d; sd_anc := anc |} /\
  List.length d = sh_combs sh /\ good d /\ dims_total d = zsum d /\
  (forall i, Nat.lt i (List.length d) -> Nat.lt 0 (szn d i) ->
    exists A e, List.nth_error anc i = Some A /\ lookup prev A = Some e /\ Nat.le (szn d i) (List.length (snd e))).
Proof.
  have [anc [E1 E2]] := subdims_pure sh Hsh dp dp_ok J HJ.
  have L : List.length (dims_p sh dp J) = sh_combs sh.
  { rewrite /dims_p List.map_length List.combine_length. destruct (shipped_ok sh Hsh) as (L1 & L2 & _). lia. }
  exists (dims_p sh dp J), anc. split; [done|]. split; [done|]. split; [done|].
  have B := dims_p_bounds sh Hsh dp dp_ok J. have T := dims_p_total sh Hsh dp dp_ok J.
  have CS := combs_small sh Hsh.
  split.
  { split; [move=> x Hx; apply B in Hx; lia|]. split.
    - have := zsum_bound (dims_p sh dp J) 1000000 ltac:(lia) (fun x Hx => proj2 (B x Hx)). rewrite L. change (2 ^ 31)%Z with 2147483648%Z. lia.
    - rewrite L /two64. change (2 ^ 64)%Z with 18446744073709551616%Z. lia. }
  split; [done|]. move=> i Hi Hpos.
  have EA : anc = List.map (fun x => ancp sh x J) (tb_In (sh_tab sh)).
  { destruct (shipped_ok sh Hsh) as (L1 & L2 & A1 & _).
    have := ancestors_pure (sh_sym sh) (sh_combs sh) (sh_tab sh) L1 L2 A1 J HJ. rewrite E1 => H. by injection H. }
  destruct (shipped_ok sh Hsh) as (L1 & L2 & _).
  have [di Ei] : exists di, List.nth_error (tb_In (sh_tab sh)) i = Some di.
  { case E : (List.nth_error (tb_In (sh_tab sh)) i) => [di|]; [by exists di|]. apply List.nth_error_None in E. lia. }
  have [q Eq] : exists q, List.nth_error (tb_QN (sh_tab sh)) i = Some q.
  { case E : (List.nth_error (tb_QN (sh_tab sh)) i) => [q|]; [by exists q|]. apply List.nth_error_None in E. lia. }
  have En : List.nth_error (dims_p sh dp J) i = Some (dimf sh dp J (di, q)).
  { rewrite /dims_p List.nth_error_map (Density_struct.nth_combine _ _ _ _ _ Ei Eq). done. }
  have Es : szn (dims_p sh dp J) i = Z.to_nat (dimf sh dp J (di, q)) by rewrite /szn (List.nth_error_nth _ _ 0%Z En).
  rewrite Es in Hpos |- *. exists (ancp sh di J).
  move: Hpos. rewrite /dimf /=. case: (coupled _ _ _ _); [|rewrite /=; lia]. rewrite /size_p find_dp /lookup.
  case Ef : (List.find _ prev) => [[K [n e]]|] /=; [|lia]. move=> Hpos. exists (n, e). split; [by rewrite EA List.nth_error_map Ei|]. split; [done|].
  apply List.find_some in Ef. case: Ef => Hin _. have := proj2 Hsp _ _ _ Hin. rewrite /=. lia.
Qed.

Theorem hamiltonian_ok calls : exists d anc, ancestors (sh_sym sh) (sh_combs sh) (sh_tab sh) J = Ok anc /\
  mk_subdims (sh_sym sh) (sh_combs sh) (sh_tab sh) dp J anc = Ok {| sd_dims := d; sd_anc := anc |} /\
  List.length d = sh_combs sh /\
  ((exists h, hamiltonian (sh_sym sh) (sh_combs sh) (sh_tab sh) scale stp spin prev opch J calls = Ok h) <->
   forall c, List.In c calls -> acceptable C d anc opch c) /\
  forall h, hamiltonian (sh_sym sh) (sh_combs sh) (sh_tab sh) scale stp spin prev opch J calls = Ok h ->
    Z.of_nat (f_rows h) = zsum d /\ Z.of_nat (f_cols h) = zsum d /\ upper C h /\
    (forall r, Nat.lt r (f_rows h) -> exists i a, Nat.lt i (List.length d) /\ Nat.lt a (bsize d i) /\ r = row d i a) /\
    forall i a j b, Nat.lt i (List.length d) -> Nat.lt a (bsize d i) -> Nat.lt j (List.length d) -> Nat.lt b (bsize d j) ->
      completed C h (row d i a) (row d j b) =
      (if Nat.eqb i j && Nat.eqb a b then stp * old_energy C anc prev i a else 0) + sum_terms C scale spin anc opch calls i a j b.
Proof.
  have [d [anc [E1 [E2 [L [G [T Hen]]]]]]] := structure_of.
  exists d, anc. split; [done|]. split; [done|]. split; [done|].
  have [h0 [E3 [W0 D0]]] := diag_all C stp d anc prev G Hen.
  have nn : (0 <= zsum d)%Z by apply zsum_nonneg; exact (proj1 G).
  have EH : hamiltonian (sh_sym sh) (sh_combs sh) (sh_tab sh) scale stp spin prev opch J calls = make_matrix scale spin d anc opch calls h0.
  { rewrite /hamiltonian E1. cbn [bind]. fold dp. rewrite E2. cbn [bind sd_dims]. rewrite -L T.
    have -> : to_size (zsum d) = zsum d.
    { rewrite /to_size /two64. apply Z.mod_small. split; [done|]. move: (proj1 (proj2 G)). change (2 ^ 31)%Z with 2147483648%Z.
      change (2 ^ 64)%Z with 18446744073709551616%Z. lia. }
    by rewrite E3. }
  rewrite EH. split.
  - split.
    + case=> h H. exact (calls_inv C scale spin d anc opch G calls h0 h W0 H).
    + move=> H. have [h [Eh _]] := calls_add C scale spin d anc opch G calls h0 W0 H. by exists h.
  - move=> h H. have Ha := calls_inv C scale spin d anc opch G calls h0 h W0 H.
    have [h' [Eh [[R [Co U]] A]]] := calls_add C scale spin d anc opch G calls h0 W0 Ha. rewrite H in Eh. injection Eh => Eq. subst h'.
    split; [lia|]. split; [lia|]. split; [done|]. split.
    + move=> r Hr. rewrite R in Hr. have [i [a [Hi [Ha' Er]]]] := pos_all d G r Hr. exists i, a. done.
    + move=> i a j b Hi Ha' Hj Hb. rewrite A //. by rewrite D0.
Qed.
End Ham.
