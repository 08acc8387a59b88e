From Coq Require Import List ZArith Reals Lia Lra String Bool.
From Verif Require Import Base Invar_model Invar_spec Invar_proofs Symmetry_model Symmetry_spec Thermo_model Thermo_spec Thermo_proofs Columns_model Columns_tables Columns_spec.
Import ListNotations.
Local Open Scope string_scope.
Local Open Scope list_scope.
Local Open Scope R_scope.

(** *** Sums over the members of a multiplet *)
Lemma sum_seq n : rsum INR (seq 0 n) = INR n * (INR n - 1) / 2 /\ rsum (fun j => INR j ^ 2) (seq 0 n) = (INR n - 1) * INR n * (2 * INR n - 1) / 6 /\
  rsum (fun _ => 1) (seq 0 n) = INR n.
Proof.
  induction n as [|n (IH1 & IH2 & IH3)]; [cbn; lra|]. rewrite !seq_S, !rsum_app, IH1, IH2, IH3. cbn [rsum Nat.add]. rewrite S_INR. repeat split; field.
Qed.
Lemma magnetic_sums d : (0 <= d)%Z -> rsum (fun _ => 1) (magnetic d) = IZR d /\ rsum (fun m => m ^ 2) (magnetic d) = IZR d * (IZR d * IZR d - 1) / 12.
Proof.
  intros Hd. unfold magnetic. rewrite !rsum_map. destruct (sum_seq (Z.to_nat d)) as (H1 & H2 & H3).
  assert (E : INR (Z.to_nat d) = IZR d) by (rewrite INR_IZR_INZ, Z2Nat.id; auto). split; [rewrite H3; auto|].
  set (c := (IZR d - 1) / 2).
  rewrite (rsum_ext _ (fun j => INR j ^ 2 + ((- 2 * c) * INR j + c ^ 2 * 1))) by (intros; ring).
  rewrite !rsum_plus, !rsum_scal, H1, H2, H3, E. unfold c. field.
Qed.
Lemma rsum_const {A} (c : R) (l : list A) : rsum (fun _ => c) l = c * rsum (fun _ => 1) l.
Proof. rewrite <- rsum_scal. apply rsum_ext. intros; ring. Qed.

Section Members.
  Variables (sg : signature) (J : invar).
  Definition dimension (kn : mult_kind * string) : Z := mult_factor (fst kn) (val 0%Z (get sg J (snd kn))).
  Fixpoint prodd (fs : list (mult_kind * string)) : R := match fs with [] => 1 | kn :: fs' => IZR (dimension kn) * prodd fs' end.
  Lemma members_one fs : (forall kn, In kn fs -> (0 <= dimension kn)%Z) -> rsum (fun _ => 1) (members_of sg fs J) = prodd fs.
  Proof.
    induction fs as [|[k n] fs IH]; intros H; [cbn; ring|]. cbn [members_of prodd]. rewrite rsum_flat_map.
    rewrite (rsum_ext _ (fun _ => prodd fs)).
    2:{ intros m _. rewrite rsum_map. apply IH. intros; apply H; right; auto. }
    rewrite rsum_const. assert (Hd := H (k, n) (or_introl eq_refl)). destruct (magnetic_sums _ Hd) as (E & _).
    change (mult_factor k (val 0%Z (get sg J n))) with (dimension (k, n)). rewrite E. ring.
  Qed.
  Lemma members_lookup fs k n h : NoDup (map snd fs) -> (forall kn, In kn fs -> (0 <= dimension kn)%Z) -> In (k, n) fs ->
    rsum (fun ms => h (lookup n ms)) (members_of sg fs J) * IZR (dimension (k, n)) = prodd fs * rsum h (magnetic (dimension (k, n))).
  Proof.
    induction fs as [|[k0 n0] fs IH]; intros Hnd H Hin; [destruct Hin|]. cbn [map snd] in Hnd. inversion Hnd as [|? ? Hni Hnd']; subst.
    assert (H' : forall kn, In kn fs -> (0 <= dimension kn)%Z) by (intros; apply H; right; auto).
    cbn [members_of prodd]. rewrite rsum_flat_map. destruct Hin as [E|Hin].
    - injection E as <- <-.
      rewrite (rsum_ext _ (fun m => prodd fs * h m)).
      2:{ intros m _. rewrite rsum_map. cbn [lookup]. rewrite String.eqb_refl, rsum_const, members_one by auto. ring. }
      rewrite rsum_scal. change (mult_factor k0 (val 0%Z (get sg J n0))) with (dimension (k0, n0)). ring.
    - assert (Hne : n0 <> n). { intros ->. apply Hni. apply in_map_iff. exists (k, n). auto. }
      rewrite (rsum_ext _ (fun _ => rsum (fun ms => h (lookup n ms)) (members_of sg fs J))).
      2:{ intros m _. rewrite rsum_map. cbn [lookup]. rewrite (proj2 (String.eqb_neq n0 n)) by auto. auto. }
      rewrite rsum_const. specialize (IH Hnd' H' Hin).
      assert (Hd := H (k0, n0) (or_introl eq_refl)). destruct (magnetic_sums _ Hd) as (E & _). change (mult_factor k0 (val 0%Z (get sg J n0))) with (dimension (k0, n0)). rewrite E.
      transitivity (IZR (dimension (k0, n0)) * (rsum (fun ms => h (lookup n ms)) (members_of sg fs J) * IZR (dimension (k, n)))); [ring|]. rewrite IH. ring.
  Qed.
End Members.

(** *** Reading quantum numbers *)
Lemma index_range sg n i j : index_of sg n i = Some j -> (i <= j < i + List.length sg)%nat.
Proof.
  revert i. induction sg as [|[m t] sg IH]; intros i H; cbn in H; [discriminate|].
  destruct (index_of sg n (S i)) eqn:E; [injection H as <-; apply IH in E; cbn; lia|].
  destruct (String.eqb m n); [|discriminate]. injection H as <-. cbn. lia.
Qed.
Lemma index_some sg n i : existsb (fun p => String.eqb (fst p) n) sg = true -> exists j, index_of sg n i = Some j.
Proof.
  revert i. induction sg as [|[m t] sg IH]; intros i H; cbn in *; [discriminate|]. apply orb_true_iff in H as [H|H].
  - rewrite H. destruct (index_of sg n (S i)); eauto.
  - destruct (IH (S i) H) as [j ->]. eauto.
Qed.
Lemma get_ok sg J n : admissible (qntype sg) J -> existsb (fun p => String.eqb (fst p) n) sg = true -> exists x, get sg J n = Ok x.
Proof.
  intros Ha Hn. destruct (index_some sg n 0 Hn) as [i E]. unfold get. rewrite E. apply index_range in E as [_ E]. cbn in E.
  assert (L : List.length (qntype sg) = List.length sg) by (unfold qntype; apply map_length).
  destruct (nth_error (qntype sg) i) as [t|] eqn:Et; [|apply nth_error_None in Et; lia].
  assert (Hx : exists x, nth_error J i = Some x /\ adm t x).
  { clear -Ha Et. revert i Et. unfold admissible in Ha. induction Ha as [|t0 x0 l1 l2 H0 Hl IH]; intros [|i] Et; cbn in *; try discriminate; [injection Et as <-; eauto|eauto]. }
  destruct Hx as (x & Ex & Hx). unfold getqn. rewrite Ex. cbn [bind]. exists x. destruct t; auto.
  - rewrite parity_ok_true by auto. auto.
  - rewrite mod3_ok_true by auto. auto.
Qed.

(** *** One sector *)
Section Sector.
  Variables (sy : symmetry) (J : invar).
  Hypothesis HJ : multiplet sy J.
  Hypothesis Hnames : forall k n, In (k, n) (sy_mult sy) -> existsb (fun p => String.eqb (fst p) n) (sy_sig sy) = true.
  Hypothesis Hnd : NoDup (map snd (sy_mult sy)).
  Lemma dim_pos kn : In kn (sy_mult sy) -> (1 <= dimension (sy_sig sy) J kn)%Z.
  Proof.
    destruct kn as [k n]. intros Hin. destruct HJ as [Ha Hm]. destruct (get_ok (sy_sig sy) J n Ha (Hnames k n Hin)) as [x Ex]. unfold dimension. cbn [fst snd]. rewrite Ex. cbn. eapply Hm; eauto.
  Qed.
  Lemma mult_prod : exists z, mult sy J = Ok z /\ (1 <= z)%Z /\ IZR z = prodd (sy_sig sy) J (sy_mult sy) /\ degeneracy sy J = z.
  Proof.
    assert (H : forall fs, (forall kn, In kn fs -> In kn (sy_mult sy)) -> exists z, mult_of (sy_sig sy) fs J = Ok z /\ (1 <= z)%Z /\ IZR z = prodd (sy_sig sy) J fs).
    { induction fs as [|[k n] fs IH]; intros Hs; [exists 1%Z; cbn; auto with zarith|].
      destruct IH as (z & Ez & Hz & Hp); [intros; apply Hs; right; auto|].
      assert (Hin : In (k, n) (sy_mult sy)) by (apply Hs; left; auto). pose proof (dim_pos _ Hin) as Hd.
      destruct (get_ok (sy_sig sy) J n (proj1 HJ) (Hnames k n Hin)) as [x Ex]. cbn [mult_of]. rewrite Ex. cbn [bind]. rewrite Ez. cbn [bind].
      exists (mult_factor k x * z)%Z. unfold dimension in Hd. cbn [fst snd] in Hd. rewrite Ex in Hd. cbn [val] in Hd. split; [auto|]. split; [nia|].
      cbn [prodd]. unfold dimension at 1. cbn [fst snd]. rewrite Ex. cbn [val]. rewrite mult_IZR, Hp. auto. }
    destruct (H (sy_mult sy) (fun _ h => h)) as (z & Ez & Hz & Hp). exists z. unfold degeneracy, mult. rewrite Ez. auto.
  Qed.
  Lemma dims_ge0 kn : In kn (sy_mult sy) -> (0 <= dimension (sy_sig sy) J kn)%Z.
  Proof. intros H. pose proof (dim_pos kn H). lia. Qed.
  Lemma sector_const c : rsum (fun _ => c) (members sy J) = IZR (degeneracy sy J) * c.
  Proof. unfold members. rewrite rsum_const, members_one by apply dims_ge0. destruct mult_prod as (z & _ & _ & <- & ->). ring. Qed.
  Lemma sector_magnetic k n : In (k, n) (sy_mult sy) ->
    rsum (fun ms => lookup n ms ^ 2) (members sy J) = IZR (degeneracy sy J) * ((IZR (dimension (sy_sig sy) J (k, n)) * IZR (dimension (sy_sig sy) J (k, n)) - 1) / 12).
  Proof.
    intros Hin. pose proof (dim_pos _ Hin) as Hd. pose proof (members_lookup (sy_sig sy) J (sy_mult sy) k n (fun m => m ^ 2) Hnd dims_ge0 Hin) as H.
    destruct (magnetic_sums _ (dims_ge0 _ Hin)) as (_ & E). rewrite E in H. destruct mult_prod as (z & _ & _ & Hz & ->). rewrite <- Hz in H. fold (members sy J) in H.
    apply IZR_le in Hd. apply (Rmult_eq_reg_r (IZR (dimension (sy_sig sy) J (k, n)))); [|lra]. rewrite H. field.
  Qed.
End Sector.

(** *** The table check *)
Definition kind_of (sy : symmetry) (n : string) : option mult_kind :=
  match find (fun kn => String.eqb (snd kn) n) (sy_mult sy) with Some (k, _) => Some k | None => None end.
Definition term_eqb (a b : term) : bool :=
  match a, b with
  | TQ x, TQ y | TQ2 x, TQ2 y | TSz x, TSz y | TSz2 x, TSz2 y | TCas x, TCas y | TOrb x, TOrb y => String.eqb x y
  | _, _ => false
  end.
Lemma term_eqb_eq a b : term_eqb a b = true -> a = b.
Proof. destruct a, b; cbn; try discriminate; intros H; apply String.eqb_eq in H; subst; auto. Qed.
Definition col_ok (sy : symmetry) (m : meaning) (s : source) (c : column) : bool :=
  match m, s, c with
  | First _, Label n, CMean t => term_eqb t (TQ n)
  | First _, Projection n, CMean t => term_eqb t (TSz n)
  | Second _, Label n, CMean t => term_eqb t (TQ2 n)
  | Second _, Projection n, CMean t => term_eqb t (TSz2 n)
  | Second _, Magnetic 1 n, CMean t =>
      match kind_of sy n with Some MMult => term_eqb t (TCas n) | Some MOrb => term_eqb t (TOrb n) | None => false end
  | Second _, Magnetic 2 n, CMean4 t => match kind_of sy n with Some MMult => term_eqb t (TCas n) | _ => false end
  | Variance _, Label n, CVar t2 t1 => term_eqb t2 (TQ2 n) && term_eqb t1 (TQ n)
  | _, _, _ => false
  end.
Definition base_names : list string := ["T"; "<E>"; "<E^2>"; "C"; "F"; "S"].
Definition mem (n : string) (l : list string) : bool := existsb (String.eqb n) l.
Fixpoint nodupb (l : list string) : bool := match l with [] => true | x :: l' => negb (mem x l') && nodupb l' end.
Definition entry_ok (sy : symmetry) (p : string * column) : bool :=
  negb (mem (fst p) base_names) &&
  match meaning_of (fst p) with
  | Some m => match offered sy (operator_of m) with Some s => col_ok sy m s (snd p) | None => false end
  | None => false
  end.
Definition columns_ok (x : string * symmetry * td_columns) : bool :=
  let '(_, sy, tc) := x in
  forallb (entry_ok sy) (tc_sets tc) && nodupb (header tc) &&
  forallb (fun n => mem n (map fst (tc_sets tc))) (tc_fields tc) && forallb (fun p => mem (fst p) (tc_fields tc)) (tc_sets tc) &&
  forallb (fun kn => existsb (fun p => String.eqb (fst p) (snd kn)) (sy_sig sy)) (sy_mult sy) && nodupb (map snd (sy_mult sy)).
Lemma shipped_columns_ok : forallb columns_ok shipped_columns = true.
Proof. vm_compute. reflexivity. Qed.
Lemma mem_In n l : mem n l = true <-> In n l.
Proof. unfold mem. rewrite existsb_exists. split; [intros (x & H & E); apply String.eqb_eq in E; subst; auto|intros H; exists n; rewrite String.eqb_refl; auto]. Qed.
Lemma nodupb_ok l : nodupb l = true -> NoDup l.
Proof.
  induction l as [|x l IH]; intros H; [constructor|]. cbn in H. apply andb_true_iff in H as [H1 H2]. constructor; auto.
  intros Hi. apply mem_In in Hi. rewrite Hi in H1. discriminate.
Qed.

(** *** One row *)
Section Row.
  Variables (sy : symmetry) (factor : R) (diag : list (invar * list R)).
  Hypothesis Hdiag : forall J v, In (J, v) diag -> multiplet sy J.
  Hypothesis Hnames : forall k n, In (k, n) (sy_mult sy) -> existsb (fun p => String.eqb (fst p) n) (sy_sig sy) = true.
  Hypothesis Hnd : NoDup (map snd (sy_mult sy)).

  Definition bsum (v : list R) : R := rsum (fun e => exp (- (factor * e))) v.
  Lemma states_sum f : rsum (fun x => let '(J, e, ms) := x in exp (- (factor * e)) * f J ms) (physical_states sy diag)
    = rsum (fun p => bsum (snd p) * rsum (f (fst p)) (members sy (fst p))) diag.
  Proof.
    unfold physical_states. rewrite rsum_flat_map. apply rsum_ext. intros [J v] _. cbn [fst snd]. rewrite rsum_flat_map. unfold bsum. rewrite <- rsum_scal_r.
    apply rsum_ext. intros e _. rewrite rsum_map. rewrite <- rsum_scal. auto.
  Qed.
  Lemma states_Z : rsum (fun x => let '(J, e, ms) := x in exp (- (factor * e))) (physical_states sy diag) = td_Z (calculate_TD (degeneracy sy) diag factor).
  Proof.
    transitivity (rsum (fun x : invar * R * list (string * R) => let '(J, e, ms) := x in exp (- (factor * e)) * (fun _ _ => 1) J ms) (physical_states sy diag)).
    { apply rsum_ext. intros [[J e] ms] _. ring. }
    rewrite (states_sum (fun _ _ => 1)). cbn [calculate_TD td_Z]. unfold trace. rewrite acc_rsum. apply rsum_ext. intros [J v] Hin. cbn [fst snd].
    rewrite (sector_const sy J (Hdiag J v Hin) Hnames), acc_rsum. unfold bsum. rewrite Rmult_1_r, Rmult_comm. f_equal. apply rsum_ext.
    intros x _. replace (- factor * x) with (- (factor * x)) by ring. ring.
  Qed.
  Lemma trace_term_ok t (g : invar -> R) : (forall J v, In (J, v) diag -> term_value (sy_sig sy) J t = Ok (g J)) ->
    trace_term sy factor diag t = Ok (rsum (fun p => bsum (snd p) * (IZR (degeneracy sy (fst p)) * g (fst p))) diag).
  Proof.
    intros H. unfold trace_term.
    rewrite (mapM_ok _ (fun p => bsum (snd p) * (IZR (degeneracy sy (fst p)) * g (fst p)))).
    - cbn [bind]. rewrite acc_rsum, rsum_map. auto.
    - intros [J v] Hin. cbn [fst snd]. unfold calculate_Z. destruct (mult_prod sy J (Hdiag J v Hin) Hnames) as (z & -> & _ & _ & ->). cbn [bind].
      rewrite (H J v Hin). cbn [bind]. rewrite acc_rsum. f_equal.
      replace (rsum (fun x => exp (- factor * x)) v) with (bsum v); [ring|]. unfold bsum. apply rsum_ext. intros x _. f_equal. ring.
  Qed.
  Notation Zd := (td_Z (calculate_TD (degeneracy sy) diag factor)).
  Lemma average_ok f (g : invar -> R) : (forall J v, In (J, v) diag -> rsum (f J) (members sy J) = IZR (degeneracy sy J) * g J) ->
    average_over sy factor diag f = rsum (fun p => bsum (snd p) * (IZR (degeneracy sy (fst p)) * g (fst p))) diag / Zd.
  Proof.
    intros H. unfold average_over. rewrite states_Z, states_sum. f_equal. apply rsum_ext. intros [J v] Hin. cbn [fst snd]. rewrite (H J v Hin). auto.
  Qed.
  Lemma kind_in n k : kind_of sy n = Some k -> In (k, n) (sy_mult sy).
  Proof.
    unfold kind_of. destruct (find _ _) as [[k' n']|] eqn:E; [|discriminate]. intros H. injection H as <-. apply find_some in E as [Hin E]. cbn in E. apply String.eqb_eq in E. subst. auto.
  Qed.
  Definition has (n : string) : bool := existsb (fun p => String.eqb (fst p) n) (sy_sig sy).
  Definition lab (J : invar) (n : string) : Z := val 0%Z (get (sy_sig sy) J n).
  Lemma lab_ok n J v : has n = true -> In (J, v) diag -> get (sy_sig sy) J n = Ok (lab J n).
  Proof. intros Hh Hin. destruct (get_ok (sy_sig sy) J n (proj1 (Hdiag J v Hin)) Hh) as [x E]. unfold lab. rewrite E. auto. Qed.

  Lemma mean_ok t f g : (forall J v, In (J, v) diag -> term_value (sy_sig sy) J t = Ok (g J)) ->
    (forall J v, In (J, v) diag -> rsum (f J) (members sy J) = IZR (degeneracy sy J) * g J) ->
    trace_term sy factor diag t = Ok (average_over sy factor diag f * Zd) \/ Zd = 0.
  Proof.
    intros H1 H2. destruct (Req_dec Zd 0) as [E|E]; [auto|left]. rewrite (trace_term_ok t g H1), (average_ok f g H2). f_equal. field. auto.
  Qed.
  Hypothesis HZ : Zd <> 0.
  Lemma mean_eq t f g : (forall J v, In (J, v) diag -> term_value (sy_sig sy) J t = Ok (g J)) ->
    (forall J v, In (J, v) diag -> rsum (f J) (members sy J) = IZR (degeneracy sy J) * g J) ->
    trace_term sy factor diag t = Ok (average_over sy factor diag f * Zd).
  Proof. intros H1 H2. destruct (mean_ok t f g H1 H2); [auto|contradiction]. Qed.

  Lemma average_ext f f' : (forall J v ms, In (J, v) diag -> In ms (members sy J) -> f J ms = f' J ms) -> average_over sy factor diag f = average_over sy factor diag f'.
  Proof.
    intros H. unfold average_over. f_equal. rewrite !states_sum. apply rsum_ext. intros [J v] Hin. cbn [fst snd]. f_equal. apply rsum_ext. intros ms Hms. eapply H; eauto.
  Qed.
  Lemma col_value m s c : has (source_name s) = true -> col_ok sy m s c = true -> column_value sy factor diag Zd c = Ok (meant_value sy factor diag s m).
  Proof.
    intros Hh Hc.
    assert (Q1 : forall n, has n = true -> trace_term sy factor diag (TQ n) = Ok (average_over sy factor diag (fun J ms => IZR (lab J n) ^ 1) * Zd)).
    { intros n Hn. apply (mean_eq _ _ (fun J => IZR (lab J n))).
      - intros J v Hin. cbn. rewrite (lab_ok n J v Hn Hin). auto.
      - intros J v Hin. rewrite (sector_const sy J (Hdiag J v Hin) Hnames). ring. }
    assert (Q2 : forall n, has n = true -> trace_term sy factor diag (TQ2 n) = Ok (average_over sy factor diag (fun J ms => IZR (lab J n) ^ 2) * Zd)).
    { intros n Hn. apply (mean_eq _ _ (fun J => IZR (lab J n) * IZR (lab J n))).
      - intros J v Hin. cbn. rewrite (lab_ok n J v Hn Hin). auto.
      - intros J v Hin. rewrite (sector_const sy J (Hdiag J v Hin) Hnames). ring. }
    assert (S1 : forall n, has n = true -> trace_term sy factor diag (TSz n) = Ok (average_over sy factor diag (fun J ms => ((IZR (lab J n) - 1) / 2) ^ 1) * Zd)).
    { intros n Hn. apply (mean_eq _ _ (fun J => SZ (lab J n))).
      - intros J v Hin. cbn. rewrite (lab_ok n J v Hn Hin). auto.
      - intros J v Hin. rewrite (sector_const sy J (Hdiag J v Hin) Hnames). unfold SZ. ring. }
    assert (S2 : forall n, has n = true -> trace_term sy factor diag (TSz2 n) = Ok (average_over sy factor diag (fun J ms => ((IZR (lab J n) - 1) / 2) ^ 2) * Zd)).
    { intros n Hn. apply (mean_eq _ _ (fun J => SZ (lab J n) ^ 2)).
      - intros J v Hin. cbn. rewrite (lab_ok n J v Hn Hin). auto.
      - intros J v Hin. rewrite (sector_const sy J (Hdiag J v Hin) Hnames). unfold SZ. ring. }
    assert (M1 : forall n, has n = true -> kind_of sy n = Some MMult -> trace_term sy factor diag (TCas n) = Ok (average_over sy factor diag (fun J ms => lookup n ms ^ 2) * Zd)).
    { intros n Hn Hk. apply (mean_eq _ _ (fun J => IZR (lab J n * lab J n - 1) / 12)).
      - intros J v Hin. cbn. rewrite (lab_ok n J v Hn Hin). auto.
      - intros J v Hin. rewrite (sector_magnetic sy J (Hdiag J v Hin) Hnames Hnd MMult n (kind_in n MMult Hk)). unfold dimension. cbn [fst snd mult_factor].
        fold (lab J n). rewrite minus_IZR, mult_IZR. field. }
    assert (M2 : forall n, has n = true -> kind_of sy n = Some MOrb -> trace_term sy factor diag (TOrb n) = Ok (average_over sy factor diag (fun J ms => lookup n ms ^ 2) * Zd)).
    { intros n Hn Hk. apply (mean_eq _ _ (fun J => IZR (lab J n) * IZR (lab J n + 1) / 3)).
      - intros J v Hin. cbn. rewrite (lab_ok n J v Hn Hin). auto.
      - intros J v Hin. rewrite (sector_magnetic sy J (Hdiag J v Hin) Hnames Hnd MOrb n (kind_in n MOrb Hk)). unfold dimension. cbn [fst snd mult_factor].
        fold (lab J n). rewrite !plus_IZR, !mult_IZR. field. }
    unfold meant_value. destruct m as [op|op|op], s as [n|n|z n]; cbn [source_name] in Hh; cbn [col_ok] in Hc.
    - destruct c as [t|t|t2 t1]; try discriminate. apply term_eqb_eq in Hc. subst. cbn [column_value]. rewrite Q1 by auto. cbn [bind source_value]. unfold lab. f_equal. field. auto.
    - destruct c as [t|t|t2 t1]; try discriminate. apply term_eqb_eq in Hc. subst. cbn [column_value]. rewrite S1 by auto. cbn [bind source_value]. unfold lab. f_equal. field. auto.
    - discriminate.
    - destruct c as [t|t|t2 t1]; try discriminate. apply term_eqb_eq in Hc. subst. cbn [column_value]. rewrite Q2 by auto. cbn [bind source_value]. unfold lab. f_equal. field. auto.
    - destruct c as [t|t|t2 t1]; try discriminate. apply term_eqb_eq in Hc. subst. cbn [column_value]. rewrite S2 by auto. cbn [bind source_value]. unfold lab. f_equal. field. auto.
    - destruct z as [|[|[]|]|]; try discriminate.
      + destruct c as [t|t|t2 t1]; try discriminate. destruct (kind_of sy n) as [[|]|] eqn:Ek; try discriminate. apply term_eqb_eq in Hc. subst. cbn [column_value].
        rewrite M1 by auto. cbn [bind source_value]. f_equal.
        rewrite (average_ok (fun J ms => (2 * lookup n ms) ^ 2) (fun J => 4 * (IZR (lab J n * lab J n - 1) / 12))).
        * rewrite (average_ok (fun J ms => lookup n ms ^ 2) (fun J => IZR (lab J n * lab J n - 1) / 12)).
          -- rewrite (rsum_ext (fun p => bsum (snd p) * (IZR (degeneracy sy (fst p)) * (4 * (IZR (lab (fst p) n * lab (fst p) n - 1) / 12)))) (fun p => 4 * (bsum (snd p) * (IZR (degeneracy sy (fst p)) * (IZR (lab (fst p) n * lab (fst p) n - 1) / 12))))) by (intros; ring).
             rewrite rsum_scal. field. auto.
          -- intros J v Hin. rewrite (sector_magnetic sy J (Hdiag J v Hin) Hnames Hnd MMult n (kind_in n MMult Ek)). unfold dimension. cbn [fst snd mult_factor]. fold (lab J n). rewrite minus_IZR, mult_IZR. field.
        * intros J v Hin. rewrite (rsum_ext _ (fun ms => 4 * lookup n ms ^ 2)) by (intros; ring). rewrite rsum_scal.
          rewrite (sector_magnetic sy J (Hdiag J v Hin) Hnames Hnd MMult n (kind_in n MMult Ek)). unfold dimension. cbn [fst snd mult_factor]. fold (lab J n). rewrite minus_IZR, mult_IZR. field.
      + destruct c as [t|t|t2 t1]; try discriminate.
        destruct (kind_of sy n) as [[|]|] eqn:Ek; try discriminate; apply term_eqb_eq in Hc; subst; cbn [column_value]; [rewrite M1 by auto|rewrite M2 by auto]; cbn [bind source_value]; f_equal;
          rewrite (average_ext (fun J ms => (1 * lookup n ms) ^ 2) (fun J ms => lookup n ms ^ 2)) by (intros; ring); field; auto.
    - destruct c as [t|t|t2 t1]; try discriminate. apply andb_true_iff in Hc as [Hc2 Hc1]. apply term_eqb_eq in Hc1, Hc2. subst. cbn [column_value].
      rewrite Q2 by auto. cbn [bind]. rewrite Q1 by auto. cbn [bind source_value]. unfold lab. f_equal. field. auto.
    - discriminate.
    - discriminate.
  Qed.
End Row.

(** *** Writing the fields *)
Lemma set_field_ok desc x fs : In desc (map fst fs) -> exists fs', set_field desc x fs = Ok fs' /\ map fst fs' = map fst fs /\
  (forall d o, NoDup (map fst fs) -> In (d, o) fs' -> (d = desc /\ o = Some x) \/ (d <> desc /\ In (d, o) fs)).
Proof.
  induction fs as [|[d0 o0] fs IH]; intros H; [destruct H|]. cbn [set_field]. destruct (String.eqb_spec d0 desc) as [->|Hne].
  - eexists. split; [reflexivity|]. split; [auto|]. intros d o Hnd [E|Hin].
    + injection E as <- <-. auto.
    + right. split; [|right; auto]. intros ->. inversion Hnd as [|? ? Hni _]. apply Hni. apply in_map_iff. exists (desc, o). auto.
  - destruct H as [E|H]; [contradiction|]. destruct (IH H) as (fs' & -> & Hn & Hc). cbn [bind]. eexists. split; [reflexivity|]. split; [cbn; f_equal; auto|].
    intros d o Hnd [E|Hin].
    + injection E as <- <-. right. split; [auto|left; auto].
    + inversion Hnd; subst. destruct (Hc d o) as [?|[? ?]]; auto. right. split; [auto|right; auto].
Qed.
Lemma set_all_ok l fs : (forall d x, In (d, x) l -> In d (map fst fs)) -> NoDup (map fst fs) -> NoDup (map fst l) ->
  exists fs', set_all l fs = Ok fs' /\ map fst fs' = map fst fs /\
    (forall d o, In (d, o) fs' -> (exists x, In (d, x) l /\ o = Some x) \/ (~ In d (map fst l) /\ In (d, o) fs)).
Proof.
  revert fs. induction l as [|[d0 x0] l IH]; intros fs H Hn Hl.
  - exists fs. split; [auto|]. split; [auto|]. intros d o Hin. right. auto.
  - cbn [set_all]. destruct (set_field_ok d0 x0 fs (H d0 x0 (or_introl eq_refl))) as (f1 & -> & E1 & C1). cbn [bind].
    cbn [map fst] in Hl. inversion Hl as [|? ? Hni Hl']; subst.
    destruct (IH f1) as (f2 & E2 & N2 & C2); [intros d x Hin; rewrite E1; eapply H; right; eauto|rewrite E1; auto|auto|].
    exists f2. split; [auto|]. split; [congruence|]. intros d o Hin. destruct (C2 d o Hin) as [(x & Hx & ->)|(Hnot & Hf1)].
    + left. exists x. split; [right; auto|auto].
    + destruct (C1 d o Hn Hf1) as [(-> & ->)|(Hne & Hf)].
      * left. exists x0. split; [left; auto|auto].
      * right. split; [|auto]. cbn. intros [?|?]; auto.
Qed.

Theorem td_row_right name sy tc : In (name, sy, tc) shipped_columns -> forall factor diag Teff previous,
  (forall J v, In (J, v) diag -> multiplet sy J) -> (exists J v, In (J, v) diag /\ v <> []) -> map fst previous = header tc ->
  exists row, td_row sy factor diag tc Teff previous = Ok row /\ map fst row = header tc /\
    forall n o, In (n, o) row -> exists x, o = Some x /\ right_content sy factor diag Teff n x.
Proof.
  intros Hin factor diag Teff fs Hd He Hf.
  pose proof (proj1 (forallb_forall _ _) shipped_columns_ok _ Hin) as Hok. cbn in Hok.
  apply andb_true_iff in Hok as [Hok K6]. apply andb_true_iff in Hok as [Hok K5]. apply andb_true_iff in Hok as [Hok K4]. apply andb_true_iff in Hok as [Hok K3]. apply andb_true_iff in Hok as [K1 K2].
  assert (Hnames : forall k n, In (k, n) (sy_mult sy) -> existsb (fun p => String.eqb (fst p) n) (sy_sig sy) = true).
  { intros k n Hk. apply (proj1 (forallb_forall _ _) K5 (k, n) Hk). }
  assert (Hnd : NoDup (map snd (sy_mult sy))) by (apply nodupb_ok; auto).
  assert (Hnh : NoDup (header tc)) by (apply nodupb_ok; auto).
  set (r0 := calculate_TD (fun J => match mult sy J with Ok m => m | _ => 0%Z end) diag factor).
  assert (Er : r0 = calculate_TD (degeneracy sy) diag factor) by reflexivity.
  assert (Hm1 : forall J v, In (J, v) diag -> (1 <= degeneracy sy J)%Z).
  { intros J v HJ. destruct (mult_prod sy J (Hd J v HJ) Hnames) as (z & _ & Hz & _ & ->). auto. }
  destruct (td_levels (degeneracy sy) diag factor Hm1 He) as (Hne & Hc & L1 & L2 & L3 & L4 & L5 & L6).
  assert (HZ : td_Z (calculate_TD (degeneracy sy) diag factor) <> 0).
  { rewrite L1. pose proof (partition_pos 1 _ Hc Hne). lra. }
  unfold td_row. rewrite (mapM_ok _ (fun p => degeneracy sy (fst p))).
  2:{ intros [J v] HJ. cbn [fst]. destruct (mult_prod sy J (Hd J v HJ) Hnames) as (z & -> & _ & _ & ->). auto. }
  cbn [bind]. fold r0.
  destruct (set_all_ok [("T", Teff); ("<E>", td_E r0); ("<E^2>", td_E2 r0); ("C", td_C r0); ("F", td_F r0); ("S", td_S r0)] fs) as (f1 & E1 & N1 & C1).
  { intros d x Hx. rewrite Hf. unfold header. repeat (destruct Hx as [Ex|Hx]; [injection Ex as <- <-; apply in_or_app; first [left; left; reflexivity|right; apply in_or_app; right; cbn; tauto]|]). destruct Hx. }
  { rewrite Hf. auto. }
  { apply nodupb_ok. reflexivity. }
  rewrite E1. cbn [bind].
  set (g := fun c : string * column => match column_value sy factor diag (td_Z r0) (snd c) with Ok v => v | _ => 0 end).
  assert (Hent : forall p, In p (tc_sets tc) -> exists m s, meaning_of (fst p) = Some m /\ offered sy (operator_of m) = Some s /\ ~ In (fst p) base_names /\
            column_value sy factor diag (td_Z r0) (snd p) = Ok (meant_value sy factor diag s m)).
  { intros p Hp. pose proof (proj1 (forallb_forall _ _) K1 p Hp) as H. unfold entry_ok in H. apply andb_true_iff in H as [Hb H].
    destruct (meaning_of (fst p)) as [m|]; [|discriminate]. destruct (offered sy (operator_of m)) as [s|] eqn:Eo; [|discriminate]. exists m, s. split; [auto|]. split; [auto|]. split.
    - intros Hi. apply mem_In in Hi. rewrite Hi in Hb. discriminate.
    - rewrite Er. apply col_value; auto. apply find_some in Eo as [_ Eo]. exact Eo. }
  rewrite (mapM_ok _ (fun c => (fst c, g c))).
  2:{ intros p Hp. destruct (Hent p Hp) as (m & s & _ & _ & _ & E). unfold g. rewrite E. auto. }
  cbn [bind].
  destruct (set_all_ok (map (fun c => (fst c, g c)) (tc_sets tc)) f1) as (f2 & E2 & N2 & C2).
  { intros d x Hx. apply in_map_iff in Hx as [p [Ex Hp]]. injection Ex as <- _. rewrite N1, Hf. unfold header. apply in_or_app. right. apply in_or_app. left.
    apply mem_In. apply (proj1 (forallb_forall _ _) K4 p Hp). }
  { rewrite N1, Hf. auto. }
  { rewrite map_map. cbn [fst]. assert (Hs := shipped_columns_ok).
    clear -Hin. revert Hin. assert (Ht : forallb (fun x => nodupb (map fst (tc_sets (snd x)))) shipped_columns = true) by (vm_compute; reflexivity).
    intros Hin. apply nodupb_ok. apply (proj1 (forallb_forall _ _) Ht (name, sy, tc) Hin). }
  exists f2. split; [auto|]. split; [congruence|]. intros n o Hno. destruct (C2 n o Hno) as [(x & Hx & ->)|(Hnot & Hf1)].
  - exists x. split; [auto|]. apply in_map_iff in Hx as [p [Ex Hp]]. injection Ex as <- <-. destruct (Hent p Hp) as (m & s & Hm & Ho & Hb & E).
    assert (Hx : g p = meant_value sy factor diag s m) by (unfold g; rewrite E; auto). rewrite Hx.
    assert (Hgen : forall q : Prop, (exists m0 s0, meaning_of (fst p) = Some m0 /\ offered sy (operator_of m0) = Some s0 /\ meant_value sy factor diag s m = meant_value sy factor diag s0 m0)) by eauto.
    unfold right_content. specialize (Hgen True). generalize dependent (fst p). intros d Hf1 Hm Hb Hg. clear - Hg Hb Hm.
    destruct d as [|a d]; [exact Hg|].
    repeat (match goal with |- match ?x with _ => _ end => destruct x end; try exact Hg);
    exfalso; apply Hb; cbn; tauto.
  - destruct (C1 n o Hf1) as [(x & Hx & ->)|(Hnot1 & Hf0)].
    + exists x. split; [auto|].
      repeat (destruct Hx as [Ex|Hx]; [injection Ex as <- <-; cbn; rewrite ?Er; auto|]). destruct Hx.
    + exfalso. assert (Hn : In n (header tc)) by (rewrite <- Hf; apply in_map_iff; exists (n, o); auto).
      apply in_app_or in Hn as [[<-|[]]|Hn]; [apply Hnot1; cbn; tauto|]. apply in_app_or in Hn as [Hn|Hn].
      * apply Hnot. rewrite map_map. cbn [fst]. apply mem_In. apply (proj1 (forallb_forall _ _) K3 n Hn).
      * apply Hnot1. cbn in *. tauto.
Qed.

Theorem member_count name sy tc J : In (name, sy, tc) shipped_columns -> multiplet sy J -> Z.of_nat (List.length (members sy J)) = degeneracy sy J.
Proof.
  intros Hin HJ. pose proof (proj1 (forallb_forall _ _) shipped_columns_ok _ Hin) as Hok. cbn in Hok.
  apply andb_true_iff in Hok as [Hok _]. apply andb_true_iff in Hok as [_ K5].
  assert (Hnames : forall k n, In (k, n) (sy_mult sy) -> existsb (fun p => String.eqb (fst p) n) (sy_sig sy) = true).
  { intros k n Hk. apply (proj1 (forallb_forall _ _) K5 (k, n) Hk). }
  pose proof (sector_const sy J HJ Hnames 1) as H. rewrite Rmult_1_r in H. apply eq_IZR. rewrite <- H, <- INR_IZR_INZ.
  generalize (members sy J). intros l. induction l as [|x l IH]; [reflexivity|]. cbn [List.length rsum]. rewrite S_INR, IH. ring.
Qed.
