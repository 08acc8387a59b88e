(** Soundness of the closed forms of Coef_cert.v. *)
From Coq Require Import List ZArith Reals Lia Lra Bool.
From Verif Require Import Base Coef_model Coef_norm Coef_norm_sound Coef_cert.
Import ListNotations.
Local Open Scope Z_scope.

Definition fval (q : list Z) (f : nat * Z * Z * Z) : R :=
  let '(n, a, b, e) := f in powerRZ (sqrt (IZR (if a =? 0 then b else a * nth n q 0 + b))) e.
Definition pval (q : list Z) (l : list (nat * Z * Z * Z)) : R := fold_right (fun f r => fval q f * r)%R 1%R l.
(** value of a closed form *)
Definition cert_val (q : list Z) (nn : Z) (c : cert) : R :=
  (IZR (zsign (xorb (Z.odd nn && ce_flip c) (ce_neg c))) * pval q (ce_prod c))%R.
Definition comp_ge (c : scomp) (z : Z) : Prop := match c with SGen _ m => m <= z | SAny _ => True | SFix _ => False end.

Lemma gens_fit : forall g q x y tx0 ty0, gens_ok x y g = true -> Forall2 comp_ge g q -> 0 <= tx0 -> 0 <= ty0 ->
  exists tx ty, 0 <= tx /\ 0 <= ty /\ (x = true -> tx = tx0) /\ (y = true -> ty = ty0) /\ fits tx ty g q.
Proof.
  intros g q x y tx0 ty0 H F. revert x y tx0 ty0 H. induction F as [|c z g q Hc F IH]; intros x y tx0 ty0 H Hx Hy.
  - exists tx0, ty0. repeat split; try assumption. constructor.
  - destruct c as [k|[|v] m|k]; cbn [gens_ok] in H; try discriminate.
    + apply andb_true_iff in H. destruct H as [H1 H2]. destruct x; [discriminate|]. cbn [comp_ge] in Hc.
      destruct (IH true y (z - m) ty0 H2 ltac:(lia) Hy) as (tx & ty & A & B & C & D & E). specialize (C eq_refl).
      exists tx, ty. repeat split; try assumption; [discriminate|]. constructor; [|exact E]. cbn [comp_ok]. lia.
    + apply andb_true_iff in H. destruct H as [H1 H2]. destruct y; [discriminate|]. cbn [comp_ge] in Hc.
      destruct (IH x true tx0 (z - m) H2 Hx ltac:(lia)) as (tx & ty & A & B & C & D & E). specialize (D eq_refl).
      exists tx, ty. repeat split; try assumption; [discriminate|]. constructor; [|exact E]. cbn [comp_ok]. lia.
    + destruct (IH x y tx0 ty0 H Hx Hy) as (tx & ty & A & B & C & D & E). exists tx, ty. repeat split; try assumption.
      constructor; [exact Logic.I|exact E].
Qed.

Lemma mono_eqb_eq : forall m n, mono_eqb m n = true -> m = n.
Proof.
  induction m as [|[s e] m IH]; intros [|[t f] n] H; try discriminate; [reflexivity|]. cbn [mono_eqb] in H. apply andb_true_iff in H. destruct H as [H1 H2].
  unfold atom_eqb in H1. cbn [fst snd] in H1. destruct (atom_cmp s t) eqn:E; try discriminate. apply atom_cmp_eq in E. apply Z.eqb_eq in H1. subst.
  f_equal. apply IH. exact H2.
Qed.

Section At.
  Variables (tx ty : Z).
  Hypothesis Htx : 0 <= tx.
  Hypothesis Hty : 0 <= ty.
  Notation X := (IZR tx).
  Notation Y := (IZR ty).
  Lemma cX0 : (0 <= X)%R. Proof. apply IZR_le. exact Htx. Qed.
  Lemma cY0 : (0 <= Y)%R. Proof. apply IZR_le. exact Hty. Qed.

  Lemma fits_gen : forall g q n v m, fits tx ty g q -> nth_error g n = Some (SGen v m) -> nth n q 0 = m + match v with O => tx | _ => ty end.
  Proof.
    intros g q n v m F H. destruct (fits_nth tx ty g q n (SGen v m) F H) as (z & Hz & C). rewrite (nth_error_nth q n 0 Hz). exact C.
  Qed.
  Lemma aval_gen : forall v a b m z, z = m + match v with O => tx | _ => ty end -> aval X Y (v, a, b + a * m) = IZR (a * z + b).
  Proof.
    intros v a b m z ->. cbn [aval]. rewrite !plus_IZR, !mult_IZR, !plus_IZR. destruct v; ring.
  Qed.

  Lemma atoms_in_val : forall g q l m, fits tx ty g q -> mapO (atom_in g) l = Some m -> mval X Y m = pval q l.
  Proof.
    intros g q l. induction l as [|[[[n a] b] e] l IH]; intros m F H; cbn [mapO] in H.
    - apply Some_eq in H. subst m. reflexivity.
    - destruct (atom_in g (n, a, b, e)) as [[t k]|] eqn:E; [|discriminate]. destruct (mapO (atom_in g) l) as [r|] eqn:E2; [|discriminate].
      cbn [omap2] in H. apply Some_eq in H. subst m. cbn [mval pval fold_right]. fold (pval q l). rewrite (IH r F eq_refl). f_equal.
      unfold atom_in in E. cbn [fval]. destruct (Z.eqb_spec a 0) as [->|N].
      + injection E as <- <-. unfold sq. cbn [aval]. f_equal. f_equal. ring.
      + unfold gen_of in E. destruct (nth_error g n) as [[z|v m0|z]|] eqn:En; try discriminate. cbn [option_map fst snd] in E. injection E as <- <-.
        unfold sq. rewrite (aval_gen v a b m0 (nth n q 0)) by (exact (fits_gen g q n v m0 F En)). reflexivity.
  Qed.

  (** in a symbolic sector *)
  Definition mpow0 (e : Z) (m : mono) : mono := map (fun p => (fst p, snd p * e)) m.
  Lemma mpow0_sound : forall e m, mono_wf m = true -> mono_wf (mpow0 e m) = true /\ mval X Y (mpow0 e m) = powerRZ (mval X Y m) e.
  Proof.
    intros e. induction m as [|[t k] m IH]; intros W; [split; [reflexivity|cbn [mpow0 map mval]; destruct e; cbn; rewrite ?pow1, ?Rinv_1; reflexivity]|].
    destruct (wf_cons _ _ _ W) as [Wt Wm]. destruct (IH Wm) as [W' V]. cbn [mpow0 map fst snd]. split; [apply wf_cons_i; assumption|].
    cbn [mval]. fold (mpow0 e m). rewrite V.
    pose proof (sq_pos X Y cX0 cY0 t Wt) as N. pose proof (mval_pos X Y cX0 cY0 m Wm) as Pm.
    assert (E : powerRZ (sq X Y t) (k * e) = powerRZ (powerRZ (sq X Y t) k) e).
    { rewrite (powerRZ_Rpower (powerRZ (sq X Y t) k) e) by (apply powerRZ_lt; exact N). rewrite !powerRZ_Rpower by exact N. rewrite Rpower_mult, mult_IZR. reflexivity. }
    rewrite E. symmetry. apply powerRZ_mult.
  Qed.
  Lemma mpow_sound : forall e m, mono_wf m = true -> mono_wf (mpow e m) = true /\ mval X Y (mpow e m) = powerRZ (mval X Y m) e.
  Proof.
    intros e m W. assert (E : mpow e m = mpow0 e m).
    { unfold mpow, mpow0, minv. destruct e as [|[p|p|]|[p|p|]]; try reflexivity.
      - rewrite <- (map_id m) at 1. apply map_ext. intros [t k]. cbn. rewrite Z.mul_1_r. reflexivity.
      - apply map_ext. intros [t k]. cbn [fst snd]. f_equal. lia. }
    rewrite E. exact (mpow0_sound e m W).
  Qed.
  Lemma nonneg_meven : forall m, nonneg_even m = true -> meven m = true.
  Proof.
    intros m H. unfold nonneg_even, meven in *. rewrite forallb_forall in *. intros p Hp. specialize (H p Hp). apply andb_true_iff in H. apply H.
  Qed.
  Lemma const_mono_sound : forall z m, const_mono z = Some m -> mono_wf m = true /\ meven m = true /\ mval X Y m = IZR z.
  Proof.
    intros z m H. unfold const_mono in H. destruct (zfactors primes z) as [r m'].
    destruct (mono_wf m' && nonneg_even m' && peq (pconst z) (mpoly m')) eqn:E; [|discriminate]. apply Some_eq in H. subst m'.
    rewrite !andb_true_iff in E. destruct E as [[W N] P]. split; [exact W|]. split; [apply nonneg_meven; exact N|].
    apply ev_eq with (x := X) (y := Y) in P. rewrite ev_const in P. rewrite P. symmetry. apply mpoly_sound; try assumption; [exact cX0|exact cY0].
  Qed.
  Lemma small_root_ok : forall z m, small_root z = Some m -> option_map mhalf (const_mono z) = Some m.
  Proof.
    intros z m H. destruct z as [|p|p]; try discriminate.
    do 5 (try (destruct p as [p|p|]; try discriminate; try (cbn in H; apply Some_eq in H; subst m; vm_compute; reflexivity))).
  Qed.
  Lemma const_root_sound : forall z m, const_root z = Some m -> mono_wf m = true /\ mval X Y m = sqrt (IZR z).
  Proof.
    intros z m H. assert (H' : option_map mhalf (const_mono z) = Some m).
    { unfold const_root in H. destruct (small_root z) as [k|] eqn:E; [|exact H]. apply Some_eq in H. subst k. exact (small_root_ok z m E). }
    destruct (const_mono z) as [k|] eqn:Ek; [|discriminate]. cbn [option_map] in H'. apply Some_eq in H'. subst m.
    destruct (const_mono_sound _ _ Ek) as (W & Ev & V). destruct (mhalf_sound X Y cX0 cY0 k W Ev) as [W2 V2]. split; [exact W2|]. rewrite V2, V. reflexivity.
  Qed.
  Lemma atom_at_sound : forall p q f m, fits tx ty p q -> atom_at p f = Some m -> mono_wf m = true /\ mval X Y m = fval q f.
  Proof.
    intros p q [[[n a] b] e] m F H. unfold atom_at in H. cbn [fval]. destruct (Z.eqb_spec a 0) as [->|N].
    - destruct (Z.ltb_spec 0 b) as [L|]; [|discriminate]. apply Some_eq in H. subst m. split.
      + unfold mono_wf. cbn. rewrite (proj2 (Z.ltb_lt 0 b) L). reflexivity.
      + cbn [mval]. unfold sq. cbn [aval]. rewrite Rmult_1_r. f_equal. f_equal. ring.
    - destruct (nth_error p n) as [[z|v c|z]|] eqn:E; try discriminate.
      + destruct (const_root (a * z + b)) as [k|] eqn:Ek; [|discriminate]. cbn [option_map] in H. apply Some_eq in H. subst m.
        destruct (const_root_sound _ _ Ek) as [W2 V2]. destruct (mpow_sound e _ W2) as [W3 V3]. split; [exact W3|]. rewrite V3, V2.
        destruct (fits_nth tx ty p q n (SFix z) F E) as (z' & Hz & C). cbn [comp_ok] in C. subst z'. rewrite (nth_error_nth q n 0 Hz). reflexivity.
      + destruct ((0 <=? a) && (0 <? b + a * c)) eqn:Eb; [|discriminate]. apply Some_eq in H. subst m. split.
        * unfold mono_wf. cbn [forallb fst atom_wf]. rewrite Eb. reflexivity.
        * cbn [mval]. rewrite Rmult_1_r. unfold sq. rewrite (aval_gen v a b c (nth n q 0)) by (exact (fits_gen p q n v c F E)). reflexivity.
  Qed.
  Lemma mono_at_sound : forall p q l m, fits tx ty p q -> mono_at p l = Some m -> mono_wf m = true /\ mval X Y m = pval q l.
  Proof.
    intros p q l. induction l as [|f l IH]; intros m F H; cbn [mono_at] in H.
    - apply Some_eq in H. subst m. split; reflexivity.
    - destruct (atom_at p f) as [m1|] eqn:E1; [|discriminate]. destruct (mono_at p l) as [m2|] eqn:E2; [|discriminate]. cbn [omap2] in H. apply Some_eq in H. subst m.
      destruct (atom_at_sound p q f m1 F E1) as [W1 V1]. destruct (IH m2 F eq_refl) as [W2 V2].
      destruct (mmul_sound X Y cX0 cY0 m1 m2 W1 W2) as [W V]. split; [exact W|]. rewrite V, V1, V2. reflexivity.
  Qed.
  Lemma covers_sound : forall g p q, covers g p = true -> fits tx ty p q -> Forall2 comp_ge g q.
  Proof.
    intros g p q H F. revert g H. induction F as [|s z p q Hs F IH]; intros [|c g] H; try discriminate; [constructor|]. cbn [covers] in H.
    apply andb_true_iff in H. destruct H as [H1 H2]. constructor; [|apply IH; exact H2].
    destruct c as [k|v m|k]; [destruct s; discriminate| |exact Logic.I]. cbn [comp_ge]. destruct s as [k|w k|k]; cbn [at_least] in H1; try discriminate; apply Z.leb_le in H1; cbn [comp_ok] in Hs.
    - lia.
    - destruct w; lia.
  Qed.
  Lemma cert_at_sound : forall p q odd nn c s, fits tx ty p q -> nn_ok odd nn -> cert_at p odd c = Some s ->
    Forall2 comp_ge (ce_shape c) q /\ swf s = true /\ sval X Y s = cert_val q nn c.
  Proof.
    intros p q odd nn c s F HN H. unfold cert_at in H. destruct (covers (ce_shape c) p) eqn:EC; [|discriminate].
    destruct (mono_at p (ce_prod c)) as [m|] eqn:E; [|discriminate]. cbn [option_map] in H. apply Some_eq in H. subst s.
    destruct (mono_at_sound p q _ m F E) as [W V]. split; [exact (covers_sound _ p q EC F)|]. split; [apply swf_cons_i; [exact W|reflexivity]|].
    cbn [sval]. unfold nval. cbn [fst snd]. rewrite ev_const, V. unfold cert_val. unfold nn_ok in HN. rewrite HN. ring.
  Qed.
End At.

Lemma agrees_sound : forall tx ty (s : option msum) neg m, agrees s neg m = true ->
  exists r, s = Some r /\ sval (IZR tx) (IZR ty) r = (IZR (zsign neg) * mval (IZR tx) (IZR ty) m)%R.
Proof.
  intros tx ty s neg m H. unfold agrees in H. destruct s as [[|[p n] [|]]|]; try discriminate.
  - destruct p as [|[|z [|]] [|]]; try discriminate. apply andb_true_iff in H. destruct H as [H1 H2]. apply Z.eqb_eq in H1. apply mono_eqb_eq in H2. subst z n.
    eexists. split; [reflexivity|]. cbn [sval]. unfold nval. cbn [fst snd]. change [[zsign neg]] with (pconst (zsign neg)). rewrite ev_const. ring.
  - destruct p as [|[|z [|]] [|]]; discriminate.
Qed.

Theorem cert_ok_sound : forall e c q nn, cert_ok e c = true -> Forall2 comp_ge (ce_shape c) q -> ceval q nn e = Some (cert_val q nn c).
Proof.
  intros e c q nn H G. unfold cert_ok in H. apply andb_true_iff in H. destruct H as [H1 H].
  destruct (mapO (atom_in (ce_shape c)) (ce_prod c)) as [m|] eqn:Em; [|discriminate]. apply andb_true_iff in H. destruct H as [H2 H3].
  destruct (gens_fit _ q false false 0 0 H1 G ltac:(lia) ltac:(lia)) as (tx & ty & Hx & Hy & _ & _ & F).
  pose proof (atoms_in_val tx ty _ q _ m F Em) as V.
  assert (K : forall odd neg nn', agrees (fnorm (ce_shape c) odd e) neg m = true -> nn_ok odd nn' -> ceval q nn' e = Some (IZR (zsign neg) * pval q (ce_prod c))%R).
  { intros odd neg nn' A HN. destruct (agrees_sound tx ty _ _ _ A) as (r & Er & Vr).
    unfold fnorm in Er. destruct (norm (ce_shape c) odd e) as [u|] eqn:En; [|discriminate]. cbn [option_map] in Er. apply Some_eq in Er.
    destruct (norm_sound (IZR tx) (IZR ty) (cX0 tx Hx) (cY0 ty Hy) tx ty eq_refl eq_refl _ odd q nn' e u F HN En) as [Wu C].
    destruct (sfactor_sound (IZR tx) (IZR ty) (cX0 tx Hx) (cY0 ty Hy) u Wu) as [_ Vu]. rewrite C, <- Vu, Er, Vr, V. reflexivity. }
  unfold cert_val. destruct (Z.odd nn) eqn:EO.
  - destruct (no_sign e) eqn:ES.
    + apply negb_true_iff in H3. rewrite H3. change (xorb (true && false) (ce_neg c)) with (xorb false (ce_neg c)). rewrite xorb_false_l. rewrite (ceval_no_sign q nn 0 e ES). apply (K false); [exact H2|reflexivity].
    + cbn [andb]. apply (K true); [exact H3|exact EO].
  - change (false && ce_flip c) with false. rewrite xorb_false_l. apply (K false); [exact H2|exact EO].
Qed.
