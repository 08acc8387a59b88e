(** Soundness of the check of Coef_iso.v. *)
From Coq Require Import List ZArith Reals Lia Lra Bool String.
From Verif Require Import Base Invar_model Symmetry_model Coef_model Coef_norm Coef_norm_sound Coef_cert Coef_cert_sound Coef_spec Coef_sector Coef_sector_sound.
From Verif Require Import Coef_lines_spec Coef_check Coef_check_sound Coef_iso.
Import ListNotations.
Local Open Scope string_scope.
Local Open Scope list_scope.
Local Open Scope Z_scope.

Section Inst.
  Variables tx ty : Z.
  Hypotheses (Htx : 0 <= tx) (Hty : 0 <= ty).
  Variable cs : coef_set.
  Variable root : list Z.
  Variable nn : Z.
  Notation vv := (vv tx ty nn).
  Notation vent := (vent tx ty nn).
  Notation vrow := (vrow tx ty nn).
  Notation vsum := (vsum tx ty nn).
  Notation fams_ok := (fams_ok tx ty cs root).
  Notation blks_ok := (blks_ok tx ty cs root nn).
  Notation blk_ok := (blk_ok tx ty cs root nn).
  Notation inst := (inst tx ty root).

  Lemma svia_sound : forall X f J u u', List.length X = List.length root -> fams_ok f J -> rwf u -> svia X f u = Some u' ->
    rwf u' /\ vrow u' = filter (fun p : Z * R => match built_from cs J (fst p) with Some Y => invar_eqb (inst X) Y | None => false end) (vrow u).
  Proof.
    intros X f J u u' LX Hf W. revert u'. induction W as [|[k s] u Hs W IH]; intros u' H; cbn [svia fst] in H.
    - apply Some_eq in H. subst u'. split; [constructor|reflexivity].
    - pose proof (Hf k) as Fk. destruct (has f k) as [Y|]; [|discriminate]. destruct Fk as (_ & LY & EY).
      destruct (ssec_eqb X Y) as [x|] eqn:Ex; [|discriminate]. cbn [obind] in H. destruct (svia X f u) as [r|] eqn:Er; [|discriminate].
      cbn [option_map] in H. apply Some_eq in H. destruct (IH r eq_refl) as [IH1 IH2]. apply (ssec_eqb_sound tx ty root X Y x LX LY) in Ex.
      unfold Coef_sector_sound.vrow in *. cbn [map filter fst]. rewrite EY, Ex. destruct x; subst u'; [|split; assumption].
      split; [constructor; assumption|]. cbn [map fst snd]. rewrite IH2. reflexivity.
  Qed.

  Lemma with_fams_sound : forall S B D, Forall2 blk_ok S B -> with_fams cs S = Some D ->
    Forall2 (fun d b => fams_ok (fst d) (bl_to b) /\ blk_ok (snd d) b) D B.
  Proof.
    intros S B D F. revert D. induction F as [|s b S B Hb F IH]; intros D H; unfold with_fams in *; cbn [mapO] in H.
    - apply Some_eq in H. subst D. constructor.
    - destruct (sfams cs (sb_to s)) as [f|] eqn:Ef; [|discriminate]. cbn [option_map] in H.
      destruct (mapO (fun b => option_map (fun f => (f, b)) (sfams cs (sb_to b))) S) as [D'|]; [|discriminate]. cbn [omap2] in H. apply Some_eq in H. subst D.
      constructor; [|exact (IH D' eq_refl)]. cbn [fst snd]. split; [|exact Hb]. destruct Hb as (Ls & Eb & _). rewrite Eb. exact (sfams_sound tx ty Htx Hty cs root _ f Ls Ef).
  Qed.

  Lemma sthrough_sound : forall X D B i j l, List.length X = List.length root -> 1 <= j ->
    Forall2 (fun d b => fams_ok (fst d) (bl_to b) /\ blk_ok (snd d) b) D B -> sthrough X D i = Some l ->
    rwf l /\ vsum l j = through cs (inst X) B i j.
  Proof.
    intros X D B i j l LX Hj F. revert l. induction F as [|[f s] b D B [Hf Hb] F IH]; intros l H; cbn [sthrough] in H.
    - apply Some_eq in H. subst l. split; [constructor|reflexivity].
    - cbn [fst snd] in Hf, Hb. destruct (svia X f (tfind (sb_row s) i)) as [u|] eqn:Eu; [|discriminate]. destruct (sthrough X D i) as [r|]; [|discriminate].
      cbn [omap2] in H. apply Some_eq in H. subst l. destruct (IH r eq_refl) as [IH1 IH2].
      destruct Hb as (Ls & Et & _ & _ & E & Er & Ec & El & We). rewrite Er, tfind_index in Eu.
      destruct (svia_sound X f (bl_to b) _ u LX Hf (rwf_row E i We) Eu) as [Wu Vu].
      destruct (prods_sound tx ty Htx Hty nn unit_w 1 j u E (proj1 (unit_val tx ty)) Wu We Hj) as [Wp Vp]. rewrite Ec.
      split; [apply Forall_app; split; assumption|]. rewrite vsum_app, IH2, Vp, (proj2 (unit_val tx ty)).
      unfold through, rsum. cbn [map fold_right]. rewrite Vu. unfold via. rewrite El, vrow_row. ring.
  Qed.

  Lemma iso_at_sound : forall n T a, List.length a = List.length root ->
    map fst (List.combine (op_tables cs n) T) = op_tables cs n -> Forall ten_certs (List.combine (op_tables cs n) T) ->
    iso_at cs n T a = true -> gap cs n (inst a) = false ->
    exists B, o_below cs nn n (inst a) = Some B /\
      forall t i j A X, In t (op_tables cs n) -> family cs (inst a) i = true -> family cs (inst a) j = true -> built_from cs (inst a) i = Some A ->
      sh_apply (tt_shift t) A = Some X -> yes (allowed (cs_sym cs) X) = true -> yes (triangle (cs_sym cs) A X (tt_iop t)) = true ->
      through cs X B i j = (if i =? j then 1 else 0)%R.
  Proof.
    intros n T a La ET FT H HG. unfold iso_at in H. apply orb_true_iff in H. destruct H as [H|H].
    { exfalso. unfold sgap in H. unfold gap in HG. apply existsb_exists in H. destruct H as ([[k lo] hi] & Hg & H).
      destruct (nth_error a k) as [[z| |]|] eqn:E; try discriminate.
      destruct (fits_nth tx ty a (inst a) k _ (inst_fits tx ty root a La) E) as (y & Hy & Cy). cbn [comp_ok] in Cy. subst y.
      assert (Q : existsb (fun g => let '(k, lo, hi) := g in match nth_error (inst a) k with Some x => (lo <=? x) && (x <=? hi) | None => false end) (gaps cs n) = true).
      { apply existsb_exists. exists (k, lo, hi). split; [exact Hg|]. cbv beta iota. rewrite Hy. exact H. }
      congruence. }
    destruct (sfams cs a) as [fa|] eqn:Ef; [|discriminate]. pose proof (sfams_sound tx ty Htx Hty cs root a fa La Ef) as Hfa.
    destruct (sall (sten_below cs a fa) (List.combine (op_tables cs n) T)) as [D|] eqn:ED; [|discriminate].
    destruct (with_fams cs (of_name n D)) as [D'|] eqn:ED'; [|discriminate].
    assert (SB : blks_ok (of_name n D) (o_below cs nn n (inst a))).
    { unfold o_below, of_name.
      pose proof (sall_sound tx ty cs root nn (sten_below cs a fa) (ten_below cs nn (inst a)) ten_certs (fun t => String.eqb (tt_name t) n) _ D (sten_below_sound tx ty Htx Hty cs root nn a La fa Hfa) FT ED) as S.
      rewrite ET in S. unfold op_tables in S |- *. rewrite filter_twice in S. exact S. }
    destruct SB as (B & EB & FB). exists B. split; [exact EB|]. intros t i j A X Ht Hi Hj EA EX HX HT.
    rewrite forallb_forall in H. specialize (H i (in_true_ix tx ty cs root fa _ i Hfa Hi)). pose proof (Hfa i) as Fi.
    destruct (has fa i) as [sA|]; [|congruence]. destruct Fi as (_ & LA & EA'). rewrite EA in EA'. apply Some_eq in EA'. subst A.
    rewrite forallb_forall in H. specialize (H t Ht). unfold iso_t in H. destruct (sshift (tt_shift t) sA) as [sX|] eqn:ES; [|discriminate].
    destruct (sshift_sound tx ty root sA _ sX LA ES) as [LX SX]. rewrite EX in SX. apply Some_eq in SX. subst X.
    destruct (tblock cs t sA sX sX) as [r|] eqn:Eb; [|discriminate]. pose proof (tblock_sound tx ty Htx Hty cs root t sA sX sX r LA LX LX Eb) as R.
    rewrite HX, HT in R. cbn [andb] in R. subst r. destruct (sthrough sX D' i) as [l|] eqn:El; [|discriminate].
    assert (Hj1 : 1 <= j) by (unfold family in Hj; apply andb_true_iff in Hj; apply Z.leb_le; tauto).
    destruct (sthrough_sound sX D' B i j l LX Hj1 (with_fams_sound _ B D' FB ED') El) as [Wl Vl].
    assert (WA : rwf ((i, minus_one) :: l)) by (constructor; [reflexivity|exact Wl]).
    pose proof (vanish_sound tx ty Htx Hty nn _ WA H j) as Z0. rewrite vsum_cons, Vl in Z0. cbn [fst snd] in Z0.
    assert (V1 : vv minus_one = (-1)%R).
    { unfold Coef_sector_sound.vv, minus_one, sgn. cbn [fst snd andb sval]. unfold nval. cbn [fst snd mval]. rewrite ev_const. ring. }
    rewrite V1 in Z0. destruct (i =? j); lra.
  Qed.
End Inst.

Lemma iso_certs_sound : forall cs n T, iso_certs_ok cs n T = true ->
  map fst (List.combine (op_tables cs n) T) = op_tables cs n /\ Forall ten_certs (List.combine (op_tables cs n) T).
Proof.
  intros cs n T H. unfold iso_certs_ok in H. apply all2_Forall2 in H.
  apply (Forall2_combine (fun t cl => Forall2 row_cert (map short (tt_rows t)) cl)). eapply Forall2_impl2; [|exact H]. intros t cl Hl. exact (cert_rows_sound _ _ Hl).
Qed.

Lemma run_iso_sound : forall cs n T, (ngen cs (sy_sig (cs_sym cs)) <= 2)%nat -> run_iso cs n T = true -> forall I nn, sector cs I -> gap cs n I = false ->
  exists B, o_below cs nn n I = Some B /\
    forall t i j A X, In t (op_tables cs n) -> family cs I i = true -> family cs I j = true -> built_from cs I i = Some A ->
    sh_apply (tt_shift t) A = Some X -> yes (allowed (cs_sym cs) X) = true -> yes (triangle (cs_sym cs) A X (tt_iop t)) = true ->
    through cs X B i j = (if i =? j then 1 else 0)%R.
Proof.
  intros cs n T HN H I nn HS HG. unfold run_iso in H. apply andb_true_iff in H. destruct H as [HC H]. rewrite forallb_forall in H.
  destruct (iso_certs_sound cs n T HC) as [ET FT].
  assert (Hc : 1 <= Z.of_nat (cs_channels cs) + reach n) by (unfold reach; destruct (String.eqb n "doublet"); lia).
  destruct (shapes_cover cs (Z.of_nat (cs_channels cs) + reach n) Hc I HN HS) as (a & tx & ty & Ha & Htx & Hty & La & EI).
  specialize (H a Ha). rewrite <- EI in HG.
  pose proof (iso_at_sound tx ty Htx Hty cs I nn n T a La ET FT H HG) as R. rewrite EI in R. exact R.
Qed.
