(** Soundness of the checks of Coef_check.v. *)
From Coq Require Import List ZArith Reals Lia Lra Bool String.
From Verif Require Import Base Invar_model Symmetry_model Coef_model Coef_norm Coef_norm_sound Coef_cert Coef_cert_sound Coef_spec Coef_sector Coef_sector_sound.
From Verif Require Import Coef_lines_spec Coef_check.
Import ListNotations.
Local Open Scope string_scope.
Local Open Scope list_scope.
Local Open Scope Z_scope.

Lemma filter_twice : forall {A} (f : A -> bool) l, filter f (filter f l) = filter f l.
Proof. intros A f l. induction l as [|x l IH]; [reflexivity|]. cbn [filter]. destruct (f x) eqn:E; [|exact IH]. cbn [filter]. rewrite E, IH. reflexivity. Qed.
Lemma combine_split_map : forall {A B} (l : list (A * B)), List.combine (map fst l) (map snd l) = l.
Proof. intros A B l. induction l as [|[x y] l IH]; [reflexivity|]. cbn [map List.combine fst snd]. rewrite IH. reflexivity. Qed.
(** lines and their closed forms, selected together *)
Lemma rows_of_lines : forall {A} (g : A -> Z * Z * option cexpr) (q : A -> bool) l cl, Forall2 row_cert (map g l) cl ->
  let rs := map (fun d => (g (fst d), snd d)) (filter (fun d => q (fst d)) (List.combine l cl)) in
  map fst rs = map g (filter q l) /\ Forall (fun r => cert_of (snd (fst r)) (snd r)) rs.
Proof.
  intros A g q l. induction l as [|x l IH]; intros cl H; [split; [reflexivity|constructor]|]. cbn [map] in H. destruct cl as [|c cl]; [inversion H|].
  inversion H as [|? ? ? ? Hc H']. subst. destruct (IH cl H') as [IH1 IH2]. cbv zeta in IH1, IH2 |- *. cbn [List.combine filter fst]. destruct (q x); [|split; assumption].
  cbn [map fst snd]. split; [congruence|]. constructor; [exact Hc|exact IH2].
Qed.

Section Inst.
  Variables tx ty : Z.
  Hypotheses (Htx : 0 <= tx) (Hty : 0 <= ty).
  Variable cs : coef_set.
  Variable root : list Z.
  Variable nn : Z.
  Notation vv := (vv tx ty nn).
  Notation vent := (vent tx ty nn).
  Notation vsum := (vsum tx ty nn).
  Notation fams_ok := (fams_ok tx ty cs root).
  Notation blks_ok := (blks_ok tx ty cs root nn).
  Notation blk_ok := (blk_ok tx ty cs root nn).

  Section At.
    Variable a : ssec.
    Hypothesis La : List.length a = List.length root.
    Variable fa : trie ssec.
    Hypothesis Hfa : fams_ok fa (inst tx ty root a).
    Notation II := (inst tx ty root a).

    Lemma sskip_sound : forall i j l x, sskip l a i j = Some x ->
      existsb (fun s => let '(i', j', n, T) := s in (i =? i') && (j =? j') && match nth_error II n with Some x => x =? T | None => false end) l = x.
    Proof.
      intros i j l. pose proof (inst_fits tx ty root a La) as F. induction l as [|[[[i' j'] n] T] l IH]; intros x H; cbn [sskip existsb] in H |- *.
      - apply Some_eq in H. exact H.
      - destruct ((i =? i') && (j =? j')); [|cbn [andb orb]; exact (IH x H)]. cbn [andb].
        destruct (nth_error a n) as [[z|v c|c]|] eqn:E; try discriminate.
        + destruct (fits_nth tx ty a II n _ F E) as (y & Hy & C). cbn [comp_ok] in C. subst y. rewrite Hy.
          destruct (z =? T); [cbn [orb]; apply Some_eq in H; exact H|exact (IH x H)].
        + destruct (fits_nth tx ty a II n _ F E) as (y & Hy & C). cbn [comp_ok] in C. rewrite Hy. destruct (Z.ltb_spec T c) as [L|]; [|discriminate].
          rewrite (proj2 (Z.eqb_neq y T)) by (destruct v; lia). exact (IH x H).
        + assert (N : nth_error II n = None).
          { apply nth_error_None. apply nth_error_None in E. rewrite <- (Forall2_length _ _ _ F). exact E. }
          rewrite N. exact (IH x H).
    Qed.
    Lemma sselect_sound : forall rs rs', Forall (fun r : erow => cert_of (snd (fst r)) (snd r)) rs -> sselect cs a rs = Some rs' ->
      map fst rs' = filter (fun r : Z * Z * option cexpr => let '(i, j, _) := r in negb (skipped cs II i j)) (map fst rs) /\
      Forall (fun r : erow => cert_of (snd (fst r)) (snd r)) rs'.
    Proof.
      intros rs rs' F. revert rs'. induction F as [|[[[i j] f] c] rs Hr F IH]; intros rs' H; cbn [sselect] in H.
      - apply Some_eq in H. subst rs'. split; [reflexivity|constructor].
      - destruct (sskip (skips cs) a i j) as [x|] eqn:Ex; [|discriminate]. cbn [obind] in H. destruct (sselect cs a rs) as [r|] eqn:Er; [|discriminate].
        cbn [option_map] in H. apply Some_eq in H. destruct (IH r eq_refl) as [IH1 IH2]. cbn [map fst filter].
        assert (S : skipped cs II i j = x) by (exact (sskip_sound i j _ x Ex)). rewrite S. destruct x; cbn [negb]; subst rs'; [split; assumption|].
        cbn [map fst]. split; [congruence|constructor; assumption].
    Qed.
    Lemma slines_sound : forall rs E, Forall (fun r : erow => cert_of (snd (fst r)) (snd r)) rs -> slines cs a fa rs = Some E ->
      line_values cs nn (map fst rs) II = Some (vent E) /\ ewf E.
    Proof.
      intros rs E F H. unfold slines in H. destruct (sselect cs a rs) as [rs'|] eqn:Es; [|discriminate]. cbn [obind] in H.
      destruct (sselect_sound rs rs' F Es) as [S1 S2]. unfold line_values. rewrite <- S1. rewrite <- (combine_split_map rs') in H.
      refine (sentries_sound tx ty Htx Hty cs root nn (map fst rs') (map snd rs') fa fa II a E La _ Hfa Hfa H).
      clear -S2. induction S2 as [|[r c] l Hr F IH]; [constructor|]. cbn [map fst snd]. constructor; [exact Hr|exact IH].
    Qed.
    Lemma at_ij_vsum : forall E i j, at_ij (vent E) i j = vsum (row E i) j.
    Proof.
      intros E i j. unfold at_ij, Coef_sector_sound.vsum. rewrite <- vrow_row. unfold vrow. rewrite map_map. reflexivity.
    Qed.
    Lemma srow_sound : forall E i j, ewf E -> rwf (srow (index E) i) /\ vsum (srow (index E) i) j = (- vsum (row E i) j)%R.
    Proof.
      intros E i j W. unfold srow. rewrite tfind_index. pose proof (rwf_row E i W) as R. induction R as [|[k s] l Hs R [IH1 IH2]]; [split; [constructor|cbn; ring]|].
      cbn [map fst snd]. unfold fwf in Hs. cbn [snd] in Hs. destruct (sneg_sound (IZR tx) (IZR ty) (snd s) Hs) as [Wn Vn].
      split; [constructor; [exact Wn|exact IH1]|]. rewrite !vsum_cons, IH2. cbn [fst snd]. unfold Coef_sector_sound.vv, fneg. cbn [fst snd]. rewrite Vn.
      destruct (k =? j); ring.
    Qed.
    Lemma above_zero : forall E i j, forallb (fun e : Z * Z * fv => let '(i, j, _) := e in i <? j) E = true -> (i <? j) = false -> vsum (row E i) j = 0%R.
    Proof.
      intros E i j H N. apply Z.ltb_ge in N. induction E as [|[[i' k] s] E IH]; [reflexivity|]. cbn [forallb] in H. apply andb_true_iff in H. destruct H as [H1 H2].
      apply Z.ltb_lt in H1. unfold row. cbn [filter]. destruct (Z.eqb_spec i' i) as [->|_]; [|exact (IH H2)]. cbn [map]. rewrite vsum_cons. cbn [fst].
      rewrite (proj2 (Z.eqb_neq k j)) by lia. fold (row E i). rewrite (IH H2). ring.
    Qed.
    Lemma unit_val : swf unit_w = true /\ sval (IZR tx) (IZR ty) unit_w = 1%R.
    Proof. split; [reflexivity|]. cbn [unit_w sval]. unfold nval. cbn [fst snd mval]. rewrite ev_const. ring. Qed.

    Variable C : list certs.
    Hypothesis HC : certs_for cs C.
    Variable L : list (irr_table * certs * list sblk).
    Hypothesis HL : sall (sirr_below cs a fa) (List.combine (cs_irr cs) C) = Some L.

    Lemma f_sel_sound : forall sel, blks_ok (of_sel sel L) (f_sel cs nn sel II).
    Proof.
      intros sel. destruct HC as [E F]. unfold f_sel, of_sel. rewrite <- E.
      exact (sall_sound tx ty cs root nn (sirr_below cs a fa) (irr_below cs nn II) irr_certs sel _ L (sirr_below_sound tx ty Htx Hty cs root nn a La fa Hfa) F HL).
    Qed.

    (** on-site lines *)
    Lemma site_at_sound : forall m G n c i j, Forall2 row_cert (map diag_short (mo_diag m)) G -> site_at cs a fa L m G n c = true ->
      family cs II i = true -> family cs II j = true -> exists es v, line_values cs nn (diag_lines m n c) II = Some es /\ number cs nn n c II i j = Some v /\ at_ij es i j = v.
    Proof.
      intros m G n c i j HG H Hi Hj. unfold site_at in H. destruct (slines cs a fa (diag_rows m G n c)) as [E|] eqn:EE; [|discriminate].
      destruct (mapO (fun sel => let S := of_sel sel L in spairs S S) (creators cs n c)) as [P|] eqn:EP; [|discriminate]. cbv zeta in H.
      pose proof (rows_of_lines diag_short (fun l : diag_line => let '(_, c', n', _) := l in (c' =? c) && (String.eqb n' n || String.eqb n' (n ++ " half"))) (mo_diag m) G HG) as [R1 R2].
      assert (RE : diag_rows m G n c = map (fun d => (diag_short (fst d), snd d)) (filter (fun d : diag_line * option cert => let '(_, c', n', _) := fst d in (c' =? c) && (String.eqb n' n || String.eqb n' (n ++ " half"))) (List.combine (mo_diag m) G))).
      { unfold diag_rows. assert (X : forall (A B : Type) (f f' : A -> B) q q' l, (forall x, f x = f' x) -> (forall x : A, q x = q' x) -> map f (filter q l) = map f' (filter q' l)).
        { intros A B f f' q q' l E1 E2. rewrite (map_ext _ _ E1). f_equal. apply filter_ext. exact E2. }
        apply X; intros [[[[i0 c0] n0] f0] ct]; reflexivity. }
      rewrite RE in EE. destruct (slines_sound _ E R2 EE) as [LV WE]. rewrite R1 in LV.
      assert (LD : line_values cs nn (diag_lines m n c) II = Some (vent E)) by (exact LV).
      exists (vent E). rewrite forallb_forall in H. specialize (H i (in_true_ix tx ty cs root fa II i Hfa Hi)).
      assert (Hj1 : 1 <= j) by (unfold family in Hj; apply andb_true_iff in Hj; apply Z.leb_le; tauto).
      assert (N : exists v, number cs nn n c II i j = Some v /\ rwf (sov unit_w 1 i (List.concat P)) /\ vsum (sov unit_w 1 i (List.concat P)) j = v).
      { clear -Htx Hty La Hfa HC HL EP Hj1. unfold number. revert P EP. induction (creators cs n c) as [|sel l IH]; intros P EP; cbn [mapO] in EP.
        - apply Some_eq in EP. subst P. exists 0%R. repeat split. constructor.
        - cbv zeta in EP. destruct (spairs (of_sel sel L) (of_sel sel L)) as [Q|] eqn:EQ; [|discriminate].
          destruct (mapO (fun sel => spairs (of_sel sel L) (of_sel sel L)) l) as [P'|] eqn:EP'; [|discriminate]. cbn [omap2] in EP. apply Some_eq in EP. subst P.
          destruct (IH P' eq_refl) as (v & E1 & W1 & V1). destruct (f_sel_sound sel) as (B & EB & FB).
          destruct (sov_sound tx ty Htx Hty cs root nn unit_w _ _ _ _ Q i j 1 (proj1 unit_val) FB FB Hj1 EQ) as [W2 V2].
          exists (overlap one B B i j + v)%R. cbn [map List.concat]. rewrite EB. cbn [option_map]. split; [|split].
          + unfold osum in *. cbn [mapO]. destruct (mapO (fun x => x) (map (fun sel0 => option_map (fun F => overlap one F F i j) (f_sel cs nn sel0 II)) l)) as [r|]; [|discriminate].
            cbn [omap2 option_map] in *. apply Some_eq in E1. subst v. reflexivity.
          + unfold sov in *. rewrite flat_map_app. apply Forall_app. split; assumption.
          + unfold sov in *. rewrite flat_map_app, vsum_app, V1, V2. rewrite (proj2 unit_val). ring. }
      destruct N as (v & EN & WN & VN). exists v. split; [exact LD|]. split; [exact EN|].
      destruct (srow_sound E i j WE) as [WS VS].
      pose proof (vanish_sound tx ty Htx Hty nn _ (proj2 (Forall_app _ _ _) (conj WS WN)) H j) as Z0. rewrite vsum_app, VS, VN in Z0. rewrite at_ij_vsum. lra.
    Qed.

    (** hopping lines *)
    Variable T : list certs.
    Hypothesis HT : map fst (List.combine (op_tables cs "doublet") T) = op_tables cs "doublet" /\ Forall ten_certs (List.combine (op_tables cs "doublet") T).
    Lemma o_below_sound : forall D, sall (sten_below cs a fa) (List.combine (op_tables cs "doublet") T) = Some D -> blks_ok (of_name "doublet" D) (o_below cs nn "doublet" II).
    Proof.
      intros D HD. destruct HT as [E F]. unfold o_below, of_name.
      pose proof (sall_sound tx ty cs root nn (sten_below cs a fa) (ten_below cs nn II) ten_certs (fun t => String.eqb (tt_name t) "doublet") _ D (sten_below_sound tx ty Htx Hty cs root nn a La fa Hfa) F HD) as S.
      rewrite E in S. unfold op_tables in S |- *. rewrite filter_twice in S. exact S.
    Qed.
    Lemma o_above_sound : forall D, sall (sten_above cs a fa) (List.combine (op_tables cs "doublet") T) = Some D -> blks_ok (of_name "doublet" D) (o_above cs nn "doublet" II).
    Proof.
      intros D HD. destruct HT as [E F]. unfold o_above, of_name.
      pose proof (sall_sound tx ty cs root nn (sten_above cs a fa) (ten_above cs nn II) ten_certs (fun t => String.eqb (tt_name t) "doublet") _ D (sten_above_sound tx ty Htx Hty cs root nn a La fa Hfa) F HD) as S.
      rewrite E in S. unfold op_tables in S |- *. rewrite filter_twice in S. exact S.
    Qed.

    Lemma hop_at_sound : forall D m O n x, sall (sten_below cs a fa) (List.combine (op_tables cs "doublet") T) = Some D ->
      Forall2 row_cert (map off_short (mo_off m)) O -> hop_at cs a fa L (of_name "doublet" D) m O n x = true ->
      exists es B F, line_values cs nn (off_lines m n x) II = Some es /\ o_below cs nn "doublet" II = Some B /\ f_sel cs nn (partner cs n x) II = Some F /\
        forall i j, family cs II i = true -> family cs II j = true ->
        at_ij es i j = (if both cs && negb (i <? j) then 0 else (if minus cs x then -1 else 1) * overlap one B F i j)%R.
    Proof.
      intros D m O n x HD HO H. unfold hop_at in H. destruct (slines cs a fa (off_rows m O n x)) as [E|] eqn:EE; [|discriminate].
      destruct (spairs (of_name "doublet" D) (of_sel (partner cs n x) L)) as [P|] eqn:EP; [|discriminate]. cbv zeta in H.
      pose proof (rows_of_lines off_short (fun l : off_line => let '(_, _, c, g, n', _) := l in op_eqb (c, g) x && String.eqb n' n) (mo_off m) O HO) as [R1 R2].
      assert (RE : off_rows m O n x = map (fun d => (off_short (fst d), snd d)) (filter (fun d : off_line * option cert => let '(_, _, c, g, n', _) := fst d in op_eqb (c, g) x && String.eqb n' n) (List.combine (mo_off m) O))).
      { unfold off_rows. assert (X : forall (A B : Type) (f f' : A -> B) q q' l, (forall x, f x = f' x) -> (forall x : A, q x = q' x) -> map f (filter q l) = map f' (filter q' l)).
        { intros A B f f' q q' l E1 E2. rewrite (map_ext _ _ E1). f_equal. apply filter_ext. exact E2. }
        apply X; intros [[[[[[i0 j0] c0] g0] n0] f0] ct]; reflexivity. }
      rewrite RE in EE. destruct (slines_sound _ E R2 EE) as [LV WE]. rewrite R1 in LV.
      destruct (o_below_sound D HD) as (B & EB & FB). destruct (f_sel_sound (partner cs n x)) as (F & EF & FF).
      exists (vent E), B, F. split; [exact LV|]. split; [exact EB|]. split; [exact EF|]. intros i j Hi Hj. rewrite at_ij_vsum.
      apply andb_true_iff in H. destruct H as [H1 H2]. rewrite forallb_forall in H2. specialize (H2 i (in_true_ix tx ty cs root fa II i Hfa Hi)).
      assert (Hj1 : 1 <= j) by (unfold family in Hj; apply andb_true_iff in Hj; apply Z.leb_le; tauto).
      destruct (both cs && negb (i <? j)) eqn:Eb.
      - apply andb_true_iff in Eb. destruct Eb as [Eb1 Eb2]. rewrite Eb1 in H1. apply negb_true_iff in Eb2. exact (above_zero E i j H1 Eb2).
      - assert (Hlb : (if both cs then i + 1 else 1) <= j) by (destruct (both cs); [cbn [andb] in Eb; apply negb_false_iff in Eb; apply Z.ltb_lt in Eb; lia|exact Hj1]).
        destruct (sov_sound tx ty Htx Hty cs root nn unit_w _ _ _ _ P i j _ (proj1 unit_val) FB FF Hlb EP) as [WS VS]. rewrite (proj2 unit_val) in VS.
        destruct (minus cs x).
        + pose proof (rwf_row E i WE) as WR. rewrite tfind_index in H2.
          pose proof (vanish_sound tx ty Htx Hty nn _ (proj2 (Forall_app _ _ _) (conj WR WS)) H2 j) as Z0. rewrite vsum_app, VS in Z0. lra.
        + destruct (srow_sound E i j WE) as [WR VR].
          pose proof (vanish_sound tx ty Htx Hty nn _ (proj2 (Forall_app _ _ _) (conj WR WS)) H2 j) as Z0. rewrite vsum_app, VS, VR in Z0. lra.
    Qed.

    Lemma anti_at_sound : forall U D A w d x i j, smult (cs_sym cs) a = Some w -> mult (cs_sym cs) II = Ok d ->
      sall (sirr_above cs a fa) (List.combine (cs_irr cs) C) = Some U ->
      sall (sten_below cs a fa) (List.combine (op_tables cs "doublet") T) = Some D -> sall (sten_above cs a fa) (List.combine (op_tables cs "doublet") T) = Some A ->
      anti_at cs fa w L U (of_name "doublet" D) (of_name "doublet" A) x = true -> family cs II i = true -> family cs II j = true ->
      exists p q, old_new cs nn x II i j = Some p /\ new_old cs nn x II i j = Some q /\ (IZR d * p + q = 0)%R.
    Proof.
      intros U D A w d x i j Ew Ed HU HD HA H Hi Hj. unfold anti_at in H. destruct (spairs (of_name "doublet" D) (of_op x L)) as [lo|] eqn:E1; [|discriminate].
      destruct (spairs (of_op x U) (of_name "doublet" A)) as [up|] eqn:E2; [|discriminate].
      rewrite forallb_forall in H. specialize (H i (in_true_ix tx ty cs root fa II i Hfa Hi)).
      assert (Hj1 : 1 <= j) by (unfold family in Hj; apply andb_true_iff in Hj; apply Z.leb_le; tauto).
      destruct (o_below_sound D HD) as (B & EB & FB). destruct (o_above_sound A HA) as (B' & EB' & FB').
      destruct (f_below_sound tx ty Htx Hty cs root nn a fa C L x La Hfa HC HL) as (F & EF & FF).
      destruct (f_above_sound tx ty Htx Hty cs root nn a fa C U x La Hfa HC HU) as (F' & EF' & FF').
      unfold old_new, new_old. rewrite EB, EB', EF, EF'. cbn [omap2]. eexists. eexists. split; [reflexivity|]. split; [reflexivity|].
      destruct (smult_sound tx ty Htx Hty (cs_sym cs) root a w La Ew) as (d' & Hd' & Ww & Vw). rewrite Ed in Hd'. injection Hd' as <-.
      destruct (sov_sound tx ty Htx Hty cs root nn w _ _ _ _ lo i j 1 Ww FB FF Hj1 E1) as [W1 V1].
      destruct (sovw_sound tx ty Htx Hty cs root nn _ _ _ _ up i j 1 FF' FB' Hj1 E2) as [W2 V2].
      pose proof (vanish_sound tx ty Htx Hty nn _ (proj2 (Forall_app _ _ _) (conj W1 W2)) H j) as Z0. rewrite vsum_app, V1, V2, Vw in Z0. exact Z0.
    Qed.
    Lemma sregular_sound : regular cs II = true -> sregular cs a = true.
    Proof.
      unfold regular, sregular. induction (thresholds cs) as [|[n k] l IH]; [reflexivity|]. cbn [forallb fst snd]. rewrite !andb_true_iff. intros [H1 H2].
      split; [|exact (IH H2)]. destruct (nth_error a n) as [[z|v c|c]|] eqn:E; try reflexivity.
      destruct (fits_nth tx ty a II n _ (inst_fits tx ty root a La) E) as (y & Hy & Cy). cbn [comp_ok] in Cy. subst y. rewrite Hy in H1. exact H1.
    Qed.
  End At.
End Inst.

Lemma lines_certs_sound : forall cs C T O G, lines_certs_ok cs C T O G = true -> certs_for cs C /\
  (map fst (List.combine (op_tables cs "doublet") T) = op_tables cs "doublet" /\ Forall ten_certs (List.combine (op_tables cs "doublet") T)) /\
  Forall2 (fun m c => Forall2 row_cert (map off_short (mo_off m)) c) (cs_modes cs) O /\
  Forall2 (fun m c => Forall2 row_cert (map diag_short (mo_diag m)) c) (cs_modes cs) G.
Proof.
  intros cs C T O G H. unfold lines_certs_ok in H. rewrite !andb_true_iff in H. destruct H as [[[H1 H2] H3] H4]. split; [exact (certs_ok_sound cs C H1)|].
  apply all2_Forall2 in H2, H3, H4. split; [|split].
  - apply (Forall2_combine (fun t cl => Forall2 row_cert (map short (tt_rows t)) cl)). eapply Forall2_impl2; [|exact H2]. intros t cl Hl. exact (cert_rows_sound _ _ Hl).
  - eapply Forall2_impl2; [|exact H3]. intros t cl Hl. exact (cert_rows_sound _ _ Hl).
  - eapply Forall2_impl2; [|exact H4]. intros t cl Hl. exact (cert_rows_sound _ _ Hl).
Qed.
Lemma Forall2_in_combine : forall {A B} (P : A -> B -> Prop) l l' x, Forall2 P l l' -> In x l -> exists y, In (x, y) (List.combine l l') /\ P x y.
Proof.
  intros A B P l l' x F. induction F as [|a b l l' H F IH]; intros Hx; [destruct Hx|]. cbn [List.combine]. destruct Hx as [->|Hx]; [exists b; split; [left; reflexivity|exact H]|].
  destruct (IH Hx) as (y & Hy & Py). exists y. split; [right; exact Hy|exact Py].
Qed.

Definition run_lines (cs : coef_set) (C T O G : list certs) : bool :=
  let c := Z.of_nat (cs_channels cs) + 2 in
  Nat.leb (ngen cs (sy_sig (cs_sym cs))) 2 && lines_certs_ok cs C T O G && forallb (lines_at cs C T O G) (shapes cs c).

Section Run.
  Variable cs : coef_set.
  Variables C T O G : list certs.
  Hypothesis H : run_lines cs C T O G = true.

  Lemma run_site : isospin cs = false -> forall m n c I nn i j, In m (cs_modes cs) -> In n (site_names m) -> (c < cs_channels cs)%nat -> sector cs I ->
    family cs I i = true -> family cs I j = true ->
    exists es v, line_values cs nn (diag_lines m n (Z.of_nat c)) I = Some es /\ number cs nn n (Z.of_nat c) I i j = Some v /\ at_ij es i j = v.
  Proof.
    intros HI m n c I nn i j Hm Hn Hc HS Hi Hj. unfold run_lines in H. apply andb_true_iff in H. destruct H as [H0 H2]. apply andb_true_iff in H0. destruct H0 as [H0 H1].
    apply Nat.leb_le in H0. destruct (lines_certs_sound _ _ _ _ _ H1) as (HC & HT & HO & HG). rewrite forallb_forall in H2.
    destruct (shapes_cover cs (Z.of_nat (cs_channels cs) + 2) ltac:(lia) I H0 HS) as (a & tx & ty & Ha & Htx & Hty & La & EI).
    specialize (H2 a Ha). unfold lines_at in H2. destruct (smult (cs_sym cs) a) as [w|] eqn:Ew; [|discriminate]. destruct (sfams cs a) as [fa|] eqn:Ef; [|discriminate].
    destruct (sall (sirr_below cs a fa) (List.combine (cs_irr cs) C)) as [L|] eqn:EL; [|discriminate].
    apply andb_true_iff in H2. destruct H2 as [H2 _]. rewrite HI in H2. rewrite forallb_forall in H2.
    destruct (Forall2_in_combine _ _ _ m HG Hm) as (g & Hg & Cg). specialize (H2 (m, g) Hg). cbn [fst snd] in H2.
    rewrite forallb_forall in H2. specialize (H2 n Hn). rewrite forallb_forall in H2. specialize (H2 c (proj2 (in_seq _ _ _) (conj (Nat.le_0_l c) Hc))).
    pose proof (sfams_sound tx ty Htx Hty cs I a fa La Ef) as Hfa. rewrite <- EI in Hi, Hj.
    pose proof (site_at_sound tx ty Htx Hty cs I nn a La fa Hfa C HC L EL m g n (Z.of_nat c) i j Cg H2 Hi Hj) as R. rewrite EI in R. exact R.
  Qed.

  Lemma run_hop : has_doublets cs = true -> forall m n x I nn, In m (cs_modes cs) -> In n (hopping_names m) -> In x (opers cs) -> served cs x = true ->
    sector cs I -> regular cs I = true ->
    exists es B F, line_values cs nn (off_lines m n x) I = Some es /\ o_below cs nn "doublet" I = Some B /\ f_sel cs nn (partner cs n x) I = Some F /\
      forall i j, family cs I i = true -> family cs I j = true ->
      at_ij es i j = (if both cs && negb (i <? j) then 0 else (if minus cs x then -1 else 1) * overlap one B F i j)%R.
  Proof.
    intros HD m n x I nn Hm Hn Hx Hs HS HR. unfold run_lines in H. apply andb_true_iff in H. destruct H as [H0 H2]. apply andb_true_iff in H0. destruct H0 as [H0 H1].
    apply Nat.leb_le in H0. destruct (lines_certs_sound _ _ _ _ _ H1) as (HC & HT & HO & HG). rewrite forallb_forall in H2.
    destruct (shapes_cover cs (Z.of_nat (cs_channels cs) + 2) ltac:(lia) I H0 HS) as (a & tx & ty & Ha & Htx & Hty & La & EI).
    specialize (H2 a Ha). unfold lines_at in H2. destruct (smult (cs_sym cs) a) as [w|] eqn:Ew; [|discriminate]. destruct (sfams cs a) as [fa|] eqn:Ef; [|discriminate].
    destruct (sall (sirr_below cs a fa) (List.combine (cs_irr cs) C)) as [L|] eqn:EL; [|discriminate].
    apply andb_true_iff in H2. destruct H2 as [_ H2]. rewrite <- EI in HR. rewrite HD, (sregular_sound tx ty cs I a La HR) in H2. cbn [andb] in H2.
    destruct (sall (sirr_above cs a fa) (List.combine (cs_irr cs) C)) as [U|] eqn:EU; [|discriminate].
    destruct (sall (sten_below cs a fa) (List.combine (op_tables cs "doublet") T)) as [D|] eqn:ED; [|discriminate].
    destruct (sall (sten_above cs a fa) (List.combine (op_tables cs "doublet") T)) as [A|] eqn:EA; [|discriminate].
    cbv zeta in H2. apply andb_true_iff in H2. destruct H2 as [H2 _]. rewrite forallb_forall in H2.
    destruct (Forall2_in_combine _ _ _ m HO Hm) as (g & Hg & Cg). specialize (H2 (m, g) Hg). cbn [fst snd] in H2.
    rewrite forallb_forall in H2. specialize (H2 n Hn). rewrite forallb_forall in H2. specialize (H2 x (in_ops cs x Hx)). rewrite Hs in H2.
    pose proof (sfams_sound tx ty Htx Hty cs I a fa La Ef) as Hfa.
    pose proof (hop_at_sound tx ty Htx Hty cs I nn a La fa Hfa C HC L EL T HT D m g n x ED Cg H2) as R. rewrite EI in R. exact R.
  Qed.

  Lemma run_anti : has_doublets cs = true -> forall x I nn i j, In x (opers cs) -> sector cs I -> regular cs I = true ->
    family cs I i = true -> family cs I j = true ->
    exists d p q, mult (cs_sym cs) I = Ok d /\ old_new cs nn x I i j = Some p /\ new_old cs nn x I i j = Some q /\ (IZR d * p + q = 0)%R.
  Proof.
    intros HD x I nn i j Hx HS HR Hi Hj. unfold run_lines in H. apply andb_true_iff in H. destruct H as [H0 H2]. apply andb_true_iff in H0. destruct H0 as [H0 H1].
    apply Nat.leb_le in H0. destruct (lines_certs_sound _ _ _ _ _ H1) as (HC & HT & HO & HG). rewrite forallb_forall in H2.
    destruct (shapes_cover cs (Z.of_nat (cs_channels cs) + 2) ltac:(lia) I H0 HS) as (a & tx & ty & Ha & Htx & Hty & La & EI).
    specialize (H2 a Ha). unfold lines_at in H2. destruct (smult (cs_sym cs) a) as [w|] eqn:Ew; [|discriminate]. destruct (sfams cs a) as [fa|] eqn:Ef; [|discriminate].
    destruct (sall (sirr_below cs a fa) (List.combine (cs_irr cs) C)) as [L|] eqn:EL; [|discriminate].
    apply andb_true_iff in H2. destruct H2 as [_ H2]. rewrite <- EI in HR. rewrite HD, (sregular_sound tx ty cs I a La HR) in H2. cbn [andb] in H2.
    destruct (sall (sirr_above cs a fa) (List.combine (cs_irr cs) C)) as [U|] eqn:EU; [|discriminate].
    destruct (sall (sten_below cs a fa) (List.combine (op_tables cs "doublet") T)) as [D|] eqn:ED; [|discriminate].
    destruct (sall (sten_above cs a fa) (List.combine (op_tables cs "doublet") T)) as [A|] eqn:EA; [|discriminate].
    cbv zeta in H2. apply andb_true_iff in H2. destruct H2 as [_ H2]. rewrite forallb_forall in H2. specialize (H2 x (in_ops cs x Hx)).
    pose proof (sfams_sound tx ty Htx Hty cs I a fa La Ef) as Hfa. rewrite <- EI in Hi, Hj.
    destruct (smult_sound tx ty Htx Hty (cs_sym cs) I a w La Ew) as (d & Hd & _).
    destruct (anti_at_sound tx ty Htx Hty cs I nn a La fa Hfa C HC L EL T HT U D A w d x i j Ew Hd EU ED EA H2 Hi Hj) as (p & q & E1 & E2 & E3).
    rewrite EI in Hd, E1, E2. exists d, p, q. repeat split; assumption.
  Qed.
End Run.
