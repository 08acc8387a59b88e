(** The whole tool. *)
From Coq Require Import List ZArith Reals Ascii String Bool Lia Lra Sorted.
From Verif Require Import Base Oprecalc_model Oprecalc_spec Oprecalc_words Datafile_model Datafile_spec Datafile_parse Datafile_read Instantiate_model Instantiate_spec Instantiate_lines Instantiate_mats Instantiate_steps Instantiate_tail Instantiate_write.
Import ListNotations.
Local Open Scope string_scope.
Local Open Scope list_scope.

Lemma concat_length {A} (css : list (list A)) : (forall cs, In cs css -> cs <> []) -> (List.length css <= List.length (List.concat css))%nat.
Proof.
  induction css as [|c css IH]; intros H; cbn; [lia |]. rewrite app_length. specialize (IH (fun cs Hc => H cs (or_intror Hc))). specialize (H c (or_introl eq_refl)). destruct c; [contradiction |]. cbn. lia.
Qed.
Lemma chunk_noise c ls : chunk_lines c ls -> Forall noise_ok (fst c).
Proof. intros H. destruct H as [nz d ls l Hz _]. cbn. induction Hz as [|x w nz ls Hx Hz IH]; constructor; [now apply (noise_line_ok x w) | assumption]. Qed.
Lemma chunks_noise cs ls : tok_list chunk_lines cs ls -> Forall noise_ok (noises cs).
Proof. induction 1 as [|c cs l ls Hc H IH]; [constructor |]. cbn. apply Forall_app. split; [now apply (chunk_noise c l) | assumption]. Qed.
Lemma ending_noise_ok e le : ending_lines e le -> Forall noise_ok (ending_noise e).
Proof. destruct 1 as [nz ls Hz|nz d o ls Hc Hs]; cbn; [induction Hz as [|x w nz ls Hx Hz IH]; constructor; [now apply (noise_line_ok x w) | assumption] |]. apply (chunk_noise (nz, d) ls Hc). Qed.
Lemma noises_app a b : noises (a ++ b) = noises a ++ noises b.
Proof. apply flat_map_app. Qed.
Lemma noises_concat (css : list (list chunk)) : Forall noise_ok (noises (List.concat css)) -> forall cs, In cs css -> Forall noise_ok (noises cs).
Proof.
  induction css as [|c css IH]; cbn [List.concat]; intros H cs Hin; [destruct Hin |]. rewrite noises_app in H. apply Forall_app in H as [H1 H2]. destruct Hin as [<- | Hin]; [assumption | now apply IH].
Qed.
Lemma no_comments cs : comments cs = [] -> notes_text (noises cs) = "".
Proof.
  assert (G : forall nz, noise_comments nz = [] -> notes_text nz = "").
  { intros nz. unfold notes_text. induction nz as [|x nz IH]; intros H; [reflexivity |]. cbn [map]. rewrite concat_cons. destruct x; [| discriminate]. exact (IH H). }
  intros H. apply G. rewrite <- H. unfold comments, noises, noise_comments. clear. induction cs as [|c cs IH]; cbn; [reflexivity |]. now rewrite flat_map_app, IH.
Qed.
Lemma header_written nz l : header_noise nz l -> Forall noise_ok nz -> forall t, starts_with (fun c => c <> "#"%char /\ c <> newline) t -> header_text l (notes_text nz ++ t)%string t.
Proof.
  unfold notes_text. induction 1 as [|x nz l H IH|t0 nz l Hn H IH|w nz l H IH]; intros Hok t Ht; try (inversion Hok as [|? ? Hx Hok']; subst); cbn [map].
  - now constructor.
  - rewrite concat_cons. cbn [note_text append]. now apply IH.
  - rewrite concat_cons. cbn [note_text append]. rewrite !app_ass. cbn [append]. destruct Hx as [_ Hx]. constructor; [assumption | assumption | now apply IH].
  - rewrite concat_cons. cbn [note_text append]. rewrite !app_ass. cbn [append]. constructor. now apply IH.
Qed.
Lemma starts_app p s t : starts_with p s -> starts_with p (s ++ t)%string.
Proof. destruct s; cbn; [intros [] | auto]. Qed.

Section Final.
  Variables (top : R) (scan_nat : string -> option (nat * string)) (scan_int : string -> option (Z * string)) (scan_R : string -> option (R * string))
    (strtod : string -> option R) (finite : R -> bool) (rescale : R -> R) (show_nat : nat -> string) (show18 show16 : R -> string) (read18 read16 : R -> R)
    (template_file : string -> res string) (evaluate : string -> res (nat * nat * rmatrix)) (dsyev : list (list R) -> res (list R * list (list R))).
  Notation N := (real_num top).
  Notation elements := (list ((list Z * list Z) * rmatrix)).
  Hypothesis H18 : forall x, shows scan_R (read18 x) (show18 x).
  Hypothesis H16 : forall x, shows scan_R (read16 x) (show16 x).
  Hypothesis Hn : forall n, shows scan_nat n (show_nat n).
  Hypothesis Hhash : forall n, ~ starts_with (fun c => c = "#"%char) (show_nat n).
  Hypothesis Hfin : forall x, finite x = true.

  (** *** The lowest energy *)
  Lemma lowest_fold es m : let r := fold_left (lower top) es m in
    (r <= m)%R /\ (forall e v vs, In e es -> e_val e = v :: vs -> (r <= v)%R) /\ (r = m \/ exists e v vs, In e es /\ e_val e = v :: vs /\ r = v).
  Proof.
    cbv zeta. revert m. induction es as [|e es IH]; intros m; cbn [fold_left].
    - split; [lra |]. split; [intros ? ? ? [] |]. now left.
    - destruct (IH (lower top m e)) as (H1 & H2 & H3). set (r := fold_left (lower top) es (lower top m e)) in *. unfold lower in H1, H3. unfold smaller in *. cbn [n_lt real_num] in *.
      destruct (e_val e) as [|v vs] eqn:E.
      + split; [exact H1 |]. split.
        * intros e' v' vs' [<- | Hin] E'; [congruence |]. now apply (H2 e' v' vs').
        * destruct H3 as [H3 | (e' & v' & vs' & Hin & H3)]; [now left |]. right. exists e', v', vs'. split; [now right | exact H3].
      + destruct (Rlt_dec v m) as [L | L].
        * split; [lra |]. split.
          -- intros e' v' vs' [<- | Hin] E'; [rewrite E in E'; injection E' as <- <-; lra |]. now apply (H2 e' v' vs').
          -- right. destruct H3 as [H3 | (e' & v' & vs' & Hin & H3)]; [exists e, v, vs; split; [now left | split; assumption] |]. exists e', v', vs'. split; [now right | exact H3].
        * split; [lra |]. split.
          -- intros e' v' vs' [<- | Hin] E'; [rewrite E in E'; injection E' as <- <-; lra |]. now apply (H2 e' v' vs').
          -- destruct H3 as [H3 | (e' & v' & vs' & Hin & H3)]; [now left |]. right. exists e', v', vs'. split; [now right | exact H3].
  Qed.
  Lemma seeds_split f subs bases es : seeds_ok top scan_int f subs bases es -> Forall2 (fun p b => eigenbasis (snd p) (fst b) (snd b)) subs bases /\
    map e_qn es = map fst subs /\ (forall b, In b bases -> exists e, In e es /\ e_val e = map (fun x => x * f)%R (fst b)) /\ (forall e, In e es -> exists b, In b bases /\ e_val e = map (fun x => x * f)%R (fst b)) /\
    (forall b, In b bases -> StronglySorted Rle (fst b)).
  Proof.
    induction 1 as [|p b e ps bs es Hk Hr (I1 & I2 & I3 & I4 & I5)]; [repeat split; try constructor; intros ? [] |]. destruct Hk as (E1 & E2 & E3 & E4 & He & _).
    split; [now constructor |]. split; [cbn; now rewrite E1, I2 |]. split; [| split].
    - intros b' [<- | Hin]; [exists e; split; [now left | assumption] |]. destruct (I3 b' Hin) as (e' & H1 & H2). exists e'. split; [now right | assumption].
    - intros e' [<- | Hin]; [exists b; split; [now left | assumption] |]. destruct (I4 e' Hin) as (b' & H1 & H2). exists b'. split; [now right | assumption].
    - intros b' [<- | Hin]; [apply He | now apply I5].
  Qed.
  Lemma seeds_nil f subs bases : seeds_ok top scan_int f subs bases [] -> subs = [].
  Proof. intros H. inversion H. reflexivity. Qed.
  Lemma lowest_energy f subs bases es : (0 < f)%R -> seeds_ok top scan_int f subs bases es -> subs <> [] -> (forall i h, In (i, h) subs -> (1 <= List.length h)%nat) ->
    (forall b x, In b bases -> In x (fst b) -> x * f < top)%R ->
    let r := fold_left (lower top) es top in r <> top /\ lowest bases (r / f)%R.
  Proof.
    intros Hf Hs Hne Hdim Htop. cbv zeta. destruct (lowest_fold es top) as (L1 & L2 & L3). set (r := fold_left (lower top) es top) in *.
    destruct (seeds_split _ _ _ _ Hs) as (S1 & _ & S3 & S4 & S5).
    assert (Hhead : forall b, In b bases -> exists v vs, fst b = v :: vs).
    { clear -S1 Hdim. intros b Hb. induction S1 as [|p b' ps bs Hp Hr IH]; [destruct Hb |]. destruct Hb as [-> | Hb].
      - destruct p as [i h]. specialize (Hdim i h (or_introl eq_refl)). destruct Hp as (Hl & _). cbn in Hl. destruct (fst b) as [|v vs]; [cbn in Hl; lia | now exists v, vs].
      - apply IH; [intros i h Hin; apply (Hdim i h); now right | assumption]. }
    assert (Hle : forall b x, In b bases -> In x (fst b) -> (r <= x * f)%R).
    { intros b x Hb Hx. destruct (S3 b Hb) as (e & He & Ev). destruct (Hhead b Hb) as (v & vs & Eb). rewrite Eb in Ev. cbn in Ev. pose proof (L2 e _ _ He Ev) as Lv.
      specialize (S5 b Hb). rewrite Eb in S5, Hx. destruct Hx as [<- | Hx]; [assumption |]. inversion S5 as [|? ? Hss Hfa]; subst. rewrite Forall_forall in Hfa. specialize (Hfa x Hx). nra. }
    assert (Hex : exists b, In b bases). { destruct S1 as [|p b ps bs Hp Hr]; [contradiction | exists b; now left]. }
    assert (Hrt : r <> top). { destruct Hex as (b & Hb). destruct (Hhead b Hb) as (v & vs & Eb). assert (Hv : In v (fst b)) by (rewrite Eb; now left). specialize (Htop b v Hb Hv). specialize (Hle b v Hb Hv). lra. }
    split; [exact Hrt |]. destruct L3 as [L3 | (e & v & vs & He & Ev & Er)]; [contradiction |]. destruct (S4 e He) as (b & Hb & Eb). rewrite Ev in Eb. destruct (Hhead b Hb) as (x & xs & Ex). rewrite Ex in Eb. cbn in Eb. injection Eb as Eb _.
    split.
    - exists b. split; [assumption |]. rewrite Ex, Er, Eb. left. field. lra.
    - intros b' y Hb' Hy. specialize (Hle b' y Hb' Hy). apply Rmult_le_reg_r with f; [assumption |]. unfold Rdiv. rewrite Rmult_assoc, Rinv_l, Rmult_1_r by lra. exact Hle.
  Qed.

  Lemma subspaces_same scale subs bases es : (0 < scale)%R -> seeds_ok top scan_int (1 / scale) subs bases es -> forall smallest,
    map (new_subspace read18 smallest) es = map (fun p => (fst (fst p), map (fun x => read18 ((x - smallest / (1 / scale)) / scale)%R) (fst (snd p)))) (combine subs bases).
  Proof.
    intros Hscale Hs smallest. induction Hs as [|p b e ps bs es Hk Hr IH]; [reflexivity |]. cbn [map combine]. f_equal; [| exact IH]. destruct Hk as (E1 & _ & E3 & _).
    unfold new_subspace. rewrite E1, E3, map_map. cbn [fst snd]. f_equal. apply map_ext. intros x. f_equal. field. lra.
  Qed.
  Lemma header_read nz0 h w1 w2 w3 n k cs e sc out s : line_words [w1; w2; w3] h -> shows scan_nat 1%nat w1 -> shows scan_nat n w2 -> shows scan_nat k w3 ->
    at_ ((nz0, h) :: cs) e sc out s -> exists s', read_header N scan_nat scan_R s = Ok ((1%nat, n, k), s') /\ at_ cs e (scale_after top scan_R sc nz0) (out ++ notes_text nz0)%string s'.
  Proof.
    intros Hh H1 H2 H3 Hat. destruct (need_chunk top scan_R _ _ _ _ _ _ _ Hat) as (s1 & E1 & _ & A1). exists s1. split; [| exact A1].
    apply line_joined_all in Hh. change [w1; w2; w3] with ([w1] ++ [w2] ++ [w3]) in Hh. apply joined_app in Hh as (m1 & J1 & J2). apply joined_app in J2 as (m2 & J2 & J3).
    unfold read_header. rewrite E1. cbn [bind]. rewrite (proj1 (parses_one scan_nat _ _ H1) _ _ J1). cbn [bind]. rewrite (proj1 (parses_one scan_nat _ _ H2) _ _ J2). cbn [bind].
    rewrite (proj1 (parses_one scan_nat _ _ H3) _ _ J3). reflexivity.
  Qed.
  Lemma chunks_some {A} (P : A -> list string -> Prop) l css : (forall x, ~ P x []) -> Forall2 (fun x => part (P x)) l css -> forall cs, In cs css -> cs <> [].
  Proof.
    intros Hp H. induction H as [|x cs l css Hx H IH]; intros c Hin; [destruct Hin |]. destruct Hin as [<- | Hin]; [| now apply IH]. intros ->. exact (Hp x Hx).
  Qed.
  Lemma map_combine_seq {A B} (h : A -> B) k l : map (fun km : nat * A => h (snd km)) (combine (seq k (List.length l)) l) = map h l.
  Proof. revert k. induction l as [|x l IH]; intros k; cbn; [reflexivity |]. now rewrite IH. Qed.
  Lemma map_fst_combine {A} k (l : list A) : map fst (combine (seq k (List.length l)) l) = seq k (List.length (combine (seq k (List.length l)) l)).
  Proof. revert k. induction l as [|x l IH]; intros k; cbn; [reflexivity |]. now rewrite IH. Qed.
  Lemma good_new (Q : dparams) f subs bases (g : @seeds R) dim m smallest : seeds_ok top scan_int f subs bases (g_list g) -> (forall i h, In (i, h) subs -> List.length i = dim /\ (1 <= List.length h)%nat /\ symmetric h) ->
    NoDup (map fst subs) -> good_telements dim subs m -> good_elements R R finite (map (new_subspace read18 smallest) (g_list g)) (new_elements read18 subs bases m).
  Proof.
    intros Hg Hsub Hnd [Hm Hgood]. split.
    - unfold new_elements. rewrite map_map. cbn [fst]. exact Hm.
    - intros i j x Hin. unfold new_elements in Hin. apply in_map_iff in Hin as ([[i' j'] y] & E & Hin). cbn [fst snd] in E. injection E as <- <- <-.
      destruct (Hgood i' j' y Hin) as (_ & _ & Hi & Hj & _).
      assert (G : forall k, In k (map fst subs) -> exists e, In (k, e) (map (new_subspace read18 smallest) (g_list g)) /\ List.length e = List.length (basis_of subs bases k)).
      { intros k Hk. destruct (found top scan_int f subs bases g dim Hg Hsub k Hk) as (e & F & D & V & S & _). unfold find_seed in F. apply find_some in F as [F1 F2]. apply invar_eqb_iff in F2.
        exists (snd (new_subspace read18 smallest e)). split.
        - apply in_map_iff. exists e. split; [| assumption]. unfold new_subspace. now rewrite F2.
        - unfold new_subspace. cbn [snd]. rewrite map_length. destruct S as [-> _]. rewrite <- D.
          destruct (seed_of top scan_int f subs bases g Hg e F1) as (p & b & _ & (_ & -> & -> & _ & (Hl & _) & _)). now rewrite map_length. }
      destruct (G i' Hi) as (e1 & I1 & L1). destruct (G j' Hj) as (e2 & I2 & L2). exists e1, e2. split; [exact I1 |]. split; [exact I2 |].
      pose proof (in_basis_shape (basis_of subs bases i') y (basis_of subs bases j')) as [Sh1 Sh2]. split; [now rewrite map_length, Sh1 |].
      intros row Hrow. apply in_map_iff in Hrow as (row' & <- & Hrow'). split; [now rewrite map_length, (Sh2 row' Hrow') |]. intros v _. apply Hfin.
  Qed.

  Theorem instantiated Q nmax xi zeta T s : template_text scan_nat scan_int scan_R strtod template_file evaluate T s -> good_template scan_int Q T ->
    (forall i h, In (i, h) (t_subspaces T) -> symmetric h ->
       exists val vec, dsyev h = Ok (val, vec) /\ eigenbasis h val vec /\ forall x, In x val -> x / t_scale T < top)%R ->
    q_polarized Q = false -> q_pol2x2 Q = false -> (nmax < List.length xi)%nat -> (nmax < List.length zeta)%nat ->
    exists out bases ground d,
      instantiate N scan_nat scan_int scan_R strtod finite rescale show_nat show18 show16 template_file evaluate dsyev Q nmax [(xi, zeta)] s = Ok (out, ground) /\
      Forall2 (fun p b => eigenbasis (snd p) (fst b) (snd b)) (t_subspaces T) bases /\ lowest bases ground /\
      read_data R R scan_nat scan_int scan_R scan_R finite rescale Q out = Ok d /\
      stored R R rescale Q (data_content read18 read16 (q_symtype Q) nmax T bases ground xi zeta) d.
  Proof.
    intros Ht Hgood Htop Hpol Hp2 Hxi Hzeta. destruct Ht as [nz0 h w1 w2 w3 first others fchunks items e Hhn Hh H1 (n2 & H2) H3 Hsubs Hsc Hf Hfc Hitems Hcom Hlay].
    destruct Hgood as (G1 & G2 & G3 & G4 & G5 & G6 & G7 & G8 & G9 & (cE & G10)).
    set (subs := t_subspaces T) in *. set (dim := q_invdim Q) in *. set (f := (1 / t_scale T)%R).
    assert (Hfpos : (0 < f)%R) by (apply Rdiv_lt_0_compat; lra).
    (* what the noise is *)
    assert (Hnoise : Forall noise_ok (noises ((nz0, h) :: List.concat (first :: others) ++ List.concat fchunks ++ List.concat items)) /\ Forall noise_ok (ending_noise e)).
    { destruct Hlay as (ls & le & L1 & L2 & _). split; [now apply (chunks_noise _ ls) | now apply (ending_noise_ok e le)]. }
    destruct Hnoise as [Hnoise Hnoise_e]. rewrite noises_cons in Hnoise. apply Forall_app in Hnoise as [N0 Hnoise]. rewrite !noises_app in Hnoise. apply Forall_app in Hnoise as [N1 Hnoise]. apply Forall_app in Hnoise as [N2 N3].
    (* header *)
    pose proof (layout_at _ _ _ Hlay) as A0. destruct (header_read nz0 h w1 w2 w3 n2 _ _ e None "" _ Hh H1 H2 H3 A0) as (s1 & E1 & A1). cbn [append] in A1.
    set (head := line (show_nat 1 ++ " " ++ show_nat nmax ++ " " ++ show_nat (List.length subs))%string).
    pose proof (write_at _ _ _ _ head _ A1) as A2.
    (* subspaces *)
    assert (Hscale : scale_after top scan_R (scale_after top scan_R None nz0) (noises (hd [] (first :: others))) = Some f).
    { cbn [hd]. rewrite <- scale_after_app. apply (scaled_after top scan_R) in Hsc. exact Hsc. }
    assert (Hsolved : forall i hh, In (i, hh) subs -> List.length i = dim /\ (1 <= List.length hh)%nat /\ solved top dsyev f hh).
    { intros i hh Hin. destruct (G5 i hh Hin) as (Q1 & Q2 & Q3). split; [assumption |]. split; [assumption |]. destruct (Htop i hh Hin Q3) as (val & vec & X1 & X2 & X3). exists val, vec.
      split; [assumption |]. split; [assumption |]. intros x Hx. specialize (X3 x Hx). unfold f. replace (x * (1 / t_scale T))%R with (x / t_scale T)%R by (field; lra). exact X3. }
    destruct (seeds_step top scan_nat scan_int scan_R strtod template_file evaluate dsyev f Hfpos dim subs (first :: others) Hsubs Hsolved _ e [] top true 1%R _ _ _ G4 (conj G3 Hscale) A2)
      as (bases & es & s3 & sc3 & E3 & K3 & A3). cbn [app] in E3.
    destruct (seeds_split _ _ _ _ K3) as (B1 & B2 & _).
    set (r := fold_left (lower top) es top) in *. set (g := Seeds f r es).
    assert (Hg : seeds_ok top scan_int f subs bases (g_list g)) by exact K3.
    assert (Htop' : forall b x, In b bases -> In x (fst b) -> (x * f < top)%R).
    { clear -K3. intros b x Hb Hx. induction K3 as [|p b' e0 ps bs es0 Hk Hr IH]; [destruct Hb |]. destruct Hb as [-> | Hb]; [now apply Hk | now apply IH]. }
    destruct (lowest_energy f subs bases es Hfpos K3 G3 (fun i hh Hin => proj1 (proj2 (G5 i hh Hin))) Htop') as [Hr Hlow]. fold r in Hr, Hlow.
    assert (Es : read_seed_data N scan_nat scan_int scan_R template_file evaluate dsyev dim (List.length subs) (write head s1) = Ok (g, s3)).
    { unfold read_seed_data. cbn [n_one n_top real_num]. rewrite E3. cbn [bind]. fold g. destruct es as [|e0 es']; [exfalso; exact (G3 (seeds_nil _ _ _ K3)) |].
      cbn [n_eq real_num]. destruct (Req_EM_T r top) as [Ee | _]; [contradiction |]. reflexivity. }
    set (energies := energy_block N show_nat show18 g). pose proof (write_at _ _ _ _ energies _ A3) as A4.
    (* blocks *)
    set (expected := ops_per_channel (q_symtype Q)).
    set (kms := combine (seq 0 (List.length (t_f T))) (t_f T)) in *.
    assert (Lk : List.length kms = expected) by (unfold kms; rewrite combine_length, seq_length, Nat.min_id; exact G7).
    assert (Lf : List.length kms = List.length fchunks) by exact (Forall2_length_ Hf).
    assert (Hitems' : Forall2 (fun x cs => part (item_lines scan_nat scan_int strtod template_file evaluate subs x) cs) (map snd (t_items T)) items).
    { clear -Hitems. induction Hitems as [|x cs xs css [_ Hx] H IH]; cbn; constructor; assumption. }
    assert (Ff : forall cs, In cs fchunks -> cs <> []).
    { apply (chunks_some (fun km => f_lines scan_nat scan_int strtod template_file evaluate subs (fst km) (snd km)) kms); [| exact Hf]. intros x (hh & ds & ? & ? & E & _). discriminate. }
    assert (Fi : forall cs, In cs items -> cs <> []).
    { apply (chunks_some (item_lines scan_nat scan_int strtod template_file evaluate subs) (map snd (t_items T))); [| exact Hitems']. intros [|t n m]; [intros (d & E) | intros (ds & E & _)]; discriminate. }
    set (s4 := write energies s3) in *. set (fuel := List.length (s_lines s4)).
    assert (Hfuel : (List.length fchunks + List.length items + List.length (match e with AtEnd _ => [] | AtCoef _ _ _ => [tt] end) <= fuel)%nat).
    { pose proof (concat_length fchunks Ff) as C1. pose proof (concat_length items Fi) as C2. unfold fuel. destruct e as [nz | nz d o].
      - pose proof (at_length _ _ _ _ _ A4) as L. rewrite app_length in L. cbn [List.length]. lia.
      - pose proof (at_length_coef _ _ _ _ _ _ _ A4) as L. rewrite app_length in L. cbn [List.length]. lia. }
    assert (Hgf : forall k m, In (k, m) kms -> good_telements dim subs m).
    { intros k m Hin. apply G8. unfold kms in Hin. now apply in_combine_r in Hin. }
    assert (Hgi : forall t n m, In (TOp t n m) (map snd (t_items T)) -> good_telements dim subs m).
    { intros t n m Hin. apply in_map_iff in Hin as ([c x] & Ex & Hin). cbn in Ex. subst x. now apply (G9 c t n m). }
    pose proof (ex_intro (fun sc => at_ (List.concat fchunks ++ List.concat items) e sc _ s4) sc3 A4) as A4'.
    destruct (tail_f top scan_nat scan_int scan_R strtod show_nat show18 template_file evaluate f subs bases g dim expected Hg G5 kms fchunks Hf Hgf fuel 0%nat false _ e _ s4 ltac:(lia) ltac:(lia) A4') as (s5 & tf & E5 & K5 & A5).
    rewrite <- (List.app_nil_r (List.concat items)) in A5.
    destruct (tail_items top scan_nat scan_int scan_R strtod show_nat show18 template_file evaluate f subs bases g dim expected Hg G5 (map snd (t_items T)) items Hitems' Hgi
      (fuel - List.length fchunks)%nat (0 + List.length kms)%nat false [] e _ s5 ltac:(lia) A5) as (s6 & ti & has & E6 & Hhas & K6 & A6).
    rewrite Hhas in E6 by (right; apply in_map_iff; exists (cE, TEnergy); split; [reflexivity | assumption]).
    destruct (tail_end top scan_nat scan_int scan_R strtod show_nat show18 template_file evaluate g dim expected (fuel - List.length fchunks - List.length items)%nat e _ s6 ltac:(lia) A6) as (s7 & E7 & O7).
    destruct (coefs_written scan_nat scan_int scan_R show_nat show16 read16 H16 Hn xi zeta nmax Hxi Hzeta) as (tz & Ez & Hz).
    set (out := (s_out s7 ++ tz)%string).
    set (C := data_content read18 read16 (q_symtype Q) nmax T bases (r / f)%R xi zeta).
    assert (Esubs : c_subspaces R R C = map (new_subspace read18 r) es).
    { unfold C, data_content. cbn [c_subspaces]. symmetry. apply (subspaces_same (t_scale T) subs bases es G2). exact K3. }
    (* the text *)
    assert (Hfile : file_text R R scan_nat scan_int scan_R scan_R dim C out).
    { destruct (spells_energies top scan_nat scan_int scan_R show_nat show18 read18 H18 Hn f subs bases g dim Hg G5) as (ws1 & T1 & S1). cbn [g_smallest g_list g] in T1.
      assert (W1 : ws1 <> []).
      { intros ->. destruct K3 as [|p b e0 ps bs es0 Hk Hr0]; [contradiction |]. cbn [map] in T1. inversion T1 as [|? ? u us Hu Hus Eu]; subst. destruct u; [| discriminate]. destruct Hu as (u1 & u2 & Eu2 & _ & _ & Hc).
        destruct Hc as (v & vs & -> & _). destruct u1; discriminate. }
      destruct fchunks as [|fc fcs]; [exfalso; cbn in Lf; rewrite Lk in Lf; unfold expected, ops_per_channel in Lf; destruct (in_dec _ _ _); [lia |]; destruct (in_dec _ _ _); lia |].
      inversion K5 as [|k m cs hh v1 v2 l kms' css t0 Hhh P1 P2 P3 P4 Ek Ec Et]. subst cs css.
      assert (K5' : f_written top scan_nat scan_int show_nat show18 subs bases kms ([] :: fcs) (block_text N show_nat show18 hh l ++ t0)%string).
      { rewrite <- Ek. apply (fw_cons top scan_nat scan_int show_nat show18 subs bases k m [] hh v1 v2 l kms' fcs t0); assumption. }
      destruct (spells_f top scan_nat scan_int scan_R show_nat show18 read18 H18 Hn f subs bases g dim Hg G5 kms ([] :: fcs) _ K5' Hgf) with (k0 := 0%nat) as (ws2 & T2 & S2).
      { intros cs [<- | Hin]; [reflexivity |]. apply no_comments. apply Hfc. exact Hin. }
      { apply map_fst_combine. }
      unfold kms in T2. rewrite map_combine_seq in T2.
      assert (W2 : ws2 <> []).
      { intros ->. destruct (t_f T) as [|m0 f0]; [unfold kms in Ek; discriminate |]. cbn [map] in T2. inversion T2 as [|? ? ? u us Hu Hus Eu]; subst. destruct u; [| discriminate]. destruct Hu as (? & ? & ? & Eu2 & _). discriminate. }
      set (tf' := (block_text N show_nat show18 hh l ++ t0)%string) in *.
      set (rest5 := (ti ++ notes_text (ending_noise e) ++ tz)%string).
      set (f2 := notes_text (noises fc)) in *.
      set (f1 := notes_text (noises (List.concat (first :: others)))) in *.
      assert (Eout : out = (notes_text nz0 ++ (head ++ (f1 ++ (energies ++ (f2 ++ (tf' ++ rest5))))))%string).
      { unfold out. rewrite O7. rewrite <- Et. unfold rest5. rewrite !app_ass. reflexivity. }
      rewrite Eout.
      assert (Shead : starts_with (fun c => c <> "#"%char /\ c <> newline) head).
      { unfold head, line. pose proof (Hn 1%nat) as (Q1 & Q2 & _). specialize (Hhash 1%nat). destruct (show_nat 1) as [|c u]; [contradiction |]. cbn in *. split; [exact Hhash |]. inversion Q2 as [|? ? Qc _]; subst. intros ->. discriminate. }
      apply (ft_all R R scan_nat scan_int scan_R scan_R dim C _ (head ++ f1 ++ energies ++ f2 ++ tf' ++ rest5)%string (show_nat 1) (show_nat nmax) (show_nat (List.length subs))
        (String newline (f1 ++ energies ++ f2 ++ tf' ++ rest5)) (String newline f1) (energies ++ f2 ++ tf' ++ rest5)%string ws1 (String newline (f2 ++ tf' ++ rest5)) (String newline f2) (tf' ++ rest5)%string ws2 (String newline rest5)).
      - cbn [C data_content c_header]. apply header_written; [assumption | assumption |]. now apply starts_app.
      - apply Hn.
      - apply Hn.
      - rewrite Esubs, map_length. rewrite <- (map_length e_qn es), B2, map_length. apply Hn.
      - assert (Lw : line_words [show_nat 1; show_nat nmax; show_nat (List.length subs)] (show_nat 1 ++ " " ++ show_nat nmax ++ " " ++ show_nat (List.length subs))%string).
        { constructor; try apply Hn; try discriminate; [repeat constructor |]. constructor; try apply Hn; try discriminate; [repeat constructor |]. constructor; apply Hn. }
        apply (joined_of _ head); [now apply spells_line | discriminate].
      - constructor; [cbn; tauto |]. apply notes_filler. exact N1.
      - reflexivity.
      - apply starts_app. unfold energies, energy_block. cbn [g_smallest g_list g]. destruct K3 as [|p b e0 ps bs es0 Hk Hr0]; [contradiction |]. cbn [map]. rewrite concat_cons. apply starts_app. unfold seed_text. apply starts_app. unfold line. apply starts_app.
        destruct Hk as (_ & _ & _ & _ & _ & _ & (_ & Hst) & _). destruct (e_line e0); cbn in *; tauto.
      - rewrite Esubs. exact T1.
      - apply joined_of; assumption.
      - constructor; [cbn; tauto |]. apply notes_filler. apply (noises_concat (fc :: fcs) N2). now left.
      - reflexivity.
      - apply starts_app. unfold tf', block_text. apply starts_app. apply starts_app. unfold line. apply starts_app. inversion Hhh; subst. cbn. split; [discriminate | reflexivity].
      - cbn [C data_content c_f]. rewrite <- (List.app_nil_r ws2). constructor; [exact T2 | constructor].
      - apply joined_of; assumption.
      - cbn [C data_content c_items].
        assert (Ei : flat_map (fun x => map (IComment R R) (fst x) ++ [new_item read18 subs bases (r / f)%R (snd x)]) (t_items T) =
          flat_map (fun p => map (IComment R R) (comments (snd p)) ++ [newer top read18 subs bases g (fst p)]) (combine (map snd (t_items T)) items)).
        { clear -Hitems. induction Hitems as [|x cs xs css [Hx _] H IH]; [reflexivity |]. cbn [map combine flat_map fst snd]. rewrite Hx, IH. reflexivity. }
        fold subs. rewrite Ei.
        apply (after_items top scan_nat scan_int scan_R show_nat show18 read18 H18 Hn f subs bases g dim Hg G5 (map snd (t_items T)) items ti _ _ K6) with (b := String newline "").
        + apply noises_concat. exact N3.
        + exact Hgi.
        + rewrite Hcom. apply after_notes; [exact Hnoise_e | exact Hz].
        + repeat constructor. }
    assert (Hcontent : good_content R R scan_int finite Q C).
    { split; [exact G1 |]. split; [reflexivity |]. split; [cbn; lia |]. split; [| split; [| split]].
      - rewrite Esubs, map_map. change (NoDup (map e_qn es)). rewrite B2. exact G4.
      - split; [reflexivity |]. intros l [<- | []]. split; [rewrite map_length; exact G7 |]. intros m Hin. apply in_map_iff in Hin as (m' & <- & Hin). rewrite Esubs. apply (good_new Q f subs bases g dim m' r Hg G5 G4). now apply G8.
      - intros x Hin. cbn [C data_content c_items] in Hin. apply in_app_or in Hin as [Hin | Hin]; [| apply in_app_or in Hin as [Hin | [<- | []]]].
        + apply in_flat_map in Hin as ([c y] & Hy & Hin). apply in_app_or in Hin as [Hin | [<- | []]]; [apply in_map_iff in Hin as (u & <- & _); exact Logic.I |]. cbn [snd]. destruct y as [|t n m]; cbn [new_item good_item]; [exact Logic.I |].
          rewrite Esubs. apply (good_new Q f subs bases g dim m r Hg G5 G4). now apply (G9 c t n m).
        + apply in_map_iff in Hin as (u & <- & _). exact Logic.I.
        + cbn [good_item]. split; [reflexivity |]. intros t [<- | [<- | []]]; unfold tables_expected; rewrite Hpol, Hp2; reflexivity.
      - unfold coefficient, last_of. cbn [C data_content c_items]. rewrite !fold_left_app. cbn [fold_left coef_item]. change (Ascii.eqb "z" "z") with true. cbn [nth_error].
        destruct (firstn (S nmax) xi) as [|a b] eqn:Ea; [exfalso; apply (f_equal (@List.length R)) in Ea; rewrite firstn_length_le in Ea by lia; discriminate |].
        exists (read16 a), (map read16 b). split; [reflexivity |]. apply (f_equal (@List.length R)) in Ea. rewrite firstn_length_le in Ea by lia. cbn in Ea. rewrite map_length. cbn. lia. }
    destruct (data_file_read R R scan_nat scan_int scan_R scan_R finite rescale Q C out Hcontent Hfile) as (d & Ed & Hstored).
    exists out, bases, (r / f)%R, d. split; [| repeat split; try assumption; apply Hlow || apply Hstored].
    unfold instantiate. cbn [List.length Nat.eqb my_assert bind]. rewrite Hpol. cbn [negb my_assert bind]. rewrite E1. cbn [bind Nat.eqb my_assert]. fold dim. fold subs. fold head.
    rewrite Es. cbn [bind]. fold energies. fold s4. fold fuel. rewrite perchannel_expected. fold expected. rewrite Nat.mul_1_l. rewrite E5, E6. rewrite Nat.add_0_l, Lk, E7. cbn [bind].
    unfold coefchannels. rewrite Hpol, Hp2. cbn [Nat.mul Nat.add]. rewrite Ez. cbn [bind]. fold out. rewrite Ed. reflexivity.
  Qed.
End Final.
