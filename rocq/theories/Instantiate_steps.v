(** The parts of a template are read as they should be. *)
From Coq Require Import List ZArith Reals Ascii String Bool Lia Lra Sorted.
From Verif Require Import Base Oprecalc_model Oprecalc_spec Oprecalc_words Datafile_model Datafile_spec Datafile_parse Datafile_read Instantiate_model Instantiate_spec Instantiate_lines Instantiate_mats.
Import ListNotations.
Local Open Scope string_scope.
Local Open Scope list_scope.

Lemma Forall2_length_ {A B} (P : A -> B -> Prop) l l' : Forall2 P l l' -> List.length l = List.length l'.
Proof. induction 1; cbn; congruence. Qed.
Arguments Forall2_length_ {A B P l l'}.
Section Steps.
  Variables (top : R) (scan_nat : string -> option (nat * string)) (scan_int : string -> option (Z * string)) (scan_R : string -> option (R * string))
    (strtod : string -> option R)
    (template_file : string -> res string) (evaluate : string -> res (nat * nat * rmatrix))
    (dsyev : list (list R) -> res (list R * list (list R))).
  Notation N := (real_num top).
  Notation seed := (@seed R).
  Notation elements := (list ((list Z * list Z) * rmatrix)).

  (** *** Words of a line *)
  Lemma read_size n z : shows scan_nat n z -> ~ starts_with (fun c => c = "+"%char \/ c = "-"%char) z -> parse_size scan_nat z = Ok n.
  Proof.
    intros Hs Hn. unfold parse_size. rewrite trim_word by apply Hs. destruct z as [|c z']; [destruct Hs; contradiction |].
    cbn in Hn. destruct (Ascii.eqb_spec c "-") as [-> | H1]; [exfalso; tauto |]. destruct (Ascii.eqb_spec c "+") as [-> | H2]; [exfalso; tauto |].
    cbn [orb]. rewrite (shows_alone scan_nat n (String c z') Hs). reflexivity.
  Qed.
  Lemma read_invar_line i ws q dim : List.length i = dim -> line_words ws q -> Forall2 (shows scan_int) i ws -> parse_invar scan_int dim q = Ok i.
  Proof.
    intros <- Hq Hs. unfold parse_invar. rewrite (proj1 (parses_vector scan_int i ws Hs) q "" (line_joined_all _ _ Hq)). reflexivity.
  Qed.
  Lemma read_invar_pair_line i j ws q dim : List.length i = dim -> List.length j = dim -> line_words ws q -> Forall2 (shows scan_int) (i ++ j) ws -> parse_invar_pair scan_int dim q = Ok (i, j).
  Proof.
    intros Hi Hj Hq Hs. unfold parse_invar_pair. apply Forall2_app_inv_l in Hs as (w1 & w2 & H1 & H2 & ->).
    apply line_joined_all in Hq. apply joined_app in Hq as (m & J1 & J2).
    pose proof (proj1 (parses_vector scan_int i w1 H1) q m J1) as E1. rewrite Hi in E1. rewrite E1. cbn [bind].
    pose proof (proj1 (parses_vector scan_int j w2 H2) m "" J2) as E2. rewrite Hj in E2. rewrite E2. reflexivity.
  Qed.

  Lemma two_words a c d : line_words [a; c] d -> exists b, d = (a ++ b ++ c)%string /\ a <> "" /\ all_chars (fun c => blank c = false) a /\ b <> "" /\ all_blank b /\
    c <> "" /\ all_chars (fun c => blank c = false) c.
  Proof.
    intros H. inversion H as [|w b ws' r Hw Bw Hb Bb Hr E1 E2]. inversion Hr as [w' Hw2 Bw2 |? ? ? ? ? ? ? ? Hr']; [| subst; inversion Hr']. subst. exists b. repeat split; assumption.
  Qed.
  (** *** Subspaces *)
  Variable f : R. (* the factor *)
  Definition seed_ok (p : list Z * rmatrix) (b : list R * rmatrix) (e : seed) : Prop :=
    e_qn e = fst p /\ e_dim e = List.length (snd p) /\ e_val e = map (fun x => x * f)%R (fst b) /\ e_vec e = snd b /\
    eigenbasis (snd p) (fst b) (snd b) /\ (exists ws, line_words ws (e_line e) /\ Forall2 (shows scan_int) (fst p) ws) /\ good_data (e_line e) /\ (forall x, In x (fst b) -> x * f < top)%R.
  Inductive seeds_ok : list (list Z * rmatrix) -> list (list R * rmatrix) -> list seed -> Prop :=
  | so_nil : seeds_ok [] [] []
  | so_cons p b e ps bs es : seed_ok p b e -> seeds_ok ps bs es -> seeds_ok (p :: ps) (b :: bs) (e :: es).
  Definition noises (cs : list chunk) : list noise := flat_map fst cs.
  Lemma notes_app a b : notes_text (a ++ b) = (notes_text a ++ notes_text b)%string.
  Proof. unfold notes_text. now rewrite map_app, concat_app. Qed.
  Lemma scale_after_app sc a b : scale_after top scan_R sc (a ++ b) = scale_after top scan_R (scale_after top scan_R sc a) b.
  Proof. unfold scale_after. apply fold_left_app. Qed.

  Definition solved (h : rmatrix) : Prop := exists val vec, dsyev h = Ok (val, vec) /\ eigenbasis h val vec /\ (forall x, In x val -> x * f < top)%R.
  Hypothesis Hf : (0 < f)%R.
  Lemma seed_step p cs rest e dim (first : bool) f0 (done : list seed) sc out s : part (subspace_lines scan_nat scan_int template_file evaluate p) cs ->
    List.length (fst p) = dim -> (1 <= List.length (snd p))%nat -> solved (snd p) -> ~ In (fst p) (map e_qn done) ->
    (if first then scale_after top scan_R sc (noises cs) = Some f else f0 = f) ->
    at_ (cs ++ rest) e sc out s ->
    exists (b : list R * rmatrix) (se : seed) s', read_seed N scan_nat scan_int scan_R template_file evaluate dsyev dim first f0 done s = Ok (se, f, s') /\ seed_ok p b se /\
      at_ rest e (scale_after top scan_R sc (noises cs)) (out ++ notes_text (noises cs))%string s'.
  Proof.
    intros Hp Hl H1 Hsym Hnew Hfac Hat. destruct Hp as (q & z & d & ws & file & text & Ep & Hq & Hqs & Hz & Hzs & Hdd & Htf & Hev).
    destruct cs as [|[n1 x1] [|[n2 x2] [|[n3 x3] [|? ?]]]]; cbn in Ep; try discriminate. injection Ep as -> -> ->. cbn [app] in Hat.
    destruct (next_chunk top scan_R _ _ _ _ _ _ _ Hat) as (s1 & E1 & Gq & A1). destruct (next_chunk top scan_R _ _ _ _ _ _ _ A1) as (s2 & E2 & _ & A2).
    destruct (next_chunk top scan_R _ _ _ _ _ _ _ A2) as (s3 & E3 & _ & A3).
    assert (Es : scale_after top scan_R sc (noises [(n1, q); (n2, z); (n3, d)]) = s_scale s3).
    { destruct A3 as (ls & le & _ & _ & _ & -> & _). unfold noises. cbn [flat_map fst]. now rewrite List.app_nil_r, !scale_after_app. }
    destruct Hsym as (val & vec & Ed & Heig & Htop).
    exists (val, vec), (Seed q (fst p) (List.length (snd p)) (map (fun x => x * f)%R val) vec), s3. split; [| split].
    - unfold read_seed. rewrite E1, E2, E3.
      assert (Ef : (if first then factor N s3 else Ok f0) = Ok f).
      { destruct first; [| now rewrite Hfac]. unfold factor. rewrite <- Es, Hfac. cbn. destruct (Rlt_dec 0 f); [reflexivity | contradiction]. }
      rewrite Ef. cbn [bind]. rewrite (read_invar_line (fst p) ws q dim) by assumption. cbn [bind]. rewrite (read_size _ z Hz Hzs). cbn [bind].
      replace (Nat.eqb (List.length (snd p)) 0) with false by (symmetry; apply Nat.eqb_neq; lia). cbn [my_assert negb bind].
      destruct (two_words _ _ _ Hdd) as (b & -> & Hw & Bw & Hb & Bb & Hw2 & Bw2).
      change ("DIAG" ++ b ++ file)%string with ("" ++ "DIAG" ++ (b ++ file))%string.
      rewrite (next_word_app "" "DIAG"); [| constructor | assumption | assumption | now apply blank_starts].
      rewrite <- (app_nil_r file) at 1. rewrite (next_word_app b file "") by (try assumption; now left).
      change (String.eqb "DIAG" "DIAG") with true. destruct (String.eqb_spec file "") as [-> | _]; [contradiction |]. cbn [negb andb my_assert bind].
      unfold evaluate_file. rewrite Htf. cbn [bind]. rewrite Hev. cbn [bind]. rewrite Nat.eqb_refl. cbn [andb bind]. rewrite Ed. cbn [bind].
      replace (existsb (fun e0 => invar_eqb (e_qn e0) (fst p)) done) with false; [reflexivity |].
      symmetry. apply not_true_is_false. intros H. apply existsb_exists in H as (x & Hx & E). apply Hnew. unfold invar_eqb in E.
      destruct (list_eq_dec Z.eq_dec (e_qn x) (fst p)) as [<- |]; [now apply in_map | discriminate].
    - do 4 (split; [reflexivity |]). split; [exact Heig |]. split; [now exists ws |]. split; [exact Gq | exact Htop].
    - rewrite Es. unfold noises. cbn [flat_map fst]. rewrite List.app_nil_r, !notes_app.
      rewrite <- !app_ass. destruct A3 as (ls & le & B1 & B2 & B3 & B4 & B5). exists ls, le. repeat split; assumption.
  Qed.
  Definition lower (m : R) (e : seed) : R := match e_val e with [] => m | v :: _ => smaller N m v end.
  Lemma seeds_step dim ps css : Forall2 (fun p => part (subspace_lines scan_nat scan_int template_file evaluate p)) ps css ->
    (forall i h, In (i, h) ps -> List.length i = dim /\ (1 <= List.length h)%nat /\ solved h) ->
    forall rest e (done : list seed) smallest (first : bool) f0 sc out s, NoDup (map e_qn done ++ map fst ps) ->
    (if first then ps <> [] /\ scale_after top scan_R sc (noises (hd [] css)) = Some f else f0 = f) ->
    at_ (List.concat css ++ rest) e sc out s ->
    exists bs es s' sc', read_seeds N scan_nat scan_int scan_R template_file evaluate dsyev dim (List.length ps) first f0 smallest done s =
        Ok ((f, fold_left lower es smallest, done ++ es), s') /\ seeds_ok ps bs es /\ at_ rest e sc' (out ++ notes_text (noises (List.concat css)))%string s'.
  Proof.
    induction 1 as [|p cs ps css Hp H IH]; intros Hgood rest e done smallest first f0 sc out s Hnd Hfac Hat.
    - cbn in Hat. exists [], [], s, sc. cbn. rewrite List.app_nil_r, app_nil_r. destruct first; [destruct Hfac; contradiction |]. subst f0.
      split; [reflexivity |]. split; [constructor | assumption].
    - cbn [List.concat] in Hat. rewrite <- app_assoc in Hat. destruct p as [i h]. destruct (Hgood i h (or_introl eq_refl)) as (G1 & G2 & G3).
      destruct (seed_step (i, h) cs (List.concat css ++ rest) e dim first f0 done sc out s) as (b & se & s1 & E1 & K1 & A1); try assumption.
      + cbn in Hnd. cbn. intros Hin. apply NoDup_remove_2 in Hnd. apply Hnd. apply in_or_app. now left.
      + destruct first; [apply Hfac | assumption].
      + destruct (IH (fun i' h' Hin => Hgood i' h' (or_intror Hin)) rest e (done ++ [se]) (lower smallest se) false f (scale_after top scan_R sc (noises cs)) (out ++ notes_text (noises cs))%string s1)
          as (bs & es & s2 & sc2 & E2 & K2 & A2).
        * rewrite map_app. cbn. destruct K1 as (-> & _). cbn. rewrite <- app_assoc. exact Hnd.
        * reflexivity.
        * exact A1.
        * exists (b :: bs), (se :: es), s2, sc2. split; [| split].
          -- cbn [List.length read_seeds]. rewrite E1. cbn [bind]. fold (lower smallest se). rewrite E2. cbn [fold_left]. now rewrite <- app_assoc.
          -- now constructor.
          -- cbn [List.concat]. unfold noises in *. rewrite flat_map_app, notes_app, <- app_ass. exact A2.
  Qed.

  (** *** Operators *)
  Variables (subs : list (list Z * rmatrix)) (bases : list (list R * rmatrix)) (g : @seeds R) (dim : nat).
  Hypothesis Hg : seeds_ok subs bases (g_list g).
  Hypothesis Hsub : forall i h, In (i, h) subs -> List.length i = dim /\ (1 <= List.length h)%nat /\ symmetric h.
  Lemma found_in i sl bl el : seeds_ok sl bl el -> (forall j h, In (j, h) sl -> (1 <= List.length h)%nat) -> In i (map fst sl) ->
    exists e, find (fun e => invar_eqb (e_qn e) i) el = Some e /\ e_dim e = dim_of sl i /\ e_vec e = basis_of sl bl i /\
    shape (dim_of sl i) (dim_of sl i) (basis_of sl bl i) /\ (1 <= dim_of sl i)%nat.
  Proof.
    unfold dim_of, basis_of. induction 1 as [|p b e ps bs es Hk Hr IH]; intros Hl Hin; [destruct Hin |].
    destruct Hk as (Eq & Ed & _ & Ev & Heig & _). cbn [find combine fst]. rewrite Eq. destruct (invar_eqb (fst p) i) eqn:E.
    - exists e. cbn [snd]. destruct Heig as (_ & Hshape & _). destruct p as [j h]. repeat split; try assumption; try apply Hshape. apply (Hl j h). now left.
    - apply IH; [intros j h Hj; apply (Hl j h); now right |]. destruct Hin as [Hin | Hin]; [| exact Hin].
      exfalso. rewrite (proj2 (invar_eqb_iff _ _) Hin) in E. discriminate.
  Qed.
  Lemma found i : In i (map fst subs) -> exists e, find_seed g i = Some e /\ e_dim e = dim_of subs i /\ e_vec e = basis_of subs bases i /\
    shape (dim_of subs i) (dim_of subs i) (basis_of subs bases i) /\ (1 <= dim_of subs i)%nat.
  Proof. apply (found_in i subs bases (g_list g) Hg). intros j h Hj. apply (Hsub j h Hj). Qed.

  Definition at0 (cs : list chunk) (e : ending) (out : string) (s : @st R) : Prop := exists sc, at_ cs e sc out s.
  Lemma need0 nz d cs e out s : at0 ((nz, d) :: cs) e out s -> exists s', need_line N scan_R s = Ok (d, s') /\ good_data d /\ at0 cs e (out ++ notes_text nz)%string s'.
  Proof. intros (sc & H). destruct (need_chunk top scan_R _ _ _ _ _ _ _ H) as (s' & E & G & A). exists s'. split; [assumption |]. split; [assumption |]. eexists. exact A. Qed.
  Lemma next0 nz d cs e out s : at0 ((nz, d) :: cs) e out s -> exists s', next_data_line N scan_R s = (Some d, s') /\ good_data d /\ at0 cs e (out ++ notes_text nz)%string s'.
  Proof. intros (sc & H). destruct (next_chunk top scan_R _ _ _ _ _ _ _ H) as (s' & E & G & A). exists s'. split; [assumption |]. split; [assumption |]. eexists. exact A. Qed.
  Lemma write0 cs e out t s : at0 cs e out s -> at0 cs e (out ++ t)%string (write t s).
  Proof. intros (sc & H). exists sc. now apply write_at. Qed.
  Lemma noises_cons nz d cs : noises ((nz, d) :: cs) = nz ++ noises cs.
  Proof. reflexivity. Qed.
  Lemma at0_eq cs e o o' s : at0 cs e o s -> o = o' -> at0 cs e o' s.
  Proof. now intros H <-. Qed.

  Lemma more_step cs rest e out s : at0 (cs ++ rest) e out s -> exists s', more_lines N scan_R (List.length cs) s = Ok (map snd cs, s') /\ at0 rest e (out ++ notes_text (noises cs))%string s'.
  Proof.
    revert out s. induction cs as [|[nz d] cs IH]; intros out s H.
    - exists s. split; [reflexivity |]. cbn. now rewrite app_nil_r.
    - cbn [app] in H. destruct (need0 _ _ _ _ _ _ H) as (s1 & E1 & _ & A1). destruct (IH _ _ A1) as (s2 & E2 & A2). exists s2. split.
      + cbn [List.length more_lines]. rewrite E1. cbn [bind]. rewrite E2. reflexivity.
      + apply (at0_eq _ _ _ _ _ A2). now rewrite noises_cons, notes_app, app_ass.
  Qed.
  Lemma parse_row_ok cols row d : List.length row = cols -> (exists ws, line_words ws d /\ Forall2 (fun x w => strtod w = Some x) row ws) -> parse_row strtod cols d = Ok row.
  Proof.
    intros Hl (ws & Hw & Hs). unfold parse_row. rewrite (line_words_of ws d Hw). rewrite <- (Forall2_length_ Hs), Hl, Nat.eqb_refl.
    clear -Hs. induction Hs as [|x w row ws H Hs IH]; cbn; [reflexivity |]. rewrite H. cbn. now rewrite IH.
  Qed.
  Lemma not_o l rows cols s : ~ starts_with (fun c => c = "o"%char) l -> read_operator_matrix N scan_R strtod template_file evaluate l rows cols s =
    (let* (ls, s1) := more_lines N scan_R (rows - 1) s in let* x := mapM (parse_row strtod cols) (l :: ls) in Ok (x, s1)).
  Proof.
    intros H. destruct l as [|c l]; [reflexivity |]. destruct c as [[|] [|] [|] [|] [|] [|] [|] [|]]; try reflexivity. exfalso. now apply H.
  Qed.
  Lemma matrix_step rows cols m nz d cs rest e out s : matrix_lines strtod template_file evaluate rows cols m (map snd ((nz, d) :: cs)) -> shape rows cols m ->
    at0 (((nz, d) :: cs) ++ rest) e out s ->
    exists s1 s2, need_line N scan_R s = Ok (d, s1) /\ read_operator_matrix N scan_R strtod template_file evaluate d rows cols s1 = Ok (m, s2) /\
      at0 rest e (out ++ notes_text (noises ((nz, d) :: cs)))%string s2.
  Proof.
    intros Hm Hshape Hat. cbn [app] in Hat. destruct (need0 _ _ _ _ _ _ Hat) as (s1 & E1 & Gd & A1). destruct Hm as [(name & text & E & Ho & Htf & Hev) | (Ho & Hr)].
    - cbn in E. injection E as <- E. destruct cs; [| discriminate]. exists s1, s1. split; [assumption |]. split.
      + unfold read_operator_matrix. destruct d as [|c d]; cbn in Ho; [destruct Ho |]. subst c. unfold evaluate_file. rewrite Htf. cbn [bind]. rewrite Hev. cbn [bind]. rewrite !Nat.eqb_refl. reflexivity.
      + apply (at0_eq _ _ _ _ _ A1). now rewrite noises_cons, List.app_nil_r.
    - cbn [map snd hd] in Ho, Hr. destruct (more_step cs rest e _ s1 A1) as (s2 & E2 & A2). exists s1, s2. split; [assumption |]. split.
      + rewrite not_o by assumption. replace (rows - 1)%nat with (List.length cs).
        2:{ destruct Hshape as [<- _]. rewrite (Forall2_length_ Hr). cbn. rewrite map_length. lia. }
        rewrite E2. cbn [bind]. assert (Em : mapM (parse_row strtod cols) (d :: map snd cs) = Ok m).
        { destruct Hshape as [_ Hrow]. clear -Hr Hrow. induction Hr as [|row x m ds Hx Hr IH]; [reflexivity |]. cbn [mapM]. rewrite (parse_row_ok cols row x); [| apply Hrow; now left | assumption].
          cbn [bind]. rewrite IH; [reflexivity |]. intros r Hin. apply Hrow. now right. }
        rewrite Em. reflexivity.
      + apply (at0_eq _ _ _ _ _ A2). now rewrite noises_cons, notes_app, app_ass.
  Qed.
  Definition element_ok (p : (list Z * list Z) * rmatrix) (x : string * rmatrix) : Prop :=
    (exists ws, line_words ws (fst x) /\ Forall2 (shows scan_int) (fst (fst p) ++ snd (fst p)) ws) /\
    snd x = in_basis (basis_of subs bases (fst (fst p))) (snd p) (basis_of subs bases (snd (fst p))).
  Lemma element_step p cs rest e out s : part (element_lines scan_int strtod template_file evaluate subs p) cs ->
    List.length (fst (fst p)) = dim -> List.length (snd (fst p)) = dim -> In (fst (fst p)) (map fst subs) -> In (snd (fst p)) (map fst subs) ->
    shape (dim_of subs (fst (fst p))) (dim_of subs (snd (fst p))) (snd p) ->
    at0 (cs ++ rest) e out s ->
    exists x s', read_element_block N scan_int scan_R strtod template_file evaluate dim g s = Ok (x, s') /\ element_ok p x /\ at0 rest e (out ++ notes_text (noises cs))%string s'.
  Proof.
    destruct p as [[i j] m]. cbn [fst snd]. intros (q & ds & ws & E & Hq & Hs & Hm) Li Lj Hi Hj Hshape Hat. destruct cs as [|[nz q'] cs]; [discriminate |]. cbn in E. injection E as -> <-.
    cbn [app] in Hat. destruct (need0 _ _ _ _ _ _ Hat) as (s1 & E1 & _ & A1). cbn [fst snd] in Hm, Hs.
    destruct (found i Hi) as (e1 & F1 & D1 & V1 & S1 & P1). destruct (found j Hj) as (e2 & F2 & D2 & V2 & S2 & P2).
    destruct cs as [|[nz2 d2] cs].
    { exfalso. destruct Hm as [(name & text & E & _) | (_ & H)]; [discriminate |]. inversion H; subst. destruct Hshape as [Hl _]. cbn in Hl. lia. }
    destruct (matrix_step _ _ m nz2 d2 cs rest e _ s1 Hm Hshape A1) as (s2 & s3 & E2 & E3 & A3).
    exists (q, in_basis (basis_of subs bases i) m (basis_of subs bases j)), s3. split; [| split].
    - unfold read_element_block. rewrite E1. cbn [bind]. rewrite (read_invar_pair_line i j ws q dim) by assumption. cbn [bind]. rewrite F1, F2, E2. cbn [bind]. rewrite D1, D2, E3. cbn [bind]. rewrite V1, V2.
      do 3 f_equal. destruct S1 as [L1 R1], S2 as [L2 R2]. rewrite <- L2 at 1 2 3. apply product_in_basis; rewrite ?L1, ?L2; [split; assumption | exact Hshape | split; assumption].
    - split; [| reflexivity]. now exists ws.
    - apply (at0_eq _ _ _ _ _ A3). rewrite (noises_cons nz q). now rewrite notes_app, app_ass.
  Qed.
  Lemma elements_step m ds css : Forall2 (fun p => part (element_lines scan_int strtod template_file evaluate subs p)) m css -> ds = css ->
    good_telements dim subs m -> forall rest e out s, at0 (List.concat css ++ rest) e out s ->
    exists l s', read_elements_n N scan_int scan_R strtod template_file evaluate (List.length m) dim g s = Ok (l, s') /\ Forall2 element_ok m l /\
      at0 rest e (out ++ notes_text (noises (List.concat css)))%string s'.
  Proof.
    intros H _ [_ Hgood]. induction H as [|p cs m css Hp H IH]; intros rest e out s Hat.
    - exists [], s. cbn. rewrite app_nil_r. repeat split; [constructor | assumption].
    - cbn [List.concat] in Hat. rewrite <- app_assoc in Hat. destruct p as [[i j] x0]. destruct (Hgood i j x0 (or_introl eq_refl)) as (L1 & L2 & I1 & I2 & Hsh).
      destruct (element_step ((i, j), x0) cs _ e out s Hp L1 L2 I1 I2 Hsh Hat) as (x & s1 & E1 & K1 & A1).
      destruct (IH (fun i' j' x' Hin => Hgood i' j' x' (or_intror Hin)) rest e _ s1 A1) as (l & s2 & E2 & K2 & A2).
      exists (x :: l), s2. split; [| split].
      + cbn [List.length read_elements_n]. rewrite E1. cbn [bind]. rewrite E2. reflexivity.
      + now constructor.
      + apply (at0_eq _ _ _ _ _ A2). unfold noises. cbn [List.concat]. now rewrite flat_map_app, notes_app, app_ass.
  Qed.
  (** Chunks follow the parts of their lines. *)
  Lemma chunks_parts {A} (tok : A -> list string -> Prop) l cs : tok_list tok l (map snd cs) -> exists css : list (list chunk), Forall2 (fun x => part (tok x)) l css /\ cs = List.concat css.
  Proof.
    revert cs. induction l as [|x l IH]; intros cs H; inversion H as [E | x' l' w ws Hx Hr E1 E2]; subst.
    - destruct cs; [| discriminate]. exists []. split; [constructor | reflexivity].
    - symmetry in E2. apply map_eq_app in E2 as (c1 & c2 & -> & <- & <-). destruct (IH c2 Hr) as (css & Hc & ->). exists (c1 :: css). split; [now constructor | reflexivity].
  Qed.
  Lemma block_step m cs rest e out s : part (block_lines scan_nat scan_int strtod template_file evaluate subs m) cs -> good_telements dim subs m ->
    at0 (cs ++ rest) e out s ->
    exists l s', read_matrix_block N scan_nat scan_int scan_R strtod template_file evaluate dim g s = Ok (l, s') /\ Forall2 element_ok m l /\
      at0 rest e (out ++ notes_text (noises cs))%string s'.
  Proof.
    intros (z & ds & E & Hz & Hn & Ht) Hgood Hat. destruct cs as [|[nz d] cs]; [discriminate |]. cbn in E. injection E as -> <-.
    cbn [app] in Hat. destruct (need0 _ _ _ _ _ _ Hat) as (s1 & E1 & _ & A1). destruct (chunks_parts _ _ _ Ht) as (css & Hc & ->).
    destruct (elements_step m css css Hc eq_refl Hgood rest e _ s1 A1) as (l & s2 & E2 & K2 & A2).
    exists l, s2. split; [| split; [assumption |]].
    - unfold read_matrix_block. rewrite E1. cbn [bind]. rewrite (read_size _ z Hz Hn). cbn [bind]. exact E2.
    - apply (at0_eq _ _ _ _ _ A2). now rewrite noises_cons, notes_app, app_ass.
  Qed.
End Steps.
