(** The whole data file is read as written. *)
From Coq Require Import List ZArith Ascii String Bool Lia.
From Verif Require Import Base Oprecalc_model Oprecalc_spec Oprecalc_words Datafile_model Datafile_spec Datafile_parse.
Import ListNotations.
Local Open Scope string_scope.
Local Open Scope list_scope.

(** Lengths *)
Lemma length_app a b : String.length (a ++ b)%string = (String.length a + String.length b)%nat.
Proof. induction a as [|c a IH]; cbn; [reflexivity | now rewrite IH]. Qed.
Lemma joined_length ws s rest : joined ws s rest -> (String.length rest <= String.length s)%nat.
Proof. induction 1; [lia |]. rewrite !length_app. lia. Qed.

(** Symmetry type in a comment *)
Lemma begins_app p s : begins p s = true <-> exists b, s = (p ++ b)%string.
Proof.
  revert s. induction p as [|c p IH]; intros s; cbn [begins].
  - split; [intros _; now exists s | reflexivity].
  - destruct s as [|d s]; [split; [discriminate | intros (b & E); discriminate] |]. rewrite andb_true_iff, Ascii.eqb_eq, IH. split.
    + intros (-> & b & ->). now exists b.
    + intros (b & E). cbn in E. injection E as -> ->. split; [reflexivity | now exists b].
Qed.
Lemma occurs_iff p s : occurs p s = true <-> exists a b, s = (a ++ p ++ b)%string.
Proof.
  induction s as [|c s IH]; cbn [occurs]; rewrite orb_true_iff, begins_app.
  - split.
    + intros [(b & ->) | E]; [now exists "", b | discriminate].
    + intros (a & b & E). symmetry in E. apply app_nil_inv in E as [_ E]. apply app_nil_inv in E as [-> _]. left. now exists "".
  - rewrite IH. split.
    + intros [(b & E) | (a & b & ->)]; [now exists "", b | now exists (String c a), b].
    + intros (a & b & E). destruct a as [|d a]; cbn in E; [left; now exists b |]. injection E as -> ->. right. now exists a, b.
Qed.
Lemma contains_iff t : match t with "" => false | String _ l => occurs "symtype" l end = true <-> contains_symtype t.
Proof.
  unfold contains_symtype. destruct t as [|c t].
  - split; [discriminate |]. intros (a & b & Ha & E). destruct a; [contradiction | discriminate].
  - rewrite occurs_iff. split.
    + intros (a & b & ->). now exists (String c a), b.
    + intros (a & b & Ha & E). destruct a as [|d a]; [contradiction |]. cbn in E. injection E as -> ->. now exists a, b.
Qed.
Lemma no_sep_has s : all_chars (fun c => c <> " "%char /\ c <> tab) s -> has_sep s = false.
Proof. induction 1 as [|c s [H1 H2] Hs IH]; cbn; [reflexivity |]. apply Ascii.eqb_neq in H1, H2. now rewrite H1, H2, IH. Qed.
Lemma has_sep_app a c s : c = " "%char \/ c = tab -> has_sep (a ++ String c s)%string = true.
Proof.
  intros Hc. induction a as [|d a IH]; cbn.
  - destruct Hc as [-> | ->]; reflexivity.
  - rewrite IH. now rewrite !orb_true_r.
Qed.
Lemma after_last_app a c s : c = " "%char \/ c = tab -> all_chars (fun d => d <> " "%char /\ d <> tab) s -> after_last (a ++ String c s)%string = s.
Proof.
  intros Hc Hs. induction a as [|d a IH]; cbn.
  - rewrite (no_sep_has s Hs). destruct Hc as [-> | ->]; reflexivity.
  - now rewrite has_sep_app.
Qed.
Lemma symtype_named t sym old : names_symtype t sym -> symtype_of_line t old = sym.
Proof.
  intros (Hc & Hn & Hs & a & c & -> & Hsep). apply contains_iff in Hc. unfold symtype_of_line. rewrite Hc, has_sep_app, after_last_app by assumption.
  destruct (String.eqb_spec sym ""); [contradiction | reflexivity].
Qed.
Lemma symtype_other t old : ~ contains_symtype t -> symtype_of_line t old = old.
Proof. intros H. unfold symtype_of_line. destruct (match t with "" => false | String _ l => occurs "symtype" l end) eqn:E; [apply contains_iff in E; contradiction | reflexivity]. Qed.

Section Header.
  Variable scan_int : string -> option (Z * string).
  Definition hstep (x : string * option Z) (h : hline) : string * option Z :=
    match h with
    | HText t => (symtype_of_line t (fst x), snd x)
    | HVersion w => (fst x, match scan_int w with Some (v, _) => Some v | None => snd x end)
    end.
  Lemma shows_alone {A} (scan : string -> option (A * string)) v w : shows scan v w -> scan w = Some (v, "").
  Proof. intros (_ & _ & H & _). specialize (H "" (or_introl eq_refl)). now rewrite app_nil_r in H. Qed.
  Lemma ignore_header l s rest : header_text l s rest -> ignore_newline s = s.
  Proof.
    intros H. destruct H as [s H | t l s rest _ _ _ | w l s rest _]; cbn; try reflexivity.
    destruct s as [|c s]; cbn in *; [reflexivity |]. destruct H as [_ H]. apply Ascii.eqb_neq in H. now rewrite H.
  Qed.
  Lemma header_lines l s rest : header_text l s rest -> (forall w, In (HVersion w) l -> exists v, shows scan_int v w) ->
    forall fuel sym ver, (List.length l <= fuel)%nat ->
    read_header_lines scan_int fuel sym ver s = Ok (fst (fold_left hstep l (sym, ver)), snd (fold_left hstep l (sym, ver)), rest).
  Proof.
    induction 1 as [s Hs | t l s rest Ht Hb Hl IH | w l s rest Hl IH]; intros Hv fuel sym ver Hf.
    - destruct s as [|c s]; [destruct Hs |]. destruct Hs as [Hs _]. cbn [fold_left fst snd].
      destruct fuel; cbn; destruct c as [[] [] [] [] [] [] [] []]; try reflexivity; now contradiction Hs.
    - cbn [List.length] in Hf. destruct fuel as [|fuel]; [lia |]. cbn [fold_left hstep fst snd].
      rewrite <- (IH (fun w Hw => Hv w (or_intror Hw)) fuel) by lia.
      assert (E : forall x, (t ++ String newline s)%string = String "!" x -> False).
      { intros x E. destruct t as [|c t]; cbn in E; [discriminate |]. injection E as -> _. now apply Hb. }
      cbn [read_header_lines].
      transitivity (let (line, r) := getline (t ++ String newline s) in read_header_lines scan_int fuel (symtype_of_line line sym) ver (ignore_newline (rest_of r))).
      + destruct (t ++ String newline s)%string as [|c x]; [reflexivity |]. destruct c as [[] [] [] [] [] [] [] []]; try reflexivity. now contradiction (E x).
      + rewrite getline_line by assumption. cbn [rest_of]. now rewrite (ignore_header _ _ _ Hl).
    - cbn [List.length] in Hf. destruct fuel as [|fuel]; [lia |]. destruct (Hv w (or_introl eq_refl)) as (v & Sv). cbn [fold_left hstep fst snd].
      rewrite (shows_alone _ _ _ Sv). rewrite <- (IH (fun w Hw => Hv w (or_intror Hw)) fuel) by lia. cbn [read_header_lines].
      destruct Sv as (W1 & W2 & W3 & _). unfold read_one. rewrite skip_black by assumption. rewrite W3; [reflexivity |]. right. now exists newline, s.
  Qed.
  Lemma fold_sym_other l sym ver : (forall t, In (HText t) l -> ~ contains_symtype t) -> fst (fold_left hstep l (sym, ver)) = sym.
  Proof.
    revert sym ver. induction l as [|[t | w] l IH]; intros sym ver H; cbn [fold_left hstep fst snd]; [reflexivity | |].
    - rewrite IH by (intros t' Ht'; apply H; now right). apply symtype_other, H. now left.
    - apply IH. intros t' Ht'. apply H. now right.
  Qed.
  Lemma fold_ver_other l sym ver : (forall w, ~ In (HVersion w) l) -> snd (fold_left hstep l (sym, ver)) = ver.
  Proof.
    revert sym ver. induction l as [|[t | w] l IH]; intros sym ver H; cbn [fold_left hstep fst snd]; [reflexivity | |].
    - apply IH. intros w' Hw'. apply (H w'). now right.
    - exfalso. apply (H w). now left.
  Qed.
  Lemma good_fold l sym : good_header scan_int l sym -> fold_left hstep l ("", None) = (sym, Some 9%Z).
  Proof.
    intros ((l1 & t & l2 & E & Hn & Ho) & (k1 & w & k2 & E' & Sw & Hw) & _).
    rewrite (surjective_pairing (fold_left hstep l ("", None))). f_equal.
    - rewrite E, fold_left_app. cbn [fold_left]. destruct (fold_left hstep l1 ("", None)) as (x, y). cbn [hstep fst snd]. rewrite fold_sym_other by assumption. now apply symtype_named.
    - rewrite E', fold_left_app. cbn [fold_left]. destruct (fold_left hstep k1 ("", None)) as (x, y). cbn [hstep fst snd]. rewrite fold_ver_other by assumption.
      now rewrite (shows_alone _ _ _ Sw).
  Qed.
  Lemma header_length l s rest : header_text l s rest -> (List.length l <= String.length s)%nat.
  Proof. induction 1; cbn [List.length String.length]; rewrite ?length_app; cbn [String.length]; lia. Qed.
End Header.

Section Read.
  Variables (R V : Type) (scan_nat : string -> option (nat * string)) (scan_int : string -> option (Z * string))
    (scan_R : string -> option (R * string)) (scan_V : string -> option (V * string)) (finite : V -> bool) (rescale : R -> R).
  Notation elements := (list ((list Z * list Z) * list (list V))).
  Variable Q : dparams.
  Variable sub : list (list Z * list R).
  Hypothesis Hsub : NoDup (map fst sub).
  Hypothesis Hdim : forall i e, In (i, e) sub -> List.length i = q_invdim Q.
  Variable nc : nat.
  Notation diag := (map (final R rescale Q) sub).

  Definition nth_tab (tabs : list (list (list V))) (k : nat) : list (list V) := nth k tabs [].
  Definition apply_item (b : blocks R V) (x : item R V) : blocks R V :=
    match x with
    | IComment _ _ _ => b
    | IEnergy _ _ _ v => with_gs R V b v
    | IOp _ _ t n m => with_ops R V b (set_op V t n m (b_ops R V b))
    | ICoef _ _ c _ tabs =>
        if Ascii.eqb c "z" then with_z R V b (nth_tab tabs 0) (nth_tab tabs 1)
        else if Ascii.eqb c "Z" then with_Z R V b (nth_tab tabs 0) (nth_tab tabs 1)
        else if Ascii.eqb c "X" then with_X R V b (nth_tab tabs 0) (nth_tab tabs 1)
        else with_T R V b (nth_tab tabs 0) (nth_tab tabs 1) (nth_tab tabs 2) (nth_tab tabs 3)
    end.
  Definition fine (x : item R V) : Prop :=
    match x with
    | IComment _ _ _ | IEnergy _ _ _ _ => True
    | IOp _ _ _ _ m => good_elements R V finite sub m
    | ICoef _ _ letter _ tabs => List.length tabs = (if Ascii.eqb letter "T" then 4 else 2)%nat /\ forall t, In t tabs -> List.length t = nc
    end.
  Notation blocks_at := (read_blocks R V scan_nat scan_int scan_R scan_V finite).
  Notation text := (item_text R V scan_nat scan_int scan_R scan_V).

  Lemma blocks_enter fuel b bl c n s : all_blank bl -> blank c = false -> one_line n ->
    blocks_at (S fuel) Q diag nc b (bl ++ String c (n ++ String newline s))%string =
    (let continue := blocks_at fuel Q diag nc in
     if Ascii.eqb c "#" then continue b s
     else if Ascii.eqb c "e" then let* (x, s2) := read_one scan_R s in continue (with_gs R V b x) s2
     else match op_letter c with
          | Some t => let* (m, s2) := read_elements R V scan_nat scan_int scan_V finite Q diag s in continue (with_ops R V b (set_op V t n m (b_ops R V b))) s2
          | None =>
              if Ascii.eqb c "z" then let* (x, s2) := read_tables V scan_nat scan_V nc s in let* (y, s3) := read_tables V scan_nat scan_V nc s2 in continue (with_z R V b x y) s3
              else if Ascii.eqb c "Z" then let* (x, s2) := read_tables V scan_nat scan_V nc s in let* (y, s3) := read_tables V scan_nat scan_V nc s2 in continue (with_Z R V b x y) s3
              else if Ascii.eqb c "X" then let* (x, s2) := read_tables V scan_nat scan_V nc s in let* (y, s3) := read_tables V scan_nat scan_V nc s2 in continue (with_X R V b x y) s3
              else if Ascii.eqb c "T" then
                let* (x, s2) := read_tables V scan_nat scan_V nc s in let* (y, s3) := read_tables V scan_nat scan_V nc s2 in
                let* (z, s4) := read_tables V scan_nat scan_V nc s3 in let* (w, s5) := read_tables V scan_nat scan_V nc s4 in continue (with_T R V b x y z w) s5
              else Throw
          end).
  Proof.
    intros Hb Hc Hn. cbn [read_blocks]. rewrite skip_blank by assumption. cbn [skip_ws]. rewrite Hc. rewrite getline_line by assumption. reflexivity.
  Qed.

  Lemma blocks_item x s rest fuel b : text x s rest -> fine x -> blocks_at (S fuel) Q diag nc b s = blocks_at fuel Q diag nc (apply_item b x) rest.
  Proof.
    intros H Hx. destruct H as [bl t rest Hb Ht | bl t v w s rest Hb Ht Hv Hj | bl t n m ws s rest Hb Hn Hm Hj | bl c t tabs ws s rest Hb Ht Hc Htab Hj].
    - rewrite blocks_enter by (assumption || reflexivity). reflexivity.
    - rewrite blocks_enter by (assumption || reflexivity). cbn [Ascii.eqb Bool.eqb]. rewrite (proj1 (parses_one _ _ _ Hv) _ _ Hj). reflexivity.
    - assert (B : blank (letter_of t) = false) by (destruct t; reflexivity). rewrite blocks_enter by assumption.
      pose proof (proj1 (parses_elements R V scan_nat scan_int scan_V finite rescale Q sub Hsub Hdim m ws Hx Hm) _ _ Hj) as E.
      destruct t; cbn [letter_of Ascii.eqb Bool.eqb op_letter]; rewrite E; reflexivity.
    - assert (B : blank c = false) by (cbn in Hc; destruct Hc as [<- | [<- | [<- | [<- | []]]]]; reflexivity).
      rewrite blocks_enter by assumption. destruct Hx as [L T].
      assert (P2 : List.length tabs = 2%nat -> exists x y s2, tabs = [x; y] /\ read_tables V scan_nat scan_V nc s = Ok (x, s2) /\ read_tables V scan_nat scan_V nc s2 = Ok (y, rest)).
      { intros L2. destruct tabs as [|x [|y [|? ?]]]; try discriminate. inversion Htab as [|? ? w1 ws1 X1 X2]; subst. inversion X2 as [|? ? w2 ws2 Y1 Y2]; subst. inversion Y2; subst.
        apply joined_app in Hj as (m1 & J1 & J2). rewrite List.app_nil_r in J2. exists x, y, m1. split; [reflexivity |]. split.
        - apply (parses_tables V scan_nat scan_V nc x w1); [apply T; now left | exact X1 | exact J1].
        - apply (parses_tables V scan_nat scan_V nc y w2); [apply T; right; now left | exact Y1 | exact J2]. }
      assert (P4 : List.length tabs = 4%nat -> exists x y z w s2 s3 s4, tabs = [x; y; z; w] /\ read_tables V scan_nat scan_V nc s = Ok (x, s2) /\ read_tables V scan_nat scan_V nc s2 = Ok (y, s3) /\
        read_tables V scan_nat scan_V nc s3 = Ok (z, s4) /\ read_tables V scan_nat scan_V nc s4 = Ok (w, rest)).
      { intros L4. destruct tabs as [|x [|y [|z [|w [|? ?]]]]]; try discriminate. inversion Htab as [|? ? w1 ws1 X1 X2]; subst. inversion X2 as [|? ? w2 ws2 Y1 Y2]; subst.
        inversion Y2 as [|? ? w3 ws3 Z1 Z2]; subst. inversion Z2 as [|? ? w4 ws4 W1 W2]; subst. inversion W2; subst.
        apply joined_app in Hj as (m1 & J1 & J2). apply joined_app in J2 as (m2 & J2 & J3). apply joined_app in J3 as (m3 & J3 & J4). rewrite List.app_nil_r in J4.
        exists x, y, z, w, m1, m2, m3. split; [reflexivity |]. repeat split.
        - apply (parses_tables V scan_nat scan_V nc x w1); [apply T; now left | exact X1 | exact J1].
        - apply (parses_tables V scan_nat scan_V nc y w2); [apply T; right; now left | exact Y1 | exact J2].
        - apply (parses_tables V scan_nat scan_V nc z w3); [apply T; do 2 right; now left | exact Z1 | exact J3].
        - apply (parses_tables V scan_nat scan_V nc w w4); [apply T; do 3 right; now left | exact W1 | exact J4]. }
      cbn in Hc. destruct Hc as [<- | [<- | [<- | [<- | []]]]]; cbn [Ascii.eqb Bool.eqb op_letter] in *.
      1-3: destruct (P2 L) as (x & y & s2 & -> & -> & E2); cbn [bind]; rewrite E2; reflexivity.
      destruct (P4 L) as (x & y & z & w & s2 & s3 & s4 & -> & -> & E2 & E3 & E4). cbn [bind]. rewrite E2. cbn [bind]. rewrite E3. cbn [bind]. rewrite E4. reflexivity.
  Qed.
  Lemma blocks_items l s : items_text R V scan_nat scan_int scan_R scan_V l s -> (forall x, In x l -> fine x) -> forall fuel b, (List.length l <= fuel)%nat ->
    blocks_at fuel Q diag nc b s = Ok (fold_left apply_item l b).
  Proof.
    induction 1 as [s Hs | x l s rest Hx Hl IH]; intros Hf fuel b Hfuel.
    - destruct fuel; cbn [read_blocks fold_left]; rewrite <- (app_nil_r s), skip_blank by assumption; reflexivity.
    - cbn [List.length] in Hfuel. destruct fuel as [|fuel]; [lia |]. rewrite (blocks_item x s rest fuel b Hx) by (apply Hf; now left).
      cbn [fold_left]. apply IH; [intros y Hy; apply Hf; now right | lia].
  Qed.
  Lemma item_length x s rest : text x s rest -> (String.length rest < String.length s)%nat.
  Proof.
    intros H. destruct H; rewrite !length_app; cbn [String.length]; rewrite length_app; cbn [String.length]; try lia.
    all: match goal with H : joined _ _ _ |- _ => apply joined_length in H; lia end.
  Qed.
  Lemma items_length l s : items_text R V scan_nat scan_int scan_R scan_V l s -> (List.length l <= String.length s)%nat.
  Proof. induction 1 as [s Hs | x l s rest Hx Hl IH]; cbn [List.length]; [lia |]. apply item_length in Hx. lia. Qed.

  (** A block that is cut. *)
  Lemma item_cut_throws x s fuel b : item_cut R V scan_nat scan_int scan_R scan_V x s -> fine x -> blocks_at (S fuel) Q diag nc b s = Throw.
  Proof.
    intros H Hx. destruct H as [bl t v w s Hb Ht Hv Hc | bl t n m ws s Hb Hn Hm Hc | bl c t tabs ws s Hb Ht Hl Htab Hc]; destruct Hc as (a1 & a2 & tail & E & Hne & Hj & Htl).
    - rewrite blocks_enter by (assumption || reflexivity). cbn [Ascii.eqb Bool.eqb]. rewrite (proj2 (parses_one _ _ _ Hv) a1 a2 s tail E Hne Hj Htl). reflexivity.
    - assert (B : blank (letter_of t) = false) by (destruct t; reflexivity). rewrite blocks_enter by assumption.
      pose proof (proj2 (parses_elements R V scan_nat scan_int scan_V finite rescale Q sub Hsub Hdim m ws Hx Hm) a1 a2 s tail E Hne Hj Htl) as E2.
      destruct t; cbn [letter_of Ascii.eqb Bool.eqb op_letter]; rewrite E2; reflexivity.
    - assert (B : blank c = false) by (cbn in Hl; destruct Hl as [<- | [<- | [<- | [<- | []]]]]; reflexivity).
      rewrite blocks_enter by assumption. destruct Hx as [L T].
      assert (P2 : forall (k : list (list V) -> list (list V) -> string -> res (blocks R V)), List.length tabs = 2%nat ->
        (let* (x, s2) := read_tables V scan_nat scan_V nc s in let* (y, s3) := read_tables V scan_nat scan_V nc s2 in k x y s3) = Throw).
      { intros k L2. destruct tabs as [|x [|y [|? ?]]]; try discriminate.
        assert (P : parses (fun s => let* (x, s2) := read_tables V scan_nat scan_V nc s in let* (y, s3) := read_tables V scan_nat scan_V nc s2 in Ok ((x, y), s3)) (x, y) ws).
        { inversion Htab as [|? ? w1 ws1 X1 X2]; subst. inversion X2 as [|? ? w2 ws2 Y1 Y2]; subst. inversion Y2; subst.
          eapply parses_bind; [apply parses_tables; [apply T; now left | exact X1] |]. cbn beta.
          eapply parses_bind; [apply parses_tables; [apply T; right; now left | exact Y1] |]. cbn beta. apply parses_ret. }
        apply proj2 in P. specialize (P a1 a2 s tail E Hne Hj Htl).
        destruct (read_tables V scan_nat scan_V nc s) as [[x' s2] | |]; cbn [bind] in *; [| reflexivity | discriminate].
        destruct (read_tables V scan_nat scan_V nc s2) as [[y' s3] | |]; cbn [bind] in *; [discriminate | reflexivity | discriminate]. }
      assert (P4 : forall (k : list (list V) -> list (list V) -> list (list V) -> list (list V) -> string -> res (blocks R V)), List.length tabs = 4%nat ->
        (let* (x, s2) := read_tables V scan_nat scan_V nc s in let* (y, s3) := read_tables V scan_nat scan_V nc s2 in
         let* (z, s4) := read_tables V scan_nat scan_V nc s3 in let* (w, s5) := read_tables V scan_nat scan_V nc s4 in k x y z w s5) = Throw).
      { intros k L4. destruct tabs as [|x [|y [|z [|w [|? ?]]]]]; try discriminate.
        assert (P : parses (fun s => let* (x, s2) := read_tables V scan_nat scan_V nc s in let* (y, s3) := read_tables V scan_nat scan_V nc s2 in
          let* (z, s4) := read_tables V scan_nat scan_V nc s3 in let* (w, s5) := read_tables V scan_nat scan_V nc s4 in Ok ((x, y, z, w), s5)) (x, y, z, w) ws).
        { inversion Htab as [|? ? w1 ws1 X1 X2]; subst. inversion X2 as [|? ? w2 ws2 Y1 Y2]; subst. inversion Y2 as [|? ? w3 ws3 Z1 Z2]; subst. inversion Z2 as [|? ? w4 ws4 W1 W2]; subst. inversion W2; subst.
          eapply parses_bind; [apply parses_tables; [apply T; now left | exact X1] |]. cbn beta.
          eapply parses_bind; [apply parses_tables; [apply T; right; now left | exact Y1] |]. cbn beta.
          eapply parses_bind; [apply parses_tables; [apply T; do 2 right; now left | exact Z1] |]. cbn beta.
          eapply parses_bind; [apply parses_tables; [apply T; do 3 right; now left | exact W1] |]. cbn beta. apply parses_ret. }
        apply proj2 in P. specialize (P a1 a2 s tail E Hne Hj Htl).
        destruct (read_tables V scan_nat scan_V nc s) as [[x' s2] | |]; cbn [bind] in *; [| reflexivity | discriminate].
        destruct (read_tables V scan_nat scan_V nc s2) as [[y' s3] | |]; cbn [bind] in *; [| reflexivity | discriminate].
        destruct (read_tables V scan_nat scan_V nc s3) as [[z' s4] | |]; cbn [bind] in *; [| reflexivity | discriminate].
        destruct (read_tables V scan_nat scan_V nc s4) as [[w' s5] | |]; cbn [bind] in *; [discriminate | reflexivity | discriminate]. }
      cbn in Hl. destruct Hl as [<- | [<- | [<- | [<- | []]]]]; cbn [Ascii.eqb Bool.eqb op_letter] in *.
      1-3: apply (P2 (fun x y s3 => blocks_at fuel Q diag nc _ s3)); exact L.
      apply (P4 (fun x y z w s5 => blocks_at fuel Q diag nc _ s5)); exact L.
  Qed.
  Lemma blocks_cut l x s s7 : items_begin R V scan_nat scan_int scan_R scan_V l s s7 -> item_cut R V scan_nat scan_int scan_R scan_V x s7 ->
    (forall y, In y l -> fine y) -> fine x -> forall fuel b, (List.length l < fuel)%nat -> blocks_at fuel Q diag nc b s = Throw.
  Proof.
    induction 1 as [s | y l s mid rest Hy Hl IH]; intros Hc Hf Hx fuel b Hfuel; (destruct fuel as [|fuel]; [lia |]).
    - now apply (item_cut_throws x).
    - cbn [List.length] in Hfuel. rewrite (blocks_item y s mid fuel b Hy) by (apply Hf; now left). apply IH; [assumption | intros; apply Hf; now right | assumption | lia].
  Qed.
  Lemma begin_length l s rest : items_begin R V scan_nat scan_int scan_R scan_V l s rest -> (List.length l + String.length rest <= String.length s)%nat.
  Proof. induction 1 as [s | y l s mid rest Hy Hl IH]; cbn [List.length]; [lia |]. apply item_length in Hy. lia. Qed.
  Lemma cut_length x s : item_cut R V scan_nat scan_int scan_R scan_V x s -> (1 <= String.length s)%nat.
  Proof. intros H. destruct H; rewrite !length_app; cbn [String.length]; lia. Qed.

  (** The last block counts. *)
  Lemma fold_last {A} (g : blocks R V -> option A) (f : item R V -> option A) l b :
    (forall b x, In x l -> g (apply_item b x) = match f x with Some v => Some v | None => g b end) ->
    g (fold_left apply_item l b) = fold_left (fun a x => match f x with Some v => Some v | None => a end) l (g b).
  Proof.
    revert b. induction l as [|x l IH]; intros b H; cbn [fold_left]; [reflexivity |]. rewrite IH by (intros; apply H; now right).
    f_equal. apply H. now left.
  Qed.
  Lemma fold_coef (g : blocks R V -> list (list V)) (f : item R V -> option (list (list V))) l b : g b = [] ->
    (forall b x, In x l -> g (apply_item b x) = match f x with Some v => v | None => g b end) ->
    g (fold_left apply_item l b) = match last_of R V f l with Some t => t | None => [] end.
  Proof.
    intros H0 H. unfold last_of. assert (E : forall a, g b = match a with Some t => t | None => [] end ->
      g (fold_left apply_item l b) = match fold_left (fun a x => match f x with Some v => Some v | None => a end) l a with Some t => t | None => [] end).
    { clear H0. revert b. induction l as [|x l IH]; intros b a E; cbn [fold_left]; [exact E |]. apply IH; [intros; apply H; now right |].
      rewrite H by now left. destruct (f x); [reflexivity | exact E]. }
    apply E. exact H0.
  Qed.
  Lemma apply_gs b x : b_gs R V (apply_item b x) = match energy_item R V x with Some v => Some v | None => b_gs R V b end.
  Proof. destruct x as [t | t v | t n m | c t tabs]; cbn; try reflexivity. destruct (Ascii.eqb c "z"), (Ascii.eqb c "Z"), (Ascii.eqb c "X"); reflexivity. Qed.
  Lemma apply_op t n b x : map_get String.eqb n (set_of elements (b_ops R V (apply_item b x)) t) =
    match op_item R V t n x with Some v => Some v | None => map_get String.eqb n (set_of elements (b_ops R V b) t) end.
  Proof.
    destruct x as [t' | t' v | t' n' m | c t' tabs]; cbn [apply_item op_item]; try reflexivity.
    - assert (E : set_of elements (set_op V t' n' m (b_ops R V b)) t = if optype_eqb t' t then map_set String.eqb n' m (set_of elements (b_ops R V b) t) else set_of elements (b_ops R V b) t)
        by (destruct t; reflexivity).
      cbn [b_ops with_ops]. rewrite E. destruct (optype_eqb t' t); cbn [andb]; [| reflexivity].
      rewrite map_get_set by apply String.eqb_eq. destruct (String.eqb n' n); reflexivity.
    - destruct (Ascii.eqb c "z"), (Ascii.eqb c "Z"), (Ascii.eqb c "X"); reflexivity.
  Qed.
  Lemma nth_tab_error tabs k : (k < List.length tabs)%nat -> nth_error tabs k = Some (nth_tab tabs k).
  Proof. apply nth_error_nth'. Qed.
  (** All the letters at once. *)
  Definition get (letter : ascii) (k : nat) (b : blocks R V) : list (list V) :=
    match letter, k with
    | "z", 0%nat => b_xi R V b | "z", _ => b_zeta R V b
    | "Z", 0%nat => b_delta R V b | "Z", _ => b_kappa R V b
    | "X", 0%nat => b_xiR R V b | "X", _ => b_zetaR R V b
    | _, 0%nat => b_ep R V b | _, 1%nat => b_em R V b | _, 2%nat => b_u0p R V b | _, _ => b_u0m R V b
    end%char.
  Lemma apply_coef letter k b x : In letter ["z"; "Z"; "X"; "T"]%char -> (k < if Ascii.eqb letter "T" then 4 else 2)%nat -> fine x ->
    (forall c t tabs, x = ICoef R V c t tabs -> In c ["z"; "Z"; "X"; "T"]%char) ->
    get letter k (apply_item b x) = match coef_item R V letter k x with Some v => v | None => get letter k b end.
  Proof.
    intros Hl Hk Hx Hc. destruct x as [t | t v | t n m | c t tabs]; cbn [apply_item coef_item].
    - reflexivity.
    - cbn in Hl. destruct Hl as [<- | [<- | [<- | [<- | []]]]]; reflexivity.
    - cbn in Hl. destruct Hl as [<- | [<- | [<- | [<- | []]]]]; reflexivity.
    - specialize (Hc c t tabs eq_refl). destruct Hx as [L _]. cbn in Hl, Hc.
      destruct Hl as [<- | [<- | [<- | [<- | []]]]], Hc as [<- | [<- | [<- | [<- | []]]]]; cbn [Ascii.eqb Bool.eqb] in *;
        try (rewrite nth_tab_error by (rewrite L; exact Hk)); try reflexivity;
        destruct k as [|[|[|[|k]]]]; try lia; reflexivity.
  Qed.
  Lemma items_letters l s : items_text R V scan_nat scan_int scan_R scan_V l s -> forall x, In x l -> forall c t tabs, x = ICoef R V c t tabs -> In c ["z"; "Z"; "X"; "T"]%char.
  Proof.
    induction 1 as [s Hs | y l s rest Hy Hl IH]; intros x Hx c t tabs E; [destruct Hx |]. destruct Hx as [-> | Hx]; [| now apply (IH x Hx c t tabs)].
    subst x. inversion Hy; subst. assumption.
  Qed.
End Read.

Section Main.
  Variables (R V : Type) (scan_nat : string -> option (nat * string)) (scan_int : string -> option (Z * string))
    (scan_R : string -> option (R * string)) (scan_V : string -> option (V * string)) (finite : V -> bool) (rescale : R -> R).

  Lemma tok_subspace_dim dim l ws : tok_list (tok_subspace R scan_nat scan_int scan_R dim) l ws -> forall i e, In (i, e) l -> List.length i = dim.
  Proof.
    induction 1 as [|p l w ws Hp Hl IH]; intros i e Hin; [destruct Hin |]. destruct Hin as [-> | Hin]; [| now apply (IH i e)].
    destruct Hp as (w1 & w2 & _ & H & _). exact H.
  Qed.

  Definition after_header (sym : string) : parser data_header := fun s1 =>
    let* (ch, s2) := read_one scan_nat s1 in
    let* (nmax, s3) := read_one scan_nat s2 in
    let* (nsubs, s4) := read_one scan_nat s3 in
    Ok ({| h_symtype := sym; h_channels := ch; h_Nmax := nmax; h_nsubs := nsubs |}, s4).
  Lemma header_after l sym s s1 : good_header scan_int l sym -> header_text l s s1 -> read_data_header scan_nat scan_int s = after_header sym s1.
  Proof.
    intros (G1 & G2 & G3) Hh. unfold read_data_header. rewrite (header_lines scan_int _ _ _ Hh G3) by (eapply header_length; eassumption).
    rewrite (good_fold scan_int _ _ (conj G1 (conj G2 G3))). reflexivity.
  Qed.
  Lemma parses_after sym ch nmax nsubs w1 w2 w3 : shows scan_nat ch w1 -> shows scan_nat nmax w2 -> shows scan_nat nsubs w3 ->
    parses (after_header sym) {| h_symtype := sym; h_channels := ch; h_Nmax := nmax; h_nsubs := nsubs |} [w1; w2; w3].
  Proof.
    intros H1 H2 H3. unfold after_header. change [w1; w2; w3] with ([w1] ++ [w2] ++ [w3] ++ []).
    eapply parses_bind; [apply parses_one; exact H1 |]. cbn beta. eapply parses_bind; [apply parses_one; exact H2 |]. cbn beta.
    eapply parses_bind; [apply parses_one; exact H3 |]. cbn beta. apply parses_ret.
  Qed.
  Notation reads := (read_data R V scan_nat scan_int scan_R scan_V finite rescale).
  Notation opch_at := (read_opch R V scan_nat scan_int scan_V finite).
  Notation blocks_at := (read_blocks R V scan_nat scan_int scan_R scan_V finite).
  Definition after_diag (Q : dparams) (c : content R V) (d : list (list Z * list R)) (s2 : string) : res (data R V) :=
    let* (f, s3) := opch_at Q d (c_channels R V c) (perchannel (c_symtype R V c)) s2 in
    let* b := blocks_at (String.length s3) Q d (coefchannels Q (c_channels R V c)) (no_blocks R V) s3 in
    let* _ := check_length R V b (c_Nmax R V c) in
    Ok {| d_diag := d; d_opch := f; d_blocks := b; d_Nmax := c_Nmax R V c; d_channels := c_channels R V c |}.

  Section File.
    Variables (Q : dparams) (c : content R V).
    Hypothesis G : good_content R V scan_int finite Q c.
    Notation diag := (map (final R rescale Q) (c_subspaces R V c)).
    Lemma header_stage s s1 w1 w2 w3 : header_text (c_header R V c) s s1 ->
      shows scan_nat (c_channels R V c) w1 -> shows scan_nat (c_Nmax R V c) w2 -> shows scan_nat (List.length (c_subspaces R V c)) w3 ->
      (forall s2, joined [w1; w2; w3] s1 s2 ->
         reads Q s = let* (d, s3) := read_diag R scan_nat scan_int scan_R rescale Q (List.length (c_subspaces R V c)) s2 in after_diag Q c d s3) /\
      (cut [w1; w2; w3] s1 -> reads Q s = Throw).
    Proof.
      destruct G as (Gh & Gs & Gc & _). intros Hh H1 H2 H3. destruct (parses_after (c_symtype R V c) _ _ _ _ _ _ H1 H2 H3) as [P1 P2].
      unfold read_data. rewrite (header_after _ _ _ _ Gh Hh). split.
      - intros s2 Hj. rewrite (P1 _ _ Hj). cbn [bind h_symtype h_channels h_nsubs h_Nmax]. rewrite Gs, String.eqb_refl. cbn [my_assert bind].
        replace (Nat.leb 1 (c_channels R V c)) with true by (symmetry; apply Nat.leb_le; exact Gc). cbn [my_assert bind]. unfold after_diag. rewrite Gs. reflexivity.
      - intros (a & b & tail & E & Hn & Hj & Ht). rewrite (P2 a b s1 tail E Hn Hj Ht). reflexivity.
    Qed.
    Lemma diag_stage f1 s3 ws1 : filler f1 -> tok_list (tok_subspace R scan_nat scan_int scan_R (q_invdim Q)) (c_subspaces R V c) ws1 ->
      (starts_with (fun ch => ch <> "#"%char /\ blank ch = false) s3 -> forall s4, joined ws1 s3 s4 ->
        read_diag R scan_nat scan_int scan_R rescale Q (List.length (c_subspaces R V c)) (f1 ++ s3)%string = Ok (diag, s4)) /\
      (ends_or (fun ch => ch <> "#"%char /\ blank ch = false) s3 -> cut ws1 s3 ->
        read_diag R scan_nat scan_int scan_R rescale Q (List.length (c_subspaces R V c)) (f1 ++ s3)%string = Throw).
    Proof.
      destruct G as (_ & _ & _ & Gn & _). intros Hf Ht. destruct (parses_subspaces R scan_nat scan_int scan_R rescale Q _ _ Ht [] Gn) as [P1 P2].
      cbn [map app] in P1, P2. unfold read_diag. split.
      - intros Hs s4 Hj. rewrite skip_filler by assumption. rewrite (P1 _ _ Hj). cbn [bind]. rewrite map_length, Nat.eqb_refl. reflexivity.
      - intros Hs (a & b & tail & E & Hn & Hj & Htl). rewrite skip_filler_end by assumption. rewrite (P2 a b s3 tail E Hn Hj Htl). reflexivity.
    Qed.
    Lemma opch_stage f2 s5 ws2 : filler f2 -> (forall i e, In (i, e) (c_subspaces R V c) -> List.length i = q_invdim Q) -> tok_opch V scan_nat scan_int scan_V (c_f R V c) ws2 ->
      (starts_with (fun ch => ch <> "#"%char /\ blank ch = false) s5 -> forall s6, joined ws2 s5 s6 ->
        opch_at Q diag (c_channels R V c) (perchannel (c_symtype R V c)) (f2 ++ s5)%string = Ok (c_f R V c, s6)) /\
      (ends_or (fun ch => ch <> "#"%char /\ blank ch = false) s5 -> cut ws2 s5 ->
        opch_at Q diag (c_channels R V c) (perchannel (c_symtype R V c)) (f2 ++ s5)%string = Throw).
    Proof.
      destruct G as (_ & Gs & _ & Gn & (Gf1 & Gf2) & _). intros Hf Hdim Ht. rewrite Gs, perchannel_expected.
      destruct (parses_opch R V scan_nat scan_int scan_V finite rescale Q (c_subspaces R V c) Gn Hdim _ _ _ ws2 Gf1 Gf2 Ht) as [P1 P2]. unfold read_opch. split.
      - intros Hs s6 Hj. rewrite skip_filler by assumption. exact (P1 _ _ Hj).
      - intros Hs (a & b & tail & E & Hn & Hj & Htl). rewrite skip_filler_end by assumption. exact (P2 a b s5 tail E Hn Hj Htl).
    Qed.
    Lemma fine_items x : In x (c_items R V c) -> fine R V finite (c_subspaces R V c) (coefchannels Q (c_channels R V c)) x.
    Proof. destruct G as (_ & _ & _ & _ & _ & Gi & _). intros Hx. specialize (Gi x Hx). rewrite coefchannels_expected. destruct x; exact Gi. Qed.
  End File.

  Theorem data_file_read Q c s : good_content R V scan_int finite Q c -> file_text R V scan_nat scan_int scan_R scan_V (q_invdim Q) c s ->
    exists d, reads Q s = Ok d /\ stored R V rescale Q c d.
  Proof.
    intros G H.
    destruct H as [s s1 w1 w2 w3 s2 f1 s3 ws1 s4 f2 s5 ws2 s6 Hh H1 H2 H3 Hj Ff1 -> Hs3 Ht1 Hj1 Ff2 -> Hs5 Ht2 Hj2 Hit].
    pose proof (tok_subspace_dim _ _ _ Ht1) as Hdim. pose proof (fine_items Q c G) as Hfine.
    rewrite (proj1 (header_stage Q c G s s1 w1 w2 w3 Hh H1 H2 H3) _ Hj). rewrite (proj1 (diag_stage Q c G f1 s3 ws1 Ff1 Ht1) Hs3 _ Hj1). cbn [bind].
    unfold after_diag. rewrite (proj1 (opch_stage Q c G f2 s5 ws2 Ff2 Hdim Ht2) Hs5 _ Hj2). cbn [bind].
    destruct G as (_ & _ & _ & Gn & _ & _ & (t0 & l0 & Gz & Gl)).
    rewrite (blocks_items R V scan_nat scan_int scan_R scan_V finite rescale Q (c_subspaces R V c) Gn Hdim _ _ _ Hit Hfine) by (eapply items_length; eassumption).
    cbn [bind].
    set (b := fold_left (apply_item R V) (c_items R V c) (no_blocks R V)).
    assert (C : forall letter k, In letter ["z"; "Z"; "X"; "T"]%char -> (k < if Ascii.eqb letter "T" then 4 else 2)%nat -> get R V letter k b = coefficient R V c letter k).
    { intros letter k Hl Hk. unfold coefficient, b. apply fold_coef.
      - cbn in Hl. destruct Hl as [<- | [<- | [<- | [<- | []]]]]; destruct k as [|[|[|[|k]]]]; reflexivity.
      - intros b' x Hx. apply (apply_coef R V finite (c_subspaces R V c) (coefchannels Q (c_channels R V c))); [assumption | assumption | now apply Hfine | now apply (items_letters R V scan_nat scan_int scan_R scan_V _ _ Hit)]. }
    assert (Cxi : b_xi R V b = coefficient R V c "z" 0) by (apply (C "z"%char 0%nat); cbn; auto; lia).
    unfold check_length. rewrite Cxi. destruct (coefficient R V c "z" 0) as [|t1 r1] eqn:Ez; [discriminate |]. cbn in Gz. injection Gz as ->.
    rewrite Gl, Nat.eqb_refl. cbn [my_assert bind].
    eexists. split; [reflexivity |]. unfold stored. cbn [d_diag d_opch d_blocks d_Nmax d_channels].
    split; [reflexivity |]. split; [reflexivity |]. split; [reflexivity |]. split; [reflexivity |].
    split. { unfold b. rewrite (fold_last R V _ (energy_item R V)); [reflexivity |]. intros; apply apply_gs. }
    split. { intros t n. unfold b. rewrite (fold_last R V (fun b => map_get String.eqb n (set_of _ (b_ops R V b) t)) (op_item R V t n)); [destruct t; reflexivity |]. intros; apply apply_op. }
    split; [rewrite Ez; exact Cxi |].
    repeat split; [apply (C "z"%char 1%nat) | apply (C "Z"%char 0%nat) | apply (C "Z"%char 1%nat) | apply (C "X"%char 0%nat) | apply (C "X"%char 1%nat)
      | apply (C "T"%char 0%nat) | apply (C "T"%char 1%nat) | apply (C "T"%char 2%nat) | apply (C "T"%char 3%nat)]; cbn; auto; lia.
  Qed.

  Theorem data_file_cut Q c s : good_content R V scan_int finite Q c -> file_cut R V scan_nat scan_int scan_R scan_V (q_invdim Q) c s -> reads Q s = Throw.
  Proof.
    intros G H.
    destruct H as [s s1 w1 w2 w3 Hh H1 H2 H3 Hc | s s1 w1 w2 w3 s2 f1 s3 ws1 Hh H1 H2 H3 Hj Ff1 -> Hs3 Ht1 Hc
      | s s1 w1 w2 w3 s2 f1 s3 ws1 s4 f2 s5 ws2 Hh H1 H2 H3 Hj Ff1 -> Hs3 Ht1 Hj1 Ff2 -> Hs5 Ht2 Hc
      | s s1 w1 w2 w3 s2 f1 s3 ws1 s4 f2 s5 ws2 s6 l1 x l2 s7 Hh H1 H2 H3 Hj Ff1 -> Hs3 Ht1 Hj1 Ff2 -> Hs5 Ht2 Hj2 El Hb Hc].
    - exact (proj2 (header_stage Q c G s s1 w1 w2 w3 Hh H1 H2 H3) Hc).
    - rewrite (proj1 (header_stage Q c G s s1 w1 w2 w3 Hh H1 H2 H3) _ Hj). rewrite (proj2 (diag_stage Q c G f1 s3 ws1 Ff1 Ht1) Hs3 Hc). reflexivity.
    - pose proof (tok_subspace_dim _ _ _ Ht1) as Hdim.
      rewrite (proj1 (header_stage Q c G s s1 w1 w2 w3 Hh H1 H2 H3) _ Hj). rewrite (proj1 (diag_stage Q c G f1 s3 ws1 Ff1 Ht1) Hs3 _ Hj1). cbn [bind].
      unfold after_diag. rewrite (proj2 (opch_stage Q c G f2 s5 ws2 Ff2 Hdim Ht2) Hs5 Hc). reflexivity.
    - pose proof (tok_subspace_dim _ _ _ Ht1) as Hdim. pose proof (fine_items Q c G) as Hfine.
      rewrite (proj1 (header_stage Q c G s s1 w1 w2 w3 Hh H1 H2 H3) _ Hj). rewrite (proj1 (diag_stage Q c G f1 s3 ws1 Ff1 Ht1) Hs3 _ Hj1). cbn [bind].
      unfold after_diag. rewrite (proj1 (opch_stage Q c G f2 s5 ws2 Ff2 Hdim Ht2) Hs5 _ Hj2). cbn [bind].
      destruct G as (_ & _ & _ & Gn & _).
      rewrite (blocks_cut R V scan_nat scan_int scan_R scan_V finite rescale Q (c_subspaces R V c) Gn Hdim _ l1 x s6 s7 Hb Hc); [reflexivity | | | ].
      + intros y Hy. apply Hfine. rewrite El. apply in_app_iff. now left.
      + apply Hfine. rewrite El. apply in_app_iff. right. now left.
      + apply (begin_length R V scan_nat scan_int scan_R scan_V) in Hb. apply (cut_length R V scan_nat scan_int scan_R scan_V) in Hc. lia.
  Qed.
End Main.
