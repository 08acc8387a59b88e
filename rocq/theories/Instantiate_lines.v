(** The lines of a template as the reader sees them. *)
From Coq Require Import List ZArith Reals Ascii String Bool Lia.
From Verif Require Import Base Oprecalc_model Oprecalc_spec Oprecalc_words Datafile_model Datafile_spec Datafile_parse Instantiate_model Instantiate_spec.
Import ListNotations.
Local Open Scope string_scope.
Local Open Scope list_scope.

Lemma lines_line l s : one_line l -> lines_of (l ++ String newline s)%string = l :: lines_of s.
Proof.
  induction 1 as [|c l Hc Hl IH]; cbn [append lines_of].
  - now rewrite Ascii.eqb_refl.
  - apply Ascii.eqb_neq in Hc. now rewrite Hc, IH.
Qed.
Lemma lines_last l : l <> "" -> one_line l -> lines_of l = [l].
Proof.
  intros Hn H. induction H as [|c l Hc Hl IH]; [contradiction |]. cbn [lines_of]. apply Ascii.eqb_neq in Hc. rewrite Hc.
  destruct l as [|d l]; [reflexivity |]. now rewrite IH.
Qed.
Lemma lines_text ls s : text_lines ls s -> lines_of s = ls.
Proof.
  induction 1 as [|l Hn Hl|l ls s Hl H IH].
  - reflexivity.
  - now apply lines_last.
  - rewrite lines_line by assumption. now rewrite IH.
Qed.

Lemma rtrim_blank b : all_blank b -> rtrim b = "".
Proof. induction 1 as [|c b Hc Hb IH]; cbn; [reflexivity |]. now rewrite IH, Hc. Qed.
Lemma rtrim_app d b : all_blank b -> rtrim (d ++ b)%string = rtrim d.
Proof. intros Hb. induction d as [|c d IH]; cbn; [now apply rtrim_blank |]. now rewrite IH. Qed.
Lemma rtrim_id d : d = "" \/ ~ ends_blank d -> rtrim d = d.
Proof.
  induction d as [|c d IH]; cbn; intros H; [reflexivity |]. destruct H as [H | H]; [discriminate |].
  destruct (string_dec d "") as [-> | Hd].
  - cbn. destruct (blank c) eqn:E; [| reflexivity]. exfalso. apply H. right. now exists "", c.
  - rewrite IH.
    + destruct d; [contradiction | reflexivity].
    + right. intros [E | (s & e & E & He)]; [contradiction |]. apply H. right. exists (String c s), e. cbn. now rewrite E.
Qed.
Lemma trim_data b1 d b2 : all_blank b1 -> all_blank b2 -> starts_with (fun c => blank c = false /\ c <> "#"%char) d -> ~ ends_blank d -> trim (b1 ++ d ++ b2)%string = d.
Proof.
  intros H1 H2 Hs He. unfold trim. rewrite skip_blank by assumption. destruct d as [|c d]; cbn in Hs; [destruct Hs |]. destruct Hs as [Hc _].
  cbn [append skip_ws]. rewrite Hc. change (rtrim (String c d ++ b2)%string = String c d). rewrite rtrim_app by assumption. apply rtrim_id. now right.
Qed.
Lemma trim_comment i t : all_chars (fun c => c = " "%char \/ c = tab) i -> trim (i ++ String "#" t)%string = String "#" (rtrim t).
Proof.
  intros Hi. unfold trim. rewrite skip_blank.
  - cbn [skip_ws]. change (blank "#") with false. cbn [rtrim]. change (blank "#") with false. destruct (rtrim t); reflexivity.
  - clear -Hi. induction Hi as [|c i Hc Hi IH]; constructor; [| assumption]. destruct Hc as [-> | ->]; reflexivity.
Qed.
Lemma trim_blank b : all_blank b -> trim b = "".
Proof. intros H. unfold trim. now rewrite skip_all. Qed.
Lemma trim_word w : w <> "" -> all_chars (fun c => blank c = false) w -> trim w = w.
Proof.
  intros Hw H. unfold trim. rewrite <- (app_nil_r w) at 1. rewrite skip_black by assumption. rewrite app_nil_r. apply rtrim_id. right.
  intros E. apply (black_ends w) in E; [contradiction | exact H].
Qed.

(** Words *)
Lemma take_word_app w s : all_chars (fun c => blank c = false) w -> starts_blank s -> take_word (w ++ s)%string = (w, s).
Proof.
  induction 1 as [|c w Hc Hw IH]; intros Hs; cbn.
  - destruct Hs as [-> | (c & s' & -> & Hc)]; cbn; [reflexivity |]. now rewrite Hc.
  - rewrite Hc, IH by assumption. reflexivity.
Qed.
Lemma next_word_app b w s : all_blank b -> w <> "" -> all_chars (fun c => blank c = false) w -> starts_blank s -> next_word (b ++ w ++ s)%string = (w, s).
Proof. intros Hb Hn Hw Hs. unfold next_word. rewrite skip_blank, skip_black by assumption. now apply take_word_app. Qed.
Lemma blank_starts b s : all_blank b -> b <> "" -> starts_blank (b ++ s)%string.
Proof. intros H Hn. destruct H as [|c b Hc Hb]; [contradiction |]. right. now exists c, (b ++ s)%string. Qed.
Lemma line_joined ws d rest : line_words ws d -> starts_blank rest -> joined ws (d ++ rest)%string rest.
Proof.
  intros H Hr. induction H as [w Hn Hw|w b ws s Hn Hw Hb Hbl H IH].
  - apply (j_cons "" w [] rest); [constructor | assumption | constructor].
  - rewrite !app_ass. apply (j_cons "" w ws (b ++ s ++ rest)%string); [constructor | now apply blank_starts |].
    destruct IH as [s0|b0 w0 ws0 s0 r0 Hb0 Hs0 Hj0].
    + inversion H.
    + rewrite <- app_ass. apply j_cons; [now apply all_app | assumption | assumption].
Qed.
Lemma line_joined_all ws d : line_words ws d -> joined ws d "".
Proof. intros H. rewrite <- (app_nil_r d). apply line_joined; [assumption | now left]. Qed.
Lemma line_words_of ws d : line_words ws d -> words "" d = ws.
Proof.
  assert (G : forall w v s, all_chars (fun c => blank c = false) w -> words v (w ++ s)%string = words (v ++ w)%string s).
  { intros w. induction w as [|c w IH]; intros v s Hw; cbn [append]; [now rewrite app_nil_r |]. inversion Hw as [|? ? Hc Hw']; subst. cbn [words]. rewrite Hc.
    rewrite IH by assumption. now rewrite app_cons_r. }
  assert (B : forall b s, all_blank b -> words "" (b ++ s)%string = words "" s).
  { intros b s Hb. induction Hb as [|c b Hc Hb IH]; cbn; [reflexivity |]. now rewrite Hc. }
  induction 1 as [w Hn Hw|w b ws s Hn Hw Hb Hbl H IH].
  - rewrite <- (app_nil_r w) at 1. rewrite G by assumption. cbn. destruct (String.eqb_spec w ""); [contradiction | reflexivity].
  - rewrite G by assumption. cbn [append]. destruct Hbl as [|c b Hc Hbl]; [contradiction |]. cbn [append words]. rewrite Hc.
    destruct (String.eqb_spec w ""); [contradiction |]. cbn [app]. rewrite B by assumption. now rewrite IH.
Qed.

Section Reader.
  Variables (top : R) (scan_R : string -> option (R * string)).
  Notation N := (real_num top).
  Notation next_line := (next_line N scan_R).
  Notation st := (@st R).

  Definition note_text (x : noise) : string := match x with Empty _ => "" | Comment i t => (i ++ String "#" (t ++ String newline ""))%string end.
  Definition notes_text (nz : list noise) : string := String.concat "" (map note_text nz).
  Lemma concat_cons a l : String.concat "" (a :: l) = (a ++ String.concat "" l)%string.
  Proof. destruct l; cbn; [now rewrite app_nil_r | reflexivity]. Qed.
  Lemma concat_app a b : String.concat "" (a ++ b) = (String.concat "" a ++ String.concat "" b)%string.
  Proof. induction a as [|x a IH]; [reflexivity |]. cbn [app]. rewrite !concat_cons, IH. now rewrite app_ass. Qed.

  Definition scale_step (a : option R) (x : noise) : option R :=
    match x with Empty _ => a | Comment _ t => match scale_from_comment N scan_R (String "#" (rtrim t)) with Some v => Some v | None => a end end.
  Definition scale_after (a : option R) (nz : list noise) : option R := fold_left scale_step nz a.

  Lemma next_noise nz ls rest sc out : Forall2 noise_line nz ls -> next_line (ls ++ rest) sc out = next_line rest (scale_after sc nz) (out ++ notes_text nz)%string.
  Proof.
    intros H. revert sc out. induction H as [|x l nz ls Hx H IH]; intros sc out.
    - cbn. now rewrite app_nil_r.
    - unfold scale_after, notes_text. cbn [fold_left map app]. rewrite concat_cons. cbn [Instantiate_model.next_line].
      destruct Hx as [b Hb Hl|i t Hi Ht].
      + rewrite trim_blank by assumption. cbn. apply IH.
      + rewrite trim_comment by assumption. cbv zeta. change (Ascii.eqb "#" "#") with true. cbv iota.
        fold (scale_step sc (Comment i t)). rewrite IH. f_equal. cbn [note_text]. unfold line. rewrite !app_ass. cbn [append]. now rewrite app_ass.
  Qed.
  Lemma next_data d l ls sc out : data_line d l -> next_line (l :: ls) sc out = (Some d, St ls sc out).
  Proof.
    intros H. destruct H as [b1 d b2 H1 H2 Hl Hs He]. cbn [Instantiate_model.next_line]. rewrite trim_data by assumption.
    destruct d as [|c d]; cbn in Hs; [destruct Hs |]. destruct Hs as [_ Hc]. apply Ascii.eqb_neq in Hc. now rewrite Hc.
  Qed.

  Definition good_data (d : string) : Prop := one_line d /\ starts_with (fun c => blank c = false /\ c <> "#"%char) d.
  Lemma data_good d l : data_line d l -> good_data d.
  Proof. intros H. destruct H as [b1 d b2 H1 H2 Hl Hs He]. split; [| assumption]. apply all_app in Hl as [_ Hl]. now apply all_app in Hl as [Hl _]. Qed.
  (** The state of the reader before the chunks [cs] and the ending [e]. *)
  Definition at_ (cs : list chunk) (e : ending) (sc : option R) (out : string) (s : st) : Prop :=
    exists ls le, tok_list chunk_lines cs ls /\ ending_lines e le /\ s_lines s = ls ++ le /\ s_scale s = sc /\ s_out s = out.

  Lemma next_chunk nz d cs e sc out s : at_ ((nz, d) :: cs) e sc out s ->
    exists s', next_data_line N scan_R s = (Some d, s') /\ good_data d /\ at_ cs e (scale_after sc nz) (out ++ notes_text nz)%string s'.
  Proof.
    intros (ls & le & Hc & He & E & <- & <-). inversion Hc as [|x l w ws Hx Hr]; subst. inversion Hx as [nz' d' lz l' Hz Hd]; subst.
    unfold next_data_line. rewrite E. rewrite <- !app_assoc. rewrite (next_noise nz) by assumption. cbn [app]. rewrite (next_data d) by assumption.
    eexists. split; [reflexivity |]. split; [now apply (data_good d l') |]. exists ws, le. repeat split; assumption.
  Qed.
  Lemma need_chunk nz d cs e sc out s : at_ ((nz, d) :: cs) e sc out s ->
    exists s', need_line N scan_R s = Ok (d, s') /\ good_data d /\ at_ cs e (scale_after sc nz) (out ++ notes_text nz)%string s'.
  Proof. intros H. destruct (next_chunk _ _ _ _ _ _ _ H) as (s' & E & H'). exists s'. split; [| assumption]. unfold need_line. now rewrite E. Qed.
  Lemma next_end nz sc out s : at_ [] (AtEnd nz) sc out s -> exists s', next_data_line N scan_R s = (None, s') /\ s_out s' = (out ++ notes_text nz)%string.
  Proof.
    intros (ls & le & Hc & He & E & <- & <-). inversion Hc; subst. inversion He as [nz' l Hz|]; subst. cbn [app] in E.
    unfold next_data_line. rewrite E. rewrite <- (List.app_nil_r le). rewrite (next_noise nz) by assumption. cbn. eexists. split; reflexivity.
  Qed.
  Lemma next_coef nz d others sc out s : at_ [] (AtCoef nz d others) sc out s ->
    exists s', next_data_line N scan_R s = (Some d, s') /\ s_out s' = (out ++ notes_text nz)%string /\ starts_with (fun c => In c ["z"; "Z"; "T"]%char) d.
  Proof.
    intros (ls & le & Hc & He & E & <- & <-). inversion Hc; subst. inversion He as [|nz' d' o l Hl Hs]; subst. inversion Hl as [nz' d' lz l' Hz Hd]; subst. cbn [app] in E.
    unfold next_data_line. rewrite E. rewrite <- !app_assoc. rewrite (next_noise nz) by assumption. cbn [app]. rewrite (next_data d) by assumption.
    eexists. split; [reflexivity |]. split; [reflexivity | assumption].
  Qed.
  Lemma write_at cs e sc out t s : at_ cs e sc out s -> at_ cs e sc (out ++ t)%string (write t s).
  Proof. intros (ls & le & H1 & H2 & H3 & H4 & <-). exists ls, le. repeat split; assumption. Qed.
  Lemma layout_at cs e s : layout cs e s -> at_ cs e None "" (St (lines_of s) None "").
  Proof. intros (ls & le & H1 & H2 & H3). exists ls, le. repeat split; try assumption. cbn. now apply lines_text. Qed.
  Lemma at_length cs e sc out s : at_ cs e sc out s -> (List.length cs <= List.length (s_lines s))%nat.
  Proof.
    intros (ls & le & H1 & _ & -> & _). rewrite app_length. induction H1 as [|c cs l ls Hc H IH]; cbn; [lia |]. rewrite app_length.
    destruct Hc. rewrite app_length. cbn. lia.
  Qed.
  Lemma at_length_coef cs nz d o sc out s : at_ cs (AtCoef nz d o) sc out s -> (List.length cs < List.length (s_lines s))%nat.
  Proof.
    intros (ls & le & H1 & He & -> & _). inversion He as [|nz' d' o' l Hl Hs]; subst. inversion Hl; subst. rewrite !app_length. cbn.
    enough (List.length cs <= List.length ls)%nat by lia. clear -H1. induction H1 as [|c cs l ls Hc H IH]; cbn; [lia |]. rewrite app_length.
    destruct Hc. rewrite app_length. cbn. lia.
  Qed.

  (** The scale *)
  Lemma rtrim_shape t : exists b, all_blank b /\ t = (rtrim t ++ b)%string.
  Proof.
    induction t as [|c t (b & Hb & E)]; [exists ""; split; [constructor | reflexivity] |]. cbn [rtrim]. destruct (rtrim t) as [|d r] eqn:Er.
    - destruct (blank c) eqn:Hc.
      + exists (String c t). split; [| reflexivity]. constructor; [assumption |]. rewrite E. assumption.
      + exists b. split; [assumption |]. cbn in *. now rewrite E.
    - exists b. split; [assumption |]. cbn in *. f_equal. exact E.
  Qed.
  Lemma take_word_split s : exists w r, take_word s = (w, r) /\ s = (w ++ r)%string /\ all_chars (fun c => blank c = false) w /\ starts_blank r.
  Proof.
    induction s as [|c s (w & r & E & Es & Hw & Hr)]; cbn.
    - exists "", "". repeat split; [constructor | now left].
    - destruct (blank c) eqn:Hc.
      + exists "", (String c s). repeat split; [constructor |]. right. now exists c, s.
      + rewrite E. exists (String c w), r. repeat split; [cbn; now rewrite Es | now constructor | assumption].
  Qed.
  Lemma skip_shape s : exists b, all_blank b /\ s = (b ++ skip_ws s)%string.
  Proof.
    induction s as [|c s (b & Hb & E)]; cbn; [exists ""; split; [constructor | reflexivity] |]. destruct (blank c) eqn:Hc.
    - exists (String c b). split; [now constructor |]. cbn. now rewrite <- E.
    - exists "". split; [constructor | reflexivity].
  Qed.
  Lemma plain_none t : plain_note t -> scale_from_comment N scan_R (String "#" (rtrim t)) = None.
  Proof.
    intros H. unfold scale_from_comment. unfold next_word. cbn [skip_ws blank]. change (blank "#") with false. cbv iota.
    cbn [take_word]. change (blank "#") with false. cbv iota. destruct (take_word_split (rtrim t)) as (w & r & -> & E & Hw & Hr).
    destruct (take_word_split (skip_ws r)) as (k & r2 & -> & E2 & Hk & Hr2). destruct w as [|c w]; [| reflexivity]. cbn [append] in *. change (String.eqb "#" "#") with true. cbn [andb].
    destruct (String.eqb_spec k "SCALE") as [-> | _]; [| reflexivity]. exfalso.
    destruct (skip_shape r) as (b & Hb & Er). destruct (rtrim_shape t) as (b' & Hb' & Et).
    apply (H b (r2 ++ b')%string).
    - assumption.
    - intros ->. cbn [append] in Er. rewrite E2 in Er. rewrite Er in Hr. destruct Hr as [Hr | (c & s & Hr & Hc)]; [discriminate |]. cbn in Hr. injection Hr as <- _. discriminate.
    - destruct Hr2 as [-> | (c & s & -> & Hc)]; [| right; now exists c, (s ++ b')%string].
      cbn. destruct Hb' as [|c b'' Hc Hb']; [now left | right; now exists c, b''].
    - rewrite Et, E, Er at 1. rewrite E2. now rewrite !app_ass.
  Qed.
  Lemma scale_some x t : scale_note scan_R x t -> scale_from_comment N scan_R (String "#" (rtrim t)) = Some (1 / x)%R.
  Proof.
    intros (b1 & b2 & w & b3 & -> & H1 & N1 & H2 & N2 & (Hw & Bw & Sw & _) & H3).
    rewrite <- !app_ass. rewrite rtrim_app by assumption. rewrite rtrim_id.
    2:{ right. rewrite !app_ass. intros [E | (s & c & E & Hc)].
        - destruct b1; [contradiction | discriminate].
        - assert (G : forall a, w <> "" -> (a ++ w)%string = (s ++ String c "")%string -> exists s', w = (s' ++ String c "")%string).
          { clear. intros a Hw E. revert s E. induction a as [|e a IH]; intros s E; [now exists s |]. destruct s as [|f s]; cbn in E.
            - injection E as _ E. apply app_nil_inv in E as [_ E]. contradiction.
            - injection E as _ E. now apply (IH s). }
          rewrite <- !app_ass in E. destruct (G _ Hw E) as (s' & ->). apply all_app in Bw as [_ Bw]. inversion Bw; subst. congruence. }
    rewrite !app_ass. unfold scale_from_comment.
    change (String "#" (b1 ++ "SCALE" ++ b2 ++ w))%string with ("" ++ "#" ++ (b1 ++ "SCALE" ++ b2 ++ w))%string.
    rewrite (next_word_app "" "#"); [| constructor | discriminate | repeat constructor | now apply blank_starts].
    rewrite (next_word_app b1 "SCALE"); [| assumption | discriminate | repeat constructor | now apply blank_starts].
    change (String.eqb "#" "#" && String.eqb "SCALE" "SCALE")%bool with true. cbv iota.
    rewrite skip_blank by assumption. rewrite <- (app_nil_r w). rewrite skip_black by assumption. rewrite Sw by now left. reflexivity.
  Qed.
  Definition inv_scale (a : option R) : option R := option_map (fun x => 1 / x)%R a.
  Lemma scaled_after a nz b : scaled scan_R a nz b -> scale_after (inv_scale a) nz = inv_scale b.
  Proof.
    unfold scale_after. induction 1 as [a|a b nz x H IH|a b nz i t Hp H IH|a b nz i t x Hs H IH]; cbn [fold_left]; [reflexivity | exact IH | |].
    - cbn [scale_step]. now rewrite (plain_none t Hp).
    - cbn [scale_step]. rewrite (scale_some x t Hs). exact IH.
  Qed.
End Reader.
