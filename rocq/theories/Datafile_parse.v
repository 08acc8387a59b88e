(** Parsers read the words of the values. *)
From Coq Require Import List ZArith Ascii String Bool Lia.
From Verif Require Import Base Oprecalc_model Oprecalc_spec Oprecalc_words Datafile_model Datafile_spec.
Import ListNotations.
Local Open Scope string_scope.
Local Open Scope list_scope.

Lemma joined_app a b s rest : joined (a ++ b) s rest <-> exists m, joined a s m /\ joined b m rest.
Proof.
  revert s. induction a as [|w a IH]; intros s; cbn.
  - split; [intros H; exists s; split; [constructor | assumption] | intros (m & H1 & H2); inversion H1; subst; assumption].
  - split.
    + intros H. inversion H as [|b0 w' ws s' rest' Hb Hs Hj]; subst. apply IH in Hj as (m & H1 & H2). exists m. split; [constructor; assumption | assumption].
    + intros (m & H1 & H2). inversion H1; subst. constructor; try assumption. apply IH. now exists m.
Qed.

Lemma coefchannels_expected Q ch : coefchannels Q ch = tables_expected Q ch.
Proof. unfold coefchannels, tables_expected. destruct (q_pol2x2 Q), (q_polarized Q); lia. Qed.
Lemma perchannel_expected sym : perchannel sym = ops_per_channel sym.
Proof.
  unfold perchannel, ops_per_channel. destruct (in_dec string_dec sym ["U1"; "SU2"; "DBLSU2"]) as [H | H].
  - cbn in H. destruct H as [<- | [<- | [<- | []]]]; reflexivity.
  - replace (String.eqb sym "U1" || String.eqb sym "SU2" || String.eqb sym "DBLSU2")%bool with false.
    2:{ symmetry. rewrite !orb_false_iff, !String.eqb_neq. cbn in H. repeat split; intros ->; tauto. }
    destruct (in_dec string_dec sym ["NONE"; "P"; "PP"]) as [H2 | H2].
    + cbn in H2. destruct H2 as [<- | [<- | [<- | []]]]; reflexivity.
    + replace (String.eqb sym "NONE" || String.eqb sym "P" || String.eqb sym "PP")%bool with false; [reflexivity |].
      symmetry. rewrite !orb_false_iff, !String.eqb_neq. cbn in H2. repeat split; intros ->; tauto.
Qed.
(** The words are read as the value; if the text ends before the last of them, an exception is thrown. *)
Definition parses {A} (p : parser A) (v : A) (ws : list string) : Prop :=
  (forall s rest, joined ws s rest -> p s = Ok (v, rest)) /\
  (forall ws1 ws2 s tail, ws = ws1 ++ ws2 -> ws2 <> [] -> joined ws1 s tail -> all_blank tail -> p s = Throw).
Lemma app_cut {A} (a b x y : list A) : a ++ b = x ++ y -> y <> [] -> (exists k, a = x ++ k /\ k <> []) \/ (exists k, x = a ++ k /\ b = k ++ y).
Proof.
  revert x. induction a as [|c a IH]; intros x E Hy; cbn in E.
  - right. exists x. auto.
  - destruct x as [|d x]; cbn in E.
    + left. exists (c :: a). split; [reflexivity | discriminate].
    + injection E as -> E. destruct (IH x E Hy) as [(k & -> & Hk) | (k & -> & ->)]; [left | right]; exists k; auto.
Qed.

Lemma skip_blank b s : all_blank b -> skip_ws (b ++ s)%string = skip_ws s.
Proof. induction 1 as [|c b Hc Hb IH]; cbn; [reflexivity |]. now rewrite Hc. Qed.
Lemma skip_black w s : w <> "" -> all_chars (fun c => blank c = false) w -> skip_ws (w ++ s)%string = (w ++ s)%string.
Proof. intros Hw H. destruct H as [|c w Hc H]; [contradiction |]. cbn. now rewrite Hc. Qed.

Lemma skip_all b : all_blank b -> skip_ws b = "".
Proof. intros H. rewrite <- (app_nil_r b), skip_blank by assumption. reflexivity. Qed.

Lemma parses_one {A} (scan : string -> option (A * string)) v w : shows scan v w -> parses (read_one scan) v [w].
Proof.
  intros (Hw & Hb & Hs & H0). split.
  - intros s rest H. inversion H as [| b w' ws s' rest' Hbl Hst Hj]; subst. inversion Hj; subst.
    unfold read_one. rewrite skip_blank, skip_black by assumption. rewrite Hs by assumption. reflexivity.
  - intros ws1 ws2 s tail E Hn H Ht. destruct ws1 as [|u [|? ws1]]; cbn in E; [| injection E as <- <-; contradiction | discriminate].
    inversion H; subst. unfold read_one. now rewrite skip_all, H0.
Qed.
Lemma parses_bind {A B} (p : parser A) (f : A -> parser B) v w u ws : parses p v w -> parses (f v) u ws -> parses (fun s => let* (x, s1) := p s in f x s1) u (w ++ ws).
Proof.
  intros [Hp Cp] [Hf Cf]. split.
  - intros s rest H. apply joined_app in H as (m & H1 & H2). rewrite (Hp _ _ H1). cbn [bind]. now apply Hf.
  - intros ws1 ws2 s tail E Hn H Ht. apply app_cut in E as [(k & E & Hk) | (k & E & E2)]; [| | assumption].
    + rewrite (Cp ws1 k s tail) by assumption. reflexivity.
    + subst ws1. apply joined_app in H as (m & H1 & H2). rewrite (Hp _ _ H1). cbn [bind]. now apply (Cf k ws2 m tail).
Qed.
Lemma parses_ret {A} (v : A) : parses (fun s => Ok (v, s)) v [].
Proof.
  split.
  - intros s rest H. inversion H; subst. reflexivity.
  - intros ws1 ws2 s tail E Hn. symmetry in E. apply app_eq_nil in E. tauto.
Qed.
Lemma parses_ext {A} (p q : parser A) v ws : (forall s, p s = q s) -> parses p v ws -> parses q v ws.
Proof. intros E [H1 H2]. split; intros; rewrite <- E; [now apply H1 | now apply (H2 ws1 ws2 s tail)]. Qed.

Lemma parses_n {A} (p : parser A) (tok : A -> list string -> Prop) l ws : (forall x w, In x l -> tok x w -> parses p x w) -> tok_list tok l ws -> parses (read_n (List.length l) p) l ws.
Proof.
  intros Hp H. induction H as [|x l w ws Hx Hl IH]; cbn [List.length read_n].
  - apply parses_ret.
  - apply (parses_bind p (fun x s1 => let* (l, s2) := read_n (List.length l) p s1 in Ok (x :: l, s2)) x w).
    + apply Hp; [now left | assumption].
    + rewrite <- (List.app_nil_r ws). apply (parses_bind (read_n (List.length l) p) (fun l s2 => Ok (x :: l, s2)) l ws).
      * apply IH. intros y w' Hy. apply Hp. now right.
      * apply parses_ret.
Qed.
Lemma tok_vector_list {A} (scan : string -> option (A * string)) v ws : tok_vector scan v ws -> tok_list (fun x w => exists u, w = [u] /\ shows scan x u) v ws.
Proof. induction 1 as [|x w v ws Hx Hv IH]; [constructor |]. change (w :: ws) with ([w] ++ ws). constructor; [now exists w | assumption]. Qed.
Lemma parses_vector {A} (scan : string -> option (A * string)) v ws : tok_vector scan v ws -> parses (read_n (List.length v) (read_one scan)) v ws.
Proof. intros H. apply tok_vector_list in H. revert H. apply parses_n. intros x w _ (u & -> & Hu). now apply parses_one. Qed.

Section Parse.
  Variables (R V : Type) (scan_nat : string -> option (nat * string)) (scan_int : string -> option (Z * string))
    (scan_R : string -> option (R * string)) (scan_V : string -> option (V * string)) (finite : V -> bool) (rescale : R -> R).
  Notation elements := (list ((list Z * list Z) * list (list V))).
  Variable Q : dparams.

  Lemma parses_counted {A} (scan : string -> option (A * string)) last v ws : tok_counted scan_nat scan last v ws -> parses (read_std_vector scan_nat scan last) v ws.
  Proof.
    intros (w & ws' & -> & Hn & Hv). apply parses_vector in Hv. unfold read_std_vector. change (w :: ws') with ([w] ++ ws').
    destruct last.
    - destruct Hn as (n & E & Hn). apply (parses_bind _ (fun nr => read_n (nr + 1) (read_one scan)) n); [now apply parses_one |].
      replace (n + 1)%nat with (List.length v) by lia. assumption.
    - apply (parses_bind _ (fun nr => read_n nr (read_one scan)) (List.length v)); [now apply parses_one | assumption].
  Qed.
  Lemma parses_invar i w : List.length i = q_invdim Q -> tok_vector scan_int i w -> parses (read_invar scan_int Q) i w.
  Proof. intros E H. unfold read_invar. rewrite <- E. now apply parses_vector. Qed.
  Lemma parses_tables n (t : list (list V)) ws : List.length t = n -> tok_list (tok_counted scan_nat scan_V true) t ws -> parses (read_tables V scan_nat scan_V n) t ws.
  Proof. intros <- H. unfold read_tables. revert H. apply parses_n. intros x w _. apply parses_counted. Qed.

  (** Maps *)
  Lemma invar_eqb_iff x y : invar_eqb x y = true <-> x = y.
  Proof. unfold invar_eqb. destruct (list_eq_dec Z.eq_dec x y); split; congruence. Qed.
  Lemma key_eqb_iff x y : key_eqb x y = true <-> x = y.
  Proof. unfold key_eqb. rewrite andb_true_iff, !invar_eqb_iff. destruct x, y; cbn. split; [intros [-> ->] | intros E; injection E]; auto. Qed.
  Lemma map_set_new {K A} (eqb : K -> K -> bool) (k : K) (v : A) m : (forall x y, eqb x y = true <-> x = y) -> ~ In k (map fst m) -> map_set eqb k v m = m ++ [(k, v)].
  Proof.
    intros He. induction m as [|(k', v') m IH]; cbn; intros H; [reflexivity |]. destruct (eqb k' k) eqn:E; [exfalso; apply H; left; now apply He |].
    rewrite IH; [reflexivity |]. tauto.
  Qed.
  Lemma map_get_in {K A} (eqb : K -> K -> bool) (k : K) (v : A) m : (forall x y, eqb x y = true <-> x = y) -> NoDup (map fst m) -> In (k, v) m -> map_get eqb k m = Some v.
  Proof.
    intros He. unfold map_get. induction m as [|(k', v') m IH]; cbn; intros Hn H; [destruct H |]. inversion Hn as [|? ? Hk Hm]; subst.
    destruct (eqb k' k) eqn:E.
    - apply He in E as ->. destruct H as [H | H]; [injection H as ->; reflexivity |]. exfalso. apply Hk. apply in_map_iff. now exists (k, v).
    - destruct H as [H | H]; [injection H as -> ->; rewrite (proj2 (He k k) eq_refl) in E; discriminate |]. now apply IH.
  Qed.
  Lemma map_get_set {K A} (eqb : K -> K -> bool) (k k' : K) (v : A) m : (forall x y, eqb x y = true <-> x = y) ->
    map_get eqb k' (map_set eqb k v m) = if eqb k k' then Some v else map_get eqb k' m.
  Proof.
    intros He. unfold map_get. induction m as [|(x, y) m IH]; cbn.
    - destruct (eqb k k'); reflexivity.
    - destruct (eqb x k) eqn:E; cbn.
      + apply He in E as ->. destruct (eqb k k'); reflexivity.
      + destruct (eqb x k') eqn:E'; cbn; [| exact IH]. apply He in E' as ->. destruct (eqb k k') eqn:E2; [| reflexivity].
        apply He in E2 as ->. rewrite (proj2 (He k' k') eq_refl) in E. discriminate.
  Qed.

  (** Subspaces *)
  Definition final (p : list Z * list R) : list Z * list R := (fst p, if q_rescaled Q then snd p else map rescale (snd p)).
  Lemma final_names l : map fst (map final l) = map fst l.
  Proof. rewrite map_map. reflexivity. Qed.
  Lemma parses_subspaces l ws : tok_list (tok_subspace R scan_nat scan_int scan_R (q_invdim Q)) l ws -> forall d, NoDup (map fst (d ++ l)) ->
    parses (read_subspaces R scan_nat scan_int scan_R rescale Q (List.length l) (map final d)) (map final (d ++ l)) ws.
  Proof.
    induction 1 as [|p l w ws Hp Hl IH]; intros d Hn; cbn [List.length read_subspaces].
    - rewrite List.app_nil_r. apply parses_ret.
    - destruct p as (i, e). destruct Hp as (w1 & w2 & -> & Hi & H1 & H2). cbn [fst snd] in *. rewrite <- app_assoc.
      eapply parses_bind; [apply parses_invar; eassumption |]. cbn beta. eapply parses_bind; [apply parses_counted; exact H2 |]. cbn beta.
      rewrite map_set_new; [| apply invar_eqb_iff |].
      + change [(i, if q_rescaled Q then e else map rescale e)] with (map final [(i, e)]). rewrite <- map_app.
        replace (d ++ (i, e) :: l) with ((d ++ [(i, e)]) ++ l) by (rewrite <- app_assoc; reflexivity).
        apply IH. rewrite <- app_assoc. exact Hn.
      + rewrite final_names. rewrite map_app in Hn. cbn [map fst] in Hn. apply NoDup_remove_2 in Hn. rewrite in_app_iff in Hn. tauto.
  Qed.

  (** Operators *)
  Variable sub : list (list Z * list R).
  Hypothesis Hsub : NoDup (map fst sub).
  Hypothesis Hdim : forall i e, In (i, e) sub -> List.length i = q_invdim Q.
  Notation diag := (map final sub).
  Lemma diag_get i e : In (i, e) sub -> exists e', map_get invar_eqb i diag = Some e' /\ List.length e' = List.length e.
  Proof.
    intros H. exists (if q_rescaled Q then e else map rescale e). split.
    - apply map_get_in; [apply invar_eqb_iff | now rewrite final_names |]. apply in_map_iff. now exists (i, e).
    - destruct (q_rescaled Q); [reflexivity | apply map_length].
  Qed.
  Lemma parses_element v w : finite v = true -> shows scan_V v w -> parses (read_element V scan_V finite) v [w].
  Proof.
    intros Hf Hs. unfold read_element. change [w] with ([w] ++ []). eapply parses_bind; [apply parses_one; exact Hs |]. cbn beta. rewrite Hf. apply parses_ret.
  Qed.
  Lemma parses_matrix n1 n2 m ws : List.length m = n1 -> (forall row, In row m -> List.length row = n2 /\ forall v, In v row -> finite v = true) ->
    tok_matrix V scan_V m ws -> parses (read_matrix V scan_V finite n1 n2) m ws.
  Proof.
    intros <- Hm H. unfold read_matrix. revert H. apply parses_n. intros row w Hr Hw. destruct (Hm row Hr) as [<- Hf]. apply tok_vector_list in Hw.
    revert Hw. apply parses_n. intros v u Hv (u' & -> & Hu). apply parses_element; [now apply Hf | assumption].
  Qed.
  Lemma parses_pairs l ws : tok_list (tok_pair V scan_int scan_V) l ws -> forall m, NoDup (map fst (m ++ l)) ->
    (forall i1 i2 x, In ((i1, i2), x) l -> exists e1 e2, In (i1, e1) sub /\ In (i2, e2) sub /\
      List.length x = List.length e1 /\ forall row, In row x -> List.length row = List.length e2 /\ forall v, In v row -> finite v = true) ->
    parses (read_pairs R V scan_int scan_V finite Q diag (List.length l) m) (m ++ l) ws.
  Proof.
    induction 1 as [|p l w ws Hp Hl IH]; intros m Hn Hg; cbn [List.length read_pairs].
    - rewrite List.app_nil_r. apply parses_ret.
    - destruct p as ((i1, i2), x). destruct Hp as (w1 & w2 & w3 & -> & H1 & H2 & H3). cbn [fst snd] in *.
      destruct (Hg i1 i2 x (or_introl eq_refl)) as (e1 & e2 & I1 & I2 & L1 & L2). rewrite <- !app_assoc.
      eapply parses_bind; [apply parses_invar; [now apply (Hdim i1 e1) | exact H1] |]. cbn beta.
      eapply parses_bind; [apply parses_invar; [now apply (Hdim i2 e2) | exact H2] |]. cbn beta.
      destruct (diag_get _ _ I1) as (e1' & -> & <-) in L1. destruct (diag_get _ _ I2) as (e2' & -> & E2). rewrite <- E2 in L2.
      eapply parses_bind; [apply parses_matrix; [exact L1 | exact L2 | exact H3] |]. cbn beta.
      rewrite map_set_new; [| apply key_eqb_iff |].
      + replace (m ++ (i1, i2, x) :: l) with ((m ++ [(i1, i2, x)]) ++ l) by (rewrite <- app_assoc; reflexivity).
        apply IH; [rewrite <- app_assoc; exact Hn |]. intros j1 j2 y Hy. apply Hg. now right.
      + rewrite map_app in Hn. cbn [map fst] in Hn. apply NoDup_remove_2 in Hn. rewrite in_app_iff in Hn. tauto.
  Qed.
  Lemma parses_elements m ws : good_elements R V finite sub m -> tok_elements V scan_nat scan_int scan_V m ws ->
    parses (read_elements R V scan_nat scan_int scan_V finite Q diag) m ws.
  Proof.
    intros (Hn & Hg) (w & ws' & -> & Hw & Hl). unfold read_elements. change (w :: ws') with ([w] ++ ws').
    eapply parses_bind; [apply parses_one; exact Hw |]. cbn beta. rewrite <- (List.app_nil_r ws').
    eapply parses_bind; [apply (parses_pairs m ws' Hl []); assumption |]. cbn beta. cbn [app]. rewrite Nat.eqb_refl. apply parses_ret.
  Qed.
  Lemma parses_char c : blank c = false -> parses (read_one scan_char) c [String c ""].
  Proof.
    intros Hc. split.
    - intros s rest H. inversion H as [| b w' ws s' rest' Hbl Hst Hj]; subst. inversion Hj; subst. unfold read_one. rewrite skip_blank by assumption. cbn. now rewrite Hc.
    - intros ws1 ws2 s tail E Hn H Ht. destruct ws1 as [|u [|? ws1]]; cbn in E; [| injection E as <- <-; contradiction | discriminate].
      inversion H; subst. unfold read_one. now rewrite skip_all.
  Qed.
  Lemma parses_f i j m ws : good_elements R V finite sub m -> tok_f V scan_nat scan_int scan_V i j m ws ->
    parses (read_f R V scan_nat scan_int scan_V finite Q diag) m ws.
  Proof.
    intros Hg (w1 & w2 & ws' & -> & H1 & H2 & Hm). unfold read_f. change ("f" :: w1 :: w2 :: ws') with (["f"] ++ [w1] ++ [w2] ++ ws').
    eapply parses_bind; [apply parses_char; reflexivity |]. cbn beta.
    eapply (parses_bind _ (fun _ s2 => let* (_, s3) := read_one scan_nat s2 in _)); [apply parses_one; exact H1 |]. cbn beta.
    eapply (parses_bind _ (fun _ s3 => let* _ := _ in read_elements R V scan_nat scan_int scan_V finite Q diag s3)); [apply parses_one; exact H2 |]. cbn beta.
    now apply parses_elements.
  Qed.
  Lemma parses_from {A} (p : parser A) (tok : nat -> A -> list string -> Prop) i l ws : (forall j x w, In x l -> tok j x w -> parses p x w) ->
    tok_from tok i l ws -> parses (read_n (List.length l) p) l ws.
  Proof.
    intros Hp H. apply (parses_n p (fun x w => exists j, tok j x w)).
    - intros x w Hx (j & Hj). now apply (Hp j).
    - clear Hp. induction H; constructor; [now exists i | assumption].
  Qed.
  Lemma parses_opch channels per f ws : List.length f = channels -> (forall l, In l f -> List.length l = per /\ forall m, In m l -> good_elements R V finite sub m) ->
    tok_opch V scan_nat scan_int scan_V f ws -> parses (read_n channels (read_n per (read_f R V scan_nat scan_int scan_V finite Q diag))) f ws.
  Proof.
    intros <- Hf H. unfold tok_opch in H. revert H. apply parses_from. intros i l w Hl. destruct (Hf l Hl) as [<- Hm]. apply parses_from.
    intros j m u Hu. now apply parses_f, Hm.
  Qed.

  (** Comments *)
  Lemma skip_line t s : one_line t -> skip_comments_aux true (t ++ String newline s)%string = skip_comments_aux false s.
  Proof. induction 1 as [|c t Hc Ht IH]; cbn; [reflexivity |]. apply Ascii.eqb_neq in Hc. now rewrite Hc. Qed.
  Lemma skip_filler f s : filler f -> starts_with (fun ch => ch <> "#"%char /\ blank ch = false) s -> skip_comments (f ++ s)%string = s.
  Proof.
    intros Hf Hs. unfold skip_comments. induction Hf as [|c f Hc Hf IH|t f Ht Hf IH].
    - destruct s as [|c s]; cbn in Hs; [destruct Hs |]. destruct Hs as [H1 H2]. cbn. apply Ascii.eqb_neq in H1. rewrite H1.
      destruct (Ascii.eqb_spec c " ") as [-> | _]; [discriminate |]. destruct (Ascii.eqb_spec c tab) as [-> | _]; [discriminate |].
      destruct (Ascii.eqb_spec c newline) as [-> | _]; [discriminate |]. reflexivity.
    - cbn in Hc. cbn. destruct Hc as [<- | [<- | [<- | []]]]; cbn; exact IH.
    - cbn. rewrite app_ass. cbn. rewrite skip_line by assumption. exact IH.
  Qed.
  Lemma skip_filler_end f s : filler f -> ends_or (fun ch => ch <> "#"%char /\ blank ch = false) s -> skip_comments (f ++ s)%string = s.
  Proof.
    intros Hf [-> | Hs]; [| now apply skip_filler]. unfold skip_comments. induction Hf as [|c f Hc Hf IH|t f Ht Hf IH].
    - reflexivity.
    - cbn in Hc. cbn. destruct Hc as [<- | [<- | [<- | []]]]; cbn; exact IH.
    - cbn. rewrite app_ass. cbn. rewrite skip_line by assumption. exact IH.
  Qed.
  Lemma getline_line t s : one_line t -> getline (t ++ String newline s)%string = (t, Some s).
  Proof. induction 1 as [|c t Hc Ht IH]; cbn; [reflexivity |]. apply Ascii.eqb_neq in Hc. rewrite Hc, IH. reflexivity. Qed.
End Parse.
