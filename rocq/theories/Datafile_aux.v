(** A concrete data file for the examples of C64. *)
From Coq Require Import List ZArith Ascii String Bool Lia.
From Verif Require Import Base Oprecalc_model Oprecalc_spec Oprecalc_words Datafile_model Datafile_spec Datafile_parse Datafile_read Datafile_check.
Import ListNotations.
Local Open Scope string_scope.
Local Open Scope list_scope.
Local Open Scope Z_scope.

(** Decimal integers. *)
Definition digit (c : ascii) : option Z := let n := Z.of_nat (nat_of_ascii c) in if ((48 <=? n) && (n <=? 57))%bool then Some (n - 48) else None.
Fixpoint digits (a : Z) (s : string) : Z * string :=
  match s with "" => (a, "") | String c s' => match digit c with Some k => digits (10 * a + k) s' | None => (a, s) end end.
Definition scan_unsigned (s : string) : option (Z * string) :=
  match s with "" => None | String c s' => match digit c with Some k => Some (digits k s') | None => None end end.
Definition scan_signed (s : string) : option (Z * string) :=
  match s with
  | String "-" s' => match scan_unsigned s' with Some (v, r) => Some (- v, r) | None => None end
  | _ => scan_unsigned s
  end.
Definition scan_count (s : string) : option (nat * string) := match scan_unsigned s with Some (v, r) => Some (Z.to_nat v, r) | None => None end.

Lemma blank_digit c : blank c = true -> digit c = None.
Proof. destruct c as [[] [] [] [] [] [] [] []]; cbn; try reflexivity; discriminate. Qed.
Lemma digits_app a w v s : digits a w = (v, "") -> starts_blank s -> digits a (w ++ s)%string = (v, s).
Proof.
  revert a. induction w as [|c w IH]; cbn; intros a H Hs.
  - injection H as <-. destruct Hs as [-> | (c & s' & -> & Hc)]; cbn; [reflexivity |]. now rewrite (blank_digit c Hc).
  - destruct (digit c); [now apply IH | discriminate].
Qed.
Lemma unsigned_app w v s : scan_unsigned w = Some (v, "") -> starts_blank s -> scan_unsigned (w ++ s)%string = Some (v, s).
Proof. destruct w as [|c w]; cbn; [discriminate |]. destruct (digit c); [| discriminate]. intros E Hs. f_equal. apply digits_app; [now injection E | assumption]. Qed.
Lemma signed_app w v s : scan_signed w = Some (v, "") -> starts_blank s -> scan_signed (w ++ s)%string = Some (v, s).
Proof.
  destruct w as [|c w]; [discriminate |]. intros E Hs.
  destruct (Ascii.eqb_spec c "-") as [-> | Hc].
  - cbn in *. destruct (scan_unsigned w) as [[u r] |] eqn:E2; [| discriminate]. injection E as <- ->. now rewrite (unsigned_app w u s E2 Hs).
  - assert (X : forall x, scan_signed (String c x) = scan_unsigned (String c x)) by (intros x; destruct c as [[] [] [] [] [] [] [] []]; try reflexivity; now contradiction Hc).
    rewrite X in E. cbn [append]. rewrite X. exact (unsigned_app (String c w) v s E Hs).
Qed.
Fixpoint no_blank (w : string) : bool := match w with "" => true | String c w' => (negb (blank c) && no_blank w')%bool end.
Lemma no_blank_all w : no_blank w = true -> all_chars (fun c => blank c = false) w.
Proof. induction w as [|c w IH]; cbn; intros H; [constructor |]. apply andb_true_iff in H as [H1 H2]. constructor; [now apply negb_true_iff | auto]. Qed.
Lemma shows_signed v w : w <> "" -> no_blank w = true -> scan_signed w = Some (v, "") -> shows scan_signed v w.
Proof. intros H1 H2 H3. split; [assumption |]. split; [now apply no_blank_all |]. split; [| reflexivity]. intros s. now apply signed_app. Qed.
Lemma shows_count v w : w <> "" -> no_blank w = true -> scan_count w = Some (v, "") -> shows scan_count v w.
Proof.
  intros H1 H2 H3. split; [assumption |]. split; [now apply no_blank_all |]. split; [| reflexivity]. intros s Hs. unfold scan_count in *.
  destruct (scan_unsigned w) as [[u r] |] eqn:E; [| discriminate]. injection H3 as <- ->. now rewrite (unsigned_app w u s E Hs).
Qed.
Lemma digits_length a s : (String.length (snd (digits a s)) <= String.length s)%nat.
Proof. revert a. induction s as [|c s IH]; intros a; cbn [digits]; [cbn; lia |]. destruct (digit c); cbn [snd String.length]; [apply le_S, IH | lia]. Qed.
Lemma unsigned_consumes : consumes scan_unsigned.
Proof. intros s v r. destruct s as [|c s]; cbn; [discriminate |]. destruct (digit c) as [k |]; [| discriminate]. intros E. pose proof (digits_length k s) as H. injection E as E. rewrite E in H. cbn in H. lia. Qed.
Lemma count_consumes : consumes scan_count.
Proof. intros s v r. unfold scan_count. destruct (scan_unsigned s) as [[u q] |] eqn:E; [| discriminate]. intros X. injection X as _ <-. now apply unsigned_consumes in E. Qed.
Lemma signed_consumes : consumes scan_signed.
Proof.
  intros s v r. destruct s as [|c s]; [discriminate |]. destruct (Ascii.eqb_spec c "-") as [-> | Hc].
  - cbn. destruct (scan_unsigned s) as [[u q] |] eqn:E; [| discriminate]. intros X. injection X as _ <-. apply unsigned_consumes in E. lia.
  - assert (X : scan_signed (String c s) = scan_unsigned (String c s)) by (destruct c as [[] [] [] [] [] [] [] []]; try reflexivity; now contradiction Hc).
    rewrite X. apply unsigned_consumes.
Qed.

(** Deciding [joined]. *)
Fixpoint strip (p s : string) : option string :=
  match p, s with "", _ => Some s | String c p', String d s' => if Ascii.eqb c d then strip p' s' else None | _, _ => None end.
Lemma strip_app p s r : strip p s = Some r -> s = (p ++ r)%string.
Proof.
  revert s. induction p as [|c p IH]; intros s; cbn; [intros E; now injection E as -> |]. destruct s as [|d s]; [discriminate |].
  destruct (Ascii.eqb_spec c d) as [-> |]; [| discriminate]. intros E. apply IH in E as ->. reflexivity.
Qed.
Fixpoint join_rest (ws : list string) (s : string) : option string :=
  match ws with
  | [] => Some s
  | w :: ws' => match strip w (skip_ws s) with
                | Some r => if match r with "" => true | String c _ => blank c end then join_rest ws' r else None
                | None => None
                end
  end.
Lemma skip_split s : exists b, all_blank b /\ s = (b ++ skip_ws s)%string.
Proof.
  induction s as [|c s (b & Hb & E)]; cbn; [exists ""; split; [constructor | reflexivity] |]. destruct (blank c) eqn:Hc.
  - exists (String c b). split; [now constructor |]. cbn. now rewrite <- E.
  - exists "". split; [constructor | reflexivity].
Qed.
Lemma join_rest_ok ws s r : join_rest ws s = Some r -> joined ws s r.
Proof.
  revert s. induction ws as [|w ws IH]; intros s; cbn; [intros E; injection E as ->; constructor |].
  destruct (strip w (skip_ws s)) as [q |] eqn:E; [| discriminate]. apply strip_app in E. destruct (skip_split s) as (b & Hb & Es). rewrite E in Es.
  destruct q as [|c q].
  - intros H. rewrite Es. constructor; [assumption | now left | now apply IH].
  - destruct (blank c) eqn:Hc; [| discriminate]. intros H. rewrite Es. constructor; [assumption | right; now exists c, q | now apply IH].
Qed.

(** One channel, the symmetry QS, two subspaces; 1000 and above stand for values that are not finite. *)
Definition small (v : Z) : bool := v <? 1000.
Definition twice (x : Z) : Z := 2 * x.
Definition ex_params : dparams := {| q_symtype := "QS"; q_polarized := false; q_pol2x2 := false; q_rescaled := false; q_invdim := 2 |}.
Definition nl (s : string) : string := String newline s.
Definition ex_items_text : string := "e" ++ nl ("-6" ++ nl ("sn_d" ++ nl ("1" ++ nl ("0 1 0 1" ++ nl ("1" ++ nl ("z" ++ nl ("1 10 20" ++ nl ("1 0 -3" ++ nl ""))))))))%string.
Definition ex_f_text : string := "f 0 0" ++ nl ("1" ++ nl ("1 2 0 1" ++ nl ("3" ++ nl ("4" ++ nl ex_items_text))))%string.
Definition ex_numbers : string := "1 1 2" ++ nl ("# ENERGIES" ++ nl ("0 1" ++ nl ("1 5" ++ nl ("1 2" ++ nl ("2 7 8" ++ nl ("# f" ++ nl ex_f_text))))))%string.
Definition ex_text : string := "# data of a model" ++ nl ("# symtype QS" ++ nl ("#!9" ++ nl ("# sizes" ++ nl ex_numbers)))%string.
Definition ex_content : content Z Z := {|
  c_header := [HText " data of a model"; HText " symtype QS"; HVersion "9"; HText " sizes"]; c_symtype := "QS"; c_channels := 1; c_Nmax := 1;
  c_subspaces := [([0; 1], [5]); ([1; 2], [7; 8])];
  c_f := [[[(([1; 2], [0; 1]), [[3]; [4]])]]];
  c_items := [IEnergy Z Z "" (-6); IOp Z Z Ts "n_d" [(([0; 1], [0; 1]), [[1]])]; ICoef Z Z "z" "" [[[10; 20]]; [[0; -3]]]] |}.

Ltac sw := apply shows_signed; [discriminate | reflexivity | reflexivity].
Ltac cw := apply shows_count; [discriminate | reflexivity | reflexivity].
Ltac vec := repeat (apply Forall2_cons; [sw |]); apply Forall2_nil.
Lemma line_ok t : forallb (fun c => negb (Ascii.eqb c newline)) (list_ascii_of_string t) = true -> one_line t.
Proof. induction t as [|c t IH]; cbn; intros H; [constructor |]. apply andb_true_iff in H as [H1 H2]. constructor; [apply negb_true_iff, Ascii.eqb_neq in H1; exact H1 | apply IH; exact H2]. Qed.
Lemma ex_header : header_text (c_header Z Z ex_content) ex_text ex_numbers.
Proof.
  apply (ht_text " data of a model"); [now apply line_ok | intros H; discriminate |].
  apply (ht_text " symtype QS"); [now apply line_ok | intros H; discriminate |].
  apply (ht_version "9"). apply (ht_text " sizes"); [now apply line_ok | intros H; discriminate |].
  apply ht_nil. cbn. split; discriminate.
Qed.
Lemma ex_f_tok : tok_opch Z scan_count scan_signed scan_signed (c_f Z Z ex_content) ["f"; "0"; "0"; "1"; "1"; "2"; "0"; "1"; "3"; "4"].
Proof.
  unfold tok_opch. apply (tf_cons _ 0 _ [] ["f"; "0"; "0"; "1"; "1"; "2"; "0"; "1"; "3"; "4"] []); [| apply tf_nil].
  apply (tf_cons _ 0 _ [] ["f"; "0"; "0"; "1"; "1"; "2"; "0"; "1"; "3"; "4"] []); [| apply tf_nil].
  exists "0", "0", ["1"; "1"; "2"; "0"; "1"; "3"; "4"]. split; [reflexivity |]. split; [cw |]. split; [cw |].
  exists "1", ["1"; "2"; "0"; "1"; "3"; "4"]. split; [reflexivity |]. split; [cw |].
  apply (tl_cons _ _ [] ["1"; "2"; "0"; "1"; "3"; "4"] []); [| apply tl_nil]. exists ["1"; "2"], ["0"; "1"], ["3"; "4"]. split; [reflexivity |]. split; [vec |]. split; [vec |].
  apply (tl_cons _ _ _ ["3"] ["4"]); [vec |]. apply (tl_cons _ _ _ ["4"] []); [vec |]. apply tl_nil.
Qed.
Lemma ex_subspaces_tok : tok_list (tok_subspace Z scan_count scan_signed scan_signed 2) (c_subspaces Z Z ex_content) ["0"; "1"; "1"; "5"; "1"; "2"; "2"; "7"; "8"].
Proof.
  apply (tl_cons _ _ _ ["0"; "1"; "1"; "5"] ["1"; "2"; "2"; "7"; "8"]).
  - exists ["0"; "1"], ["1"; "5"]. split; [reflexivity |]. split; [reflexivity |]. split; [vec |]. exists "1", ["5"]. split; [reflexivity |]. split; [cw | vec].
  - apply (tl_cons _ _ _ ["1"; "2"; "2"; "7"; "8"] []); [| apply tl_nil].
    exists ["1"; "2"], ["2"; "7"; "8"]. split; [reflexivity |]. split; [reflexivity |]. split; [vec |]. exists "2", ["7"; "8"]. split; [reflexivity |]. split; [cw | vec].
Qed.
Definition ex_op_text : string := "sn_d" ++ nl ("1" ++ nl ("0 1 0 1" ++ nl ("1" ++ nl ("z" ++ nl ("1 10 20" ++ nl ("1 0 -3" ++ nl ""))))))%string.
Lemma ex_op_tok : tok_elements Z scan_count scan_signed scan_signed [(([0; 1], [0; 1]), [[1]])] ["1"; "0"; "1"; "0"; "1"; "1"].
Proof.
  exists "1", ["0"; "1"; "0"; "1"; "1"]. split; [reflexivity |]. split; [cw |].
  apply (tl_cons _ _ [] ["0"; "1"; "0"; "1"; "1"] []); [| apply tl_nil]. exists ["0"; "1"], ["0"; "1"], ["1"]. split; [reflexivity |]. split; [vec |]. split; [vec |].
  apply (tl_cons _ _ [] ["1"] []); [vec | apply tl_nil].
Qed.
Lemma ex_energy_item : item_text Z Z scan_count scan_signed scan_signed scan_signed (IEnergy Z Z "" (-6)) (nl ex_items_text) (nl ex_op_text).
Proof. apply (it_energy Z Z scan_count scan_signed scan_signed scan_signed (nl "") "" (-6) "-6"); [repeat constructor | constructor | sw |]. apply join_rest_ok. reflexivity. Qed.
Lemma ex_items_ok : items_text Z Z scan_count scan_signed scan_signed scan_signed (c_items Z Z ex_content) (nl ex_items_text).
Proof.
  eapply its_cons; [exact ex_energy_item |].
  apply (its_cons Z Z _ _ _ _ _ _ _ (nl ("z" ++ nl ("1 10 20" ++ nl ("1 0 -3" ++ nl "")))%string)).
  { apply (it_op Z Z scan_count scan_signed scan_signed scan_signed (nl "") Ts "n_d" _ ["1"; "0"; "1"; "0"; "1"; "1"]); [repeat constructor | now apply line_ok | exact ex_op_tok |]. apply join_rest_ok. reflexivity. }
  apply (its_cons Z Z _ _ _ _ _ _ _ (nl "")).
  { apply (it_coef Z Z scan_count scan_signed scan_signed scan_signed (nl "") "z" "" _ ["1"; "10"; "20"; "1"; "0"; "-3"]); [repeat constructor | constructor | now left | |].
    - apply (tl_cons _ _ _ ["1"; "10"; "20"] ["1"; "0"; "-3"]).
      + apply (tl_cons _ _ [] ["1"; "10"; "20"] []); [| apply tl_nil]. exists "1", ["10"; "20"]. split; [reflexivity |]. split; [exists 1%nat; split; [reflexivity | cw] | vec].
      + apply (tl_cons _ _ [] ["1"; "0"; "-3"] []); [| apply tl_nil]. apply (tl_cons _ _ [] ["1"; "0"; "-3"] []); [| apply tl_nil].
        exists "1", ["0"; "-3"]. split; [reflexivity |]. split; [exists 1%nat; split; [reflexivity | cw] | vec].
    - apply join_rest_ok. reflexivity. }
  apply its_nil. repeat constructor.
Qed.
Lemma ex_file : file_text Z Z scan_count scan_signed scan_signed scan_signed 2 ex_content ex_text.
Proof.
  apply (ft_all Z Z scan_count scan_signed scan_signed scan_signed 2 ex_content ex_text ex_numbers "1" "1" "2"
    (nl ("# ENERGIES" ++ nl ("0 1" ++ nl ("1 5" ++ nl ("1 2" ++ nl ("2 7 8" ++ nl ("# f" ++ nl ex_f_text)))))))%string
    (nl ("# ENERGIES" ++ nl ""))%string ("0 1" ++ nl ("1 5" ++ nl ("1 2" ++ nl ("2 7 8" ++ nl ("# f" ++ nl ex_f_text)))))%string
    ["0"; "1"; "1"; "5"; "1"; "2"; "2"; "7"; "8"] (nl ("# f" ++ nl ex_f_text))%string
    (nl ("# f" ++ nl ""))%string ex_f_text ["f"; "0"; "0"; "1"; "1"; "2"; "0"; "1"; "3"; "4"] (nl ex_items_text)).
  - exact ex_header.
  - cw.
  - cw.
  - cw.
  - apply join_rest_ok. reflexivity.
  - apply f_space; [cbn; tauto |]. apply (f_comment " ENERGIES" ""); [now apply line_ok | constructor].
  - reflexivity.
  - cbn. split; [discriminate | reflexivity].
  - exact ex_subspaces_tok.
  - apply join_rest_ok. reflexivity.
  - apply f_space; [cbn; tauto |]. apply (f_comment " f" ""); [now apply line_ok | constructor].
  - reflexivity.
  - cbn. split; [discriminate | reflexivity].
  - exact ex_f_tok.
  - apply join_rest_ok. reflexivity.
  - exact ex_items_ok.
Qed.
Lemma ex_good_header : good_header scan_signed (c_header Z Z ex_content) "QS".
Proof.
  split; [| split].
  - exists [HText " data of a model"], " symtype QS", [HVersion "9"; HText " sizes"]. split; [reflexivity |]. split.
    + split; [exists " ", " QS"; split; [discriminate | reflexivity] |]. split; [discriminate |]. split; [repeat constructor; discriminate |].
      exists " symtype", " "%char. split; [reflexivity | now left].
    + intros t' [E | [E | []]]; [discriminate | injection E as <-]. intros H. apply contains_iff in H. discriminate.
  - exists [HText " data of a model"; HText " symtype QS"], "9", [HText " sizes"]. split; [reflexivity |]. split; [sw |]. intros w [E | []]. discriminate.
  - intros w [E | [E | [E | [E | []]]]]; try discriminate. injection E as <-. exists 9. sw.
Qed.
Lemma ex_good : good_content Z Z scan_signed small ex_params ex_content.
Proof.
  split; [exact ex_good_header |]. split; [reflexivity |]. split; [cbn; lia |].
  split. { constructor; [cbn; intros [E | []]; discriminate |]. constructor; [cbn; tauto | constructor]. }
  split. { split; [reflexivity |]. intros l [<- | []]. split; [reflexivity |]. intros m [<- | []]. split; [constructor; [cbn; tauto | constructor] |].
    intros i1 i2 x [E | []]. injection E as <- <- <-. exists [7; 8], [5]. split; [cbn; tauto |]. split; [cbn; tauto |]. split; [reflexivity |].
    intros row [<- | [<- | []]]; (split; [reflexivity |]); intros v [<- | []]; reflexivity. }
  split. { intros x [<- | [<- | [<- | []]]].
    - exact Logic.I.
    - split; [constructor; [cbn; tauto | constructor] |]. intros i1 i2 x [E | []]. injection E as <- <- <-. exists [5], [5]. split; [cbn; tauto |]. split; [cbn; tauto |].
      split; [reflexivity |]. intros row [<- | []]. split; [reflexivity |]. intros v [<- | []]. reflexivity.
    - split; [reflexivity |]. intros t [<- | [<- | []]]; reflexivity. }
  exists 10, [20]. split; reflexivity.
Qed.
(** The same file, cut inside the block of the operator. *)
Definition ex_cut_text : string := "# data of a model" ++ nl ("# symtype QS" ++ nl ("#!9" ++ nl ("# sizes" ++ nl ("1 1 2" ++ nl ("# ENERGIES" ++ nl ("0 1" ++ nl ("1 5" ++ nl ("1 2" ++ nl ("2 7 8" ++ nl
  ("# f" ++ nl ("f 0 0" ++ nl ("1" ++ nl ("1 2 0 1" ++ nl ("3" ++ nl ("4" ++ nl ("e" ++ nl ("-6" ++ nl ("sn_d" ++ nl ("1" ++ nl ("0 1 " ++ ""))))))))))))))))))))%string.
Lemma ex_cut : file_cut Z Z scan_count scan_signed scan_signed scan_signed 2 ex_content ex_cut_text.
Proof.
  apply (fc_item Z Z scan_count scan_signed scan_signed scan_signed 2 ex_content ex_cut_text
    ("1 1 2" ++ nl ("# ENERGIES" ++ nl ("0 1" ++ nl ("1 5" ++ nl ("1 2" ++ nl ("2 7 8" ++ nl
    ("# f" ++ nl ("f 0 0" ++ nl ("1" ++ nl ("1 2 0 1" ++ nl ("3" ++ nl ("4" ++ nl ("e" ++ nl ("-6" ++ nl ("sn_d" ++ nl ("1" ++ nl "0 1 "))))))))))))))))%string "1" "1" "2"
    (nl ("# ENERGIES" ++ nl ("0 1" ++ nl ("1 5" ++ nl ("1 2" ++ nl ("2 7 8" ++ nl
    ("# f" ++ nl ("f 0 0" ++ nl ("1" ++ nl ("1 2 0 1" ++ nl ("3" ++ nl ("4" ++ nl ("e" ++ nl ("-6" ++ nl ("sn_d" ++ nl ("1" ++ nl "0 1 "))))))))))))))))%string
    (nl ("# ENERGIES" ++ nl ""))%string
    ("0 1" ++ nl ("1 5" ++ nl ("1 2" ++ nl ("2 7 8" ++ nl
    ("# f" ++ nl ("f 0 0" ++ nl ("1" ++ nl ("1 2 0 1" ++ nl ("3" ++ nl ("4" ++ nl ("e" ++ nl ("-6" ++ nl ("sn_d" ++ nl ("1" ++ nl "0 1 "))))))))))))))%string
    ["0"; "1"; "1"; "5"; "1"; "2"; "2"; "7"; "8"]
    (nl ("# f" ++ nl ("f 0 0" ++ nl ("1" ++ nl ("1 2 0 1" ++ nl ("3" ++ nl ("4" ++ nl ("e" ++ nl ("-6" ++ nl ("sn_d" ++ nl ("1" ++ nl "0 1 ")))))))))))%string
    (nl ("# f" ++ nl ""))%string
    ("f 0 0" ++ nl ("1" ++ nl ("1 2 0 1" ++ nl ("3" ++ nl ("4" ++ nl ("e" ++ nl ("-6" ++ nl ("sn_d" ++ nl ("1" ++ nl "0 1 ")))))))))%string
    ["f"; "0"; "0"; "1"; "1"; "2"; "0"; "1"; "3"; "4"]
    (nl ("e" ++ nl ("-6" ++ nl ("sn_d" ++ nl ("1" ++ nl "0 1 ")))))%string
    [IEnergy Z Z "" (-6)] (IOp Z Z Ts "n_d" [(([0; 1], [0; 1]), [[1]])]) [ICoef Z Z "z" "" [[[10; 20]]; [[0; -3]]]] (nl ("sn_d" ++ nl ("1" ++ nl "0 1 ")))%string).
  - apply (ht_text " data of a model"); [now apply line_ok | intros H; discriminate |].
    apply (ht_text " symtype QS"); [now apply line_ok | intros H; discriminate |].
    apply (ht_version "9"). apply (ht_text " sizes"); [now apply line_ok | intros H; discriminate |].
    apply ht_nil. cbn. split; discriminate.
  - cw.
  - cw.
  - cw.
  - apply join_rest_ok. reflexivity.
  - apply f_space; [cbn; tauto |]. apply (f_comment " ENERGIES" ""); [now apply line_ok | constructor].
  - reflexivity.
  - cbn. split; [discriminate | reflexivity].
  - exact ex_subspaces_tok.
  - apply join_rest_ok. reflexivity.
  - apply f_space; [cbn; tauto |]. apply (f_comment " f" ""); [now apply line_ok | constructor].
  - reflexivity.
  - cbn. split; [discriminate | reflexivity].
  - exact ex_f_tok.
  - apply join_rest_ok. reflexivity.
  - reflexivity.
  - eapply ib_cons; [| apply ib_nil]. apply (it_energy Z Z scan_count scan_signed scan_signed scan_signed (nl "") "" (-6) "-6"); [repeat constructor | constructor | sw |]. apply join_rest_ok. reflexivity.
  - apply (ic_op Z Z scan_count scan_signed scan_signed scan_signed (nl "") Ts "n_d" _ ["1"; "0"; "1"; "0"; "1"; "1"]); [repeat constructor | now apply line_ok | exact ex_op_tok |].
    exists ["1"; "0"; "1"], ["0"; "1"; "1"], " ". split; [reflexivity |]. split; [discriminate |]. split; [apply join_rest_ok; reflexivity | repeat constructor].
Qed.

(** Two channels, the blocks of which carry the labels [a] and [b]. *)
Definition two_channels (a b : string) : string :=
  "# symtype QS" ++ nl ("#!9" ++ nl ("2 1 2" ++ nl ("0 1" ++ nl ("1 5" ++ nl ("1 2" ++ nl ("1 7" ++ nl
  (("f " ++ a ++ " 0") ++ nl ("1" ++ nl ("1 2 0 1" ++ nl ("3" ++ nl
  (("f " ++ b ++ " 0") ++ nl ("1" ++ nl ("1 2 0 1" ++ nl ("4" ++ nl
  ("z" ++ nl ("1 10 20" ++ nl ("1 10 20" ++ nl ("1 0 0" ++ nl ("1 0 0" ++ nl (""))))))))))))))))))))%string.
Definition read_example := read_data Z Z scan_count scan_signed scan_signed scan_signed small twice ex_params.
Definition two_data : data Z Z := {|
  d_diag := [([0; 1], [10]); ([1; 2], [14])]; d_opch := [[[(([1; 2], [0; 1]), [[3]])]]; [[(([1; 2], [0; 1]), [[4]])]]];
  d_blocks := with_z Z Z (no_blocks Z Z) [[10; 20]; [10; 20]] [[0; 0]; [0; 0]]; d_Nmax := 1; d_channels := 2 |}.
Lemma labels_ignored : read_example (two_channels "0" "1") = Ok two_data /\ read_example (two_channels "1" "0") = Ok two_data.
Proof. split; vm_compute; reflexivity. Qed.
(** The block of an operator after the coefficients is missing. *)
Definition lost_block : string := "sn_d" ++ nl ("1" ++ nl ("0 1 0 1" ++ nl ("1" ++ nl "")))%string.
Definition op_names (r : res (data Z Z)) : option (list string) := match r with Ok d => Some (map fst (o_s _ (b_ops Z Z (d_blocks Z Z d)))) | _ => None end.
Lemma block_lost : op_names (read_example (two_channels "0" "1" ++ lost_block)) = Some ["n_d"] /\ op_names (read_example (two_channels "0" "1")) = Some [].
Proof. split; vm_compute; reflexivity. Qed.
