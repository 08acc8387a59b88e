(** Concrete templates for the examples of C68. *)
From Coq Require Import List ZArith Reals Ascii String Bool Lia Lra Sorted.
From Verif Require Import Base Oprecalc_model Oprecalc_spec Oprecalc_words Datafile_model Datafile_spec Datafile_parse Datafile_read Datafile_aux Instantiate_model Instantiate_spec.
Import ListNotations.
Local Open Scope string_scope.
Local Open Scope list_scope.
Local Open Scope Z_scope.

(** *** Printing integers *)
Definition digit_of (n : Z) : ascii := ascii_of_nat (48 + Z.to_nat n).
Fixpoint decimal (fuel : nat) (n : Z) (acc : string) : string :=
  match fuel with
  | O => String (digit_of n) acc
  | S fuel' => if n <? 10 then String (digit_of n) acc else decimal fuel' (n / 10) (String (digit_of (n mod 10)) acc)
  end.
Definition show_unsigned (n : Z) : string := decimal (Z.to_nat n) n "".
Definition show_count (n : nat) : string := show_unsigned (Z.of_nat n).
Definition show_signed (n : Z) : string := if n <? 0 then String "-" (show_unsigned (- n)) else show_unsigned n.

Lemma digit_back n : 0 <= n < 10 -> digit (digit_of n) = Some n /\ blank (digit_of n) = false /\ digit_of n <> "#"%char.
Proof.
  intros H. assert (n = 0 \/ n = 1 \/ n = 2 \/ n = 3 \/ n = 4 \/ n = 5 \/ n = 6 \/ n = 7 \/ n = 8 \/ n = 9) as C by lia.
  repeat destruct C as [-> | C]; try (subst n; repeat split; discriminate); repeat split; discriminate.
Qed.
Lemma decimal_back fuel n acc : 0 <= n -> n <= Z.of_nat fuel -> exists k s, 0 <= k < 10 /\ decimal fuel n acc = String (digit_of k) s /\ digits k s = digits n acc /\
  (no_blank acc = true -> no_blank s = true).
Proof.
  revert n acc. induction fuel as [|fuel IH]; intros n acc H0 Hn.
  - exists n, acc. repeat split; try lia; auto.
  - cbn [decimal]. destruct (Z.ltb_spec n 10) as [L | L]; [exists n, acc; repeat split; try lia; auto |].
    destruct (IH (n / 10) (String (digit_of (n mod 10)) acc)) as (k & s & H1 & H2 & H3 & H4).
    + apply Z.div_pos; lia.
    + assert (n / 10 < n) by (apply Z.div_lt; lia). lia.
    + exists k, s. split; [assumption |]. split; [assumption |]. assert (Hm : 0 <= n mod 10 < 10) by (apply Z.mod_pos_bound; lia). destruct (digit_back (n mod 10) Hm) as (D1 & D2 & _). split.
      * rewrite H3. cbn [digits]. rewrite D1. f_equal. rewrite (Z.div_mod n 10) at 3 by lia. reflexivity.
      * intros Ha. apply H4. cbn [no_blank]. rewrite D2, Ha. reflexivity.
Qed.
Lemma show_back n : 0 <= n -> exists k s, 0 <= k < 10 /\ show_unsigned n = String (digit_of k) s /\ scan_unsigned (show_unsigned n) = Some (n, "") /\ no_blank (show_unsigned n) = true.
Proof.
  intros H. destruct (decimal_back (Z.to_nat n) n "" H ltac:(lia)) as (k & s & H1 & H2 & H3 & H4). exists k, s. split; [assumption |]. unfold show_unsigned. rewrite H2. split; [reflexivity |].
  destruct (digit_back k H1) as (D1 & D2 & _). split; [cbn [scan_unsigned]; now rewrite D1, H3 |]. cbn [no_blank]. rewrite D2. now apply H4.
Qed.
Lemma count_shown n : shows scan_count n (show_count n).
Proof.
  destruct (show_back (Z.of_nat n) ltac:(lia)) as (k & s & H1 & H2 & H3 & H4). apply shows_count; unfold show_count; [now rewrite H2 | assumption |]. unfold scan_count. rewrite H3. now rewrite Nat2Z.id.
Qed.
Lemma count_hash n : ~ starts_with (fun c => c = "#"%char) (show_count n).
Proof. destruct (show_back (Z.of_nat n) ltac:(lia)) as (k & s & H1 & H2 & _). unfold show_count. rewrite H2. cbn. apply (digit_back k H1). Qed.
Lemma signed_shown n : shows scan_signed n (show_signed n).
Proof.
  unfold show_signed. destruct (Z.ltb_spec n 0) as [L | L].
  - destruct (show_back (- n) ltac:(lia)) as (k & s & H1 & H2 & H3 & H4). apply shows_signed; [discriminate | exact H4 |]. cbn. rewrite H3. now rewrite Z.opp_involutive.
  - destruct (show_back n L) as (k & s & H1 & H2 & H3 & H4). apply shows_signed; [now rewrite H2 | exact H4 |]. rewrite H2 in *.
    destruct (Ascii.eqb_spec (digit_of k) "-") as [E | E]; [destruct (digit_back k H1) as (D & _); rewrite E in D; discriminate |].
    assert (X : forall c x, c <> "-"%char -> scan_signed (String c x) = scan_unsigned (String c x)) by (intros c x Hc; destruct c as [[] [] [] [] [] [] [] []]; try reflexivity; now contradiction Hc).
    now rewrite X.
Qed.
(** Numbers are written as integers, rounded up. *)
Definition scan_real (s : string) : option (R * string) := match scan_signed s with Some (z, r) => Some (IZR z, r) | None => None end.
Definition show_real (x : R) : string := show_signed (up x).
Definition read_real (x : R) : R := IZR (up x).
Lemma real_shows z w : shows scan_signed z w -> shows scan_real (IZR z) w.
Proof. intros (H1 & H2 & H3 & H4). split; [assumption |]. split; [assumption |]. unfold scan_real. split; [intros s Hs; now rewrite H3 | now rewrite H4]. Qed.
Lemma real_shown x : shows scan_real (read_real x) (show_real x).
Proof. apply real_shows. apply signed_shown. Qed.
Definition word_real (w : string) : option R := match scan_signed w with Some (z, "") => Some (IZR z) | _ => None end.

(** *** A template: two subspaces, one operator with its matrix in the template and one with a file *)
Local Open Scope R_scope.
Definition h1 : rmatrix := [[-10]].
Definition h2 : rmatrix := [[16; -12]; [-12; 9]].
Definition u2 : rmatrix := [[3 / 5; 4 / 5]; [- (4 / 5); 3 / 5]].
Definition files (name : string) : res string := if (String.eqb name "ham_0.1" || String.eqb name "ham_1.2" || String.eqb name "op.n")%bool then Ok name else Throw.
Definition solve (text : string) : res (nat * nat * rmatrix) :=
  if String.eqb text "ham_0.1" then Ok (1%nat, 1%nat, h1) else if String.eqb text "ham_1.2" then Ok (2%nat, 2%nat, h2) else Ok (1%nat, 1%nat, [[7]]).
Definition diagonal (h : rmatrix) : res (list R * rmatrix) := match h with [[x]] => Ok ([x], [[1]]) | _ => Ok ([0; 25], u2) end.
Definition tmpl : template := {|
  t_header := [HText " data of a model"; HText " symtype QS"; HVersion "9"]; t_scale := 5;
  t_subspaces := [([0; 1]%Z, h1); ([1; 2]%Z, h2)];
  t_f := [[(([1; 2]%Z, [0; 1]%Z), [[3]; [4]])]];
  t_items := [([" ground state"], TEnergy); ([], TOp Ts "n_d" [(([0; 1]%Z, [0; 1]%Z), [[7]])])];
  t_comments := [" end"] |}.
Definition tmpl_lines : list string :=
  ["# data of a model"; "# symtype QS"; "#!9"; "1 0 2"; ""; "  # SCALE 5 "; "0 1"; "1"; "DIAG  ham_0.1"; "1 2"; "2"; " DIAG ham_1.2"; "# operators"; "f 0 0"; "1"; "1 2 0 1"; "3"; "4";
   "# ground state"; "e"; "1"; "sn_d"; "1"; "0 1 0 1"; "op.n"; "# end"; "z"; "whatever"].
Definition tmpl_text : string := String.concat "" (map line tmpl_lines).

Ltac black := now apply no_blank_all.
Ltac lw1 := apply lw_one; [discriminate | black].
Ltac lwc w b ws s := apply (lw_cons w b ws s); [discriminate | black | discriminate | repeat constructor |].
Ltac showc := apply shows_count; [discriminate | reflexivity | reflexivity].
Ltac shows_ := apply shows_signed; [discriminate | reflexivity | reflexivity].
Ltac ints := repeat (apply Forall2_cons; [shows_ |]); apply Forall2_nil.
Lemma data_plain d : one_line d -> starts_with (fun c => blank c = false /\ c <> "#"%char) d -> rtrim d = d -> data_line d d.
Proof.
  intros H1 H2 H3. assert (E : d = ("" ++ d ++ "")%string) by (cbn; now rewrite app_nil_r). rewrite E at 2. constructor; [constructor | constructor | cbn; now rewrite app_nil_r | assumption |].
  intros [-> | (s & c & -> & Hc)]; [destruct H2 |]. assert (X : forall u, rtrim (u ++ String c "") <> (u ++ String c "")%string).
  { induction u as [|a u IH]; cbn; [rewrite Hc; discriminate |]. destruct (rtrim (u ++ String c "")) eqn:Er.
    - destruct (blank a); [discriminate |]. intros E'. injection E' as E'. destruct u; discriminate.
    - intros E'. apply IH. injection E' as E'. exact E'. }
  exact (X s H3).
Qed.
Ltac plain := apply data_plain; [now apply line_ok | cbn; split; [reflexivity | discriminate] | reflexivity].
Ltac blanks := repeat (apply ac_cons; [auto |]); apply ac_nil.
Lemma chunk_plain d : data_line d d -> chunk_lines ([], d) [d].
Proof. intros H. apply (cl [] d [] d); [constructor | assumption]. Qed.
Definition nz0 : list noise := [Comment "" " data of a model"; Comment "" " symtype QS"; Comment "" "!9"].
Definition first_c : list chunk := [([Empty ""; Comment "  " " SCALE 5 "], "0 1"); ([], "1"); ([], "DIAG  ham_0.1")].
Definition others_c : list (list chunk) := [[([], "1 2"); ([], "2"); ([], "DIAG ham_1.2")]].
Definition f_c : list (list chunk) := [[([Comment "" " operators"], "f 0 0"); ([], "1"); ([], "1 2 0 1"); ([], "3"); ([], "4")]].
Definition items_c : list (list chunk) := [[([Comment "" " ground state"], "e"); ([], "1")]; [([], "sn_d"); ([], "1"); ([], "0 1 0 1"); ([], "op.n")]].
Definition ending_c : ending := AtCoef [Comment "" " end"] "z" ["whatever"].
Lemma comment_plain t l : l = String "#" t -> one_line t -> noise_line (Comment "" t) l.
Proof. intros -> H. apply (nl_comment "" t); [constructor | assumption]. Qed.
Ltac note := apply comment_plain; [reflexivity | now apply line_ok].
Lemma tmpl_layout : layout ((nz0, "1 0 2") :: List.concat (first_c :: others_c) ++ List.concat f_c ++ List.concat items_c) ending_c tmpl_text.
Proof.
  exists (firstn 25 tmpl_lines), (skipn 25 tmpl_lines). split; [| split].
  - apply (tl_cons _ _ _ ["# data of a model"; "# symtype QS"; "#!9"; "1 0 2"]).
    { apply (cl nz0 "1 0 2" ["# data of a model"; "# symtype QS"; "#!9"] "1 0 2"); [| plain]. repeat (apply Forall2_cons; [note |]); apply Forall2_nil. }
    apply (tl_cons _ _ _ [""; "  # SCALE 5 "; "0 1"]).
    { apply (cl _ "0 1" [""; "  # SCALE 5 "] "0 1"); [| plain]. constructor; [constructor; constructor |]. constructor; [| constructor].
      apply (nl_comment "  " " SCALE 5 "); [repeat constructor | now apply line_ok]. }
    apply (tl_cons _ _ _ ["1"]); [apply chunk_plain; plain |].
    apply (tl_cons _ _ _ ["DIAG  ham_0.1"]); [apply chunk_plain; plain |].
    apply (tl_cons _ _ _ ["1 2"]); [apply chunk_plain; plain |].
    apply (tl_cons _ _ _ ["2"]); [apply chunk_plain; plain |].
    apply (tl_cons _ _ _ [" DIAG ham_1.2"]).
    { apply (cl [] "DIAG ham_1.2" [] " DIAG ham_1.2"); [constructor |]. apply (dl " " "DIAG ham_1.2" ""); [repeat constructor | constructor | now apply line_ok | cbn; split; [reflexivity | discriminate] |].
      assert (G : data_line "DIAG ham_1.2" "DIAG ham_1.2") by plain. inversion G; subst; assumption. }
    apply (tl_cons _ _ _ ["# operators"; "f 0 0"]). { apply (cl _ "f 0 0" ["# operators"] "f 0 0"); [repeat (apply Forall2_cons; [note |]); apply Forall2_nil | plain]. }
    apply (tl_cons _ _ _ ["1"]); [apply chunk_plain; plain |].
    apply (tl_cons _ _ _ ["1 2 0 1"]); [apply chunk_plain; plain |].
    apply (tl_cons _ _ _ ["3"]); [apply chunk_plain; plain |].
    apply (tl_cons _ _ _ ["4"]); [apply chunk_plain; plain |].
    apply (tl_cons _ _ _ ["# ground state"; "e"]). { apply (cl _ "e" ["# ground state"] "e"); [repeat (apply Forall2_cons; [note |]); apply Forall2_nil | plain]. }
    apply (tl_cons _ _ _ ["1"]); [apply chunk_plain; plain |].
    apply (tl_cons _ _ _ ["sn_d"]); [apply chunk_plain; plain |].
    apply (tl_cons _ _ _ ["1"]); [apply chunk_plain; plain |].
    apply (tl_cons _ _ _ ["0 1 0 1"]); [apply chunk_plain; plain |].
    apply (tl_cons _ _ _ ["op.n"]); [apply chunk_plain; plain |].
    apply tl_nil.
  - apply (el_coef _ "z" ["whatever"] ["# end"; "z"]); [| cbn; tauto]. apply (cl _ "z" ["# end"] "z"); [repeat (apply Forall2_cons; [note |]); apply Forall2_nil | plain].
  - rewrite firstn_skipn. unfold tmpl_text. generalize (eq_refl : forallb (fun l => forallb (fun c => negb (Ascii.eqb c newline)) (list_ascii_of_string l)) tmpl_lines = true). generalize tmpl_lines.
    induction l as [|x l IH]; intros H; [constructor |]. cbn [forallb] in H. apply andb_true_iff in H as [H1 H2].
    assert (E : String.concat "" (map line (x :: l)) = (x ++ String newline (String.concat "" (map line l)))%string).
    { cbn [map]. destruct (map line l) eqn:El; [cbn; unfold line; now destruct x |]. change (String.concat "" (line x :: s :: l0)) with (line x ++ "" ++ String.concat "" (s :: l0))%string.
      unfold line. rewrite app_ass. reflexivity. }
    rewrite E. constructor; [now apply line_ok | now apply IH].
Qed.
Lemma tmpl_ok : template_text scan_count scan_signed scan_real word_real files solve tmpl tmpl_text.
Proof.
  apply (tt_all _ _ _ _ _ _ tmpl tmpl_text nz0 "1 0 2" "1" "0" "2" first_c others_c f_c items_c ending_c).
  - repeat constructor; intros H; discriminate.
  - lwc "1" " " ["0"; "2"] "0 2". lwc "0" " " ["2"] "2". lw1.
  - showc.
  - exists 0%nat. showc.
  - showc.
  - apply Forall2_cons; [| apply Forall2_cons; [| apply Forall2_nil]].
    + exists "0 1", "1", "DIAG  ham_0.1", ["0"; "1"], "ham_0.1", "ham_0.1". split; [reflexivity |]. split; [lwc "0" " " ["1"] "1"; lw1 |]. split; [ints |]. split; [showc |].
      split; [cbn; intros [H | H]; discriminate |]. split; [lwc "DIAG" "  " ["ham_0.1"] "ham_0.1"; lw1 |]. split; reflexivity.
    + exists "1 2", "2", "DIAG ham_1.2", ["1"; "2"], "ham_1.2", "ham_1.2". split; [reflexivity |]. split; [lwc "1" " " ["2"] "2"; lw1 |]. split; [ints |]. split; [showc |].
      split; [cbn; intros [H | H]; discriminate |]. split; [lwc "DIAG" " " ["ham_1.2"] "ham_1.2"; lw1 |]. split; reflexivity.
  - assert (P : forall t, String.eqb (fst (next_word t)) "SCALE" = false -> plain_note t).
    { intros t H b r Hb Hn Hr ->. unfold next_word in H. rewrite skip_blank in H by assumption.
      assert (X : take_word (String "S" (String "C" (String "A" (String "L" (String "E" r))))) = ("SCALE", r)). { destruct Hr as [-> | (c & r' & -> & Hc)]; cbn; [reflexivity |]. now rewrite Hc. }
      change (skip_ws ("SCALE" ++ r)%string) with (String "S" (String "C" (String "A" (String "L" (String "E" r))))) in H. rewrite X in H. discriminate. }
    cbn [nz0 first_c app flat_map fst]. do 3 (apply sc_plain; [apply P; reflexivity |]). apply sc_empty.
    apply (sc_scale _ _ _ _ _ _ 5); [| apply sc_nil]. exists " ", " ", "5", " ". split; [reflexivity |]. split; [repeat constructor |]. split; [discriminate |]. split; [repeat constructor |]. split; [discriminate |].
    split; [apply (real_shows 5); shows_ | repeat constructor].
  - cbn [tmpl t_f List.length seq combine]. apply Forall2_cons; [| apply Forall2_nil].
    exists "f 0 0", ["1"; "1 2 0 1"; "3"; "4"], "0", "0". split; [reflexivity |]. split; [lwc "f" " " ["0"; "0"] "0 0"; lwc "0" " " ["0"] "0"; lw1 |]. split; [showc |]. split; [showc |].
    exists "1", ["1 2 0 1"; "3"; "4"]. split; [reflexivity |]. split; [showc |]. split; [cbn; intros [H | H]; discriminate |].
    apply (tl_cons _ _ [] ["1 2 0 1"; "3"; "4"] []); [| apply tl_nil]. exists "1 2 0 1", ["3"; "4"], ["1"; "2"; "0"; "1"]. split; [reflexivity |].
    split; [lwc "1" " " ["2"; "0"; "1"] "2 0 1"; lwc "2" " " ["0"; "1"] "0 1"; lwc "0" " " ["1"] "1"; lw1 |]. split; [ints |].
    right. split; [cbn; discriminate |]. apply Forall2_cons; [exists ["3"]; split; [lw1 | repeat constructor] |]. apply Forall2_cons; [exists ["4"]; split; [lw1 | repeat constructor] |]. apply Forall2_nil.
  - intros cs [].
  - apply Forall2_cons; [split; [reflexivity | now exists "1"] |]. apply Forall2_cons; [| apply Forall2_nil]. split; [reflexivity |]. exists ["1"; "0 1 0 1"; "op.n"]. split; [reflexivity |].
    exists "1", ["0 1 0 1"; "op.n"]. split; [reflexivity |]. split; [showc |]. split; [cbn; intros [H | H]; discriminate |].
    apply (tl_cons _ _ [] ["0 1 0 1"; "op.n"] []); [| apply tl_nil]. exists "0 1 0 1", ["op.n"], ["0"; "1"; "0"; "1"]. split; [reflexivity |].
    split; [lwc "0" " " ["1"; "0"; "1"] "1 0 1"; lwc "1" " " ["0"; "1"] "0 1"; lwc "0" " " ["1"] "1"; lw1 |]. split; [ints |].
    left. exists "op.n", "op.n". repeat split; reflexivity.
  - reflexivity.
  - exact tmpl_layout.
Qed.

Lemma h1_symmetric : symmetric h1.
Proof.
  split; [split; [reflexivity | intros row [<- | []]; reflexivity] |]. intros [|[|k]] [|[|l]]; try reflexivity; unfold entry, h1; cbn [nth]; destruct k; try destruct l; reflexivity.
Qed.
Lemma h2_symmetric : symmetric h2.
Proof.
  split; [split; [reflexivity | intros row [<- | [<- | []]]; reflexivity] |]. intros [|[|[|k]]] [|[|[|l]]]; try reflexivity; unfold entry, h2; cbn [nth]; destruct k; try destruct l; reflexivity.
Qed.
Lemma h1_basis : eigenbasis h1 [-10] [[1]].
Proof.
  split; [reflexivity |]. split; [split; [reflexivity | intros row [<- | []]; reflexivity] |]. split; [repeat constructor |].
  split; [| split]; intros [|k] [|l] Hk Hl; cbn in Hk, Hl; try lia; cbv [total entry nth map seq fold_right List.length h1 delta Nat.eqb]; lra.
Qed.
Lemma h2_basis : eigenbasis h2 [0; 25] u2.
Proof.
  split; [reflexivity |]. split; [split; [reflexivity | intros row [<- | [<- | []]]; reflexivity] |]. split; [repeat constructor; lra |].
  split; [| split]; intros [|[|k]] [|[|l]] Hk Hl; cbn in Hk, Hl; try lia; cbv [total entry nth map seq fold_right List.length h2 u2 delta Nat.eqb]; lra.
Qed.
Lemma tmpl_solved i h : In (i, h) (t_subspaces tmpl) -> symmetric h ->
  exists val vec, diagonal h = Ok (val, vec) /\ eigenbasis h val vec /\ forall x, In x val -> x / t_scale tmpl < 1000.
Proof.
  cbn [tmpl t_subspaces t_scale]. intros [E | [E | []]] _; injection E as <- <-.
  - exists [-10], [[1]]. split; [reflexivity |]. split; [exact h1_basis |]. intros x [<- | []]. lra.
  - exists [0; 25], u2. split; [reflexivity |]. split; [exact h2_basis |]. intros x [<- | [<- | []]]; lra.
Qed.
Lemma tmpl_header : good_header scan_signed (t_header tmpl) "QS".
Proof.
  split; [| split].
  - exists [HText " data of a model"], " symtype QS", [HVersion "9"]. split; [reflexivity |]. split.
    + split; [exists " ", " QS"; split; [discriminate | reflexivity] |]. split; [discriminate |]. split; [repeat constructor; discriminate |].
      exists " symtype", " "%char. split; [reflexivity | now left].
    + intros t' [E | []]. discriminate.
  - exists [HText " data of a model"; HText " symtype QS"], "9", []. split; [reflexivity |]. split; [shows_ |]. intros w [].
  - intros w [E | [E | [E | []]]]; try discriminate. injection E as <-. exists 9%Z. shows_.
Qed.
Lemma tmpl_good : good_template scan_signed ex_params tmpl.
Proof.
  split; [exact tmpl_header |]. split; [cbn; lra |]. split; [discriminate |].
  split. { cbn. constructor; [intros [E | []]; discriminate |]. constructor; [tauto | constructor]. }
  split. { cbn [tmpl t_subspaces]. intros i h [E | [E | []]]; injection E as <- <-; (split; [reflexivity |]; split; [cbn; lia |]); [exact h1_symmetric | exact h2_symmetric]. }
  split; [cbn; lia |]. split; [reflexivity |].
  split. { cbn [tmpl t_f]. intros m [<- | []]. split; [constructor; [tauto | constructor] |]. intros i j x [E | []]. injection E as <- <- <-.
    split; [reflexivity |]. split; [reflexivity |]. split; [cbn; tauto |]. split; [cbn; tauto |]. split; [reflexivity |]. intros row [<- | [<- | []]]; reflexivity. }
  split. { cbn [tmpl t_items]. intros c tt n m [E | [E | []]]; [discriminate |]. injection E as <- <- <- <-. split; [constructor; [tauto | constructor] |]. intros i j x [E | []]. injection E as <- <- <-.
    split; [reflexivity |]. split; [reflexivity |]. split; [cbn; tauto |]. split; [cbn; tauto |]. split; [reflexivity |]. intros row [<- | []]; reflexivity. }
  exists [" ground state"]. now left.
Qed.

(** *** A matrix element that is not a number: [None].  One subspace, one f operator, the operator n_d from a file. *)
Local Open Scope Z_scope.
Definition lift (f : Z -> Z -> Z) (x y : option Z) : option Z := match x, y with Some a, Some b => Some (f a b) | _, _ => None end.
Definition nan_num : num (option Z) := {|
  n_zero := Some 0; n_one := Some 1; n_top := Some 1000000; n_add := lift Z.add; n_sub := lift Z.sub; n_mul := lift Z.mul; n_div := lift Z.div;
  n_lt := fun x y => match x, y with Some a, Some b => a <? b | _, _ => false end; n_eq := fun x y => match x, y with Some a, Some b => a =? b | _, _ => false end;
  n_big := fun x => match x with Some a => negb (a =? 0) | None => false end |}.
Definition scan_opt (s : string) : option (option Z * string) := match scan_signed s with Some (z, r) => Some (Some z, r) | None => None end.
Definition show_opt (x : option Z) : string := match x with Some z => show_signed z | None => "nan" end.
Definition is_number (x : option Z) : bool := match x with Some _ => true | None => false end.
Definition nan_solve (text : string) : res (nat * nat * list (list (option Z))) :=
  if String.eqb text "op.n" then Ok (1%nat, 1%nat, [[None]]) else Ok (1%nat, 1%nat, [[Some 5]]).
Definition nan_dsyev (h : list (list (option Z))) : res (list (option Z) * list (list (option Z))) := Ok ([nth 0 (nth 0 h []) None], [[Some 1]]).
Definition nan_strtod (w : string) : option (option Z) := match scan_signed w with Some (z, "") => Some (Some z) | _ => None end.
Definition nan_text : string := String.concat "" (map line
  ["# symtype QS"; "#!9"; "1 0 1"; "# SCALE 1"; "0 1"; "1"; "DIAG ham"; "f 0 0"; "1"; "0 1 0 1"; "3"; "e"; "0"; "sn_d"; "1"; "0 1 0 1"; "op.n"; "z"]).
Definition nan_read := read_data (option Z) (option Z) scan_count scan_signed scan_opt scan_opt is_number (fun x => x) ex_params.
Definition nan_instantiate := instantiate nan_num scan_count scan_signed scan_opt nan_strtod is_number (fun x => x) show_count show_opt show_opt
  (fun name => Ok name) nan_solve nan_dsyev ex_params.

Lemma opt_consumes : consumes scan_opt.
Proof. intros s v r. unfold scan_opt. destruct (scan_signed s) as [[z q] |] eqn:E; [| discriminate]. intros X. injection X as _ <-. now apply signed_consumes in E. Qed.
Lemma nan_defined : (forall s, nan_solve s <> UB) /\ (forall m, nan_dsyev m <> UB).
Proof. split; [intros s; unfold nan_solve; destruct (String.eqb _ _); discriminate | intros m; discriminate]. Qed.
