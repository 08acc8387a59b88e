(** Proofs for C26, continued: streams of lines, blocks and the list of parameters. *)
From Coq Require Import List ZArith Bool Ascii String Lia.
From Verif Require Import Base Params_model Params_spec Params_proofs.
Import ListNotations.
Local Open Scope list_scope.

(** * Streams *)
Definition at_lines (F : istream) (ls : list text) : Prop :=
  failb F = false /\ ((eofb F = true /\ ls = []) \/ (eofb F = false /\ has_lines (rest F) ls)).

Lemma take_nl l s : ~ In end_of_line l -> take_line (l ++ end_of_line :: s) = (l, s, true).
Proof.
  induction l as [|c l IH]; simpl; [reflexivity|]. intros H. destruct (Ascii.eqb c newline) eqn:E.
  - apply Ascii.eqb_eq in E. elim H. left. exact E.
  - rewrite IH by tauto. reflexivity.
Qed.
Lemma take_end l : ~ In end_of_line l -> take_line l = (l, [], false).
Proof.
  induction l as [|c l IH]; simpl; [reflexivity|]. intros H. destruct (Ascii.eqb c newline) eqn:E.
  - apply Ascii.eqb_eq in E. elim H. left. exact E.
  - rewrite IH by tauto. reflexivity.
Qed.
Lemma has_nil f : has_lines f [] -> f = [].
Proof. intros [_ [H|(a & b & H & _)]]; [auto|]. destruct a; discriminate. Qed.
Lemma has_cons f l ls : has_lines f (l :: ls) ->
  ~ In end_of_line l /\ ((exists r, f = l ++ end_of_line :: r /\ has_lines r ls) \/ (f = l /\ l <> [] /\ ls = [])).
Proof.
  intros [H1 H2]. split; [apply H1; now left|]. destruct H2 as [->|(a & b & E & Hb & ->)].
  - left. eexists. split; [reflexivity|]. split; [intros x Hx; apply H1; now right|now left].
  - destruct a as [|a0 a].
    + simpl in E. injection E; intros; subst. right. auto.
    + simpl in E. injection E; intros; subst. left. exists (unlines a ++ b). split; [simpl; now rewrite <- app_assoc|].
      split; [intros x Hx; apply H1; now right|]. right. exists a, b. auto.
Qed.
Lemma has_length f ls : has_lines f ls -> List.length ls <= List.length f.
Proof.
  revert f; induction ls as [|l ls IH]; intros f H; [simpl; lia|].
  apply has_cons in H as [_ [(r & -> & H)|(-> & H & ->)]].
  - apply IH in H. rewrite app_length. simpl. lia.
  - destruct l; [easy|]. simpl. lia.
Qed.
Lemma at_length F ls : at_lines F ls -> List.length ls <= List.length (rest F).
Proof. intros [_ [[_ ->]|[_ H]]]; [simpl; lia|]. now apply has_length. Qed.

Lemma getline_cons F l ls : at_lines F (l :: ls) ->
  exists F', getline F = (l, F') /\ at_lines F' ls /\ failb F' = false.
Proof.
  intros [Hf [[_ H]|[He H]]]; [discriminate|]. unfold getline. rewrite Hf, He. simpl.
  apply has_cons in H as [Hn [(r & E & H)|(E & Hl & ->)]]; rewrite E.
  - rewrite take_nl by auto. eexists. split; [reflexivity|]. split; [|reflexivity]. split; [reflexivity|]. right. auto.
  - rewrite take_end by auto. destruct l as [|c l]; [easy|]. eexists. split; [reflexivity|]. split; [|reflexivity]. split; [reflexivity|]. left. auto.
Qed.
Lemma getline_nil F : at_lines F [] -> exists F', getline F = ([], F') /\ failb F' = true.
Proof.
  intros [Hf [[He _]|[He H]]]; unfold getline; rewrite Hf, He; simpl.
  - eexists. split; reflexivity.
  - apply has_nil in H. rewrite H. simpl. eexists. split; reflexivity.
Qed.
Lemma open_lines f ls : has_lines f ls -> at_lines (open_text f) ls.
Proof. intros H. split; [reflexivity|]. right. auto. Qed.

Lemma every_file : forall f, exists ls, has_lines f ls.
Proof.
  induction f as [|c f (ls & H1 & H2)].
  - exists []. split; [easy|now left].
  - destruct (Ascii.ascii_dec c end_of_line) as [->|Hc].
    + exists ([] :: ls). split; [intros l [<-|Hl]; [easy|auto]|]. destruct H2 as [->|(a & b & -> & Hb & ->)]; [now left|].
      right. exists ([] :: a), b. auto.
    + assert (P : forall l, In l ls -> ~ In end_of_line (c :: l)) by (intros l Hl [G|G]; [congruence|now apply (H1 l)]).
      destruct H2 as [->|(a & b & -> & Hb & ->)].
      * destruct ls as [|l ls].
        -- exists [[c]]. split; [intros l [<-|[]] [G|[]]; congruence|]. right. exists [], [c]. split; [auto|]. split; [easy|]. reflexivity.
        -- exists ((c :: l) :: ls). split; [intros x [<-|Hx]; [apply P; now left|apply H1; now right]|]. now left.
      * destruct a as [|l a].
        -- exists [c :: b]. split; [intros x [<-|[]]; apply P; now left|]. right. exists [], (c :: b). split; [auto|]. split; [easy|]. reflexivity.
        -- exists ((c :: l) :: a ++ [b]). split; [intros x [<-|Hx]; [apply P; now left|apply H1; now right]|].
           right. exists ((c :: l) :: a), b. auto.
Qed.

(** * The reader of the main program on lines *)
Fixpoint nextl (ls : list text) : option (text * list text) :=
  match ls with [] => None | l :: t => if is_blank_or_comment_line l then nextl t else Some (l, t) end.
Lemma nextl_shorter ls l t : nextl ls = Some (l, t) -> List.length t < List.length ls.
Proof.
  induction ls as [|x ls IH]; simpl; [discriminate|]. destruct (is_blank_or_comment_line x); [intros H; apply IH in H; lia|].
  intros [= <- <-]. lia.
Qed.
Lemma nextline_ok ls : forall fuel F, at_lines F ls -> List.length ls < fuel ->
  match nextl ls with
  | None => exists F', nextline fuel F = Ok (None, F') /\ failb F' = true
  | Some (l, t) => exists F', nextline fuel F = Ok (Some l, F') /\ at_lines F' t /\ failb F' = false
  end.
Proof.
  induction ls as [|x ls IH]; intros [|k] F H Hk; simpl in Hk; try lia; simpl.
  - destruct (getline_nil F H) as (F' & -> & Hf). rewrite (proj1 H). rewrite Hf. exists F'. auto.
  - destruct (getline_cons F x ls H) as (F' & E & H' & Hf). rewrite (proj1 H), E, Hf.
    destruct (is_blank_or_comment_line x); [apply IH; [auto|lia]|]. exists F'. auto.
Qed.
Lemma nextline_enough ls F : at_lines F ls ->
  match nextl ls with
  | None => exists F', nextline (enough F) F = Ok (None, F') /\ failb F' = true
  | Some (l, t) => exists F', nextline (enough F) F = Ok (Some l, F') /\ at_lines F' t /\ failb F' = false
  end.
Proof. intros H. apply nextline_ok; [auto|]. pose proof (at_length F ls H). unfold enough. lia. Qed.

Fixpoint parse_lines (ls : list text) (m : smap) : res smap :=
  match ls with
  | [] => Ok m
  | l :: t =>
    match classify l with
    | Nothing => parse_lines t m
    | NewBlock => Ok m
    | Setting k v => if negb (Nat.eqb (count k m) 0) then Throw else parse_lines t (m ++ [(k, v)])
    end
  end.
Lemma ignored_classify l : is_blank_or_comment_line l = true -> classify l = Nothing.
Proof.
  intros H. apply ignored_iff in H. unfold classify. destruct (strip_whitespace l) as [|c t]; [auto|]. subst c. reflexivity.
Qed.
Lemma nextl_parse ls m : parse_lines ls m = match nextl ls with None => Ok m | Some (l, t) => parse_lines (l :: t) m end.
Proof.
  induction ls as [|x ls IH]; [reflexivity|]. simpl nextl. destruct (is_blank_or_comment_line x) eqn:E; [|reflexivity].
  rewrite <- IH. simpl. now rewrite (ignored_classify x E).
Qed.
Lemma classify_visible l : is_blank_or_comment_line l = false ->
  classify l = (let line := strip_whitespace l in if starts "[" line then NewBlock else
    match split_eq line with None => Nothing | Some (a, b) => Setting (strip_whitespace a) (strip_whitespace b) end).
Proof.
  intros H. unfold classify. cbv zeta. assert (N := ignored_iff l). rewrite H in N.
  destruct (strip_whitespace l) as [|c t] eqn:E; [destruct N as [_ N]; discriminate (N Logic.I)|].
  simpl starts. destruct (Ascii.eqb c "#") eqn:E1; [|reflexivity]. apply Ascii.eqb_eq in E1. destruct N as [_ N]. discriminate (N E1).
Qed.
Lemma nextl_visible ls l t : nextl ls = Some (l, t) -> is_blank_or_comment_line l = false.
Proof.
  induction ls as [|x ls IH]; simpl; [discriminate|]. destruct (is_blank_or_comment_line x) eqn:E; [auto|]. now intros [= <- <-].
Qed.

Lemma parse_block_ok : forall n fuel ls F m, List.length ls <= n -> at_lines F ls -> n + 1 < fuel ->
  match parse_lines ls m with
  | Ok m' => exists F', parse_block fuel F m = Ok (m', F')
  | Throw => parse_block fuel F m = Throw
  | UB => False
  end.
Proof.
  induction n as [|n IH]; intros fuel ls F m Hn H Hf; (destruct fuel as [|k]; [lia|]); simpl parse_block; rewrite (proj1 H);
    pose proof (nextline_enough ls F H) as N; rewrite nextl_parse; destruct (nextl ls) as [[l t]|] eqn:E.
  1: apply nextl_shorter in E; lia.
  1, 3: destruct N as (F' & -> & Hf'); simpl bind; destruct k as [|k]; [lia|]; simpl; rewrite Hf'; exists F'; reflexivity.
  destruct N as (F' & -> & H' & Hf'). simpl bind. cbv beta iota.
  simpl parse_lines. rewrite classify_visible by (eapply nextl_visible; exact E). cbv zeta.
  destruct (starts "[" (strip_whitespace l)); [exists F'; reflexivity|].
  apply nextl_shorter in E.
  destruct (split_eq (strip_whitespace l)) as [[a b]|]; [|apply IH; [lia|auto|lia]].
  destruct (negb (Nat.eqb (count (strip_whitespace a) m) 0)); [reflexivity|]. apply IH; [lia|auto|lia].
Qed.

(** The lines after the header of a block. *)
Fixpoint after_header (target : text) (ls : list text) : option (list text) :=
  match ls with
  | [] => None
  | l :: t => if negb (is_blank_or_comment_line l) && text_eqb target (strip_whitespace l) then Some t else after_header target t
  end.
Lemma after_shorter target ls t : after_header target ls = Some t -> List.length t < List.length ls.
Proof.
  induction ls as [|l ls IH]; simpl; [discriminate|]. destruct (_ && _); [intros [= <-]; lia|]. intros H; apply IH in H; lia.
Qed.
Lemma nextl_after target ls : after_header target ls = match nextl ls with None => None | Some (l, t) => after_header target (l :: t) end.
Proof.
  induction ls as [|x ls IH]; [reflexivity|]. simpl nextl. destruct (is_blank_or_comment_line x) eqn:E; [|reflexivity].
  rewrite <- IH. simpl. now rewrite E.
Qed.
Lemma find_loop_ok : forall n fuel ls F target, List.length ls <= n -> at_lines F ls -> n + 1 < fuel ->
  match after_header target ls with
  | Some t => exists F', find_block_loop fuel F target = Ok (true, F') /\ at_lines F' t
  | None => exists F', find_block_loop fuel F target = Ok (false, F')
  end.
Proof.
  induction n as [|n IH]; intros fuel ls F target Hn H Hf; (destruct fuel as [|k]; [lia|]); simpl find_block_loop; rewrite (proj1 H);
    pose proof (nextline_enough ls F H) as N; rewrite nextl_after; destruct (nextl ls) as [[l t]|] eqn:E.
  1: apply nextl_shorter in E; lia.
  1, 3: destruct N as (F' & -> & Hf'); simpl bind; destruct k as [|k]; [lia|]; simpl; rewrite Hf'; exists F'; reflexivity.
  destruct N as (F' & -> & H' & Hf'). simpl bind. cbv beta iota. simpl after_header.
  rewrite (nextl_visible _ _ _ E). simpl andb. apply nextl_shorter in E.
  destruct (text_eqb target (strip_whitespace l)); [exists F'; auto|]. apply IH; [lia|auto|lia].
Qed.
Lemma find_block_ok f ls name : has_lines f ls ->
  match after_header (str "[" ++ name ++ str "]") ls with
  | Some t => exists F', find_block f name = Ok (true, F') /\ at_lines F' t
  | None => exists F', find_block f name = Ok (false, F')
  end.
Proof.
  intros H. apply (find_loop_ok (List.length ls)); [auto|now apply open_lines|].
  apply has_length in H. unfold enough. simpl. lia.
Qed.
Lemma parse_enough ls F : at_lines F ls ->
  match parse_lines ls [] with
  | Ok m' => exists F', parse_block (enough F) F [] = Ok (m', F')
  | Throw => parse_block (enough F) F [] = Throw
  | UB => False
  end.
Proof. intros H. apply (parse_block_ok (List.length ls)); [auto|auto|]. apply at_length in H. unfold enough. lia. Qed.

(** parser as a function of the lines *)
Definition read_lines (ls : list text) (name : text) : res smap :=
  match after_header (str "[" ++ name ++ str "]") ls with None => Throw | Some t => parse_lines t [] end.
Lemma parser_lines f ls name : has_lines f ls -> parser (Some f) name = read_lines ls name.
Proof.
  intros H. unfold parser, read_lines. pose proof (find_block_ok f ls name H) as K.
  destruct (after_header _ ls) as [t|].
  - destruct K as (F' & -> & H'). simpl. apply parse_enough in H'. destruct (parse_lines t []).
    + destruct H' as (F2 & ->). reflexivity.
    + rewrite H'. reflexivity.
    + easy.
  - destruct K as (F' & ->). reflexivity.
Qed.

(** * Blocks *)
Lemma after_block name ls body : block name ls body -> exists t, after_header (str "[" ++ name ++ str "]") ls = Some (body ++ t) /\
  (t = [] \/ exists l u, t = l :: u /\ means l NewBlock).
Proof.
  intros (before & h & after & -> & H1 & H2 & _ & H3). exists after. split; [|auto].
  induction before as [|x before IH]; cbn [app after_header].
  - rewrite (header_visible name h H2), (proj2 (header_iff name h) H2). reflexivity.
  - replace (text_eqb _ (strip_whitespace x)) with false.
    + rewrite andb_false_r. apply IH. intros l Hl. apply H1. now right.
    + symmetry. destruct (text_eqb _ _) eqn:E; [|auto]. apply header_iff in E. elim (H1 x); [now left|auto].
Qed.
Lemma after_none name ls : (forall l, In l ls -> ~ header name l) -> after_header (str "[" ++ name ++ str "]") ls = None.
Proof.
  induction ls as [|x ls IH]; intros H; cbn [after_header]; [auto|].
  replace (text_eqb _ (strip_whitespace x)) with false.
  - rewrite andb_false_r. apply IH. intros l Hl. apply H. now right.
  - symmetry. destruct (text_eqb _ _) eqn:E; [|auto]. apply header_iff in E. elim (H x); [now left|auto].
Qed.
Lemma count_in k m : count k m <> 0 <-> In k (map fst m).
Proof.
  unfold count. induction m as [|[a v] m IH]; simpl; [easy|]. destruct (text_eqb a k) eqn:E.
  - apply text_eqb_iff in E. split; [auto|lia].
  - apply text_eqb_false in E. rewrite IH. split; [auto|]. intros [H|H]; [easy|auto].
Qed.
Lemma parse_settings body kv : settings body kv -> forall t m, (t = [] \/ exists l u, t = l :: u /\ means l NewBlock) ->
  (NoDup (map fst (m ++ kv)) -> parse_lines (body ++ t) m = Ok (m ++ kv)) /\
  (NoDup (map fst m) -> ~ NoDup (map fst (m ++ kv)) -> parse_lines (body ++ t) m = Throw).
Proof.
  induction 1 as [|l ls kv Hl H IH|l ls k v kv Hl H IH]; intros t m Ht; cbn [app].
  - rewrite app_nil_r. split; [intros _|easy]. destruct Ht as [->|(l & u & -> & Hl)]; [reflexivity|].
    simpl. now rewrite (classify_ok _ _ Hl).
  - cbn [parse_lines]. rewrite (classify_ok _ _ Hl). auto.
  - cbn [parse_lines]. rewrite (classify_ok _ _ Hl). destruct (IH t (m ++ [(k, v)]) Ht) as [I1 I2].
    rewrite <- app_assoc in I1, I2. cbn [app] in I1, I2. split.
    + intros N. replace (Nat.eqb (count k m) 0) with true; [auto|]. symmetry. apply Nat.eqb_eq.
      destruct (Nat.eq_dec (count k m) 0) as [|C]; [auto|]. apply count_in in C. exfalso.
      rewrite map_app in N. simpl in N. apply NoDup_remove_2 in N. apply N. apply in_app_iff. now left.
    + intros N1 N2. destruct (Nat.eqb (count k m) 0) eqn:C; [simpl|reflexivity]. apply I2; [|auto].
      apply Nat.eqb_eq in C. rewrite map_app. simpl. apply NoDup_Add with (a := k) (l := map fst m).
      * rewrite <- (app_nil_r (map fst m)) at 1. apply Add_app.
      * split; [auto|]. intros G. apply count_in in G. lia.
Qed.
Lemma parser_block f ls name body kv : has_lines f ls -> block name ls body -> settings body kv ->
  (NoDup (map fst kv) -> parser (Some f) name = Ok kv) /\ (~ NoDup (map fst kv) -> parser (Some f) name = Throw).
Proof.
  intros H1 H2 H3. rewrite (parser_lines f ls name H1). unfold read_lines.
  destruct (after_block name ls body H2) as (t & -> & Ht). destruct (parse_settings body kv H3 t [] Ht) as [P1 P2].
  split; [exact P1|]. apply P2. constructor.
Qed.
Lemma parser_no_block f ls name : has_lines f ls -> (forall l, In l ls -> ~ header name l) -> parser (Some f) name = Throw.
Proof. intros H1 H2. rewrite (parser_lines f ls name H1). unfold read_lines. now rewrite after_none. Qed.

(** Every file with a header has a block, and every block has settings: the theorems cover all files. *)
Lemma header_dec name l : {header name l} + {~ header name l}.
Proof.
  destruct (text_eqb (str "[" ++ name ++ str "]") (strip_whitespace l)) eqn:E.
  - left. now apply header_iff.
  - right. intros H. apply header_iff in H. congruence.
Qed.
Lemma body_exists ls : exists body after, ls = body ++ after /\ (forall l, In l body -> ~ means l NewBlock) /\ (after = [] \/ exists l t, after = l :: t /\ means l NewBlock).
Proof.
  induction ls as [|l ls (b & a & -> & H1 & H2)].
  - exists [], []. split; [auto|]. split; [easy|now left].
  - destruct (classify l) eqn:E.
    + exists (l :: b), a. split; [auto|]. split; [|auto]. intros x [<-|Hx]; [intros G; apply classify_ok in G; congruence|auto].
    + exists [], (l :: b ++ a). split; [auto|]. split; [easy|]. right. exists l, (b ++ a). split; [auto|]. now apply means_iff.
    + exists (l :: b), a. split; [auto|]. split; [|auto]. intros x [<-|Hx]; [intros G; apply classify_ok in G; congruence|auto].
Qed.
Lemma block_exists name ls : (forall l, In l ls -> ~ header name l) \/ exists body, block name ls body.
Proof.
  induction ls as [|l ls IH]; [left; easy|]. destruct (header_dec name l) as [h|h].
  - right. destruct (body_exists ls) as (b & a & -> & H1 & H2). exists b, [], l, a. split; [auto|]. split; [easy|]. auto.
  - destruct IH as [IH|(b & before & x & after & -> & H1 & H2)].
    + left. intros x [<-|Hx]; auto.
    + right. exists b, (l :: before), x, after. split; [auto|]. split; [|auto]. intros y [<-|Hy]; auto.
Qed.
Lemma settings_exist body : (forall l, In l body -> ~ means l NewBlock) -> exists kv, settings body kv.
Proof.
  induction body as [|l b IH]; intros H; [exists []; constructor|].
  destruct IH as (kv & IH); [intros x Hx; apply H; now right|]. destruct (classify l) eqn:E.
  - exists kv. apply skip_line; [now apply means_iff|auto].
  - exfalso. apply (H l); [now left|now apply means_iff].
  - exists ((keyword, value) :: kv). apply add_line; [now apply means_iff|auto].
Qed.
Lemma coverage name f : exists ls, has_lines f ls /\ ((forall l, In l ls -> ~ header name l) \/ exists body kv, block name ls body /\ settings body kv).
Proof.
  destruct (every_file f) as (ls & H). exists ls. split; [auto|]. destruct (block_exists name ls) as [N|(body & B)]; [now left|].
  right. exists body. assert (B' := B). destruct B' as (b & h & a & _ & _ & _ & H2 & _). destruct (settings_exist body H2) as (kv & K). eauto.
Qed.

(** * Lines that do not matter *)
Definition skipped (l : text) : Prop := means l Nothing.
Lemma parse_insert a l b m : skipped l -> parse_lines (a ++ l :: b) m = parse_lines (a ++ b) m.
Proof.
  intros H. revert m; induction a as [|x a IH]; intros m; cbn [app parse_lines].
  - now rewrite (classify_ok _ _ H).
  - destruct (classify x); auto. destruct (negb _); auto.
Qed.
Lemma not_header name l : skipped l -> text_eqb (str "[" ++ name ++ str "]") (strip_whitespace l) = false.
Proof.
  intros H. destruct (text_eqb _ _) eqn:E; [|auto]. apply header_iff in E. destruct E as (w1 & w2 & H1 & H2 & E).
  assert (G : means l NewBlock) by (rewrite E; now apply block_line). apply classify_ok in G, H. congruence.
Qed.
Lemma read_insert a l b name : skipped l -> read_lines (a ++ l :: b) name = read_lines (a ++ b) name.
Proof.
  intros H. unfold read_lines.
  assert (K : forall a, match after_header (str "[" ++ name ++ str "]") (a ++ l :: b) with None => Throw | Some t => parse_lines t [] end =
    match after_header (str "[" ++ name ++ str "]") (a ++ b) with None => Throw | Some t => parse_lines t [] end); [|apply K].
  intros x. induction x as [|y x IH]; cbn [app after_header].
  - rewrite (not_header name l H), andb_false_r. reflexivity.
  - destruct (_ && _); [now apply parse_insert|auto].
Qed.
Lemma has_insert f f' a l b name : has_lines f (a ++ l :: b) -> has_lines f' (a ++ b) -> means l Nothing -> parser (Some f) name = parser (Some f') name.
Proof. intros H1 H2 H3. rewrite (parser_lines _ _ _ H1), (parser_lines _ _ _ H2). now apply read_insert. Qed.

(** * The parameters *)
Section Values.
Context {V : Type}.
Implicit Types (p : param V) (all : list (param V)).

Lemma find_in k v m : NoDup (map fst m) -> (find k m = Some v <-> In (k, v) m).
Proof.
  induction m as [|[a w] m IH]; simpl; [easy|]. intros N. inversion N as [|? ? N1 N2]; subst.
  destruct (text_eqb a k) eqn:E.
  - apply text_eqb_iff in E. subst a. split; [intros [= ->]; now left|]. intros [[= ->]|H]; [auto|]. elim N1. apply in_map_iff. exists (k, v). auto.
  - apply text_eqb_false in E. rewrite IH by auto. split; [auto|]. intros [[= -> ->]|H]; [easy|auto].
Qed.
Lemma find_none k m : find k m = None <-> ~ In k (map fst m).
Proof.
  rewrite <- count_in. unfold count. destruct (find k m); split; try easy; intros H; elim H; lia.
Qed.
Lemma erase_in k k' v m : In (k', v) (erase k m) <-> In (k', v) m /\ k' <> k.
Proof. unfold erase. rewrite filter_In. simpl. rewrite negb_true_iff, text_eqb_false. tauto. Qed.
Lemma erase_nodup k m : NoDup (map fst m) -> NoDup (map fst (erase k m)).
Proof.
  induction m as [|[a w] m IH]; simpl; [auto|]. intros N. inversion N as [|? ? N1 N2]; subst. destruct (negb _); simpl; [|auto].
  constructor; [|auto]. intros G. apply N1. apply in_map_iff in G as ([x y] & E & G). simpl in E. subst x. apply erase_in in G as [G _].
  apply in_map_iff. exists (a, y). auto.
Qed.
Lemma erase_absent k m : ~ In k (map fst m) -> erase k m = m.
Proof.
  induction m as [|[a w] m IH]; simpl; [auto|]. intros H. replace (text_eqb a k) with false; [simpl; f_equal; apply IH; tauto|].
  symmetry. apply text_eqb_false. intros ->. apply H. now left.
Qed.

(** The loop over the parameters. *)
Lemma set_all_ok all : NoDup (map (@keyword V) all) -> forall m, NoDup (map fst m) ->
  (forall p s, In p all -> In (keyword p, s) m -> from_string p s <> None) ->
  exists l, set_all all m = Ok (l, filter (fun kv => negb (existsb (fun p => text_eqb (fst kv) (keyword p)) all)) m) /\
    Forall2 (fun p q => keyword q = keyword p /\
      ((exists s v, In (keyword p, s) m /\ from_string p s = Some v /\ data q = v /\ is_default q = false) \/
       (~ In (keyword p) (map fst m) /\ q = p))) all l.
Proof.
  induction all as [|i all IH]; intros Na m Nm Hc; simpl.
  - exists []. split; [|constructor]. f_equal. f_equal. induction m as [|x m IHm]; simpl; [auto|]. f_equal. apply IHm; [|easy]. now inversion Nm.
  - inversion Na as [|? ? Na1 Na2]; subst. unfold count. destruct (find (keyword i) m) as [s|] eqn:E.
    + simpl. apply find_in in E; [|auto]. unfold set_str. destruct (from_string i s) as [v|] eqn:Ev; [|now elim (Hc i s (or_introl eq_refl) E)].
      simpl. destruct (IH Na2 (erase (keyword i) m)) as (l & Hl & Hf).
      * now apply erase_nodup.
      * intros p t Hp Ht. apply erase_in in Ht as [Ht _]. apply Hc; [now right|auto].
      * rewrite Hl. simpl. eexists. split.
        -- f_equal. f_equal. unfold erase. clear. induction m as [|[a w] m IHm]; simpl; [auto|].
           destruct (text_eqb a (keyword i)) eqn:Ea; simpl; [auto|]. destruct (existsb _ all); simpl; [auto|]. f_equal. auto.
        -- constructor.
           ++ simpl. split; [auto|]. left. exists s, v. auto.
           ++ clear - Na1 Hf. induction Hf as [|p q all l [Hk H] Hf IHf]; constructor.
              ** split; [auto|]. assert (Hne : keyword p <> keyword i) by (intros G; apply Na1; simpl; now left).
                 destruct H as [(t & v' & H1 & H2)|[H1 H2]].
                 --- left. exists t, v'. apply erase_in in H1 as [H1 _]. auto.
                 --- right. split; [|auto]. intros G. apply H1. apply in_map_iff in G as ([x y] & Ex & G). simpl in Ex. subst x.
                     apply in_map_iff. exists (keyword p, y). split; [auto|]. apply erase_in. auto.
              ** apply IHf. intros G. apply Na1. simpl. now right.
    + simpl. apply find_none in E. destruct (IH Na2 m Nm) as (l & Hl & Hf).
      * intros p t Hp Ht. apply Hc; [now right|auto].
      * rewrite Hl. simpl. eexists. split.
        -- f_equal. f_equal. apply filter_ext_in. intros [a w] Hin. simpl. replace (text_eqb a (keyword i)) with false; [auto|].
           symmetry. apply text_eqb_false. intros ->. apply E. apply in_map_iff. exists (keyword i, w). auto.
        -- constructor; [|auto]. split; [auto|]. right. auto.
Qed.
Lemma set_all_throw all : NoDup (map (@keyword V) all) -> forall m, NoDup (map fst m) ->
  (exists p s, In p all /\ In (keyword p, s) m /\ from_string p s = None) -> set_all all m = Throw.
Proof.
  induction all as [|i all IH]; intros Na m Nm (p & s & Hp & Hs & Hn); [easy|]. simpl. inversion Na as [|? ? Na1 Na2]; subst.
  unfold count. destruct (find (keyword i) m) as [t|] eqn:E; simpl.
  - apply find_in in E; [|auto]. unfold set_str. destruct (from_string i t) as [v|] eqn:Ev; [|reflexivity]. simpl.
    destruct Hp as [<-|Hp].
    + apply find_in in E, Hs; auto. congruence.
    + rewrite IH; auto.
      * now apply erase_nodup.
      * exists p, s. split; [auto|]. split; [|auto]. apply erase_in. split; [auto|]. intros G. apply Na1. rewrite <- G. now apply in_map.
  - apply find_none in E. destruct Hp as [<-|Hp]; [elim E; apply in_map_iff; exists (keyword i, s); auto|].
    rewrite IH; auto. exists p, s. auto.
Qed.
End Values.
