(** What the tool writes is a text of the data file. *)
From Coq Require Import List ZArith Reals Ascii String Bool Lia Lra.
From Verif Require Import Base Oprecalc_model Oprecalc_spec Oprecalc_words Datafile_model Datafile_spec Datafile_parse Datafile_read Instantiate_model Instantiate_spec Instantiate_lines Instantiate_mats Instantiate_steps Instantiate_tail.
Import ListNotations.
Local Open Scope string_scope.
Local Open Scope list_scope.

(** The text consists of the words, and a newline at the end. *)
Definition spells (ws : list string) (t : string) : Prop :=
  (ws = [] /\ t = "") \/ (ws <> [] /\ forall rest, joined ws (t ++ rest)%string (String newline rest)).
Lemma joined_newline w ws s r : joined (w :: ws) s r -> joined (w :: ws) (String newline s) r.
Proof. intros H. inversion H as [|b w' ws' s' r' Hb Hs Hj]; subst. change (String newline (b ++ w ++ s'))%string with (String newline b ++ w ++ s')%string. constructor; [now constructor | assumption | assumption]. Qed.
Lemma spells_app a b t u : spells a t -> spells b u -> spells (a ++ b) (t ++ u)%string.
Proof.
  intros [[-> ->] | [Ha Ht]] Hb; [exact Hb |]. right. split; [destruct a; [contradiction | discriminate] |]. intros rest. rewrite app_ass. destruct Hb as [[-> ->] | [Hb Hu]].
  - rewrite List.app_nil_r. apply Ht.
  - apply joined_app. exists (String newline (u ++ rest)). split; [apply Ht |]. destruct b as [|w b]; [contradiction |]. apply joined_newline. apply Hu.
Qed.
Lemma line_words_some ws d : line_words ws d -> ws <> [].
Proof. destruct 1; discriminate. Qed.
Lemma spells_line ws d : line_words ws d -> spells ws (line d).
Proof.
  intros H. right. split; [now apply (line_words_some ws d) |]. intros rest. unfold line. rewrite app_ass. cbn [append]. apply line_joined; [assumption |]. right. now exists newline, rest.
Qed.
Lemma row_words {A} (scan : string -> option (A * string)) v ws : Forall2 (shows scan) v ws -> ws <> [] -> line_words ws (row_text ws).
Proof.
  induction 1 as [|x w v ws Hx H IH]; intros Hn; [contradiction |]. destruct ws as [|w2 ws].
  - constructor; apply Hx.
  - change (row_text (w :: w2 :: ws)) with (w ++ " " ++ row_text (w2 :: ws))%string. constructor; try apply Hx; try discriminate; [repeat constructor |]. apply IH. discriminate.
Qed.
Lemma one_word {A} (scan : string -> option (A * string)) v w : shows scan v w -> line_words [w] w.
Proof. intros H. constructor; apply H. Qed.
Lemma spells_concat {A} (tok : A -> list string -> Prop) (text : A -> string) l : (forall x, In x l -> exists ws, tok x ws /\ spells ws (text x)) ->
  exists ws, tok_list tok l ws /\ spells ws (String.concat "" (map text l)).
Proof.
  induction l as [|x l IH]; intros H.
  - exists []. split; [constructor | now left].
  - destruct (H x (or_introl eq_refl)) as (w & Hw & Hs). destruct IH as (ws & Hws & Hss); [intros y Hy; apply H; now right |].
    exists (w ++ ws). split; [now constructor |]. cbn [map]. rewrite concat_cons. now apply spells_app.
Qed.
Lemma tok_list_map {A B} (h : A -> B) (tok : B -> list string -> Prop) l ws : tok_list (fun x => tok (h x)) l ws -> tok_list tok (map h l) ws.
Proof. induction 1; cbn; constructor; assumption. Qed.
Lemma Forall2_rows {A} (scan : string -> option (A * string)) (read : R -> A) (show : R -> string) (h : R -> R) row : (forall x, shows scan (read x) (show x)) ->
  Forall2 (shows scan) (map (fun x => read (h x)) row) (map (fun x => show (h x)) row).
Proof. intros H. induction row; cbn; constructor; [apply H | assumption]. Qed.

Section Write.
  Variables (top : R) (scan_nat : string -> option (nat * string)) (scan_int : string -> option (Z * string)) (scan_R : string -> option (R * string))
    (show_nat : nat -> string) (show18 show16 : R -> string) (read18 read16 : R -> R).
  Hypothesis H18 : forall x, shows scan_R (read18 x) (show18 x).
  Hypothesis H16 : forall x, shows scan_R (read16 x) (show16 x).
  Hypothesis Hn : forall n, shows scan_nat n (show_nat n).
  Notation N := (real_num top).
  Notation elements := (list ((list Z * list Z) * rmatrix)).
  Variables (f : R) (subs : list (list Z * rmatrix)) (bases : list (list R * rmatrix)) (g : @seeds R) (dim : nat).
  Hypothesis Hg : seeds_ok top scan_int f subs bases (g_list g).
  Hypothesis Hsub : forall i h, In (i, h) subs -> List.length i = dim /\ (1 <= List.length h)%nat /\ symmetric h.
  Notation tok_matrix := (tok_matrix R scan_R).
  Notation tok_elements := (tok_elements R scan_nat scan_int scan_R).

  (** *** Operators *)
  Lemma spells_row row : row <> [] -> exists ws, tok_vector scan_R (map (fun x => read18 (chop x)) row) ws /\ spells ws (line (row_text (map (fun x => show18 (written N x)) row))).
  Proof.
    intros Hr. exists (map (fun x => show18 (chop x)) row). assert (E : map (fun x => show18 (written N x)) row = map (fun x => show18 (chop x)) row).
    { apply map_ext. intros x. f_equal. unfold written, chop. cbn [n_big n_zero real_num]. destruct (Rlt_dec (/ 10 ^ 14) (Rabs x)); reflexivity. }
    rewrite E. assert (G : Forall2 (shows scan_R) (map (fun x => read18 (chop x)) row) (map (fun x => show18 (chop x)) row)) by now apply Forall2_rows.
    split; [exact G |]. apply spells_line. apply (row_words scan_R _ _ G). destruct row; [contradiction | discriminate].
  Qed.
  Lemma spells_matrix r c m : shape r c m -> (1 <= c)%nat -> exists ws, tok_matrix (map (map (fun x => read18 (chop x))) m) ws /\ spells ws (matrix_text N show18 m).
  Proof.
    intros [_ Hrow] Hc. destruct (spells_concat (fun row => tok_vector scan_R (map (fun x => read18 (chop x)) row)) (fun row => line (row_text (map (fun x => show18 (written N x)) row))) m) as (ws & H1 & H2).
    - intros row Hin. apply spells_row. intros ->. apply Hrow in Hin. cbn in Hin. lia.
    - exists ws. split; [now apply tok_list_map | exact H2].
  Qed.
  Lemma spells_elements m l : Forall2 (element_ok scan_int subs bases) m l -> good_telements dim subs m ->
    exists ws, tok_list (tok_pair R scan_int scan_R) (new_elements read18 subs bases m) ws /\
      spells ws (String.concat "" (map (fun p => (line (fst p) ++ matrix_text N show18 (snd p))%string) l)).
  Proof.
    intros H [_ Hgood]. induction H as [|p x m l Hp H IH].
    - exists []. split; [constructor | now left].
    - destruct IH as (ws & H1 & H2); [intros i j y Hy; apply Hgood; now right |]. destruct p as [[i j] y]. destruct x as [q u]. destruct Hp as [(wq & Hq & Hs) Hu]. cbn [fst snd] in *. subst u.
      destruct (Hgood i j y (or_introl eq_refl)) as (_ & _ & Hi & Hj & _). cbn [fst snd] in *.
      destruct (found top scan_int f subs bases g dim Hg Hsub i Hi) as (_ & _ & _ & _ & Si & Pi). destruct (found top scan_int f subs bases g dim Hg Hsub j Hj) as (_ & _ & _ & _ & Sj & Pj).
      pose proof (in_basis_shape (basis_of subs bases i) y (basis_of subs bases j)) as Sh. destruct (spells_matrix _ _ _ Sh) as (wm & M1 & M2); [destruct Sj as [-> _]; exact Pj |].
      apply Forall2_app_inv_l in Hs as (w1 & w2 & T1 & T2 & ->).
      exists (((w1 ++ w2) ++ wm) ++ ws). split.
      + cbn [new_elements map]. constructor; [| exact H1]. exists w1, w2, wm. cbn [fst snd]. rewrite app_assoc. repeat split; assumption.
      + cbn [map]. rewrite concat_cons. apply spells_app; [| exact H2]. cbn [fst snd]. apply spells_app; [now apply spells_line | exact M2].
  Qed.
  Lemma spells_body m l : Forall2 (element_ok scan_int subs bases) m l -> good_telements dim subs m ->
    exists ws, tok_elements (new_elements read18 subs bases m) ws /\ ws <> [] /\
      spells ws (line (show_nat (List.length l)) ++ String.concat "" (map (fun p => (line (fst p) ++ matrix_text N show18 (snd p))%string) l))%string.
  Proof.
    intros H Hgood. destruct (spells_elements m l H Hgood) as (ws & H1 & H2). exists ([show_nat (List.length l)] ++ ws). split; [| split; [discriminate |]].
    - exists (show_nat (List.length l)), ws. split; [reflexivity |]. split; [| assumption]. unfold new_elements. rewrite map_length. rewrite (Forall2_length_ H). apply Hn.
    - apply spells_app; [| exact H2]. apply spells_line. apply (one_word scan_nat (List.length l)). apply Hn.
  Qed.
  Lemma joined_of ws t rest : spells ws t -> ws <> [] -> joined ws (t ++ rest)%string (String newline rest).
  Proof. intros [[-> _] | [_ H]] Hw; [contradiction | apply H]. Qed.

  (** *** Subspaces *)
  Definition new_subspace (smallest : R) (e : @seed R) : list Z * list R := (e_qn e, map (fun x => read18 (x - smallest)) (e_val e)).
  Lemma seed_of e : In e (g_list g) -> exists p b, In p subs /\ seed_ok top scan_int f p b e.
  Proof.
    clear Hsub. induction Hg as [|p b e' ps bs es Hk Hr IH]; intros Hin; [destruct Hin |]. destruct Hin as [<- | Hin].
    - exists p, b. split; [now left | assumption].
    - destruct (IH Hr Hin) as (p' & b' & H1 & H2). exists p', b'. split; [now right | assumption].
  Qed.
  Lemma spells_seed smallest e : In e (g_list g) -> exists ws, tok_subspace R scan_nat scan_int scan_R dim (new_subspace smallest e) ws /\ spells ws (seed_text N show_nat show18 smallest e).
  Proof.
    intros Hin. destruct (seed_of e Hin) as ([i h] & [val vec] & Hp & (Eq & Ed & Ev & _ & (Hl & _) & (ws & Hw & Hs) & _)). cbn [fst snd] in *. destruct (Hsub i h Hp) as (Li & L1 & _).
    set (vw := map (fun x => show18 (x - smallest)%R) (e_val e)).
    assert (G : Forall2 (shows scan_R) (snd (new_subspace smallest e)) vw) by (unfold new_subspace, vw; cbn [snd]; apply (Forall2_rows scan_R read18 show18 (fun x => x - smallest)%R); apply H18).
    assert (Le : List.length (e_val e) = e_dim e) by now rewrite Ev, map_length, Hl, Ed.
    exists (ws ++ ([show_nat (e_dim e)] ++ vw)). split.
    - exists ws, ([show_nat (e_dim e)] ++ vw). split; [reflexivity |]. unfold new_subspace at 1 2. cbn [fst]. rewrite Eq. split; [assumption |]. split; [assumption |].
      exists (show_nat (e_dim e)), vw. split; [reflexivity |]. split; [| exact G]. unfold new_subspace. cbn [snd]. rewrite map_length, Le. apply Hn.
    - unfold seed_text. apply spells_app; [now apply spells_line |]. apply spells_app.
      + apply spells_line. apply (one_word scan_nat (e_dim e)). apply Hn.
      + apply spells_line. apply (row_words scan_R _ _ G). unfold vw. intros E. apply map_eq_nil in E. rewrite E in Le. cbn in Le. lia.
  Qed.
  Lemma spells_energies : exists ws, tok_list (tok_subspace R scan_nat scan_int scan_R dim) (map (new_subspace (g_smallest g)) (g_list g)) ws /\ spells ws (energy_block N show_nat show18 g).
  Proof.
    destruct (spells_concat (fun e => tok_subspace R scan_nat scan_int scan_R dim (new_subspace (g_smallest g) e)) (seed_text N show_nat show18 (g_smallest g)) (g_list g)) as (ws & H1 & H2).
    - intros e He. now apply spells_seed.
    - exists ws. split; [now apply tok_list_map | exact H2].
  Qed.

  (** *** Comments *)
  Lemma filler_app a b : filler a -> filler b -> filler (a ++ b)%string.
  Proof.
    intros Ha Hb. induction Ha as [|c s Hc Hs IH|t s Ht Hs IH]; [exact Hb | cbn; now constructor |]. cbn. rewrite app_ass. cbn. now constructor.
  Qed.
  Definition noise_ok (x : noise) : Prop := match x with Empty _ => True | Comment i t => all_chars (fun c => c = " "%char \/ c = tab) i /\ one_line t end.
  Lemma noise_line_ok x l : noise_line x l -> noise_ok x.
  Proof. destruct 1; cbn; auto. Qed.
  Lemma notes_filler nz : Forall noise_ok nz -> filler (notes_text nz).
  Proof.
    unfold notes_text. induction 1 as [|x nz Hx H IH]; [constructor |]. cbn [map]. rewrite concat_cons. apply filler_app; [| exact IH].
    destruct x as [|i t]; [constructor |]. destruct Hx as [Hi Ht]. cbn [note_text]. apply filler_app; [| constructor; [assumption | constructor]].
    induction Hi as [|c i Hc Hi IHi]; constructor; [| assumption]. cbn. destruct Hc as [-> | ->]; tauto.
  Qed.
  Notation items_text := (items_text R R scan_nat scan_int scan_R scan_R).
  (** Items after any blank space *)
  Definition items_after (l : list (item R R)) (t : string) : Prop := forall b, all_blank b -> items_text l (b ++ t)%string.
  Lemma after_notes nz l t : Forall noise_ok nz -> items_after l t -> items_after (map (IComment R R) (noise_comments nz) ++ l) (notes_text nz ++ t)%string.
  Proof.
    unfold notes_text. induction 1 as [|x nz Hx H IH]; intros Ht; [exact Ht |]. cbn [map]. rewrite concat_cons. destruct x as [w|i w]; [exact (IH Ht) |]. intros b Hb.
    destruct Hx as [Hi Hw]. cbn [noise_comments flat_map app map note_text]. rewrite !app_ass. cbn [append]. rewrite app_ass. rewrite <- app_ass.
    assert (Hbi : all_blank (b ++ i)). { apply all_app. split; [assumption |]. clear -Hi. induction Hi as [|c i Hc Hi IHi]; constructor; [destruct Hc as [-> | ->]; reflexivity | assumption]. }
    econstructor; [constructor; assumption |]. cbn [append]. apply (IH Ht ""). constructor.
  Qed.
  Definition newer (x : titem) : item R R := new_item read18 subs bases (ground_energy N g) x.
  Lemma after_item x t l t' : item_written top scan_int show_nat show18 subs bases g x t -> (forall tt n m, x = TOp tt n m -> good_telements dim subs m) -> items_after l t' -> items_after (newer x :: l) (t ++ t')%string.
  Proof.
    intros Hx Hgood Ht b Hb. destruct Hx as [|tt n m el Hone He].
    - unfold line. rewrite !app_ass. cbn [append]. econstructor.
      + apply (it_energy R R scan_nat scan_int scan_R scan_R b "" (read18 (ground_energy N g)) (show18 (ground_energy N g)) _ (String newline t')); [assumption | constructor | apply H18 |].
        apply (j_cons "" (show18 (ground_energy N g)) [] (String newline t')); [constructor | right; now exists newline, t' | constructor].
      + apply (Ht (String newline "")). repeat constructor.
    - destruct (spells_body m el He (Hgood tt n m eq_refl)) as (ws & H1 & H2 & H3). unfold block_text. unfold line at 1. rewrite !app_ass. cbn [append]. econstructor.
      + apply (it_op R R scan_nat scan_int scan_R scan_R b tt n (new_elements read18 subs bases m) ws _ (String newline t')); [assumption | assumption | exact H1 |].
        rewrite <- (app_ass (line _)). apply joined_of; assumption.
      + apply (Ht (String newline "")). repeat constructor.
  Qed.
  Lemma after_items xs css t l t' : items_written top scan_int show_nat show18 subs bases g xs css t -> (forall cs, In cs css -> Forall noise_ok (noises cs)) ->
    (forall tt n m, In (TOp tt n m) xs -> good_telements dim subs m) -> items_after l t' ->
    items_after (flat_map (fun p => map (IComment R R) (comments (snd p)) ++ [newer (fst p)]) (combine xs css) ++ l) (t ++ t')%string.
  Proof.
    induction 1 as [|x cs t xs css t1 Hx H IH]; intros Hnoise Hgood Ht; [exact Ht |]. cbn [combine flat_map fst snd]. rewrite !app_ass. rewrite <- !app_assoc.
    assert (Ec : comments cs = noise_comments (noises cs)).
    { unfold comments, noises, noise_comments. clear. induction cs as [|c cs IH]; cbn; [reflexivity |]. now rewrite flat_map_app, IH. }
    rewrite Ec. apply after_notes; [apply Hnoise; now left |]. cbn [app]. apply after_item; [assumption | |].
    - intros tt n m ->. apply (Hgood tt n m). now left.
    - apply IH; [intros c Hc; apply Hnoise; now right | intros tt n m Hin; apply (Hgood tt n m); now right | exact Ht].
  Qed.
  (** *** The Wilson chain *)
  Lemma spells_table v nmax : (nmax < List.length v)%nat -> exists ws t, tok_counted scan_nat scan_R true (map read16 (firstn (S nmax) v)) ws /\
    table_text show_nat show16 v nmax = Ok t /\ spells ws t.
  Proof.
    intros Hl. unfold table_text. replace (Nat.leb (List.length v) nmax) with false by (symmetry; apply Nat.leb_gt; lia).
    exists ([show_nat nmax] ++ map show16 (firstn (S nmax) v)). eexists. split; [| split; [reflexivity |]].
    - exists (show_nat nmax), (map show16 (firstn (S nmax) v)). split; [reflexivity |]. split.
      + exists nmax. split; [rewrite map_length; now apply firstn_length_le | apply Hn].
      + generalize (firstn (S nmax) v). intros u. induction u; cbn; constructor; [apply H16 | assumption].
    - apply spells_app.
      + apply spells_line. apply (one_word scan_nat nmax). apply Hn.
      + generalize (firstn (S nmax) v). intros u. induction u as [|x u IH]; [now left |]. cbn [map]. rewrite concat_cons. change (show16 x :: map show16 u) with ([show16 x] ++ map show16 u).
        apply spells_app; [| exact IH]. apply spells_line. apply (one_word scan_R (read16 x)). apply H16.
  Qed.
  Lemma coefs_written xi zeta nmax : (nmax < List.length xi)%nat -> (nmax < List.length zeta)%nat ->
    exists t, z_text show_nat show16 [(xi, zeta)] 1 nmax = Ok t /\
      items_after [ICoef R R "z" "" [[map read16 (firstn (S nmax) xi)]; [map read16 (firstn (S nmax) zeta)]]] t.
  Proof.
    intros Hx Hz. destruct (spells_table xi nmax Hx) as (w1 & t1 & K1 & E1 & S1). destruct (spells_table zeta nmax Hz) as (w2 & t2 & K2 & E2 & S2).
    exists (line "z" ++ t1 ++ t2)%string. split.
    - unfold z_text. cbn [List.length Nat.eqb my_assert bind mapM fst snd]. rewrite E1. cbn [bind]. rewrite E2. reflexivity.
    - intros b Hb. unfold line. rewrite !app_ass. cbn [append]. econstructor.
      + apply (it_coef R R scan_nat scan_int scan_R scan_R b "z" "" _ (w1 ++ w2) (t1 ++ t2)%string (String newline "")); [assumption | constructor | now left | |].
        * replace (w1 ++ w2) with ((w1 ++ []) ++ (w2 ++ []) ++ []) by now rewrite !List.app_nil_r. constructor; [constructor; [exact K1 | constructor] |]. constructor; [constructor; [exact K2 | constructor] | constructor].
        * rewrite <- (app_nil_r (t1 ++ t2)%string). apply joined_of; [now apply spells_app |]. destruct K1 as (? & ? & -> & _). discriminate.
      + constructor. repeat constructor.
  Qed.
  (** *** The operators of the Wilson chain *)
  Lemma spells_f kms css t : f_written top scan_nat scan_int show_nat show18 subs bases kms css t -> (forall k m, In (k, m) kms -> good_telements dim subs m) ->
    (forall cs, In cs css -> notes_text (noises cs) = "") -> forall k0, map fst kms = seq k0 (List.length kms) ->
    exists ws, tok_from (tok_f R scan_nat scan_int scan_R 0) k0 (map (fun km => new_elements read18 subs bases (snd km)) kms) ws /\ spells ws t.
  Proof.
    induction 1 as [|k m cs h w1 w2 l kms css t Hh H1 H2 He H IH]; intros Hgood Hq k0 Hk.
    - exists []. split; [constructor | now left].
    - cbn in Hk. injection Hk as -> Hk. destruct (IH (fun k m Hin => Hgood k m (or_intror Hin)) (fun cs Hin => Hq cs (or_intror Hin)) (S k0) Hk) as (ws & T & S).
      destruct (spells_body m l He (Hgood k0 m (or_introl eq_refl))) as (wb & B1 & B2 & B3).
      exists ((["f"; w1; w2] ++ wb) ++ ws). split.
      + cbn [map snd]. constructor; [| exact T]. exists w1, w2, wb. repeat split; assumption || apply H1 || apply H2 || exact B1.
      + rewrite (Hq cs (or_introl eq_refl)). cbn [append]. apply spells_app; [| exact S]. unfold block_text. apply spells_app; [now apply spells_line | exact B3].
  Qed.
End Write.
