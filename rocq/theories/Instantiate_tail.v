(** The loop over the blocks of a template. *)
From Coq Require Import List ZArith Reals Ascii String Bool Lia Lra.
From Verif Require Import Base Oprecalc_model Oprecalc_spec Oprecalc_words Datafile_model Datafile_spec Datafile_parse Datafile_read Instantiate_model Instantiate_spec Instantiate_lines Instantiate_mats Instantiate_steps.
Import ListNotations.
Local Open Scope string_scope.
Local Open Scope list_scope.

Section Tail.
  Variables (top : R) (scan_nat : string -> option (nat * string)) (scan_int : string -> option (Z * string)) (scan_R : string -> option (R * string))
    (strtod : string -> option R) (show_nat : nat -> string) (show18 : R -> string)
    (template_file : string -> res string) (evaluate : string -> res (nat * nat * rmatrix)).
  Notation N := (real_num top).
  Notation elements := (list ((list Z * list Z) * rmatrix)).
  Variables (f : R) (subs : list (list Z * rmatrix)) (bases : list (list R * rmatrix)) (g : @seeds R) (dim expected : nat).
  Hypothesis Hg : seeds_ok top scan_int f subs bases (g_list g).
  Hypothesis Hsub : forall i h, In (i, h) subs -> List.length i = dim /\ (1 <= List.length h)%nat /\ symmetric h.
  Notation loop := (tail_loop N scan_nat scan_int scan_R strtod show_nat show18 template_file evaluate).
  Notation block_text := (block_text N show_nat show18).
  Notation element_ok := (element_ok scan_int subs bases).

  Inductive f_written : list (nat * elements) -> list (list chunk) -> string -> Prop :=
  | fw_nil : f_written [] [] ""
  | fw_cons k m cs h w1 w2 l kms css t : line_words ["f"; w1; w2] h -> shows scan_nat 0%nat w1 -> shows scan_nat k w2 -> Forall2 element_ok m l -> f_written kms css t ->
      f_written ((k, m) :: kms) (cs :: css) (notes_text (noises cs) ++ block_text h l ++ t)%string.
  Inductive item_written : titem -> string -> Prop :=
  | iw_energy : item_written TEnergy (line "e" ++ line (show18 (ground_energy N g)))%string
  | iw_op t n m l : one_line n -> Forall2 element_ok m l -> item_written (TOp t n m) (block_text (String (letter_of t) n) l).
  Inductive items_written : list titem -> list (list chunk) -> string -> Prop :=
  | wi_nil : items_written [] [] ""
  | wi_cons x cs t xs css t' : item_written x t -> items_written xs css t' -> items_written (x :: xs) (cs :: css) (notes_text (noises cs) ++ t ++ t')%string.

  Lemma tail_f kms css : Forall2 (fun km cs => part (f_lines scan_nat scan_int strtod template_file evaluate subs (fst km) (snd km)) cs) kms css ->
    (forall k m, In (k, m) kms -> good_telements dim subs m) ->
    forall fuel nf has rest e out s, (List.length css <= fuel)%nat -> (nf + List.length kms <= expected)%nat -> at0 (List.concat css ++ rest) e out s ->
    exists s' t, loop fuel dim expected g nf has s = loop (fuel - List.length css)%nat dim expected g (nf + List.length kms)%nat has s' /\
      f_written kms css t /\ at0 rest e (out ++ t)%string s'.
  Proof.
    induction 1 as [|[k m] cs kms css Hp H IH]; intros Hgood fuel nf has rest e out s Hfuel Hexp Hat.
    - cbn in Hat. exists s, "". cbn. rewrite Nat.sub_0_r, Nat.add_0_r, app_nil_r. repeat split; [constructor | assumption].
    - destruct fuel as [|fuel]; [cbn in Hfuel; lia |]. cbn [List.length] in *. cbn [List.concat] in Hat. rewrite <- app_assoc in Hat.
      destruct Hp as (h & ds & w1 & w2 & E & Hh & H1 & H2 & Hb). cbn [fst snd] in *. destruct cs as [|[nz h'] cs]; [discriminate |]. cbn in E. injection E as -> <-.
      cbn [app] in Hat. destruct (next0 top scan_R _ _ _ _ _ _ Hat) as (s1 & E1 & G1 & A1).
      destruct (block_step top scan_nat scan_int scan_R strtod template_file evaluate f subs bases g dim Hg Hsub m cs _ _ _ s1 Hb (Hgood k m (or_introl eq_refl)) A1) as (l & s2 & E2 & K2 & A2).
      pose proof (write0 _ _ _ (block_text h l) _ A2) as A3.
      destruct (IH (fun k' m' Hin => Hgood k' m' (or_intror Hin)) fuel (S nf) has rest e _ _ ltac:(lia) ltac:(lia) A3) as (s' & t & E3 & K3 & A4).
      exists s', (notes_text (noises ((nz, h) :: cs)) ++ block_text h l ++ t)%string. split; [| split].
      + cbn [tail_loop]. rewrite E1. assert (Eh : exists h0, h = String "f" h0) by (inversion Hh; subst; eexists; reflexivity). destruct Eh as (h0 & ->).
        change (Ascii.eqb "f" "f") with true. cbv iota. replace (Nat.leb (S nf) expected) with true by (symmetry; apply Nat.leb_le; lia). cbn [my_assert bind]. rewrite E2. cbn [bind].
        rewrite E3. f_equal; lia.
      + econstructor; eassumption.
      + apply (at0_eq _ _ _ _ _ A4). rewrite noises_cons, notes_app, !app_ass. reflexivity.
  Qed.
  Lemma letter_cases t : Ascii.eqb (letter_of t) "f" = false /\ letter_of t <> "e"%char /\ (Ascii.eqb (letter_of t) "z" || Ascii.eqb (letter_of t) "Z" || Ascii.eqb (letter_of t) "T")%bool = false /\ is_operator_block (letter_of t) = true.
  Proof. destruct t; repeat split; discriminate. Qed.
  Lemma tail_items xs css : Forall2 (fun x cs => part (item_lines scan_nat scan_int strtod template_file evaluate subs x) cs) xs css ->
    (forall t n m, In (TOp t n m) xs -> good_telements dim subs m) ->
    forall fuel nf has rest e out s, (List.length css <= fuel)%nat -> at0 (List.concat css ++ rest) e out s ->
    exists s' t has', loop fuel dim expected g nf has s = loop (fuel - List.length css)%nat dim expected g nf has' s' /\
      (has = true \/ In TEnergy xs -> has' = true) /\ items_written xs css t /\ at0 rest e (out ++ t)%string s'.
  Proof.
    induction 1 as [|x cs xs css Hp H IH]; intros Hgood fuel nf has rest e out s Hfuel Hat.
    - cbn in Hat. exists s, "", has. cbn. rewrite Nat.sub_0_r, app_nil_r. repeat split; [tauto | constructor | assumption].
    - destruct fuel as [|fuel]; [cbn in Hfuel; lia |]. cbn [List.length] in *. cbn [List.concat] in Hat. rewrite <- app_assoc in Hat.
      destruct x as [|t n m].
      + destruct Hp as (d & E). destruct cs as [|[nz h] [|[nz2 d'] [|? ?]]]; try discriminate. cbn in E. injection E as -> ->.
        cbn [app] in Hat. destruct (next0 top scan_R _ _ _ _ _ _ Hat) as (s1 & E1 & G1 & A1). destruct (need0 top scan_R _ _ _ _ _ _ A1) as (s2 & E2 & _ & A2).
        pose proof (write0 _ _ _ (line "e" ++ line (show18 (ground_energy N g)))%string _ A2) as A3.
        destruct (IH (fun t n m Hin => Hgood t n m (or_intror Hin)) fuel nf true rest e _ _ ltac:(lia) A3) as (s' & t & has' & E3 & K3 & W3 & A4).
        exists s', (notes_text (noises [(nz, "e"); (nz2, d)]) ++ (line "e" ++ line (show18 (ground_energy N g))) ++ t)%string, has'. split; [| split; [| split]].
        * cbn [tail_loop]. rewrite E1. change (Ascii.eqb "e" "f") with false. change (String.eqb "e" "e") with true. cbv iota. rewrite E2. cbn [bind]. exact E3.
        * intros _. apply K3. now left.
        * constructor; [constructor | assumption].
        * apply (at0_eq _ _ _ _ _ A4). rewrite !noises_cons. cbn [noises flat_map]. rewrite List.app_nil_r, notes_app, !app_ass. reflexivity.
      + destruct Hp as (ds & E & Hb). destruct cs as [|[nz h'] cs]; [discriminate |]. cbn in E. injection E as -> <-.
        cbn [app] in Hat. destruct (next0 top scan_R _ _ _ _ _ _ Hat) as (s1 & E1 & G1 & A1).
        destruct (block_step top scan_nat scan_int scan_R strtod template_file evaluate f subs bases g dim Hg Hsub m cs _ _ _ s1 Hb (Hgood t n m (or_introl eq_refl)) A1) as (l & s2 & E2 & K2 & A2).
        pose proof (write0 _ _ _ (block_text (String (letter_of t) n) l) _ A2) as A3.
        destruct (IH (fun t n m Hin => Hgood t n m (or_intror Hin)) fuel nf has rest e _ _ ltac:(lia) A3) as (s' & t' & has' & E3 & K3 & W3 & A4).
        exists s', (notes_text (noises ((nz, String (letter_of t) n) :: cs)) ++ block_text (String (letter_of t) n) l ++ t')%string, has'. split; [| split; [| split]].
        * cbn [tail_loop]. rewrite E1. destruct (letter_cases t) as (C1 & C2 & C3 & C4). rewrite C1, C3, C4.
          destruct (String.eqb_spec (String (letter_of t) n) "e") as [Ee | _]; [injection Ee as Ee _; contradiction |]. rewrite E2. cbn [bind]. exact E3.
        * intros [-> | [Hin | Hin]]; [apply K3; now left | discriminate | apply K3; now right].
        * constructor; [| assumption]. constructor; [| assumption]. destruct G1 as [G1 _]. inversion G1; subst; assumption.
        * apply (at0_eq _ _ _ _ _ A4). rewrite noises_cons, notes_app, !app_ass. reflexivity.
  Qed.
  Lemma tail_end fuel e out s : (List.length (match e with AtEnd _ => [] | AtCoef _ _ _ => [tt] end) <= fuel)%nat -> at0 [] e out s ->
    exists s', loop fuel dim expected g expected true s = Ok s' /\ s_out s' = (out ++ notes_text (ending_noise e))%string.
  Proof.
    intros Hfuel (sc & Hat). destruct e as [nz | nz d others].
    - destruct (next_end top scan_R _ _ _ _ Hat) as (s' & E & O). exists s'. split; [| exact O]. destruct fuel; cbn [tail_loop]; rewrite E, Nat.eqb_refl; reflexivity.
    - destruct (next_coef top scan_R _ _ _ _ _ _ Hat) as (s' & E & O & Hs). exists s'. split; [| exact O]. destruct fuel as [|fuel]; [cbn in Hfuel; lia |]. cbn [tail_loop]. rewrite E.
      destruct d as [|c d]; cbn in Hs; [destruct Hs |]. rewrite Nat.eqb_refl.
      destruct Hs as [<- | [<- | [<- | []]]]; cbn [Ascii.eqb Bool.eqb andb orb]; change (String.eqb (String ?a ?b) "e") with false; destruct d; reflexivity.
  Qed.
End Tail.
