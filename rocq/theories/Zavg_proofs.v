From Coq Require Import List ZArith Reals Arith Bool Lra Lia.
From Verif Require Import Base Zavg_model Zavg_spec.
Import ListNotations.
Local Open Scope R_scope.

(** ** Sums *)
Lemma rsum_app {A} (f : A -> R) l l' : rsum f (l ++ l') = rsum f l + rsum f l'.
Proof. induction l; simpl; [lra|]. rewrite IHl. lra. Qed.
Lemma rsum_ext {A} (f g : A -> R) l : (forall x, In x l -> f x = g x) -> rsum f l = rsum g l.
Proof. induction l; simpl; intros H; auto. rewrite H by auto. rewrite IHl; auto. Qed.
Lemma rsum_map {A B} (h : A -> B) (f : B -> R) l : rsum f (map h l) = rsum (fun x => f (h x)) l.
Proof. induction l; simpl; auto. rewrite IHl. auto. Qed.
Lemma rsum_concat {A B} (h : A -> list B) (f : B -> R) l : rsum f (concat (map h l)) = rsum (fun x => rsum f (h x)) l.
Proof. induction l; simpl; auto. rewrite rsum_app, IHl. auto. Qed.
Lemma rsum_plus {A} (f g : A -> R) l : rsum (fun x => f x + g x) l = rsum f l + rsum g l.
Proof. induction l; simpl; [lra|]. rewrite IHl. lra. Qed.
Lemma rsum_scale {A} c (f : A -> R) l : rsum (fun x => c * f x) l = c * rsum f l.
Proof. induction l; simpl; [lra|]. rewrite IHl. lra. Qed.
Lemma rsum_nonneg {A} (f : A -> R) l : (forall x, In x l -> 0 <= f x) -> 0 <= rsum f l.
Proof. induction l; simpl; intros H; [lra|]. assert (0 <= f a) by auto. assert (0 <= rsum f l) by auto. lra. Qed.
Lemma accum_from g l s : fold_left (fun s p => s + g (fst p) (snd p)) l s = s + rsum (fun p : R * R => g (fst p) (snd p)) l.
Proof. revert s. induction l as [|p l IH]; simpl; intros s; [lra|]. rewrite IH. lra. Qed.
Lemma accum_sum g l : accum g l = rsum (fun p => g (fst p) (snd p)) l.
Proof. unfold accum. rewrite accum_from. lra. Qed.

(** ** Files *)
Lemma concat_length nrcol rows : table nrcol rows -> length (concat rows) = (length rows * S nrcol)%nat.
Proof.
  induction rows as [|r rows IH]; simpl; intros H; auto. rewrite app_length, IH; [|intros x Hx; apply H; right; exact Hx].
  rewrite (H r) by (left; auto). lia.
Qed.
Lemma concat_nth nrcol rows l c : table nrcol rows -> (l < length rows)%nat -> (c <= nrcol)%nat ->
  nth (S nrcol * l + c) (concat rows) 0 = nth c (nth l rows []) 0.
Proof.
  revert l. induction rows as [|r rows IH]; intros l H Hl Hc; [simpl in Hl; lia|].
  assert (Hr : length r = S nrcol) by (apply H; left; auto). simpl concat. destruct l as [|l].
  - rewrite Nat.mul_0_r. simpl. rewrite app_nth1 by lia. auto.
  - rewrite app_nth2 by nia. rewrite Hr. replace (S nrcol * S l + c - S nrcol)%nat with (S nrcol * l + c)%nat by nia.
    simpl in Hl. rewrite IH; auto; [intros x Hx; apply H; right; auto|lia].
Qed.
Lemma seq_map_nth {A B} (g : A -> B) (l : list A) d : map (fun i => g (nth i l d)) (seq 0 (length l)) = map g l.
Proof.
  induction l as [|a l IH]; auto. simpl. f_equal. rewrite <- seq_shift, map_map. exact IH.
Qed.
Lemma lines_table nrcol col rows : table nrcol rows -> (col <= nrcol)%nat ->
  lines nrcol col (concat rows) = map (fun r => (freq r, value col r)) rows.
Proof.
  intros H Hc. unfold lines. rewrite (concat_length nrcol rows H). change (1 + nrcol)%nat with (S nrcol). rewrite Nat.div_mul by lia.
  rewrite <- (seq_map_nth (fun r => (freq r, value col r)) rows []). apply map_ext_in. intros l Hl. apply in_seq in Hl.
  rewrite concat_nth by (auto; lia). rewrite <- (Nat.add_0_r (S nrcol * l)). rewrite concat_nth by (auto; lia). auto.
Qed.
Lemma load_table nrcol rows : table nrcol rows -> load nrcol (Some (file_of rows)) = Ok (concat rows).
Proof.
  intros H. unfold load, file_of. cbn [doubles leftover]. rewrite (concat_length nrcol rows H).
  change (1 + nrcol)%nat with (S nrcol). rewrite Nat.mod_mul by lia. reflexivity.
Qed.
Lemma mapM_all {A B} (f : A -> res B) (g : A -> B) l : (forall x, In x l -> f x = Ok (g x)) -> mapM f l = Ok (map g l).
Proof. induction l as [|a l IH]; intros H; auto. cbn [mapM]. rewrite H by (left; auto). cbn [bind]. rewrite IH; [auto|]. intros x Hx. apply H. right; auto. Qed.
Lemma mapM_fail {A B} (f : A -> res B) l x : In x l -> f x = Throw -> (forall y, In y l -> f y <> UB) -> mapM f l = Throw.
Proof.
  induction l as [|a l IH]; intros Hx Hf Hu; [destruct Hx|]. cbn [mapM]. destruct (f a) eqn:E.
  - cbn [bind]. destruct Hx as [->|Hx]; [congruence|]. rewrite IH; auto. intros y Hy. apply Hu. right; auto.
  - reflexivity.
  - exfalso. apply (Hu a); auto. left; auto.
Qed.
Lemma load_no_UB nrcol f : load nrcol f <> UB.
Proof. destruct f as [b|]; simpl; [|discriminate]. destruct (_ && _); discriminate. Qed.

(** ** The map *)
Lemma map_plus_add f v m : map_plus f v m = map_add f v m.
Proof.
  induction m as [|[g w] t IH]; simpl; rewrite ?Rplus_0_l; auto. destruct (Rlt_dec f g); [auto|].
  destruct (Rlt_dec g f); [rewrite IH; auto|auto].
Qed.
Definition below (a : R) (m : list (R * R)) : Prop := forall p, In p m -> a < fst p.
Fixpoint asc (m : list (R * R)) : Prop := match m with [] => True | p :: t => below (fst p) t /\ asc t end.
Lemma asc_ascending m : asc m -> ascending (map fst m).
Proof.
  induction m as [|p t IH]; simpl; auto. intros [H1 H2]. specialize (IH H2). destruct t as [|q t]; simpl in *; auto.
  split; auto. apply H1. left; auto.
Qed.
Lemma map_add_in f v m q : In q (map_add f v m) -> fst q = f \/ In (fst q) (map fst m).
Proof.
  induction m as [|[g w] t IH]; simpl; [intros [<-|[]]; auto|]. destruct (Rlt_dec f g); [simpl; intros [<-|[<-|H]]; auto; right; right; apply in_map; auto|].
  destruct (Rlt_dec g f); simpl; intros [<-|H]; auto. { apply IH in H. tauto. } right; right; apply in_map; auto.
Qed.
Lemma map_add_keys f v m x : In x (map fst (map_add f v m)) <-> x = f \/ In x (map fst m).
Proof.
  induction m as [|[g w] t IH]; simpl; [intuition|]. destruct (Rlt_dec f g); simpl; [intuition|].
  destruct (Rlt_dec g f); simpl; [rewrite IH; intuition|]. assert (f = g) by lra. subst. intuition.
Qed.
Lemma map_add_asc f v m : asc m -> asc (map_add f v m).
Proof.
  induction m as [|[g w] t IH]; simpl; [intros _; split; auto; intros p []|]. intros [H1 H2]. destruct (Rlt_dec f g).
  - simpl. split; [|auto]. intros p [<-|Hp]; simpl; auto. specialize (H1 p Hp). simpl in H1. lra.
  - destruct (Rlt_dec g f); simpl; [|auto]. split; [|auto]. intros p Hp. apply map_add_in in Hp. simpl. destruct Hp as [->|Hp]; auto.
    apply in_map_iff in Hp. destruct Hp as (q & Eq & Hq). rewrite <- Eq. apply (H1 q Hq).
Qed.
Lemma map_add_integral g f v m : integral g (map_add f v m) = integral g m + g f * v.
Proof.
  unfold integral. induction m as [|[h w] t IH]; simpl; [lra|]. destruct (Rlt_dec f h); simpl; [lra|].
  destruct (Rlt_dec h f); simpl; [rewrite IH; lra|]. assert (f = h) by lra. subst. lra.
Qed.

Definition add_all (l : list (R * R)) (m : list (R * R)) : list (R * R) := fold_left (fun m p => map_add (fst p) (snd p) m) l m.
Lemma add_all_asc l m : asc m -> asc (add_all l m).
Proof. revert m. induction l; simpl; auto. intros m H. apply IHl. apply map_add_asc; auto. Qed.
Lemma add_all_keys l m x : In x (map fst (add_all l m)) <-> In x (map fst l) \/ In x (map fst m).
Proof. revert m. induction l as [|p l IH]; simpl; intros m; [tauto|]. unfold add_all in *. rewrite IH, map_add_keys. intuition. Qed.
Lemma add_all_integral g l m : integral g (add_all l m) = integral g m + integral g l.
Proof.
  revert m. induction l as [|p l IH]; simpl; intros m; [unfold integral; simpl; lra|]. unfold add_all in *. rewrite IH, map_add_integral.
  unfold integral. simpl. lra.
Qed.
Lemma add_all_app l l' m : add_all (l ++ l') m = add_all l' (add_all l m).
Proof. unfold add_all. apply fold_left_app. Qed.

Lemma fold_plus l m : fold_left (fun m p => map_plus (fst p) (snd p) m) l m = add_all l m.
Proof. revert m. induction l; simpl; auto. intros m. rewrite IHl, map_plus_add. auto. Qed.
Lemma merge_same : forall Nz nrcol col b, merge_broaden Nz nrcol col b = merge Nz nrcol col b.
Proof.
  intros. unfold merge_broaden, merge, merge_with. f_equal. generalize (@nil (R * R)). induction b as [|x b IH]; simpl; auto.
  intros m. rewrite fold_plus. rewrite IH. auto.
Qed.
Lemma merge_all Nz nrcol col bs : merge Nz nrcol col bs = map (fun p => (fst p, snd p / INR Nz)) (add_all (concat (map (lines nrcol col) bs)) []).
Proof.
  unfold merge, merge_with. f_equal. generalize (@nil (R * R)). induction bs as [|b bs IH]; simpl; auto.
  intros m. rewrite add_all_app. apply IH.
Qed.

Lemma asc_weight m f w : asc m -> In (f, w) m -> integral (delta f) m = w.
Proof.
  unfold integral. induction m as [|[g v] t IH]; simpl; [tauto|]. intros [H1 H2] [H|H].
  - injection H as -> ->. unfold delta at 1. destruct (Req_EM_T f f); [|lra].
    assert (E : rsum (fun p : R * R => delta f (fst p) * snd p) t = 0).
    { clear -H1. induction t as [|q t IH]; simpl; auto. rewrite IH by (intros p Hp; apply H1; right; auto).
      assert (f < fst q) by (apply H1; left; auto). unfold delta. destruct (Req_EM_T f (fst q)); lra. }
    rewrite E. lra.
  - rewrite IH by auto. assert (g < f) by (apply (H1 (f, w)); auto). unfold delta. destruct (Req_EM_T f g); lra.
Qed.

Section Average.
  Variables (Nz nrcol col : nat) (tab : nat -> list (list R)).
  Hypothesis HN : (1 <= Nz)%nat.
  Hypothesis Hc : (col <= nrcol)%nat.
  Hypothesis Ht : forall i, (1 <= i <= Nz)%nat -> table nrcol (tab i).
  Let bufs := map (fun i => concat (tab i)) (seq 1 Nz).
  Let all := concat (map (fun i => map (fun r => (freq r, value col r)) (tab i)) (seq 1 Nz)).
  Let l := merge Nz nrcol col bufs.

  Lemma Nz_pos : 0 < INR Nz.
  Proof. apply lt_0_INR. lia. Qed.
  Lemma read_ok : read_files Nz nrcol (fun i => Some (file_of (tab i))) = Ok bufs.
  Proof. apply mapM_all. intros i Hi. apply in_seq in Hi. apply load_table. apply Ht. lia. Qed.
  Lemma lines_all : concat (map (lines nrcol col) bufs) = all.
  Proof.
    unfold bufs, all. rewrite map_map. f_equal. apply map_ext_in. intros i Hi. apply in_seq in Hi. apply lines_table; auto. apply Ht. lia.
  Qed.
  Lemma l_eq : l = map (fun p => (fst p, snd p / INR Nz)) (add_all all []).
  Proof. unfold l. rewrite merge_all, lines_all. auto. Qed.
  Lemma l_asc : asc l.
  Proof.
    rewrite l_eq. assert (H : asc (add_all all [])) by (apply add_all_asc; simpl; auto). revert H. generalize (add_all all []).
    induction l0 as [|p t IH]; simpl; auto. intros [H1 H2]. split; auto. intros q Hq. apply in_map_iff in Hq. destruct Hq as (r & <- & Hr).
    simpl. apply H1; auto.
  Qed.
  Lemma all_integral g : integral g all = rsum (fun i => rsum (fun r => g (freq r) * value col r) (tab i)) (seq 1 Nz).
  Proof. unfold integral, all. rewrite rsum_concat. apply rsum_ext. intros i _. rewrite rsum_map. auto. Qed.
  Lemma l_integral g : integral g l = mean_over Nz col tab g.
  Proof.
    rewrite l_eq. unfold mean_over. rewrite <- all_integral. pose proof (add_all_integral g all []) as E. unfold integral in E at 2. simpl in E.
    rewrite Rplus_0_l in E. rewrite <- E. unfold integral. rewrite rsum_map. simpl.
    rewrite (rsum_ext _ (fun p => / INR Nz * (g (fst p) * snd p))) by (intros; unfold Rdiv; lra). rewrite rsum_scale. unfold Rdiv. lra.
  Qed.
  Lemma l_keys f : In f (map fst l) <-> exists i r, (1 <= i <= Nz)%nat /\ In r (tab i) /\ freq r = f.
  Proof.
    rewrite l_eq, map_map. cbn [fst]. rewrite add_all_keys. simpl. unfold all. split.
    - intros [H|[]]. apply in_map_iff in H. destruct H as ([g w] & <- & H). apply in_concat in H. destruct H as (x & Hx & Hp).
      apply in_map_iff in Hx. destruct Hx as (i & <- & Hi). apply in_seq in Hi. apply in_map_iff in Hp. destruct Hp as (r & Er & Hr).
      injection Er as <- <-. exists i, r. split; [lia|auto].
    - intros (i & r & Hi & Hr & <-). left. apply in_map_iff. exists (freq r, value col r). split; auto. apply in_concat.
      exists (map (fun r => (freq r, value col r)) (tab i)). split; [apply (in_map (fun i => map (fun r => (freq r, value col r)) (tab i))); apply in_seq; lia|].
      apply (in_map (fun r => (freq r, value col r))); auto.
  Qed.

  Theorem average_ok : exists l,
    averaged merge Nz nrcol col (fun i => Some (file_of (tab i))) = Ok l /\
    averaged merge_broaden Nz nrcol col (fun i => Some (file_of (tab i))) = Ok l /\
    ascending (map fst l) /\
    (forall f, In f (map fst l) <-> exists i r, (1 <= i <= Nz)%nat /\ In r (tab i) /\ freq r = f) /\
    (forall f w, In (f, w) l -> w = mean_over Nz col tab (delta f)) /\
    (forall g, integral g l = mean_over Nz col tab g).
  Proof.
    exists l. unfold averaged. rewrite read_ok. cbn [bind]. rewrite merge_same. split; [auto|]. split; [auto|].
    split; [apply asc_ascending, l_asc|]. split; [exact l_keys|]. split; [|exact l_integral].
    intros f w H. rewrite <- l_integral. symmetry. apply asc_weight; auto. apply l_asc.
  Qed.
End Average.

Lemma bad_file mrg Nz nrcol col dir i : (1 <= i <= Nz)%nat ->
  match dir i with None => True | Some b => leftover b <> 0%nat \/ (length (doubles b) mod S nrcol <> 0)%nat end ->
  averaged mrg Nz nrcol col dir = Throw.
Proof.
  intros Hi H. unfold averaged, read_files. rewrite (mapM_fail _ _ i); auto.
  - apply in_seq. lia.
  - destruct (dir i) as [b|]; auto. unfold load. change (1 + nrcol)%nat with (S nrcol).
    destruct (Nat.eqb_spec (leftover b) 0); destruct (Nat.eqb_spec (length (doubles b) mod S nrcol) 0); simpl; auto. tauto.
  - intros y _. apply load_no_UB.
Qed.

(** ** Moments *)
Lemma spm_filter_ok low high po ne l : spm_filter low high po ne l = map (fun p => (fst p, spm_window low high po ne (fst p) * snd p)) l.
Proof.
  unfold spm_filter. apply map_ext. intros [f w]. cbn [fst snd]. unfold spm_window.
  repeat match goal with |- context [Rlt_dec ?a ?b] => destruct (Rlt_dec a b) end; destruct po, ne; f_equal; try lra.
Qed.
Lemma br_filter_ok low high kp kn l : br_filter low high kp kn l = map (fun p => (fst p, br_window low high kp kn (fst p) * snd p)) l.
Proof.
  unfold br_filter. apply map_ext. intros [f w]. cbn [fst snd]. unfold br_window.
  repeat match goal with |- context [Rlt_dec ?a ?b] => destruct (Rlt_dec a b) | |- context [Rle_dec ?a ?b] => destruct (Rle_dec a b) end;
    destruct kp, kn; f_equal; try lra.
Qed.
Lemma windowed g h l : integral g (map (fun p => (fst p, h (fst p) * snd p)) l) = integral (fun f => g f * h f) l.
Proof. unfold integral. rewrite rsum_map. apply rsum_ext. intros [f w] _. cbn [fst snd]. lra. Qed.
Lemma moment_integral k l : moment k l = integral (fun f => f ^ k) l.
Proof. unfold moment. rewrite accum_sum. unfold integral. apply rsum_ext. intros. lra. Qed.
Lemma central_integral m k l : central m k l = integral (fun f => (f - m) ^ k) l.
Proof. unfold central. rewrite accum_sum. unfold integral. apply rsum_ext. intros. lra. Qed.
Lemma integral_shift g c l : integral g (shifted c l) = integral (fun f => g (f + c)) l.
Proof. unfold integral, shifted. rewrite rsum_map. auto. Qed.
Lemma integral_ext g h l : (forall f, g f = h f) -> integral g l = integral h l.
Proof. intros H. apply rsum_ext. intros. rewrite H. auto. Qed.
Lemma integral_lin a b g h l : integral (fun f => a * g f + b * h f) l = a * integral g l + b * integral h l.
Proof.
  unfold integral. rewrite (rsum_ext _ (fun p => a * (g (fst p) * snd p) + b * (h (fst p) * snd p))) by (intros; lra).
  rewrite rsum_plus, !rsum_scale. auto.
Qed.

Theorem central_ok l : moment 0 l <> 0 -> exists m c2 c3 c4,
  central_moments l = Ok [moment 0 l; moment 1 l; c2; c3; c4] /\ m = moment 1 l / moment 0 l /\
  c2 = integral (fun f => (f - m) ^ 2) l / moment 0 l /\ c3 = integral (fun f => (f - m) ^ 3) l / moment 0 l /\ c4 = integral (fun f => (f - m) ^ 4) l / moment 0 l /\
  c2 = moment 2 l / moment 0 l - m ^ 2.
Proof.
  intros H. exists (moment 1 l / moment 0 l). do 3 eexists. unfold central_moments. destruct (Req_EM_T (moment 0 l) 0); [contradiction|].
  rewrite !central_integral. split; [reflexivity|]. do 4 (split; [reflexivity|]).
  set (m := moment 1 l / moment 0 l).
  assert (E : integral (fun f => (f - m) ^ 2) l = moment 2 l - 2 * m * moment 1 l + m ^ 2 * moment 0 l).
  { rewrite !moment_integral. rewrite (integral_ext _ (fun f => 1 * f ^ 2 + 1 * ((- 2 * m) * f ^ 1 + m ^ 2 * f ^ 0))) by (intros; ring).
    rewrite integral_lin. rewrite (integral_lin (- 2 * m) (m ^ 2) (fun f => f ^ 1) (fun f => f ^ 0)). ring. }
  rewrite E. unfold m. field. auto.
Qed.
Theorem central_shift c l : moment 0 l <> 0 -> exists a b c2 c3 c4, central_moments l = Ok [a; b; c2; c3; c4] /\
  central_moments (shifted c l) = Ok [a; b + c * a; c2; c3; c4].
Proof.
  intros H. assert (E0 : moment 0 (shifted c l) = moment 0 l).
  { rewrite !moment_integral, integral_shift. apply integral_ext. intros; simpl; auto. }
  assert (E1 : moment 1 (shifted c l) = moment 1 l + c * moment 0 l).
  { rewrite !moment_integral, integral_shift. rewrite (integral_ext _ (fun f => 1 * f ^ 1 + c * f ^ 0)) by (intros; simpl; ring).
    rewrite integral_lin. ring. }
  do 5 eexists. unfold central_moments. rewrite E0, E1. destruct (Req_EM_T (moment 0 l) 0); [contradiction|]. split; [reflexivity|].
  assert (E : forall k, central ((moment 1 l + c * moment 0 l) / moment 0 l) k (shifted c l) = central (moment 1 l / moment 0 l) k l).
  { intros k. rewrite !central_integral, integral_shift. apply integral_ext. intros f. f_equal. field. auto. }
  rewrite !E. reflexivity.
Qed.
Theorem central_nonneg l m : nonnegative l -> 0 < moment 0 l -> 0 <= integral (fun f => (f - m) ^ 2) l / moment 0 l.
Proof.
  intros H H0. apply Rmult_le_pos; [|left; apply Rinv_0_lt_compat; auto]. apply rsum_nonneg. intros [f w] Hp. simpl.
  apply Rmult_le_pos; [rewrite Rmult_1_r; apply Rle_0_sqr|]. eapply H; eauto.
Qed.

(** ** Sum rules *)
Lemma exp_1 x : exp x = 1 <-> x = 0.
Proof. split; [intros H; apply exp_inv; rewrite exp_0; auto|intros ->; apply exp_0]. Qed.
Lemma bosefactor_none x : bosefactor x = None <-> x = 0.
Proof.
  unfold bosefactor. destruct (Req_EM_T (1 - exp (- x)) 0) as [e|e]; split; try discriminate; auto.
  - intros _. assert (H : exp (- x) = 1) by lra. apply (proj1 (exp_1 _)) in H. lra.
  - intros ->. exfalso. apply e. rewrite Ropp_0, exp_0. lra.
Qed.
Lemma bose_sum x : x <> 0 -> exists b c, bosefactor x = Some b /\ bosefactor (- x) = Some c /\ b + c = 1.
Proof.
  intros H. unfold bosefactor. destruct (Req_EM_T (1 - exp (- x)) 0) as [e|e].
  { exfalso. apply H. assert (E : exp (- x) = 1) by lra. apply (proj1 (exp_1 _)) in E. lra. }
  destruct (Req_EM_T (1 - exp (- - x)) 0) as [e'|e'].
  { exfalso. apply H. assert (E : exp (- - x) = 1) by lra. apply (proj1 (exp_1 _)) in E. lra. }
  do 2 eexists. split; [reflexivity|]. split; [reflexivity|]. rewrite Ropp_involutive in *.
  assert (P : exp x * exp (- x) = 1) by (rewrite <- exp_plus, Rplus_opp_r, exp_0; auto).
  assert (Hx : exp x <> 1) by lra. assert (Hx' : exp (- x) <> 1) by lra.
  replace (exp (- x)) with (/ exp x) in *. 2:{ rewrite exp_Ropp. auto. }
  assert (exp x <> 0) by (pose proof (exp_pos x); lra). field. repeat split; try lra.
Qed.
Lemma fermi_sum x : 1 / (1 + exp (- x)) + 1 / (1 + exp x) = 1.
Proof. rewrite exp_Ropp. pose proof (exp_pos x). field. lra. Qed.

Theorem sumrules_ok T l : 0 < T -> let s := integrals_for_sumrules T l in
  s_sum s = integral (fun _ => 1) l /\
  s_pos s + s_neg s + integral (delta 0) l = s_sum s /\
  s_fermi s + s_fermiinv s = s_sum s /\
  s_bose s + s_boseinv s + integral (delta 0) l = s_sum s.
Proof.
  intros HT. cbn [integrals_for_sumrules s_sum s_pos s_neg s_fermi s_bose s_fermiinv s_boseinv]. rewrite !accum_sum. unfold integral.
  split; [apply rsum_ext; intros; lra|]. split; [|split]; rewrite <- !rsum_plus; apply rsum_ext; intros [f w] _; cbn [fst snd].
  - unfold delta. destruct (Req_EM_T 0 f), (Rlt_dec 0 f), (Rlt_dec f 0); lra.
  - rewrite <- Rmult_plus_distr_r. replace (- f / T) with (- (f / T)) by (unfold Rdiv; lra). rewrite fermi_sum. lra.
  - replace (1 * f / T) with (f / T) by (unfold Rdiv; lra). replace (-1 * f / T) with (- (f / T)) by (unfold Rdiv; lra).
    unfold delta. destruct (Req_EM_T 0 f) as [<-|Hf].
    + replace (0 / T) with 0 by (unfold Rdiv; lra). rewrite Ropp_0. rewrite (proj2 (bosefactor_none 0)) by auto. lra.
    + destruct (bose_sum (f / T)) as (b & c & E1 & E2 & E3).
      { intros E. apply Hf. apply (Rmult_eq_reg_r (/ T)); [unfold Rdiv in E; lra|]. assert (0 < / T) by (apply Rinv_0_lt_compat; auto). lra. }
      rewrite E1, E2. rewrite <- Rmult_plus_distr_r. rewrite E3. lra.
Qed.

(** ** Cumulative spectrum *)
Definition below_weight (m : R) (l : list (R * R)) : R := rsum (fun p => if Rlt_dec (fst p) m then snd p else 0) l.
Lemma below_zero m l : below m l -> below_weight m l = 0.
Proof.
  unfold below_weight. induction l as [|p t IH]; simpl; auto. intros H. rewrite IH by (intros q Hq; apply H; right; auto).
  assert (m < fst p) by (apply H; left; auto). destruct (Rlt_dec (fst p) m); lra.
Qed.
Lemma asc_head f l m : asc l -> below f l -> ~ f < m -> below_weight m l = 0.
Proof.
  intros _ H Hm. unfold below_weight. induction l as [|p t IH]; simpl; auto. rewrite IH by (intros q Hq; apply H; right; auto).
  assert (f < fst p) by (apply H; left; auto). destruct (Rlt_dec (fst p) m); lra.
Qed.
Lemma advance_ok m l s : asc l -> exists r, advance m s l = (s + below_weight m l, r) /\ asc r /\
  forall m', m <= m' -> below_weight m' l = below_weight m l + below_weight m' r.
Proof.
  revert s. induction l as [|[f w] t IH]; intros s H.
  - exists []. cbn [advance]. split; [f_equal; unfold below_weight; simpl; lra|]. split; auto. intros. unfold below_weight. simpl. lra.
  - cbn [advance]. destruct H as [H1 H2]. destruct (Rlt_dec f m) as [Hf|Hf].
    + destruct (IH (s + w) H2) as (r & E & Ha & Hs). exists r. split.
      { rewrite E. f_equal. unfold below_weight. cbn [rsum fst snd]. destruct (Rlt_dec f m); lra. }
      split; auto. intros m' Hm. specialize (Hs m' Hm). unfold below_weight in *. cbn [rsum fst snd]. destruct (Rlt_dec f m), (Rlt_dec f m'); lra.
    + exists ((f, w) :: t). assert (E : below_weight m ((f, w) :: t) = 0).
      { unfold below_weight. cbn [rsum fst snd]. fold (below_weight m t). rewrite (asc_head f t m); auto. destruct (Rlt_dec f m); lra. }
      split; [f_equal; lra|]. split; [split; auto|]. intros. rewrite E. lra.
Qed.
Lemma cumulative_from_ok mesh s l m0 : asc l -> sorted (m0 :: mesh) -> (forall m, m0 <= m -> below_weight m l = below_weight m l) ->
  cumulative_from mesh s l = map (fun m => s + below_weight m l) mesh.
Proof.
  revert s l m0. induction mesh as [|m t IH]; intros s l m0 Ha Hs H0; auto. cbn [cumulative_from map].
  destruct (advance_ok m l s Ha) as (r & E & Hr & Hw). rewrite E. f_equal. rewrite (IH _ r m); auto; [|destruct Hs; auto].
  apply map_ext_in. intros x Hx. rewrite (Hw x); [lra|].
  assert (Hall : forall y, In y t -> m <= y).
  { destruct Hs as [_ Hs]. clear -Hs. revert m Hs. induction t as [|a t IH]; intros m Hs y Hy; [destruct Hy|]. destruct Hs as [H1 H2].
    destruct Hy as [<-|Hy]; auto. specialize (IH a H2 y Hy). lra. }
  auto.
Qed.
Lemma ascending_asc l : ascending (map fst l) -> asc l.
Proof.
  induction l as [|p t IH]; simpl; auto. intros H. destruct t as [|q t]; simpl in *; [split; auto; intros x []|].
  destruct H as [H1 H2]. specialize (IH H2). split; auto. intros x [<-|Hx]; auto. destruct IH as [IH _]. specialize (IH x Hx). lra.
Qed.
Theorem cumulative_ok mesh l : sorted mesh -> ascending (map fst l) -> calc_cumulative mesh l = map (fun m => below_weight m l) mesh.
Proof.
  intros Hs Ha. apply ascending_asc in Ha. unfold calc_cumulative. destruct mesh as [|m t]; auto.
  rewrite (cumulative_from_ok _ 0 l m); auto; [apply map_ext; intros; lra|]. split; [lra|auto].
Qed.
Theorem cumulative_grows m m' l : nonnegative l -> m <= m' -> below_weight m l <= below_weight m' l.
Proof.
  intros H Hm. unfold below_weight. induction l as [|[f w] t IH]; simpl; [lra|].
  assert (0 <= w) by (eapply H; left; reflexivity). assert (rsum (fun p : R * R => if Rlt_dec (fst p) m then snd p else 0) t <=
    rsum (fun p : R * R => if Rlt_dec (fst p) m' then snd p else 0) t) by (apply IH; intros g v Hg; eapply H; right; eauto).
  destruct (Rlt_dec f m), (Rlt_dec f m'); lra.
Qed.

Theorem moments_window low high posonly negonly l :
  moments (spm_filter low high posonly negonly l) =
    map (fun k => integral (fun f => f ^ k * spm_window low high posonly negonly f) l) [0; 1; 2; 3; 4]%nat.
Proof. unfold moments. apply map_ext. intros k. rewrite spm_filter_ok, moment_integral. exact (windowed _ _ _). Qed.
Theorem central_full l : let mom k := integral (fun f => f ^ k) l in let m := mom 1%nat / mom 0%nat in
  let cen k := integral (fun f => (f - m) ^ k) l / mom 0%nat in
  (mom 0%nat <> 0 -> central_moments l = Ok [mom 0%nat; mom 1%nat; cen 2%nat; cen 3%nat; cen 4%nat] /\ cen 2%nat = mom 2%nat / mom 0%nat - m ^ 2) /\
  (mom 0%nat = 0 -> central_moments l = Throw) /\
  (nonnegative l -> forall a b c2 c3 c4, central_moments l = Ok [a; b; c2; c3; c4] -> 0 < a /\ 0 <= c2 /\ 0 <= c4).
Proof.
  intros mom m cen. assert (EM : forall k, mom k = moment k l) by (intros; unfold mom; rewrite moment_integral; auto).
  assert (E1 : mom 0%nat <> 0 -> central_moments l = Ok [mom 0%nat; mom 1%nat; cen 2%nat; cen 3%nat; cen 4%nat] /\ cen 2%nat = mom 2%nat / mom 0%nat - m ^ 2).
  { intros H. rewrite EM in H. destruct (central_ok l H) as (m' & c2 & c3 & c4 & E & Em & H2 & H3 & H4 & H5).
    assert (Emm : m = m') by (unfold m; rewrite !EM; auto). unfold cen. rewrite !EM, Emm. subst c2 c3 c4. split; auto. }
  assert (E2 : mom 0%nat = 0 -> central_moments l = Throw).
  { rewrite EM. intros H. unfold central_moments. destruct (Req_EM_T (moment 0 l) 0); [auto|contradiction]. }
  split; [exact E1|]. split; [exact E2|]. intros Hn a b c2 c3 c4 H.
  destruct (Req_dec (mom 0%nat) 0) as [E|E]; [rewrite (E2 E) in H; discriminate|]. destruct (E1 E) as [Hc _]. rewrite Hc in H. injection H as <- <- <- <- <-.
  assert (Hp : 0 < mom 0%nat).
  { assert (0 <= mom 0%nat). { apply rsum_nonneg. intros [f w] Hp. simpl. specialize (Hn f w Hp). lra. } lra. }
  split; [auto|]. unfold cen. split; (apply Rmult_le_pos; [|left; apply Rinv_0_lt_compat; auto]); apply rsum_nonneg; intros [f w] Hq; simpl; specialize (Hn f w Hq); (apply Rmult_le_pos; [|lra]).
  - rewrite Rmult_1_r. apply Rle_0_sqr.
  - rewrite Rmult_1_r. rewrite <- !Rmult_assoc. rewrite (Rmult_assoc ((f - m) * (f - m))). apply Rmult_le_pos; apply Rle_0_sqr.
Qed.
Theorem central_shift' c l a b c2 c3 c4 : central_moments l = Ok [a; b; c2; c3; c4] -> central_moments (shifted c l) = Ok [a; b + c * a; c2; c3; c4].
Proof.
  intros H. assert (E : moment 0 l <> 0). { intros E. unfold central_moments in H. destruct (Req_EM_T (moment 0 l) 0); [discriminate|contradiction]. }
  destruct (central_shift c l E) as (a' & b' & d2 & d3 & d4 & E1 & E2). rewrite H in E1. injection E1 as <- <- <- <- <-. exact E2.
Qed.
