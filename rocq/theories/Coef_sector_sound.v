(** Soundness of the symbolic sectors of Coef_sector.v. *)
From Coq Require Import List ZArith Reals Lia Lra Bool String Permutation.
From Verif Require Import Base Invar_model Symmetry_model Coef_model Coef_norm Coef_norm_sound Coef_cert Coef_cert_sound Coef_spec Coef_sector.
Import ListNotations.
Local Open Scope string_scope.
Local Open Scope list_scope.
Local Open Scope Z_scope.

Lemma mapO_Forall2 : forall {A B} (f : A -> option B) l r, mapO f l = Some r -> Forall2 (fun x y => f x = Some y) l r.
Proof.
  induction l as [|a l IH]; intros r H; cbn [mapO] in H.
  - injection H as <-. constructor.
  - destruct (f a) as [b|] eqn:E; [|discriminate]. destruct (mapO f l) as [r'|]; [|discriminate]. injection H as <-.
    constructor; [exact E|]. apply IH. reflexivity.
Qed.
Lemma Forall2_mapO : forall {A B} (f : A -> option B) l r, Forall2 (fun x y => f x = Some y) l r -> mapO f l = Some r.
Proof. induction 1 as [|a b l r H F IH]; [reflexivity|]. cbn [mapO]. rewrite H, IH. reflexivity. Qed.

Lemma Forall2_length : forall {A B} (R : A -> B -> Prop) l l', Forall2 R l l' -> List.length l = List.length l'.
Proof. induction 1; cbn; congruence. Qed.

(** ** Sums do not depend on the order *)
Lemma mapO_id_perm : forall {A} (l l' : list (option A)), Permutation l l' -> forall r, mapO (fun x => x) l = Some r ->
  exists r', mapO (fun x => x) l' = Some r' /\ Permutation r r'.
Proof.
  induction 1 as [|x l l' P IH|x y l|l m k P1 IH1 P2 IH2]; intros r H.
  - exists r. split; [exact H|apply Permutation_refl].
  - cbn [mapO] in *. destruct x as [x|]; [|discriminate]. destruct (mapO (fun x => x) l) as [q|]; [|discriminate].
    destruct (IH q eq_refl) as (q' & -> & Pq). apply Some_eq in H. subst r. exists (x :: q'). split; [reflexivity|]. constructor. exact Pq.
  - cbn [mapO] in *. destruct x as [x|], y as [y|]; try discriminate. destruct (mapO (fun x => x) l) as [q|]; [|discriminate].
    apply Some_eq in H. subst r. exists (x :: y :: q). split; [reflexivity|apply perm_swap].
  - destruct (IH1 r H) as (r1 & E1 & Q1). destruct (IH2 r1 E1) as (r2 & E2 & Q2). exists r2. split; [exact E2|]. eapply Permutation_trans; eassumption.
Qed.
Lemma rsum_perm : forall l l', Permutation l l' -> rsum l = rsum l'.
Proof. induction 1; unfold rsum in *; cbn [fold_right] in *; lra. Qed.
Lemma osum_perm : forall l l', Permutation l l' -> osum l = osum l'.
Proof.
  intros l l' P. unfold osum. destruct (mapO (fun x => x) l) as [r|] eqn:E.
  - destruct (mapO_id_perm l l' P r E) as (r' & -> & Q). cbn [option_map]. f_equal. apply rsum_perm. exact Q.
  - destruct (mapO (fun x => x) l') as [r'|] eqn:E'; [|reflexivity].
    destruct (mapO_id_perm l' l (Permutation_sym P) r' E') as (r & E2 & _). congruence.
Qed.
Section Inst.
  Variables (tx ty : Z).
  Hypothesis Htx : 0 <= tx.
  Hypothesis Hty : 0 <= ty.

  Definition tv (v : nat) : Z := match v with O => tx | _ => ty end.
  Lemma tv_pos : forall v, 0 <= tv v.
  Proof. intros [|v]; assumption. Qed.
  Definition cval (x0 : Z) (c : scomp) : Z := match c with SFix z => z | SGen v c => c + tv v | SAny c => x0 + c end.
  Fixpoint inst (root : list Z) (a : ssec) : list Z :=
    match a, root with c :: a', x :: r => cval x c :: inst r a' | _, _ => [] end.

  Lemma cval_soff : forall x c k, cval x (soff c k) = cval x c + k.
  Proof. intros x [z|v c|c] k; cbn [soff cval]; lia. Qed.
  Lemma inst_length : forall root a, List.length a = List.length root -> List.length (inst root a) = List.length root.
  Proof. induction root as [|x r IH]; intros [|c a] H; try discriminate; [reflexivity|]. cbn in *. f_equal. apply IH. lia. Qed.
  Lemma inst_nth : forall root a n c, List.length a = List.length root -> nth_error a n = Some c ->
    nth_error (inst root a) n = Some (cval (nth n root 0) c).
  Proof.
    induction root as [|x r IH]; intros [|c a] [|n] d L H; try discriminate.
    - injection H as <-. reflexivity.
    - cbn in *. apply IH; [lia|exact H].
  Qed.
  Lemma inst_fits : forall root a, List.length a = List.length root -> fits tx ty a (inst root a).
  Proof.
    induction root as [|x r IH]; intros [|c a] L; try discriminate; [constructor|].
    cbn [inst]. constructor; [|apply IH; cbn in L; lia]. destruct c as [z|v c|c]; cbn; [reflexivity| |exact Logic.I].
    destruct v; reflexivity.
  Qed.

  (** shifts *)
  Lemma sh_comp_sound : forall (pre : list Z) x s c c' q, nth_error q (List.length pre) = Some (cval x c) -> sh_comp (List.length pre) s c = Some c' ->
    sh_val q s = Some (cval x c') .
  Proof.
    intros pre x s c c' q Hq H. destruct s as [n m k|n k]; cbn [sh_comp] in H.
    - destruct (Nat.eqb_spec n (List.length pre)) as [->|]; [|discriminate]. cbn [sh_val]. rewrite Hq. cbn [option_map].
      destruct (Z.eqb_spec m 1) as [->|N].
      + injection H as <-. rewrite cval_soff. f_equal. lia.
      + destruct c as [z|v c|c]; try discriminate. injection H as <-. reflexivity.
    - destruct (Nat.eqb_spec n (List.length pre)) as [->|]; [|discriminate]. cbn [sh_val]. rewrite Hq. cbn [option_map].
      destruct c as [z|v c|c]; try discriminate. injection H as <-. reflexivity.
  Qed.
  Lemma sshift_from_sound : forall l (pre : list Z) root a b, List.length a = List.length root -> sshift_from (List.length pre) l a = Some b ->
    List.length b = List.length root /\ mapO (sh_val (pre ++ inst root a)) l = Some (inst root b).
  Proof.
    induction l as [|s l IH]; intros pre root a b L H.
    - destruct a as [|c a]; [|discriminate]. apply Some_eq in H. subst b. split; [exact L|]. destruct root; reflexivity.
    - destruct a as [|c a]; [discriminate|]. destruct root as [|x r]; [discriminate|]. cbn [sshift_from] in H.
      destruct (sh_comp (List.length pre) s c) as [c'|] eqn:E; [|discriminate].
      destruct (sshift_from (S (List.length pre)) l a) as [b'|] eqn:E2; [|discriminate]. injection H as <-.
      cbn [inst]. assert (Q : pre ++ cval x c :: inst r a = (pre ++ [cval x c]) ++ inst r a) by (rewrite <- app_assoc; reflexivity).
      assert (LL : List.length (pre ++ [cval x c]) = S (List.length pre)) by (rewrite app_length; cbn; lia).
      rewrite <- LL in E2. destruct (IH _ r a b' ltac:(cbn in L; lia) E2) as [Lb M]. split; [cbn; lia|].
      cbn [mapO]. rewrite (sh_comp_sound pre x s c c' (pre ++ cval x c :: inst r a)); [|rewrite nth_error_app2, Nat.sub_diag by lia; reflexivity|exact E].
      rewrite Q, M. reflexivity.
  Qed.
  Lemma sshift_sound : forall root a l b, List.length a = List.length root -> sshift l a = Some b ->
    List.length b = List.length root /\ sh_apply l (inst root a) = Some (inst root b).
  Proof.
    intros root a l b L H. unfold sshift in H. destruct l as [|s l].
    - injection H as <-. rewrite map_length. split; [exact L|]. cbn [sh_apply]. f_equal. revert a L.
      induction root as [|x r IH]; intros [|c a] L; try discriminate; [reflexivity|]. cbn in *. f_equal. apply IH. lia.
    - exact (sshift_from_sound (s :: l) [] root a b L H).
  Qed.
  Lemma sunshift_from_sound : forall l p root a b, List.length a = List.length root -> sunshift_from p l a = Some b ->
    List.length b = List.length root /\ unshift_from p l (inst root a) = Some (inst root b).
  Proof.
    induction l as [|s l IH]; intros p root a b L H.
    - destruct a as [|c a]; [|discriminate]. apply Some_eq in H. subst b. split; [exact L|]. destruct root; reflexivity.
    - destruct a as [|c a]; [discriminate|]. destruct root as [|x r]; [discriminate|]. cbn [sunshift_from] in H.
      destruct (unsh_comp p s c) as [c'|] eqn:E; [|discriminate].
      destruct (sunshift_from (S p) l a) as [b'|] eqn:E2; [|discriminate]. injection H as <-.
      destruct (IH (S p) r a b' ltac:(cbn in L; lia) E2) as [Lb M]. split; [cbn; lia|].
      cbn [inst unshift_from]. rewrite M. destruct s as [n m k|n k]; cbn [unsh_comp] in E.
      + destruct (Nat.eqb n p); [|discriminate]. cbn [andb]. destruct (Z.eqb_spec m 1) as [->|N].
        * injection E as <-. cbn [orb option_map]. rewrite cval_soff. do 2 f_equal; try lia.
        * destruct (Z.eqb_spec m (-1)) as [->|N']; [|discriminate]. destruct c as [z|v c|c]; try discriminate. injection E as <-.
          cbn [orb option_map cval]. do 2 f_equal; try lia.
      + destruct (Nat.eqb n p); [|discriminate]. destruct c as [z|v c|c]; try discriminate. injection E as <-. reflexivity.
  Qed.
  Lemma sunshift_sound : forall root a l b, List.length a = List.length root -> sunshift l a = Some b ->
    List.length b = List.length root /\ unshift l (inst root a) = Some (inst root b).
  Proof.
    intros root a l b L H. unfold sunshift in H. destruct l as [|s l].
    - destruct (forallb is_fix0 a) eqn:E; [|discriminate]. injection H as <-. split; [exact L|]. cbn [unshift].
      assert (Z0 : forallb (Z.eqb 0) (inst root a) = true).
      { revert a L E. induction root as [|x r IH]; intros [|c a] L E; try discriminate; [reflexivity|]. cbn [forallb inst] in *.
        apply andb_true_iff in E. destruct E as [E1 E2]. destruct c as [z|v c|c]; try discriminate. cbn in E1. apply Z.eqb_eq in E1. subst z.
        cbn [cval]. rewrite IH by (try exact E2; cbn in L; lia). reflexivity. }
      rewrite Z0. reflexivity.
    - exact (sunshift_from_sound (s :: l) 0 root a b L H).
  Qed.

  Lemma scombine_sound : forall tl root a d b, List.length a = List.length root -> scombine tl a d = Some b ->
    List.length b = List.length root /\ Invar_model.combine tl (inst root a) d = Ok (inst root b).
  Proof.
    induction tl as [|t tl IH]; intros root a d b L H; cbn [scombine] in H.
    - injection H as <-. split; [exact L|reflexivity].
    - destruct a as [|c a]; [destruct t; discriminate|]. destruct root as [|x r]; [discriminate|].
      assert (L' : List.length a = List.length r) by (cbn in L; lia).
      destruct t.
      + destruct c as [z|v c|c]; try discriminate. destruct d as [|y d]; [discriminate|]. destruct (parity_ok z) eqn:E; [|discriminate].
        destruct (scombine tl a d) as [b'|] eqn:E2; [|discriminate]. injection H as <-. destruct (IH r a d b' L' E2) as [Lb M].
        split; [cbn; lia|]. cbn [inst Invar_model.combine cval]. rewrite E. cbn [my_assert bind]. rewrite M. reflexivity.
      + destruct d as [|y d]; [destruct c; discriminate|].
        destruct (scombine tl a d) as [b'|] eqn:E2; [|destruct c; discriminate].
        assert (H' : b = soff c y :: b') by (destruct c; injection H as <-; reflexivity). subst b.
        destruct (IH r a d b' L' E2) as [Lb M]. split; [cbn; lia|]. cbn [inst Invar_model.combine]. rewrite M. cbn [bind]. rewrite cval_soff. reflexivity.
      + destruct c as [z|v c|c]; try discriminate. destruct d as [|y d]; [discriminate|]. destruct (mod3_ok z) eqn:E; [|discriminate].
        destruct (scombine tl a d) as [b'|] eqn:E2; [|discriminate]. injection H as <-. destruct (IH r a d b' L' E2) as [Lb M].
        split; [cbn; lia|]. cbn [inst Invar_model.combine cval]. rewrite E. cbn [my_assert bind]. rewrite M. reflexivity.
  Qed.

  Lemma sget_sound : forall sg root a n i c, List.length a = List.length root -> sget sg a n = Some (i, c) ->
    index_of sg n 0 = Some i /\ get sg (inst root a) n = Ok (cval (nth i root 0) c).
  Proof.
    intros sg root a n i c L H. unfold sget in H. unfold get. destruct (index_of sg n 0) as [i0|]; [|discriminate].
    destruct (nth_error a i0) as [c0|] eqn:E; [|discriminate]. unfold getqn. rewrite (inst_nth root a i0 c0 L E). cbn [bind].
    destruct (nth_error (qntype sg) i0) as [t|]; [|destruct c0; discriminate].
    destruct c0 as [z|v c0|c0]; destruct t; try discriminate.
    - destruct (parity_ok z) eqn:E2; [|discriminate]. injection H as <- <-. split; [reflexivity|]. cbn [cval]. rewrite E2. reflexivity.
    - injection H as <- <-. split; reflexivity.
    - destruct (mod3_ok z) eqn:E2; [|discriminate]. injection H as <- <-. split; [reflexivity|]. cbn [cval]. rewrite E2. reflexivity.
    - injection H as <- <-. split; reflexivity.
    - injection H as <- <-. split; reflexivity.
  Qed.

  Lemma leb_c_sound : forall m x c b, leb_c m c = Some b -> (m <=? cval x c) = b.
  Proof.
    intros m x [z|v c|c] b H; cbn [leb_c] in H; try discriminate.
    - injection H as <-. reflexivity.
    - destruct (Z.leb_spec m c); [|discriminate]. injection H as <-. cbn [cval]. apply Z.leb_le. pose proof (tv_pos v). lia.
  Qed.
  Lemma sallowed_of_sound : forall sg root a l b, List.length a = List.length root -> sallowed_of sg l a = Some b ->
    allowed_of sg l (inst root a) = Ok b.
  Proof.
    intros sg root a l. induction l as [|[n m] l IH]; intros b L H; cbn [sallowed_of] in H.
    - injection H as <-. reflexivity.
    - destruct (sget sg a n) as [[i c]|] eqn:E; [|discriminate]. cbn [obind snd] in H. destruct (leb_c m c) as [x|] eqn:E2; [|discriminate].
      cbn [obind] in H. destruct (sallowed_of sg l a) as [r|]; [|discriminate]. injection H as <-.
      destruct (sget_sound sg root a n i c L E) as [_ G]. cbn [allowed_of]. rewrite G. cbn [bind]. rewrite (IH r L eq_refl). cbn [bind].
      rewrite (leb_c_sound m _ c x E2). reflexivity.
  Qed.
  Lemma sallowed_sound : forall sy root a b, List.length a = List.length root -> sallowed sy a = Some b -> allowed sy (inst root a) = Ok b.
  Proof. intros sy root a b L H. exact (sallowed_of_sound _ root a _ b L H). Qed.

  Lemma stri_test_sound : forall k x c1 c2 z b, stri_test k c1 c2 z = Some b -> tri_test k (cval x c1) (cval x c2) z = b.
  Proof.
    intros k x c1 c2 z b H.
    destruct c1 as [p|v p|p], c2 as [q|w q|q]; try discriminate.
    - injection H as <-. reflexivity.
    - pose proof (tv_pos v) as T. destruct k; cbn [stri_test] in H; try discriminate;
        (destruct (Nat.eqb_spec v w) as [<-|]; [|discriminate]); cbn [tri_test cval]; unfold su2_triangle_inequality.
      + destruct ((Z.abs (p - q) <=? z - 1) && (q - z <=? p - 1) && (p - z <=? q - 1)) eqn:E.
        * destruct (Z.leb_spec (z + 1) (p + q)); [|discriminate]. injection H as <-.
          apply andb_true_iff in E. destruct E as [E E3]. apply andb_true_iff in E. destruct E as [E1 E2].
          apply Z.leb_le in E1, E2, E3. rewrite !andb_true_iff, !Z.leb_le. lia.
        * injection H as <-. apply not_true_iff_false. intros T2. apply not_true_iff_false in E. apply E.
          rewrite !andb_true_iff, !Z.leb_le in T2. rewrite !andb_true_iff, !Z.leb_le. lia.
      + destruct ((Z.abs (p - q) <=? z) && (q - z <=? p) && (p - z <=? q)) eqn:E.
        * destruct (Z.leb_spec z (p + q)); [|discriminate]. injection H as <-.
          apply andb_true_iff in E. destruct E as [E E3]. apply andb_true_iff in E. destruct E as [E1 E2].
          apply Z.leb_le in E1, E2, E3. rewrite !andb_true_iff, !Z.leb_le. lia.
        * injection H as <-. apply not_true_iff_false. intros T2. apply not_true_iff_false in E. apply E.
          rewrite !andb_true_iff, !Z.leb_le in T2. rewrite !andb_true_iff, !Z.leb_le. lia.
    - destruct k; try discriminate. cbn [stri_test] in H. injection H as <-. cbn [tri_test cval]. unfold u1_equality.
      destruct (Z.eqb_spec p (q + z)); [apply Z.eqb_eq|apply Z.eqb_neq]; lia.
  Qed.
  Lemma stri_of_sound : forall sg root a b q l r, List.length a = List.length root -> List.length b = List.length root ->
    stri_of sg l a b q = Some r -> tri_of sg l (inst root a) (inst root b) q = Ok r.
  Proof.
    intros sg root a b q l. induction l as [|[k n] l IH]; intros r La Lb H; cbn [stri_of] in H.
    - injection H as <-. reflexivity.
    - destruct (sget sg a n) as [[i c1]|] eqn:E1; [|discriminate]. destruct (sget sg b n) as [[j c2]|] eqn:E2; [|discriminate].
      destruct (get sg q n) as [z| |] eqn:E3; try discriminate. destruct (stri_test k c1 c2 z) as [x|] eqn:E4; [|discriminate]. cbn [obind] in H.
      destruct (sget_sound sg root a n i c1 La E1) as [I1 G1]. destruct (sget_sound sg root b n j c2 Lb E2) as [I2 G2].
      assert (j = i) by congruence. subst j. cbn [tri_of]. rewrite G1. cbn [bind]. rewrite G2. cbn [bind]. rewrite E3. cbn [bind].
      rewrite (stri_test_sound k _ c1 c2 z x E4). destruct x; [apply IH; assumption|injection H as <-; reflexivity].
  Qed.
  Lemma stri_sound : forall sy root a b q r, List.length a = List.length root -> List.length b = List.length root ->
    stri sy a b q = Some r -> triangle sy (inst root a) (inst root b) q = Ok r.
  Proof. intros sy root a b q r La Lb H. exact (stri_of_sound _ root a b q _ r La Lb H). Qed.

  Local Notation X := (IZR tx).
  Local Notation Y := (IZR ty).
  Lemma X0 : (0 <= X)%R. Proof. apply IZR_le. exact Htx. Qed.
  Lemma Y0 : (0 <= Y)%R. Proof. apply IZR_le. exact Hty. Qed.
  Lemma comp_msum_sound : forall k x c s, comp_msum k c = Some s -> swf s = true /\ sval X Y s = IZR (mult_factor k (cval x c)).
  Proof.
    intros k x c s H. unfold comp_msum in H.
    assert (G : forall a b, (forall z, mult_factor k z = a * z + b) -> 0 <= a ->
      (match c with SFix z => Some [(pconst (a * z + b), [])] | SGen v c => if 0 <? a * c + b then Some [(pconst 1, [((v, a, a * c + b), 2)])] else None | SAny _ => None end) = Some s ->
      swf s = true /\ sval X Y s = IZR (mult_factor k (cval x c))).
    { clear H. intros a b M Ha H. destruct c as [z|v c|c]; try discriminate.
      - apply Some_eq in H. subst s. split; [reflexivity|]. cbn [sval cval]. unfold nval. cbn [fst snd mval]. rewrite ev_const, M. ring.
      - destruct (Z.ltb_spec 0 (a * c + b)) as [L|]; [|discriminate]. apply Some_eq in H. subst s.
        assert (W : atom_wf (v, a, a * c + b) = true) by (cbn; rewrite (proj2 (Z.leb_le 0 a) Ha), (proj2 (Z.ltb_lt _ _) L); reflexivity).
        split; [unfold swf, nwf, mono_wf; cbn [forallb snd fst]; rewrite W; reflexivity|].
        cbn [sval cval]. unfold nval. cbn [fst snd mval]. rewrite ev_const.
        assert (Q : powerRZ (sq X Y (v, a, a * c + b)) 2 = aval X Y (v, a, a * c + b)).
        { rewrite <- (sq_sq X Y X0 Y0 (v, a, a * c + b) W). generalize (sq X Y (v, a, a * c + b)). intros r. change (powerRZ r 2) with (r ^ 2)%R. ring. }
        rewrite Q, M. cbn [aval]. rewrite !plus_IZR, !mult_IZR, !plus_IZR. destruct v; cbn [tv]; ring. }
    destruct k; [apply (G 1 0)|apply (G 2 1)]; try exact H; try lia; intros z; cbn [mult_factor]; lia.
  Qed.
  Lemma smult_of_sound : forall sg root a l p, List.length a = List.length root -> smult_of sg l a = Some p ->
    exists d, mult_of sg l (inst root a) = Ok d /\ swf p = true /\ sval X Y p = IZR d.
  Proof.
    intros sg root a l. induction l as [|[k n] l IH]; intros p L H; cbn [smult_of] in H.
    - apply Some_eq in H. subst p. exists 1. split; [reflexivity|]. split; [reflexivity|]. cbn [sval]. unfold nval. cbn [fst snd mval]. rewrite ev_const. ring.
    - destruct (sget sg a n) as [[i c]|] eqn:E; [|discriminate]. cbn [obind snd] in H. destruct (comp_msum k c) as [pc|] eqn:E2; [|discriminate].
      cbn [obind] in H. destruct (smult_of sg l a) as [pr|]; [|discriminate]. cbn [obind] in H.
      destruct (IH pr L eq_refl) as (d & M & W & V). destruct (sget_sound sg root a n i c L E) as [_ G].
      destruct (comp_msum_sound k (nth i root 0) c pc E2) as [Wc Vc].
      exists (mult_factor k (cval (nth i root 0) c) * d). cbn [mult_of]. rewrite G. cbn [bind]. rewrite M. cbn [bind]. split; [reflexivity|].
      apply Some_eq in H. subst p. destruct (smul_sound X Y X0 Y0 pc pr Wc W) as [W' V']. split; [exact W'|]. rewrite V', Vc, V, mult_IZR. reflexivity.
  Qed.
  Lemma smult_sound : forall sy root a p, List.length a = List.length root -> smult sy a = Some p ->
    exists d, mult sy (inst root a) = Ok d /\ swf p = true /\ sval X Y p = IZR d.
  Proof. intros sy root a p L H. exact (smult_of_sound _ root a _ p L H). Qed.

  (** equality of sectors *)
  Lemma scomp_eqb_sound : forall x c d r, scomp_eqb c d = Some r -> (cval x c =? cval x d) = r.
  Proof.
    intros x c d r H. destruct c as [z|v c|c], d as [z'|w d|d]; cbn [scomp_eqb] in H; try discriminate.
    - apply Some_eq in H. subst r. reflexivity.
    - destruct (Nat.eqb_spec v w) as [->|]; [|discriminate]. apply Some_eq in H. subst r. cbn [cval]. destruct (Z.eqb_spec c d); [apply Z.eqb_eq|apply Z.eqb_neq]; lia.
    - apply Some_eq in H. subst r. cbn [cval]. destruct (Z.eqb_spec c d); [apply Z.eqb_eq|apply Z.eqb_neq]; lia.
  Qed.
  Lemma ssec_eqb_sound : forall root a b r, List.length a = List.length root -> List.length b = List.length root -> ssec_eqb a b = Some r ->
    invar_eqb (inst root a) (inst root b) = r.
  Proof.
    intros root a b r La Lb H.
    assert (G : if r then inst root a = inst root b else inst root a <> inst root b).
    { revert a b r La Lb H. induction root as [|x root IH]; intros [|c a] [|d b] r La Lb H; try discriminate.
      - apply Some_eq in H. subst r. reflexivity.
      - cbn [ssec_eqb] in H. destruct (scomp_eqb c d) as [r1|] eqn:E1; [|discriminate]. destruct (ssec_eqb a b) as [r2|] eqn:E2; [|discriminate].
        cbn [omap2] in H. apply Some_eq in H. subst r. apply (scomp_eqb_sound x) in E1. specialize (IH a b r2 ltac:(cbn in La; lia) ltac:(cbn in Lb; lia) E2).
        cbn [inst]. destruct r1; cbn [andb].
        + apply Z.eqb_eq in E1. destruct r2; [congruence|]. intros Q. injection Q as _ Q. exact (IH Q).
        + apply Z.eqb_neq in E1. intros Q. injection Q as Q _. exact (E1 Q). }
    unfold invar_eqb. destruct (list_eq_dec Z.eq_dec (inst root a) (inst root b)); destruct r; try reflexivity; try contradiction.
  Qed.

  Section Sets.
    Variable cs : coef_set.
    Notation sy := (cs_sym cs).
    Variable root : list Z.

    Lemma scoupled_sound : forall a b r, List.length a = List.length root -> List.length b = List.length root ->
      scoupled cs a b = Some r -> coupled cs (inst root a) (inst root b) = Ok r.
    Proof.
      intros a b r La Lb H. unfold scoupled in H. unfold coupled. destruct (Invar_f cs); [apply stri_sound; assumption|].
      injection H as <-. reflexivity.
    Qed.
    Lemma sblock_sound : forall a1 ap o r, List.length a1 = List.length root -> List.length ap = List.length root -> List.length o = List.length root ->
      sblock cs a1 ap o = Some r -> yes (allowed sy (inst root o)) && yes (coupled cs (inst root a1) (inst root ap)) = r.
    Proof.
      intros a1 ap o r L1 Lp Lo H. unfold sblock in H. destruct (sallowed sy o) as [x|] eqn:E; [|discriminate]. cbn [obind] in H.
      rewrite (sallowed_sound _ root o x Lo E). cbn [yes]. destruct x; [|injection H as <-; reflexivity].
      rewrite (scoupled_sound a1 ap r L1 Lp H). reflexivity.
    Qed.

    Lemma tblock_sound : forall t a1 ap o r, List.length a1 = List.length root -> List.length ap = List.length root -> List.length o = List.length root ->
      tblock cs t a1 ap o = Some r -> yes (allowed sy (inst root o)) && yes (triangle sy (inst root a1) (inst root ap) (tt_iop t)) = r.
    Proof.
      intros t a1 ap o r L1 Lp Lo H. unfold tblock in H. destruct (sallowed sy o) as [x|] eqn:E; [|discriminate]. cbn [obind] in H.
      rewrite (sallowed_sound _ root o x Lo E). cbn [yes]. destruct x; [|injection H as <-; reflexivity].
      rewrite (stri_sound _ root a1 ap _ r L1 Lp H). reflexivity.
    Qed.

    (** finite maps *)
    Lemma tget_tset : forall {A} k (t : trie A) f k', tget (tset t k f) k' = if Pos.eqb k k' then Some (f (tget t k')) else tget t k'.
    Proof.
      intros A. induction k as [k IH|k IH|]; intros [|l v r] f [k'|k'|]; cbn [tset tget Pos.eqb]; try reflexivity; rewrite IH; try reflexivity;
        destruct (Pos.eqb k k'); try reflexivity; destruct k'; reflexivity.
    Qed.
    Lemma tkey_eqb : forall i j, Pos.eqb (tkey i) (tkey j) = (i =? j).
    Proof. intros [|p|p] [|q|q]; reflexivity. Qed.

    (** families *)
    Lemma sfam_of_sound : forall a b q r, List.length a = List.length root -> List.length b = List.length root -> sfam_of cs a b q = Some r ->
      yes (allowed sy (inst root b)) && yes (triangle sy (inst root a) (inst root b) q) = r.
    Proof.
      intros a b q r L Lb H. unfold sfam_of in H. destruct (sallowed sy b) as [x|] eqn:E2; [|discriminate]. cbn [obind] in H.
      rewrite (sallowed_sound _ root b x Lb E2). cbn [yes]. destruct x; [|injection H as <-; reflexivity]. rewrite (stri_sound _ root a b q r L Lb H). reflexivity.
    Qed.
    Lemma nth_error_combine : forall {A B} (l : list A) (l' : list B) n, nth_error (List.combine l l') n =
      match nth_error l n, nth_error l' n with Some x, Some y => Some (x, y) | _, _ => None end.
    Proof.
      induction l as [|a l IH]; intros l' n; [destruct n; reflexivity|]. destruct l' as [|b l']; [destruct n as [|n]; [reflexivity|]; cbn; destruct (nth_error l n); reflexivity|].
      destruct n as [|n]; [reflexivity|]. cbn. apply IH.
    Qed.
    Definition fam_entry (a : ssec) (o : option (invar * invar)) (v : option ssec) : Prop :=
      match o with
      | Some (d, q) => exists b x, scombine (ts sy) a d = Some b /\ sfam_of cs a b q = Some x /\ v = if x then Some b else None
      | None => v = None
      end.
    Lemma sfams_from_sound : forall a l i fl, sfams_from cs a i l = Some fl ->
      (forall z, 0 < z < Zpos i -> tget fl (tkey z) = None) /\
      forall z, Zpos i <= z -> fam_entry a (nth_error l (Z.to_nat (z - Zpos i))) (tget fl (tkey z)).
    Proof.
      intros a. induction l as [|[d q] l IH]; intros i fl H; cbn [sfams_from] in H.
      - apply Some_eq in H. subst fl. split; [intros z _; destruct (tkey z); reflexivity|]. intros z Hz. destruct (Z.to_nat (z - Zpos i)); cbn; destruct (tkey z); reflexivity.
      - destruct (scombine (ts sy) a d) as [b|] eqn:Eb; [|discriminate]. cbn [obind] in H. destruct (sfam_of cs a b q) as [x|] eqn:Ex; [|discriminate]. cbn [obind] in H.
        destruct (sfams_from cs a (Pos.succ i) l) as [r|] eqn:Er; [|discriminate]. cbn [obind] in H. apply Some_eq in H.
        destruct (IH (Pos.succ i) r Er) as [I1 I2].
        assert (G : forall z, tget fl (tkey z) = if (Zpos i =? z) && x then Some b else tget r (tkey z)).
        { intros z. subst fl. destruct x; [|rewrite andb_false_r; reflexivity]. rewrite andb_true_r, tget_tset.
          change (xO i) with (tkey (Zpos i)). rewrite tkey_eqb. reflexivity. }
        split.
        + intros z Hz. rewrite G. rewrite (proj2 (Z.eqb_neq (Zpos i) z)) by lia. cbn [andb]. apply I1. lia.
        + intros z Hz. rewrite G. destruct (Z.eqb_spec (Zpos i) z) as [<-|N].
          * rewrite Z.sub_diag. cbn [Z.to_nat nth_error fam_entry]. exists b, x. split; [exact Eb|]. split; [exact Ex|]. cbn [andb].
            destruct x; [reflexivity|]. apply I1. lia.
          * cbn [andb]. replace (Z.to_nat (z - Zpos i)) with (S (Z.to_nat (z - Zpos (Pos.succ i)))) by lia. cbn [nth_error]. apply I2. lia.
    Qed.
    (** [fl] lists the families of sector J *)
    Definition fams_ok (fl : trie ssec) (J : invar) : Prop := forall i,
      match has fl i with
      | Some A => family cs J i = true /\ List.length A = List.length root /\ built_from cs J i = Some (inst root A)
      | None => family cs J i = false
      end.
    Lemma sfams_sound : forall a fl, List.length a = List.length root -> sfams cs a = Some fl -> fams_ok fl (inst root a).
    Proof.
      intros a fl L H i. unfold sfams in H. destruct (sfams_from_sound a _ _ _ H) as [_ F]. unfold has, family.
      destruct (Z.leb_spec 1 i) as [Hi|Hi]; [|reflexivity]. specialize (F i Hi). cbn [andb]. unfold built_from, ancestor.
      replace (Z.to_nat (i - 1)) with (Z.to_nat (i - Zpos 1)) by reflexivity. set (n := Z.to_nat (i - 1)) in *.
      rewrite nth_error_combine in F.
      destruct (nth_error (tb_In (cs_tab cs)) n) as [d|] eqn:E1.
      - assert (Hn : (n < List.length (tb_In (cs_tab cs)))%nat) by (apply nth_error_Some; congruence).
        replace (Nat.ltb n (List.length (tb_In (cs_tab cs)))) with true by (symmetry; apply Nat.ltb_lt; exact Hn). cbn [my_assert bind].
        destruct (nth_error (tb_QN (cs_tab cs)) n) as [q|] eqn:E2; cbn [fam_entry] in F.
        + destruct F as (b & x & Eb & Ex & V). destruct (scombine_sound _ root a d b L Eb) as [Lb C]. rewrite C, V.
          pose proof (sfam_of_sound a b q x L Lb Ex) as S. rewrite S. destruct x; [|reflexivity]. repeat split; assumption.
        + rewrite F. destruct (Invar_model.combine (ts sy) (inst root a) d); reflexivity.
      - assert (Hn : (List.length (tb_In (cs_tab cs)) <= n)%nat) by (apply nth_error_None; exact E1).
        replace (Nat.ltb n (List.length (tb_In (cs_tab cs)))) with false by (symmetry; apply Nat.ltb_ge; exact Hn). cbn [my_assert bind].
        cbn [fam_entry] in F. rewrite F. reflexivity.
    Qed.

    (** ** Values *)
    Variable nn : Z.
    Definition sgn (b : bool) : R := if b && Z.odd nn then (-1)%R else 1%R.
    Lemma sgn_xor : forall a b, sgn (xorb a b) = (sgn a * sgn b)%R.
    Proof. intros a b. unfold sgn. destruct a, b, (Z.odd nn); cbn; ring. Qed.
    Definition vv (w : fv) : R := (sgn (fst w) * sval X Y (snd w))%R.
    Definition fwf (w : fv) : Prop := swf (snd w) = true.
    Lemma fmul_sound : forall a b, fwf a -> fwf b -> fwf (fmul a b) /\ vv (fmul a b) = (vv a * vv b)%R.
    Proof.
      intros [b s] [b' s'] W W'. unfold fwf, vv, fmul in *. cbn [fst snd] in *. destruct (smul_sound X Y X0 Y0 s s' W W') as [W2 V]. split; [exact W2|].
      rewrite V, sgn_xor. ring.
    Qed.

    Definition cert_of (f : option cexpr) (c : option cert) : Prop := forall ct, c = Some ct -> exists e, f = Some e /\ cert_ok e ct = true.
    Lemma sfactor_at_sound : forall p f c w, List.length p = List.length root -> cert_of f c ->
      sfactor_at p f c = Some w -> fwf w /\ obind f (ceval (inst root p) nn) = Some (vv w).
    Proof.
      intros p f c w L HC H.
      assert (G : obind f (fun e => if no_sign e then option_map (pair false) (norm p false e) else None) = Some w -> fwf w /\ obind f (ceval (inst root p) nn) = Some (vv w)).
      { clear H. intros H. destruct f as [e|]; [|discriminate]. cbn [obind] in H |- *. destruct (no_sign e) eqn:ES; [|discriminate].
        destruct (norm p false e) as [s|] eqn:E; [|discriminate]. cbn [option_map] in H. apply Some_eq in H. subst w.
        destruct (norm_sound X Y X0 Y0 tx ty eq_refl eq_refl p false (inst root p) 0 e s (inst_fits root p L) eq_refl E) as [W V].
        split; [exact W|]. rewrite (ceval_no_sign _ nn 0 e ES), V. unfold vv, sgn. cbn [fst snd andb]. f_equal. ring. }
      unfold sfactor_at in H. destruct c as [ct|]; [|exact (G H)]. destruct (cert_at p false ct) as [s|] eqn:E; [|exact (G H)].
      apply Some_eq in H. subst w. destruct (HC ct eq_refl) as (e & -> & Ok). cbn [obind].
      destruct (cert_at_sound tx ty Htx Hty p (inst root p) false 0 ct s (inst_fits root p L) eq_refl E) as (Gs & W & V).
      split; [exact W|]. rewrite (cert_ok_sound e ct (inst root p) nn Ok Gs). f_equal. unfold vv. cbn [fst snd]. rewrite V. unfold cert_val, sgn.
      change (Z.odd 0) with false. cbn [andb]. rewrite (andb_comm (Z.odd nn)).
      destruct (ce_flip ct), (Z.odd nn), (ce_neg ct); cbn [andb xorb zsign]; ring.
    Qed.

    (** values of symbolic elements *)
    Definition vent (E : list (Z * Z * fv)) : list (Z * Z * R) := map (fun e => let '(i, k, s) := e in (i, k, vv s)) E.
    Definition vrow (u : list (Z * fv)) : list (Z * R) := map (fun p => (fst p, vv (snd p))) u.
    Definition ewf (E : list (Z * Z * fv)) : Prop := Forall (fun e => fwf (snd e)) E.
    Definition rwf (u : list (Z * fv)) : Prop := Forall (fun p => fwf (snd p)) u.

    Definition row_cert (r : Z * Z * option cexpr) (c : option cert) : Prop := cert_of (snd r) c.
    Lemma sentries_sound : forall rs cl fl1 flp I1 p E, List.length p = List.length root -> Forall2 row_cert rs cl ->
      fams_ok fl1 I1 -> fams_ok flp (inst root p) -> sentries (List.combine rs cl) fl1 flp p = Some E ->
      mapO (fun r => let '(i, k, f) := r in option_map (fun v => (i, k, v)) (obind f (ceval (inst root p) nn)))
        (filter (fun r : Z * Z * option cexpr => let '(i, k, _) := r in family cs I1 i && family cs (inst root p) k) rs) = Some (vent E) /\ ewf E.
    Proof.
      intros rs cl fl1 flp I1 p E L HC H1 Hp. revert E.
      induction HC as [|[[i k] f] c rs cl Hc HC IH]; intros E H; [apply Some_eq in H; subst E; split; [reflexivity|constructor]|].
      cbn [List.combine sentries filter] in H |- *. specialize (H1 i) as F1. specialize (Hp k) as Fp.
      destruct (has fl1 i) as [A|]; [|rewrite F1; cbn [andb]; exact (IH E H)].
      destruct (has flp k) as [B|]; [|rewrite Fp, andb_false_r; exact (IH E H)].
      destruct F1 as (F1 & _). destruct Fp as (Fp & _). rewrite F1, Fp. cbn [andb mapO].
      destruct (sfactor_at p f c) as [w|] eqn:Es; [|discriminate]. destruct (sentries (List.combine rs cl) fl1 flp p) as [E'|]; [|discriminate].
      cbn [omap2] in H. apply Some_eq in H. subst E. destruct (IH E' eq_refl) as [IH1 IH2].
      destruct (sfactor_at_sound p f c w L Hc Es) as [W V]. rewrite IH1, V. split; [reflexivity|constructor; [exact W|exact IH2]].
    Qed.
    Definition short (r : Z * Z * list sh * list sh * option cexpr) : Z * Z * option cexpr := let '(i, k, _, _, f) := r in (i, k, f).
    Lemma stentries_sound : forall t rs cl fl1 flp p Ip E, List.length p = List.length root -> Forall2 row_cert (map short rs) cl ->
      fams_ok fl1 (inst root p) -> fams_ok flp Ip -> stentries cs t (List.combine (map short rs) cl) fl1 flp p = Some E ->
      mapO (fun r => let '(i, k, _, _, f) := r in option_map (fun v => (i, k, v)) (obind f (ceval (inst root p) nn)))
        (filter (fun r : Z * Z * list sh * list sh * option cexpr =>
           let '(i, k, _, _, _) := r in family cs (inst root p) i && family cs Ip k && linked cs t (inst root p) i Ip k) rs) = Some (vent E) /\ ewf E.
    Proof.
      intros t rs cl fl1 flp p Ip E L HC H1 Hp. revert cl HC E.
      induction rs as [|[[[[i k] s1] s2] f] rs IH]; intros cl HC E H.
      - destruct cl; apply Some_eq in H; subst E; (split; [reflexivity|constructor]).
      - cbn [map short] in HC. destruct cl as [|c cl]; [inversion HC|]. inversion HC as [|? ? ? ? Hc HC']. subst. clear HC.
        cbn [map short List.combine stentries filter] in H |- *. specialize (H1 i) as F1. specialize (Hp k) as Fp.
        destruct (has fl1 i) as [A|]; [|rewrite F1; cbn [andb]; exact (IH cl HC' E H)].
        destruct (has flp k) as [B|]; [|rewrite Fp, andb_false_r; cbn [andb]; exact (IH cl HC' E H)].
        destruct F1 as (F1 & LA & BA). destruct Fp as (Fp & LB & BB). rewrite F1, Fp. cbn [andb]. unfold linked at 1. rewrite BA, BB.
        destruct (stri sy A B (tt_iop t)) as [x|] eqn:Et; [|discriminate]. rewrite (stri_sound sy root A B _ x LA LB Et). cbn [yes].
        destruct x; [|exact (IH cl HC' E H)]. cbn [mapO].
        destruct (sfactor_at p f c) as [w|] eqn:Es; [|discriminate]. destruct (stentries cs t (List.combine (map short rs) cl) fl1 flp p) as [E'|] eqn:EE; [|discriminate].
        cbn [omap2] in H. apply Some_eq in H. subst E. destruct (IH cl HC' E' EE) as [IH1 IH2].
        destruct (sfactor_at_sound p f c w L Hc Es) as [W V]. rewrite IH1, V. split; [reflexivity|constructor; [exact W|exact IH2]].
    Qed.

    Lemma vent_transpose : forall E, vent (transpose E) = transpose (vent E).
    Proof. intros E. unfold vent, transpose. rewrite !map_map. apply map_ext. intros [[i k] s]. reflexivity. Qed.
    Lemma ewf_transpose : forall E, ewf E -> ewf (transpose E).
    Proof. intros E H. unfold transpose. induction H as [|[[i k] s] E W F IH]; constructor; assumption. Qed.
    Lemma vrow_row : forall E i, vrow (row E i) = row (vent E) i.
    Proof.
      intros E i. unfold vrow, row, vent. induction E as [|[[j k] s] E IH]; [reflexivity|]. cbn [filter map].
      destruct (j =? i); cbn [map fst snd]; [f_equal|]; exact IH.
    Qed.
    Lemma rwf_row : forall E i, ewf E -> rwf (row E i).
    Proof.
      intros E i H. unfold row. induction H as [|[[j k] s] E W F IH]; [constructor|]. cbn [filter].
      destruct (j =? i); cbn [map]; [constructor; [exact W|exact IH]|exact IH].
    Qed.
    Lemma tfind_index : forall E i, tfind (index E) i = row E i.
    Proof.
      intros E i. unfold tfind, index, row. induction E as [|[[j k] v] E IH]; [destruct (tkey i); reflexivity|]. cbn [fold_right filter].
      rewrite tget_tset, tkey_eqb. destruct (j =? i); cbn [map]; [f_equal|]; exact IH.
    Qed.

    (** the sum of the products for one j *)
    Definition vsum (l : list (Z * fv)) (j : Z) : R := rsum (map (fun p => if fst p =? j then vv (snd p) else 0%R) l).
    Lemma vsum_app : forall l l' j, vsum (l ++ l') j = (vsum l j + vsum l' j)%R.
    Proof. intros l l' j. unfold vsum, rsum. induction l as [|p l IH]; cbn [app map fold_right]; [ring|]. rewrite IH. ring. Qed.
    Lemma vsum_cons : forall p l j, vsum (p :: l) j = ((if fst p =? j then vv (snd p) else 0) + vsum l j)%R.
    Proof. reflexivity. Qed.
    Definition flat (l : list (Z * bool * msum)) : list (Z * fv) := map (fun p => let '(j, b, s) := p in (j, (b, s))) l.
    Lemma collect1_sound : forall j b s l, swf s = true -> rwf (flat l) -> rwf (flat (collect1 j b s l)) /\
      forall k, vsum (flat (collect1 j b s l)) k = ((if (j =? k)%Z then vv (b, s) else 0) + vsum (flat l) k)%R.
    Proof.
      intros j b s l Ws. induction l as [|[[k b'] t] l IH]; intros Wl; [split; [constructor; [exact Ws|constructor]|intros k; reflexivity]|].
      cbn [flat map] in Wl. apply Forall_cons_iff in Wl. destruct Wl as [Wt Wl]. destruct (IH Wl) as [IH1 IH2]. cbn [collect1]. destruct ((j =? k) && Bool.eqb b b') eqn:E.
      - apply andb_true_iff in E. destruct E as [E1 E2]. apply Z.eqb_eq in E1. apply eqb_prop in E2. subst k b'. unfold fwf in Wt. cbn [snd] in Wt.
        destruct (sadd_sound X Y X0 Y0 s t Ws Wt) as [W V]. split; [constructor; assumption|]. intros k'. cbn [flat map]. rewrite !vsum_cons. cbn [fst snd].
        destruct (j =? k'); [unfold vv; cbn [fst snd]; rewrite V|]; unfold flat; ring.
      - cbn [flat map]. fold (flat l). fold (flat (collect1 j b s l)). split; [constructor; assumption|]. intros k'. rewrite !vsum_cons, IH2. cbn [fst snd]. ring.
    Qed.
    Lemma collect_sound : forall l, rwf l -> rwf (flat (collect l)) /\ forall k, vsum (flat (collect l)) k = vsum l k.
    Proof.
      induction 1 as [|[j [b s]] l Ws Wl IH]; [split; [constructor|reflexivity]|]. destruct IH as [IH1 IH2]. unfold collect. cbn [fold_right fst snd]. fold (collect l).
      destruct (collect1_sound j b s (collect l) Ws IH1) as [W V]. split; [exact W|]. intros k. rewrite V, IH2. reflexivity.
    Qed.
    Lemma vanish_sound : forall l, rwf l -> vanish l = true -> forall j, vsum l j = 0%R.
    Proof.
      intros l W H j. destruct (collect_sound l W) as [_ V]. rewrite <- V. unfold vanish in H. clear V W. induction (collect l) as [|[[k b] s] r IH]; [reflexivity|].
      cbn [forallb snd] in H. apply andb_true_iff in H. destruct H as [H1 H2]. cbn [flat map]. rewrite vsum_cons. cbn [fst snd]. fold (flat r). rewrite (IH H2).
      apply szero_sound with (x := X) (y := Y) in H1. unfold vv. cbn [fst snd]. rewrite H1. destruct (k =? j); ring.
    Qed.

    Lemma prods1 : forall (E : list (Z * Z * fv)) v k lb j, fwf v -> ewf E -> lb <= j ->
      let l := map (fun q => (fst q, fmul v (snd q))) (filter (fun q : Z * fv => lb <=? fst q) (row (transpose E) k)) in
      rwf l /\ vsum l j = rsum (map (fun q => if k =? fst q then vv v * snd q else 0)%R (row (vent E) j)).
    Proof.
      intros E v k i j Wv We Hij. induction We as [|[[i' k'] s] E Ws We IH]; [split; [constructor|reflexivity]|]. cbv zeta in IH |- *.
      destruct IH as [IH1 IH2]. unfold transpose, row, vent in *. cbn [map filter]. cbn [snd] in Ws.
      destruct (fmul_sound v s Wv Ws) as [W V].
      destruct (Z.eqb_spec k' k) as [->|N].
      - cbn [map filter fst]. destruct (Z.eqb_spec i' j) as [->|Nj].
        + rewrite (proj2 (Z.leb_le i j) Hij). cbn [map fst snd rsum fold_right]. split; [constructor; [exact W|exact IH1]|].
          rewrite vsum_cons. cbn [fst snd]. rewrite Z.eqb_refl, Z.eqb_refl, V, IH2. reflexivity.
        + destruct (i <=? i'); cbn [map fst snd]; [|split; assumption]. split; [constructor; [exact W|exact IH1]|].
          rewrite vsum_cons. cbn [fst snd]. rewrite (proj2 (Z.eqb_neq i' j) Nj), IH2. ring.
      - split; [exact IH1|]. rewrite IH2. destruct (Z.eqb_spec i' j) as [->|Nj]; [|reflexivity]. cbn [map fst snd rsum fold_right].
        destruct (Z.eqb_spec k k') as [->|_]; [exfalso; apply N; reflexivity|]. unfold rsum. ring.
    Qed.
    Lemma prods_sound : forall w lb j u E, swf w = true -> rwf u -> ewf E -> lb <= j ->
      rwf (prods w lb u (index (transpose E))) /\ vsum (prods w lb u (index (transpose E))) j = (sval X Y w * dot (vrow u) (row (vent E) j))%R.
    Proof.
      intros w lb j u E Ww Wu We Hij. unfold prods. induction Wu as [|[k s] u Ws Wu IH]; [split; [constructor|cbn; ring]|]. destruct IH as [IH1 IH2].
      cbn [flat_map fst snd]. rewrite tfind_index. cbn [snd] in Ws. destruct (smul_sound X Y X0 Y0 w (snd s) Ww Ws) as [W V].
      destruct (prods1 E (fst s, smul w (snd s)) k lb j W We Hij) as [P1 P2]. split; [apply Forall_app; split; assumption|].
      rewrite vsum_app, IH2, P2.
      change (dot (vrow ((k, s) :: u)) (row (vent E) j)) with
        (rsum (map (fun q => if k =? fst q then vv s * snd q else 0)%R (row (vent E) j)) + dot (vrow u) (row (vent E) j))%R.
      rewrite Rmult_plus_distr_l. f_equal. generalize (row (vent E) j). intros l. induction l as [|q l IHl]; cbn [map rsum fold_right]; [ring|].
      unfold rsum in IHl. rewrite IHl. unfold vv. cbn [fst snd]. rewrite V. destruct (k =? fst q); ring.
    Qed.

    (** ** Blocks *)
    Definition blk_ok (s : sblk) (b : block) : Prop :=
      List.length (sb_to s) = List.length root /\ bl_to b = inst root (sb_to s) /\ swf (sb_w s) = true /\ sval X Y (sb_w s) = dim cs (bl_to b) /\
      exists E, sb_row s = index E /\ sb_col s = index (transpose E) /\ bl_el b = vent E /\ ewf E.
    Definition blks_ok (S : list sblk) (o : option (list block)) : Prop := exists B, o = Some B /\ Forall2 blk_ok S B.

    Lemma smk_sound : forall to x e S used els, List.length to = List.length root -> (forall r, x = Some r -> used = r) ->
      (forall E, e tt = Some E -> els = Some (vent E) /\ ewf E) ->
      smk cs to x e = Some S -> blks_ok S (block_if used (inst root to) els).
    Proof.
      intros to x e S used els L Hx He H. unfold smk in H. destruct x as [r|]; [|discriminate]. cbn [obind] in H. rewrite (Hx r eq_refl). unfold block_if. destruct r.
      - destruct (smult sy to) as [m|] eqn:Em; [|discriminate]. cbn [obind] in H. destruct (e tt) as [E|]; [|discriminate]. cbn [obind] in H. apply Some_eq in H. subst S.
        destruct (He E eq_refl) as [-> W]. destruct (smult_sound sy root to m L Em) as (d & Md & Wm & Vm). cbn [option_map]. eexists. split; [reflexivity|].
        constructor; [|constructor]. unfold blk_ok. cbn [sb_to sb_w sb_row sb_col bl_to bl_el]. split; [exact L|]. split; [reflexivity|]. split; [exact Wm|].
        split; [unfold dim; rewrite Md; exact Vm|]. exists E. repeat split; assumption.
      - apply Some_eq in H. subst S. exists []. split; [reflexivity|constructor].
    Qed.

    Definition irr_certs (d : irr_table * list (option cert)) : Prop := Forall2 row_cert (it_rows (fst d)) (snd d).
    Definition ten_certs (d : ten_table * list (option cert)) : Prop := Forall2 row_cert (map short (tt_rows (fst d))) (snd d).
    Lemma crows_eq : forall t cl, trows t cl = List.combine (map short (tt_rows t)) cl.
    Proof. reflexivity. Qed.

    Section At.
      Variable a : ssec.
      Hypothesis La : List.length a = List.length root.
      Variable fa : trie ssec.
      Hypothesis Hfa : fams_ok fa (inst root a).
      Notation II := (inst root a).

      Lemma sirr_below_sound : forall d S, irr_certs d -> sirr_below cs a fa d = Some S -> blks_ok S (irr_below cs nn II (fst d)).
      Proof.
        intros [t c] S HC H. unfold sirr_below in H. cbn [fst]. unfold irr_below. destruct (sunshift (it_shift t) a) as [ap|] eqn:E; [|discriminate]. cbn [obind] in H.
        destruct (sunshift_sound root a _ ap La E) as [Lp U]. rewrite U. cbn [obind].
        refine (smk_sound ap _ _ S _ _ Lp _ _ H).
        - intros r Hr. exact (sblock_sound a ap ap r La Lp Lp Hr).
        - cbv beta. intros E0 HE. destruct (sfams cs ap) as [fp|] eqn:Ef; [|discriminate]. cbn [obind] in HE.
          exact (sentries_sound (it_rows t) c fa fp II ap E0 Lp HC Hfa (sfams_sound ap fp Lp Ef) HE).
      Qed.
      Lemma sirr_above_sound : forall d S, irr_certs d -> sirr_above cs a fa d = Some S -> blks_ok S (irr_above cs nn II (fst d)).
      Proof.
        intros [t c] S HC H. unfold sirr_above in H. cbn [fst]. unfold irr_above. destruct (sshift (it_shift t) a) as [a1|] eqn:E; [|discriminate]. cbn [obind] in H.
        destruct (sshift_sound root a _ a1 La E) as [L1 U]. rewrite U. cbn [obind].
        refine (smk_sound a1 _ _ S _ _ L1 _ _ H).
        - intros r Hr. exact (sblock_sound a1 a a1 r L1 La L1 Hr).
        - cbv beta. intros E0 HE. destruct (sfams cs a1) as [f1|] eqn:Ef; [|discriminate]. cbn [obind] in HE.
          destruct (sentries (crows t c) f1 fa a) as [E1|] eqn:EE; [|discriminate]. cbn [option_map] in HE. apply Some_eq in HE. subst E0.
          destruct (sentries_sound (it_rows t) c f1 fa (inst root a1) a E1 La HC (sfams_sound a1 f1 L1 Ef) Hfa EE) as [V W].
          unfold entries. rewrite V. cbn [option_map]. rewrite vent_transpose. split; [reflexivity|exact (ewf_transpose _ W)].
      Qed.
      Lemma sten_below_sound : forall d S, ten_certs d -> sten_below cs a fa d = Some S -> blks_ok S (ten_below cs nn II (fst d)).
      Proof.
        intros [t c] S HC H. unfold sten_below in H. cbn [fst]. unfold ten_below. destruct (sshift (tt_shift t) a) as [ap|] eqn:E; [|discriminate]. cbn [obind] in H.
        destruct (sshift_sound root a _ ap La E) as [Lp U]. rewrite U. cbn [obind].
        refine (smk_sound ap _ _ S _ _ Lp _ _ H).
        - intros r Hr. exact (tblock_sound t a ap ap r La Lp Lp Hr).
        - cbv beta. intros E0 HE. destruct (sfams cs ap) as [fp|] eqn:Ef; [|discriminate]. cbn [obind] in HE. rewrite crows_eq in HE.
          exact (stentries_sound t (tt_rows t) c fa fp a (inst root ap) E0 La HC Hfa (sfams_sound ap fp Lp Ef) HE).
      Qed.
      Lemma sten_above_sound : forall d S, ten_certs d -> sten_above cs a fa d = Some S -> blks_ok S (ten_above cs nn II (fst d)).
      Proof.
        intros [t c] S HC H. unfold sten_above in H. cbn [fst]. unfold ten_above. destruct (sunshift (tt_shift t) a) as [a1|] eqn:E; [|discriminate]. cbn [obind] in H.
        destruct (sunshift_sound root a _ a1 La E) as [L1 U]. rewrite U. cbn [obind].
        refine (smk_sound a1 _ _ S _ _ L1 _ _ H).
        - intros r Hr. exact (tblock_sound t a1 a a1 r L1 La L1 Hr).
        - cbv beta. intros E0 HE. destruct (sfams cs a1) as [f1|] eqn:Ef; [|discriminate]. cbn [obind] in HE. rewrite crows_eq in HE.
          destruct (stentries cs t (List.combine (map short (tt_rows t)) c) f1 fa a1) as [E1|] eqn:EE; [|discriminate]. cbn [option_map] in HE. apply Some_eq in HE. subst E0.
          destruct (stentries_sound t (tt_rows t) c f1 fa a1 II E1 L1 HC (sfams_sound a1 f1 L1 Ef) Hfa EE) as [V W].
          unfold ten_entries. rewrite V. cbn [option_map]. rewrite vent_transpose. split; [reflexivity|exact (ewf_transpose _ W)].
      Qed.

      (** all tables of an operator *)
      Lemma sall_sound : forall {T} (f : T * list (option cert) -> option (list sblk)) (g : T -> option (list block)) (ok : T * list (option cert) -> Prop) (sel : T -> bool) l L,
        (forall d S, ok d -> f d = Some S -> blks_ok S (g (fst d))) -> Forall ok l -> sall f l = Some L ->
        blks_ok (List.concat (map snd (filter (fun d => sel (fst (fst d))) L))) (all_blocks g (filter sel (map fst l))).
      Proof.
        intros T f g ok sel l L H F. revert L. induction F as [|d l Hd F IH]; intros L HL; unfold sall in HL; cbn [mapO] in HL.
        - apply Some_eq in HL. subst L. exists []. split; [reflexivity|constructor].
        - destruct (f d) as [S|] eqn:Ef; [|discriminate]. cbn [option_map] in HL. fold (sall f l) in HL. destruct (sall f l) as [L'|] eqn:EL; [|discriminate].
          cbn [omap2] in HL. apply Some_eq in HL. subst L. destruct (IH L' eq_refl) as (B & EB & FB). cbn [map filter fst].
          destruct (sel (fst d)); [|exists B; split; assumption]. destruct (H d S Hd Ef) as (B0 & E0 & F0).
          exists (B0 ++ B). unfold all_blocks in *. cbn [mapO map snd List.concat]. rewrite E0.
          destruct (mapO g (filter sel (map fst l))) as [r|]; [|discriminate]. cbn [option_map] in EB. apply Some_eq in EB. subst B. cbn [omap2 option_map List.concat].
          split; [reflexivity|]. apply Forall2_app; assumption.
      Qed.
    End At.

    (** pairs of blocks *)
    Definition term (w : invar -> R) (b b' : block) (i j : Z) : R :=
      (if invar_eqb (bl_to b) (bl_to b') then w (bl_to b) * dot (row (bl_el b) i) (row (bl_el b') j) else 0)%R.
    Lemma overlap_prod : forall w B B' i j, overlap w B B' i j = rsum (map (fun p => term w (fst p) (snd p) i j) (list_prod B B')).
    Proof.
      intros w B B' i j. unfold overlap. induction B as [|b B IH]; [reflexivity|]. cbn [map list_prod]. unfold rsum at 1. cbn [fold_right]. fold (rsum (map (fun b0 => rsum (map (fun b' => if invar_eqb (bl_to b0) (bl_to b') then w (bl_to b0) * dot (row (bl_el b0) i) (row (bl_el b') j) else 0) B')%R) B)).
      rewrite IH, map_app, map_map. cbn [fst snd]. unfold rsum. rewrite fold_right_app. generalize (fold_right Rplus 0%R (map (fun p : block * block => term w (fst p) (snd p) i j) (list_prod B B'))). intros r.
      change (map (fun x : block => term w b x i j) B') with (map (fun b' => if invar_eqb (bl_to b) (bl_to b') then w (bl_to b) * dot (row (bl_el b) i) (row (bl_el b') j) else 0)%R B').
      induction (map (fun b' => if invar_eqb (bl_to b) (bl_to b') then w (bl_to b) * dot (row (bl_el b) i) (row (bl_el b') j) else 0)%R B') as [|x l IHl]; cbn [fold_right]; [ring|].
      rewrite <- IHl. ring.
    Qed.
    Lemma Forall2_prod : forall {A B C D} (R : A -> B -> Prop) (S : C -> D -> Prop) l l' m m', Forall2 R l l' -> Forall2 S m m' ->
      Forall2 (fun x y => R (fst x) (fst y) /\ S (snd x) (snd y)) (list_prod l m) (list_prod l' m').
    Proof.
      intros A B C D R S l l' m m' F G. induction F as [|x y l l' H F IH]; [constructor|]. cbn [list_prod]. apply Forall2_app; [|exact IH].
      clear IH F. induction G as [|u v m m' K G IH]; [constructor|]. cbn [map]. constructor; [split; assumption|exact IH].
    Qed.
    (** general weight: [wf s] is the weight used for symbolic block s *)
    Definition sovg (wf : sblk -> msum) (lb i : Z) (P : list (sblk * sblk)) : list (Z * fv) :=
      flat_map (fun p => prods (wf (fst p)) lb (tfind (sb_row (fst p)) i) (sb_col (snd p))) P.
    Lemma sovg_sound : forall (wf : sblk -> msum) (w : invar -> R) S S' B B' P i j lb, Forall2 blk_ok S B -> Forall2 blk_ok S' B' -> lb <= j ->
      (forall s b, blk_ok s b -> swf (wf s) = true /\ sval X Y (wf s) = w (bl_to b)) ->
      spairs S S' = Some P -> rwf (sovg wf lb i P) /\ vsum (sovg wf lb i P) j = overlap w B B' i j.
    Proof.
      intros wf w S S' B B' P i j lb F F' Hlb Hw HP. rewrite overlap_prod. unfold spairs in HP.
      pose proof (Forall2_prod _ _ _ _ _ _ F F') as G. revert P HP. induction G as [|[s s'] [b b'] l l' [H1 H2] G IH]; intros P HP; cbn [mapO] in HP.
      - apply Some_eq in HP. subst P. split; [constructor|reflexivity].
      - cbn [fst snd] in HP, H1, H2. destruct (spair s s') as [Q|] eqn:EQ; [|discriminate]. destruct (mapO (fun p => spair (fst p) (snd p)) l) as [r|]; [|discriminate].
        cbn [omap2 option_map List.concat] in HP. apply Some_eq in HP. subst P. destruct (IH (List.concat r) eq_refl) as [IH1 IH2].
        unfold sovg in *. rewrite flat_map_app, vsum_app, IH2.
        change (rsum (map (fun p => term w (fst p) (snd p) i j) ((b, b') :: l'))) with (term w b b' i j + rsum (map (fun p => term w (fst p) (snd p) i j) l'))%R.
        destruct H1 as (L1 & T1 & W1 & V1 & E1 & R1 & C1 & M1 & Q1). destruct H2 as (L2 & T2 & W2 & V2 & E2 & R2 & C2 & M2 & Q2).
        unfold spair in EQ. destruct (ssec_eqb (sb_to s) (sb_to s')) as [x|] eqn:Ex; [|discriminate].
        pose proof (ssec_eqb_sound root _ _ _ L1 L2 Ex) as Eq. rewrite <- T1, <- T2 in Eq. replace (term w b b' i j) with (if x then w (bl_to b) * dot (row (bl_el b) i) (row (bl_el b') j) else 0)%R by (unfold term; rewrite Eq; reflexivity). destruct x; apply Some_eq in EQ; subst Q.
        + destruct (Hw s b) as [Ww Vw]; [exact (conj L1 (conj T1 (conj W1 (conj V1 (ex_intro _ E1 (conj R1 (conj C1 (conj M1 Q1))))))))|].
          cbn [flat_map fst snd app]. rewrite app_nil_r, R1, C2, tfind_index.
          destruct (prods_sound (wf s) lb j (row E1 i) E2 Ww (rwf_row _ i Q1) Q2 Hlb) as [P1 P2]. split; [apply Forall_app; split; assumption|].
          rewrite P2, vrow_row, Vw, M1, M2. reflexivity.
        + cbn [flat_map app]. split; [exact IH1|]. unfold vsum at 1. cbn. ring.
    Qed.
    Lemma sovw_sound : forall S S' B B' P i j lb, Forall2 blk_ok S B -> Forall2 blk_ok S' B' -> lb <= j ->
      spairs S S' = Some P -> rwf (sovw lb i P) /\ vsum (sovw lb i P) j = overlap (dim cs) B B' i j.
    Proof.
      intros S S' B B' P i j lb F F' Hlb HP. apply (sovg_sound sb_w (dim cs) S S' B B' P i j lb F F' Hlb); [|exact HP].
      intros s b (_ & _ & W & V & _). split; assumption.
    Qed.
    Lemma overlap_scale : forall c B B' i j, overlap (fun _ => c) B B' i j = (c * overlap one B B' i j)%R.
    Proof.
      intros c B B' i j. rewrite !overlap_prod. induction (list_prod B B') as [|p l IH]; cbn [map rsum fold_right]; [ring|]. unfold rsum in IH. rewrite IH.
      unfold term, one. destruct (invar_eqb (bl_to (fst p)) (bl_to (snd p))); ring.
    Qed.
    Lemma sov_sound : forall w S S' B B' P i j lb, swf w = true -> Forall2 blk_ok S B -> Forall2 blk_ok S' B' -> lb <= j ->
      spairs S S' = Some P -> rwf (sov w lb i P) /\ vsum (sov w lb i P) j = (sval X Y w * overlap one B B' i j)%R.
    Proof.
      intros w S S' B B' P i j lb W F F' Hlb HP. rewrite <- overlap_scale.
      apply (sovg_sound (fun _ => w) (fun _ => sval X Y w) S S' B B' P i j lb F F' Hlb); [|exact HP]. intros s b _. split; [exact W|reflexivity].
    Qed.

    Lemma in_true_ix : forall fl J i, fams_ok fl J -> family cs J i = true -> In i (true_ix cs fl).
    Proof.
      intros fl J i F H. unfold true_ix. apply filter_In. specialize (F i). split; [|destruct (has fl i); [reflexivity|congruence]].
      unfold family in H. apply andb_true_iff in H. destruct H as [H1 H2]. apply Z.leb_le in H1. apply in_map_iff. exists (Z.to_nat i). split; [lia|]. apply in_seq.
      unfold built_from, ancestor in H2. destruct (Nat.ltb (Z.to_nat (i - 1)) (List.length (tb_In (cs_tab cs)))) eqn:E; [apply Nat.ltb_lt in E; lia|].
      cbn [my_assert bind] in H2. discriminate.
    Qed.
    Lemma in_ops : forall x, In x (map (fun t => (it_ch t, it_fnr t)) (cs_irr cs)) -> In x (ops cs).
    Proof. intros x H. unfold ops. apply nodup_In. exact H. Qed.

    Definition certs_for (C : list (list (option cert))) : Prop := map fst (List.combine (cs_irr cs) C) = cs_irr cs /\ Forall irr_certs (List.combine (cs_irr cs) C).
    Lemma f_below_sound : forall a fa C L x, List.length a = List.length root -> fams_ok fa (inst root a) -> certs_for C ->
      sall (sirr_below cs a fa) (List.combine (cs_irr cs) C) = Some L -> blks_ok (of_op x L) (f_below cs nn x (inst root a)).
    Proof.
      intros a fa C L x La Hf [E F] H. unfold f_below, tables_of, of_op. rewrite <- E.
      exact (sall_sound (sirr_below cs a fa) (irr_below cs nn (inst root a)) irr_certs (fun t => op_eqb (it_ch t, it_fnr t) x) _ L (sirr_below_sound a La fa Hf) F H).
    Qed.
    Lemma f_above_sound : forall a fa C L x, List.length a = List.length root -> fams_ok fa (inst root a) -> certs_for C ->
      sall (sirr_above cs a fa) (List.combine (cs_irr cs) C) = Some L -> blks_ok (of_op x L) (f_above cs nn x (inst root a)).
    Proof.
      intros a fa C L x La Hf [E F] H. unfold f_above, tables_of, of_op. rewrite <- E.
      exact (sall_sound (sirr_above cs a fa) (irr_above cs nn (inst root a)) irr_certs (fun t => op_eqb (it_ch t, it_fnr t) x) _ L (sirr_above_sound a La fa Hf) F H).
    Qed.

    (** ** The anticommutator check *)
    Lemma check_car_sound : forall a C n, List.length a = List.length root -> certs_for C -> check_car cs C n a = true -> exists m, mult sy (inst root a) = Ok m /\
      forall x y i j, In x (opers cs) -> In y (opers cs) -> family cs (inst root a) i = true -> family cs (inst root a) j = true -> i <= j ->
      exists d u, down_up cs nn x y (inst root a) i j = Some d /\ up_down cs nn x y (inst root a) i j = Some u /\
        (IZR m * d + u = if op_eqb x y && (i =? j) then IZR n * IZR m else 0)%R.
    Proof.
      intros a C n La HC H. unfold check_car in H. destruct (smult sy a) as [p|] eqn:Em; [|discriminate]. destruct (sfams cs a) as [fa|] eqn:Ef; [|discriminate].
      destruct (sall (sirr_below cs a fa) (List.combine (cs_irr cs) C)) as [L|] eqn:EL; [|discriminate].
      destruct (sall (sirr_above cs a fa) (List.combine (cs_irr cs) C)) as [U|] eqn:EU; [|discriminate].
      destruct (smult_sound sy root a p La Em) as (m & Hm & Wm & Vm). exists m. split; [exact Hm|]. intros x y i j Hx Hy Hi Hj Hij.
      pose proof (sfams_sound a fa La Ef) as Hf.
      rewrite forallb_forall in H. specialize (H x (in_ops x Hx)). rewrite forallb_forall in H. specialize (H y (in_ops y Hy)).
      destruct (spairs (of_op x L) (of_op y L)) as [lo|] eqn:El; [|discriminate]. destruct (spairs (of_op y U) (of_op x U)) as [up|] eqn:Eu; [|discriminate].
      cbv zeta in H. rewrite forallb_forall in H. specialize (H i (in_true_ix fa _ i Hf Hi)).
      destruct (f_below_sound a fa C L x La Hf HC EL) as (Bx & Ex & Fx). destruct (f_below_sound a fa C L y La Hf HC EL) as (By & Ey & Fy).
      destruct (f_above_sound a fa C U x La Hf HC EU) as (Ax & Exa & Fxa). destruct (f_above_sound a fa C U y La Hf HC EU) as (Ay & Eya & Fya).
      unfold down_up, up_down. rewrite Ex, Ey, Exa, Eya. cbn [omap2]. eexists. eexists. split; [reflexivity|]. split; [reflexivity|].
      destruct (sov_sound p _ _ _ _ lo i j i Wm Fx Fy Hij El) as [Wl Vl]. destruct (sovw_sound _ _ _ _ up i j i Fya Fxa Hij Eu) as [Wu Vu].
      set (dl := if op_eqb x y then smul [(pconst (- n), [])] p else []) in *.
      assert (Dl : swf dl = true /\ sval X Y dl = (if op_eqb x y then - (IZR n * IZR m) else 0)%R).
      { unfold dl. destruct (op_eqb x y); [|split; reflexivity]. destruct (smul_sound X Y X0 Y0 [(pconst (- n), [])] p eq_refl Wm) as [W V]. split; [exact W|].
        rewrite V, Vm. cbn [sval]. unfold nval. cbn [fst snd mval]. rewrite ev_const, opp_IZR. ring. }
      destruct Dl as [Wd Vd].
      assert (WA : rwf ((i, (false, dl)) :: sov p i i lo ++ sovw i i up)) by (constructor; [exact Wd|apply Forall_app; split; assumption]).
      pose proof (vanish_sound _ WA H j) as Z0. rewrite vsum_cons, vsum_app, Vl, Vu in Z0. cbn [fst snd] in Z0. rewrite Vm in Z0.
      unfold vv, sgn in Z0. cbn [fst snd andb] in Z0. rewrite Vd in Z0. destruct (op_eqb x y), (i =? j); cbn [andb]; lra.
    Qed.
  End Sets.
End Inst.

(** ** The shapes cover every sector *)
Section Cover.
  Variable cs : coef_set.
  Variable c : Z.
  Hypothesis Hc : 1 <= c.

  Definition is_gen (d : string * qtype) : bool :=
    match snd d with Additive => is_kind cs TSU2 (fst d) || is_kind cs TSU2T (fst d) | _ => false end.
  Definition ngen (sg : signature) : nat := List.length (filter is_gen sg).
  Definition gval (t : nat -> Z) (x0 : Z) (s : scomp) : Z := match s with SFix z => z | SGen v k => k + t v | SAny k => x0 + k end.
  Fixpoint ginst (t : nat -> Z) (root : list Z) (a : ssec) : list Z :=
    match a, root with s :: a', x :: r => gval t x s :: ginst t r a' | _, _ => [] end.
  Definition ge_gen (v : nat) (s : scomp) : Prop := match s with SGen w _ => (v <= w)%nat | _ => True end.

  Lemma ginst_ext : forall t t' v root a, (forall w, (v <= w)%nat -> t w = t' w) -> Forall (ge_gen v) a -> ginst t root a = ginst t' root a.
  Proof.
    intros t t' v root a H F. revert root. induction F as [|s a Hs F IH]; intros [|x r]; try reflexivity. cbn [ginst]. rewrite IH. f_equal.
    destruct s as [z|w k|k]; cbn [gval]; try reflexivity. rewrite (H w Hs). reflexivity.
  Qed.
  Lemma comp_shapes_ge : forall v d s, In s (snd (comp_shapes cs c v d)) -> ge_gen v s.
  Proof.
    intros v [n []] s H; unfold comp_shapes in H; cbn [snd fst] in H.
    - cbn in H. destruct H as [<-|[<-|[]]]; exact Logic.I.
    - destruct (is_kind cs TSU2 n); [|destruct (is_kind cs TSU2T n)].
      + cbn [snd In] in H. destruct H as [<-|H]; [cbn; lia|]. apply in_map_iff in H. destruct H as (k & <- & _). exact Logic.I.
      + cbn [snd In] in H. destruct H as [<-|H]; [cbn; lia|]. apply in_map_iff in H. destruct H as (k & <- & _). exact Logic.I.
      + cbn [snd] in H. destruct (String.eqb (cs_name cs) "NONE"); cbn in H; destruct H as [<-|[]]; exact Logic.I.
    - cbn in H. destruct H as [<-|[<-|[<-|[]]]]; exact Logic.I.
  Qed.
  Lemma comp_shapes_next : forall v d, fst (comp_shapes cs c v d) = if is_gen d then S v else v.
  Proof.
    intros v [n []]; unfold comp_shapes, is_gen; cbn [snd fst]; try reflexivity.
    destruct (is_kind cs TSU2 n); [reflexivity|]. destruct (is_kind cs TSU2T n); reflexivity.
  Qed.
  Lemma shapes_ge : forall sg v a, In a (shapes_of cs c v sg) -> Forall (ge_gen v) a.
  Proof.
    induction sg as [|d sg IH]; intros v a H; cbn [shapes_of] in H.
    - destruct H as [<-|[]]. constructor.
    - pose proof (comp_shapes_next v d) as N. pose proof (comp_shapes_ge v d) as G. destruct (comp_shapes cs c v d) as [v' l]. cbn [fst snd] in N, G.
      apply in_flat_map in H. destruct H as (s & Hs & H). apply in_map_iff in H. destruct H as (a' & <- & Ha). constructor; [exact (G s Hs)|].
      apply IH in Ha. eapply Forall_impl; [|exact Ha]. intros [z|w k|k]; cbn; try tauto. destruct (is_gen d); lia.
  Qed.

  Lemma cover_from : forall sg I v, Forall2 (qn_ok cs) sg I -> (cs_name cs = "NONE" -> Forall (fun x => x = 0) I) ->
    exists a t, In a (shapes_of cs c v sg) /\ (forall w, 0 <= t w) /\ List.length a = List.length I /\ ginst t I a = I.
  Proof.
    induction sg as [|d sg IH]; intros I v F HN.
    - inversion F; subst. exists [], (fun _ => 0). repeat split; [left; reflexivity|lia].
    - inversion F as [|d' x sg' I' Hx F']; subst.
      destruct (IH I' (fst (comp_shapes cs c v d)) F' (fun E => Forall_inv_tail (HN E))) as (a & t & Ha & Ht & La & Ea).
      assert (K : exists s t', In s (snd (comp_shapes cs c v d)) /\ (forall w, 0 <= t' w) /\ gval t' x s = x /\
                  (forall w, (fst (comp_shapes cs c v d) <= w)%nat -> t' w = t w)).
      { destruct d as [n []]; unfold qn_ok in Hx; cbn [snd fst] in Hx; unfold comp_shapes; cbn [snd fst].
        - exists (SFix x), t. cbn [snd In gval]. repeat split; try assumption. destruct Hx as [-> | ->]; auto.
        - destruct (is_kind cs TSU2 n); [|destruct (is_kind cs TSU2T n)]; cbn [snd fst].
          + destruct (Z.leb_spec c x) as [L|L].
            * exists (SGen v c), (fun w => if Nat.eqb w v then x - c else t w). cbn [In gval]. split; [left; reflexivity|].
              split; [intros w; destruct (Nat.eqb w v); [lia|apply Ht]|]. rewrite Nat.eqb_refl. split; [lia|].
              intros w Hw. rewrite (proj2 (Nat.eqb_neq w v)) by lia. reflexivity.
            * exists (SFix x), t. split; [right|repeat split; assumption]. apply in_map_iff. exists (Z.to_nat x). split; [f_equal; lia|]. apply in_seq. lia.
          + destruct (Z.leb_spec c x) as [L|L].
            * exists (SGen v c), (fun w => if Nat.eqb w v then x - c else t w). cbn [In gval]. split; [left; reflexivity|].
              split; [intros w; destruct (Nat.eqb w v); [lia|apply Ht]|]. rewrite Nat.eqb_refl. split; [lia|].
              intros w Hw. rewrite (proj2 (Nat.eqb_neq w v)) by lia. reflexivity.
            * exists (SFix x), t. split; [right|repeat split; assumption]. apply in_map_iff. exists (Z.to_nat x). split; [f_equal; lia|]. apply in_seq. lia.
          + destruct (String.eqb_spec (cs_name cs) "NONE") as [E|E].
            * exists (SFix 0), t. cbn [In gval]. repeat split; try assumption; [left; reflexivity|]. symmetry. exact (Forall_inv (HN E)).
            * exists (SAny 0), t. cbn [In gval]. repeat split; try assumption; [left; reflexivity|lia].
        - exists (SFix x), t. cbn [snd In gval]. repeat split; try assumption. assert (x = 0 \/ x = 1 \/ x = 2) as [-> |[-> | ->]] by lia; auto. }
      destruct K as (s & t' & Hs & Ht' & Es & Ext). exists (s :: a), t'. split; [|split; [exact Ht'|split; [cbn; lia|]]].
      + cbn [shapes_of]. destruct (comp_shapes cs c v d) as [v' l]. apply in_flat_map. exists s. split; [exact Hs|]. apply in_map. exact Ha.
      + cbn [ginst]. rewrite Es. f_equal. rewrite (ginst_ext t' t _ _ _ Ext (shapes_ge _ _ _ Ha)). exact Ea.
  Qed.

  Definition le_gen (s : scomp) : Prop := match s with SGen w _ => (w <= 1)%nat | _ => True end.
  Lemma shapes_le : forall sg v a, (v + ngen sg <= 2)%nat -> In a (shapes_of cs c v sg) -> Forall le_gen a.
  Proof.
    induction sg as [|d sg IH]; intros v a B H; cbn [shapes_of] in H.
    - destruct H as [<-|[]]. constructor.
    - pose proof (comp_shapes_next v d) as N. unfold ngen in B. cbn [filter] in B.
      assert (G : forall s, In s (snd (comp_shapes cs c v d)) -> le_gen s).
      { destruct d as [n []]; intros s Hs; unfold comp_shapes in Hs; unfold is_gen in B, N; cbn [snd fst] in Hs, B, N.
        - cbn in Hs. destruct Hs as [<-|[<-|[]]]; exact Logic.I.
        - destruct (is_kind cs TSU2 n); [|destruct (is_kind cs TSU2T n)]; cbn [snd In orb List.length] in Hs, B.
          + destruct Hs as [<-|Hs]; [cbn; lia|]. apply in_map_iff in Hs. destruct Hs as (k & <- & _). exact Logic.I.
          + destruct Hs as [<-|Hs]; [cbn; lia|]. apply in_map_iff in Hs. destruct Hs as (k & <- & _). exact Logic.I.
          + destruct (String.eqb (cs_name cs) "NONE"); cbn in Hs; destruct Hs as [<-|[]]; exact Logic.I.
        - cbn in Hs. destruct Hs as [<-|[<-|[<-|[]]]]; exact Logic.I. }
      destruct (comp_shapes cs c v d) as [v' l]. cbn [fst snd] in N, G.
      apply in_flat_map in H. destruct H as (s & Hs & H). apply in_map_iff in H. destruct H as (a' & <- & Ha). constructor; [exact (G s Hs)|].
      apply (IH v'); [|exact Ha]. unfold ngen. destruct (is_gen d); cbn [List.length] in B; lia.
  Qed.
  Lemma ginst_inst : forall t root a, Forall le_gen a -> ginst t root a = inst (t 0%nat) (t 1%nat) root a.
  Proof.
    intros t root a F. revert root. induction F as [|s a Hs F IH]; intros [|x r]; try reflexivity. cbn [ginst inst]. rewrite IH. f_equal.
    destruct s as [z|w k|k]; cbn [gval cval]; try reflexivity. cbn in Hs. destruct w as [|[|w]]; [reflexivity|reflexivity|lia].
  Qed.

  Theorem shapes_cover : forall I, (ngen (sy_sig (cs_sym cs)) <= 2)%nat -> sector cs I ->
    exists a tx ty, In a (shapes cs c) /\ 0 <= tx /\ 0 <= ty /\ List.length a = List.length I /\ inst tx ty I a = I.
  Proof.
    intros I B [F HN]. destruct (cover_from (sy_sig (cs_sym cs)) I 0 F) as (a & t & Ha & Ht & La & Ea).
    { intros E. rewrite (HN E). constructor; [reflexivity|constructor]. }
    exists a, (t 0%nat), (t 1%nat). split; [exact Ha|]. split; [apply Ht|]. split; [apply Ht|]. split; [exact La|].
    rewrite <- ginst_inst by (apply (shapes_le (sy_sig (cs_sym cs)) 0); assumption). exact Ea.
  Qed.
End Cover.

(** ** Swapping the operators *)
Lemma dot_comm : forall u v, dot u v = dot v u.
Proof.
  intros u v. unfold dot, rsum. revert v. induction u as [|p u IH]; intros v; cbn [map fold_right].
  - induction v as [|q v IHv]; cbn [map fold_right]; [reflexivity|]. rewrite <- IHv. ring.
  - rewrite IH. clear IH. induction v as [|q v IHv]; cbn [map fold_right]; [ring|]. rewrite <- IHv.
    rewrite (Z.eqb_sym (fst q)). destruct (Z.eqb_spec (fst p) (fst q)); ring.
Qed.
Lemma invar_eqb_sym : forall I J, invar_eqb I J = invar_eqb J I.
Proof. intros I J. unfold invar_eqb. destruct (list_eq_dec Z.eq_dec I J), (list_eq_dec Z.eq_dec J I); congruence. Qed.
Lemma invar_eqb_eq : forall I J, invar_eqb I J = true -> I = J.
Proof. intros I J H. unfold invar_eqb in H. destruct (list_eq_dec Z.eq_dec I J); [assumption|discriminate]. Qed.
Lemma rsum_exchange : forall {A B} (f : A -> B -> R) l m, rsum (map (fun x => rsum (map (f x) m)) l) = rsum (map (fun y => rsum (map (fun x => f x y) l)) m).
Proof.
  intros A B f l m. unfold rsum. induction l as [|x l IH]; cbn [map fold_right].
  - induction m as [|y m IHm]; cbn [map fold_right]; [reflexivity|]. rewrite <- IHm. ring.
  - rewrite IH. clear IH. induction m as [|y m IHm]; cbn [map fold_right]; [ring|]. rewrite <- IHm. ring.
Qed.
Lemma overlap_sym : forall w B B' i j, overlap w B B' i j = overlap w B' B j i.
Proof.
  intros w B B' i j. unfold overlap. rewrite rsum_exchange. f_equal. apply map_ext. intros b'. f_equal. apply map_ext. intros b.
  rewrite (invar_eqb_sym (bl_to b')). destruct (invar_eqb (bl_to b) (bl_to b')) eqn:E; [|reflexivity]. apply invar_eqb_eq in E. rewrite E, dot_comm. reflexivity.
Qed.
Lemma down_up_sym : forall cs nn x y I i j, down_up cs nn x y I i j = down_up cs nn y x I j i.
Proof.
  intros cs nn x y I i j. unfold down_up. destruct (f_below cs nn x I), (f_below cs nn y I); try reflexivity. cbn [omap2]. rewrite overlap_sym. reflexivity.
Qed.
Lemma up_down_sym : forall cs nn x y I i j, up_down cs nn x y I i j = up_down cs nn y x I j i.
Proof.
  intros cs nn x y I i j. unfold up_down. destruct (f_above cs nn x I), (f_above cs nn y I); try reflexivity. cbn [omap2]. rewrite overlap_sym. reflexivity.
Qed.

(** ** The check as a theorem about all sectors *)
Lemma all2_Forall2 : forall {A B} (p : A -> B -> bool) l l', all2 p l l' = true -> Forall2 (fun x y => p x y = true) l l'.
Proof.
  induction l as [|x l IH]; intros [|y l'] H; try discriminate; [constructor|]. cbn [all2] in H. apply andb_true_iff in H. destruct H as [H1 H2].
  constructor; [exact H1|apply IH; exact H2].
Qed.
Lemma Forall2_impl2 : forall {A B} (R S : A -> B -> Prop) l l', (forall x y, R x y -> S x y) -> Forall2 R l l' -> Forall2 S l l'.
Proof. intros A B R S l l' H F. induction F; constructor; auto. Qed.
Lemma cert_rows_sound : forall (rs : list (Z * Z * option cexpr)) cl, cert_rows rs cl = true -> Forall2 row_cert rs cl.
Proof.
  intros rs cl H. unfold cert_rows in H. apply all2_Forall2 in H. eapply Forall2_impl2; [|exact H]. intros [[i k] f] c Hc ct ->. cbn [snd] in Hc |- *.
  destruct f as [e|]; [|discriminate]. exists e. split; [reflexivity|exact Hc].
Qed.
Lemma Forall2_combine : forall {A B} (P : A -> B -> Prop) l l', Forall2 P l l' -> map fst (List.combine l l') = l /\ Forall (fun d => P (fst d) (snd d)) (List.combine l l').
Proof.
  intros A B P l l' F. induction F as [|x y l l' H F [IH1 IH2]]; [split; [reflexivity|constructor]|]. cbn [List.combine map fst]. split; [congruence|constructor; assumption].
Qed.
Lemma certs_ok_sound : forall cs C, certs_ok cs C = true -> certs_for cs C.
Proof.
  intros cs C H. unfold certs_ok in H. apply all2_Forall2 in H. unfold certs_for. apply (Forall2_combine (fun t cl => Forall2 row_cert (it_rows t) cl)).
  eapply Forall2_impl2; [|exact H]. intros t cl Hl. exact (cert_rows_sound _ _ Hl).
Qed.
Definition run_car (cs : coef_set) (C : list (list (option cert))) (n : Z) : bool :=
  let c := Z.of_nat (cs_channels cs) + 2 in
  Nat.leb (ngen cs (sy_sig (cs_sym cs))) 2 && certs_ok cs C && forallb (check_car cs C n) (shapes cs c).

Theorem run_car_sound : forall cs C n, run_car cs C n = true -> forall I nn, sector cs I -> exists m, mult (cs_sym cs) I = Ok m /\
  forall x y i j, In x (opers cs) -> In y (opers cs) -> family cs I i = true -> family cs I j = true ->
  exists d u, down_up cs nn x y I i j = Some d /\ up_down cs nn x y I i j = Some u /\
    (IZR m * d + u = if op_eqb x y && (i =? j) then IZR n * IZR m else 0)%R.
Proof.
  intros cs C n H I nn HI. unfold run_car in H. apply andb_true_iff in H. destruct H as [H H2].
  apply andb_true_iff in H. destruct H as [H1 HCt]. apply certs_ok_sound in HCt.
  apply Nat.leb_le in H1. set (c := Z.of_nat (cs_channels cs) + 2) in *. rewrite forallb_forall in H2.
  destruct (shapes_cover cs c ltac:(lia) I H1 HI) as (a & tx & ty & Ha & Htx & Hty & La & EI).
  destruct (check_car_sound tx ty Htx Hty cs I nn a C n La HCt (H2 a Ha)) as (m & Hm & Q). rewrite EI in Hm, Q. exists m.
  split; [exact Hm|]. intros x y i j Hx Hy Hi Hj. destruct (Z.le_gt_cases i j) as [L|L]; [exact (Q x y i j Hx Hy Hi Hj L)|].
  destruct (Q y x j i Hy Hx Hj Hi ltac:(lia)) as (d & u & E1 & E2 & E3). exists d, u. rewrite down_up_sym, up_down_sym. split; [exact E1|]. split; [exact E2|].
  rewrite E3. unfold op_eqb. rewrite (Z.eqb_sym i j), (Z.eqb_sym (fst x)), (Z.eqb_sym (snd x)). reflexivity.
Qed.
