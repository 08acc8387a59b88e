From Coq Require Import List ZArith Reals Lia Lra Bool.
From Verif Require Import Base Interp_model Interp_spec Interp_proofs Chain_model Chain_spec Chain_lanczos.
Import ListNotations.
Local Open Scope R_scope.

Lemma cumulated_unique v F : increasing v -> (2 <= length v)%nat -> cumulated v F -> forall x, F x = Fval v x.
Proof.
  intros Hi Hl (p & f & Hp & Hf & H0 & Hd) x.
  assert (Ef : forall x, f x = fval v x) by (intros; apply interpolant_unique; auto).
  assert (D : forall x, derivable_pt_lim (F - Fval v)%F x 0).
  { intros t. replace 0 with (f t - fval v t) by (rewrite Ef; ring). apply derivable_pt_lim_minus; [apply Hd|apply Fval_deriv]. }
  assert (pr : derivable (F - Fval v)%F) by (intros t; exists 0; apply D).
  assert (K : constant (F - Fval v)%F).
  { apply (null_derivative_1 _ pr). intros t. apply derive_pt_eq_0. apply D. }
  pose proof (K x (fst p)) as E. unfold minus_fct in E. rewrite H0 in E.
  apply nth_error_nth with (d := (0, 0)) in Hp. rewrite <- Hp in E. rewrite Fval_first in E by auto. lra.
Qed.

Lemma diff_ok v t a b : increasing v -> (2 <= length v)%nat -> good_int v t ->
  exists t', diff t a b = Ok (Fin (Fval v a - Fval v b), t') /\ good_int v t'.
Proof.
  intros Hi Hl G. unfold diff. destruct (call_int_ok v Hl (inc_nth v Hi) a t G) as (t1 & E1 & G1). rewrite E1. simpl.
  destruct (call_int_ok v Hl (inc_nth v Hi) b t1 G1) as (t2 & E2 & G2). rewrite E2. simpl. eauto.
Qed.

Section Tables.
  Variables (P : cparams) (vp vn : table).
  Hypothesis Bp : band vp.
  Hypothesis Bn : band vn.
  Definition mesh_pos k := eps P (g_pos P) (z P + INR k + 1).
  Definition mesh_neg k := eps P (g_neg P) (z P + INR k + 1).
  Definition Dp m := Fval vp (mesh_pos m) - Fval vp (mesh_pos (S m)).
  Definition Dn m := Fval vn (mesh_neg m) - Fval vn (mesh_neg (S m)).
  Definition T := Fval vp (mesh_pos 0) - Fval vp (mesh_pos (mMAX P + 1)) + (Fval vn (mesh_neg 0) - Fval vn (mesh_neg (mMAX P + 1))).

  Lemma df_loop_ok ms : forall tp tn, good_int vp tp -> good_int vn tn -> df_loop P ms tp tn = Ok (map (fun m => (Fin (Dp m), Fin (Dn m))) ms).
  Proof.
    destruct Bp as (Ip & Lp & _). destruct Bn as (In_ & Ln & _).
    induction ms as [|m r IH]; intros tp tn Gp Gn; simpl; auto.
    destruct (diff_ok vp tp (eps P (g_pos P) (z P + INR m + 1)) (eps P (g_pos P) (z P + INR m + 2)) Ip Lp Gp) as (tp' & E1 & G1). rewrite E1. simpl.
    destruct (diff_ok vn tn (eps P (g_neg P) (z P + INR m + 1)) (eps P (g_neg P) (z P + INR m + 2)) In_ Ln Gn) as (tn' & E2 & G2). rewrite E2. simpl.
    rewrite IH by auto. simpl. unfold Dp, Dn, mesh_pos, mesh_neg. rewrite S_INR.
    replace (z P + (INR m + 1) + 1) with (z P + INR m + 2) by ring. reflexivity.
  Qed.

  Definition du0 := map (fun m => (fdiv (fsqrt (Fin (Dp m))) (fsqrt (Fin T)), fdiv (fsqrt (Fin (Dn m))) (fsqrt (Fin T)))) (seq 0 (mMAX P + 1)).
  Definition csum := fold_left (fun acc p => fadd acc (fadd (fsqr (fst p)) (fsqr (snd p)))) du0 (Fin 0).
  Definition result := {| theta := Fin T; du := map (fun p => (fdiv (fst p) (fsqrt csum), fdiv (snd p) (fsqrt csum))) du0;
     de := map (fun m => (Eps P (f_pos P) (z P + INR m + 1), Eps P (f_neg P) (z P + INR m + 1))) (seq 0 (mMAX P + 1)) |}.

  Lemma tables_eq : tables P vp vn = if checksum_fails csum then Throw else Ok result.
  Proof.
    pose proof Bp as (Ip & Lp & _). pose proof Bn as (In_ & Ln & _). unfold tables.
    destruct (cumulative_ok vp Ip Lp) as (tp & E1 & G1). destruct (cumulative_ok vn In_ Ln) as (tn & E2 & G2). rewrite E1. simpl. rewrite E2. simpl.
    destruct (diff_ok vp tp (eps P (g_pos P) (z P + 1)) (eps P (g_pos P) (z P + INR (mMAX P) + 2)) Ip Lp G1) as (tp' & E3 & G3). rewrite E3. simpl.
    destruct (diff_ok vn tn (eps P (g_neg P) (z P + 1)) (eps P (g_neg P) (z P + INR (mMAX P) + 2)) In_ Ln G2) as (tn' & E4 & G4). rewrite E4. simpl.
    rewrite (df_loop_ok (seq 0 (mMAX P + 1)) tp' tn' G3 G4). simpl. rewrite map_map. simpl.
    assert (ET : Fval vp (eps P (g_pos P) (z P + 1)) - Fval vp (eps P (g_pos P) (z P + INR (mMAX P) + 2)) +
      (Fval vn (eps P (g_neg P) (z P + 1)) - Fval vn (eps P (g_neg P) (z P + INR (mMAX P) + 2))) = T).
    { unfold T, mesh_pos, mesh_neg. rewrite plus_INR. simpl INR.
      replace (z P + 0 + 1) with (z P + 1) by ring. replace (z P + (INR (mMAX P) + 1) + 1) with (z P + INR (mMAX P) + 2) by ring. reflexivity. }
    rewrite ET. reflexivity.
  Qed.

  Lemma total n : sum_to n (fun m => Dp m + Dn m) = Fval vp (mesh_pos 0) - Fval vp (mesh_pos n) + (Fval vn (mesh_neg 0) - Fval vn (mesh_neg n)).
  Proof. induction n; simpl; [ring|]. rewrite IHn. unfold Dp, Dn. ring. Qed.

  Lemma fold_fin f n : fold_left (fun acc m => fadd acc (Fin (f m))) (seq 0 n) (Fin 0) = Fin (sum_to n f).
  Proof.
    induction n; auto. rewrite seq_S, fold_left_app, IHn. simpl. auto.
  Qed.

  Section Decreasing.
    Hypothesis Mp : forall k, (k <= mMAX P)%nat -> mesh_pos (S k) <= mesh_pos k.
    Hypothesis Mn : forall k, (k <= mMAX P)%nat -> mesh_neg (S k) <= mesh_neg k.
    Lemma Dp_nonneg m : (m <= mMAX P)%nat -> 0 <= Dp m.
    Proof. intros H. destruct Bp as (Ip & Lp & Pp). unfold Dp. pose proof (Fval_mono vp _ _ Ip Lp Pp (Mp m H)). lra. Qed.
    Lemma Dn_nonneg m : (m <= mMAX P)%nat -> 0 <= Dn m.
    Proof. intros H. destruct Bn as (Ip & Lp & Pp). unfold Dn. pose proof (Fval_mono vn _ _ Ip Lp Pp (Mn m H)). lra. Qed.

    Lemma du0_pos : 0 < T -> du0 = map (fun m => (Fin (sqrt (Dp m) / sqrt T), Fin (sqrt (Dn m) / sqrt T))) (seq 0 (mMAX P + 1)).
    Proof.
      intros HT. apply map_ext_in. intros m Hm. apply in_seq in Hm. simpl.
      pose proof (Dp_nonneg m ltac:(lia)). pose proof (Dn_nonneg m ltac:(lia)). pose proof (sqrt_lt_R0 T HT).
      destruct (Rlt_dec (Dp m) 0); [lra|]. destruct (Rlt_dec (Dn m) 0); [lra|]. destruct (Rlt_dec T 0); [lra|]. simpl.
      destruct (Req_EM_T (sqrt T) 0); [lra|]. reflexivity.
    Qed.

    Lemma csum_one : 0 < T -> csum = Fin 1.
    Proof.
      intros HT. unfold csum. rewrite du0_pos by auto.
      assert (FM : forall (X Y : Type) (f : X -> Y) (g : fl -> Y -> fl) l a, fold_left g (map f l) a = fold_left (fun a x => g a (f x)) l a).
      { intros X Y f g l. induction l; simpl; auto. }
      rewrite FM. simpl. rewrite (fold_fin (fun m => sqrt (Dp m) / sqrt T * (sqrt (Dp m) / sqrt T) + sqrt (Dn m) / sqrt T * (sqrt (Dn m) / sqrt T))).
      f_equal. rewrite (sum_to_ext _ _ (fun m => / T * (Dp m + Dn m))).
      - rewrite sum_to_scal, total. fold T. field. lra.
      - intros m Hm. pose proof (Dp_nonneg m ltac:(lia)). pose proof (Dn_nonneg m ltac:(lia)). pose proof (sqrt_lt_R0 T HT).
        pose proof (sqrt_sqrt _ H) as S1. pose proof (sqrt_sqrt _ H0) as S2. pose proof (sqrt_sqrt T ltac:(lra)) as S3.
        set (a := sqrt (Dp m)) in *. set (b := sqrt (Dn m)) in *. set (c := sqrt T) in *. rewrite <- S1, <- S2, <- S3. field. lra.
    Qed.

    Lemma tables_ok : 0 < T -> exists r d, tables P vp vn = Ok r /\ theta r = Fin T /\
      du r = map (fun m => (Fin (fst (d m)), Fin (snd (d m)))) (seq 0 (mMAX P + 1)) /\
      sum_to (mMAX P + 1) (fun m => fst (d m) * fst (d m) + snd (d m) * snd (d m)) = 1 /\
      (forall m, (m <= mMAX P)%nat -> 0 <= fst (d m) /\ 0 <= snd (d m) /\ T * (fst (d m) * fst (d m)) = Dp m /\ T * (snd (d m) * snd (d m)) = Dn m).
    Proof.
      intros HT. exists result, (fun m => (sqrt (Dp m) / sqrt T, sqrt (Dn m) / sqrt T)). pose proof (sqrt_lt_R0 T HT) as HS.
      assert (Each : forall m, (m <= mMAX P)%nat -> T * (sqrt (Dp m) / sqrt T * (sqrt (Dp m) / sqrt T)) = Dp m /\ T * (sqrt (Dn m) / sqrt T * (sqrt (Dn m) / sqrt T)) = Dn m).
      { intros m Hm. pose proof (Dp_nonneg m Hm) as H. pose proof (Dn_nonneg m Hm) as H0.
        pose proof (sqrt_sqrt _ H) as S1. pose proof (sqrt_sqrt _ H0) as S2. pose proof (sqrt_sqrt T ltac:(lra)) as S3.
        set (a := sqrt (Dp m)) in *. set (b := sqrt (Dn m)) in *. set (c := sqrt T) in *. rewrite <- S1, <- S2, <- S3. split; field; lra. }
      split; [|split; [|split; [|split]]].
      - rewrite tables_eq, csum_one by auto. simpl. replace (1 - 1) with 0 by ring. rewrite Rabs_R0.
        replace (Rltb CHECKSUM_LIMIT 0) with false; auto. symmetry. apply Rltb_false. unfold CHECKSUM_LIMIT. left. apply Rinv_0_lt_compat, pow_lt. lra.
      - reflexivity.
      - unfold result. simpl du. rewrite csum_one, du0_pos, map_map by auto. apply map_ext. intros m. simpl.
        destruct (Rlt_dec 1 0); [lra|]. rewrite sqrt_1. simpl. destruct (Req_EM_T 1 0); [lra|]. unfold Rdiv. rewrite Rinv_1, !Rmult_1_r. reflexivity.
      - simpl. rewrite (sum_to_ext _ _ (fun m => / T * (Dp m + Dn m))).
        + rewrite sum_to_scal, total. fold T. field. lra.
        + intros m Hm. destruct (Each m ltac:(lia)) as [E1 E2]. apply (Rmult_eq_reg_l T); [|lra]. rewrite Rmult_plus_distr_l, E1, E2. field. lra.
      - intros m Hm. simpl. destruct (Each m Hm) as [E1 E2].
        split; [apply Rmult_le_pos; [apply sqrt_pos|left; apply Rinv_0_lt_compat; auto]|].
        split; [apply Rmult_le_pos; [apply sqrt_pos|left; apply Rinv_0_lt_compat; auto]|]. auto.
    Qed.
  End Decreasing.

  (** NaN is accepted by the check. *)
  Lemma fold_nan l : forall acc, acc = NaN \/ (exists p, In p l /\ (fst p = NaN \/ snd p = NaN)) ->
    fold_left (fun acc p => fadd acc (fadd (fsqr (fst p)) (fsqr (snd p)))) l acc = NaN.
  Proof.
    induction l as [|[a b] t IH]; intros acc H; simpl.
    - destruct H as [H|(p & [] & _)]; auto.
    - apply IH. destruct H as [->|(p & [<-|Hp] & H)].
      + left. reflexivity.
      + left. simpl in H. destruct H as [->| ->]; simpl; destruct acc; auto; destruct a; auto.
      + right. eauto.
  Qed.
  Lemma nan_ok : (exists p, In p du0 /\ (fst p = NaN \/ snd p = NaN)) -> exists r, tables P vp vn = Ok r /\
    length (du r) = (mMAX P + 1)%nat /\ forall p, In p (du r) -> p = (NaN, NaN).
  Proof.
    intros H. assert (C : csum = NaN) by (apply fold_nan; auto). exists result. rewrite tables_eq, C. split; auto. simpl. split.
    - unfold du0. rewrite !map_length, seq_length. auto.
    - intros p Hp. apply in_map_iff in Hp. destruct Hp as ([a b] & <- & _). rewrite C. simpl. destruct a, b; reflexivity.
  Qed.
  Lemma nan_negative m : (m <= mMAX P)%nat -> Dp m < 0 \/ Dn m < 0 -> exists p, In p du0 /\ (fst p = NaN \/ snd p = NaN).
  Proof.
    intros Hm H. eexists. split; [apply in_map_iff; exists m; split; [reflexivity|apply in_seq; lia]|]. simpl.
    destruct H as [H|H]; [left; destruct (Rlt_dec (Dp m) 0)|right; destruct (Rlt_dec (Dn m) 0)]; try contradiction; reflexivity.
  Qed.
  Lemma nan_empty : (forall m, (m <= mMAX P)%nat -> Dp m = 0) -> T = 0 -> exists p, In p du0 /\ (fst p = NaN \/ snd p = NaN).
  Proof.
    intros H HT. eexists. split; [apply in_map_iff; exists 0%nat; split; [reflexivity|apply in_seq; lia]|]. left. simpl.
    rewrite (H 0%nat), HT by lia. destruct (Rlt_dec 0 0); [lra|]. rewrite sqrt_0. simpl. destruct (Req_EM_T 0 0); [reflexivity|contradiction].
  Qed.
End Tables.

Lemma Rpower_decr L x y : 1 < L -> x <= y -> Rpower L x <= Rpower L y.
Proof. intros HL H. apply Rle_Rpower; lra. Qed.
Lemma Rpower_pos L x : 0 < Rpower L x.
Proof. apply exp_pos. Qed.
Lemma Rpower_decr_lt L x y : 1 < L -> x < y -> Rpower L x < Rpower L y.
Proof. intros HL H. apply Rpower_lt; lra. Qed.

Lemma fixed_mesh_decr L x y : 1 < L -> x <= y -> fixed_mesh L y <= fixed_mesh L x.
Proof.
  intros HL H. unfold fixed_mesh. destruct (Rle_dec y 2), (Rle_dec x 2); try lra.
  - rewrite <- (Rpower_O L) by lra. apply Rpower_decr; lra.
  - apply Rpower_decr; lra.
Qed.
Lemma eps_fixed P g x : adapt P = false -> eps P g x = fixed_mesh (Lambda P) x.
Proof. intros H. unfold eps, fixed_mesh, power. rewrite H. rewrite Rmult_1_l. reflexivity. Qed.

Lemma normalised_form : forall P vp vn Fp Fn, band vp -> band vn -> cumulated vp Fp -> cumulated vn Fn ->
  let xp k := eps P (g_pos P) (z P + INR k + 1) in
  let xn k := eps P (g_neg P) (z P + INR k + 1) in
  (forall k, (k <= mMAX P)%nat -> xp (S k) <= xp k /\ xn (S k) <= xn k) ->
  let total := (Fp (xp 0%nat) - Fp (xp (mMAX P + 1)%nat)) + (Fn (xn 0%nat) - Fn (xn (mMAX P + 1)%nat)) in
  0 < total ->
  exists r d, tables P vp vn = Ok r /\ theta r = Fin total /\
    du r = map (fun m => (Fin (fst (d m)), Fin (snd (d m)))) (seq 0 (mMAX P + 1)) /\
    sum_to (mMAX P + 1) (fun m => fst (d m) * fst (d m) + snd (d m) * snd (d m)) = 1 /\
    forall m, (m <= mMAX P)%nat -> 0 <= fst (d m) /\ 0 <= snd (d m) /\
      total * (fst (d m) * fst (d m)) = Fp (xp m) - Fp (xp (S m)) /\ total * (snd (d m) * snd (d m)) = Fn (xn m) - Fn (xn (S m)).
Proof.
  intros P vp vn Fp Fn Bp Bn Cp Cn xp xn Hm total_ HT.
  pose proof Bp as (Ip & Lp & _). pose proof Bn as (In_ & Ln & _).
  pose proof (cumulated_unique vp Fp Ip Lp Cp) as Ep. pose proof (cumulated_unique vn Fn In_ Ln Cn) as En.
  assert (ET : total_ = T P vp vn) by (unfold total_, T; rewrite !Ep, !En; reflexivity). rewrite ET in *.
  destruct (tables_ok P vp vn Bp Bn (fun k Hk => proj1 (Hm k Hk)) (fun k Hk => proj2 (Hm k Hk)) HT) as (r & d & E1 & E2 & E3 & E4 & E5).
  exists r, d. split; auto. split; auto. split; auto. split; auto. intros m Hmm. rewrite !Ep, !En. apply (E5 m Hmm).
Qed.

Lemma fixed_form : forall P vp vn Fp Fn, band vp -> band vn -> cumulated vp Fp -> cumulated vn Fn -> adapt P = false -> 1 < Lambda P ->
  let x k := fixed_mesh (Lambda P) (z P + INR k + 1) in
  let total := (Fp (x 0%nat) - Fp (x (mMAX P + 1)%nat)) + (Fn (x 0%nat) - Fn (x (mMAX P + 1)%nat)) in
  0 <= total /\
  (0 < total -> exists r d, tables P vp vn = Ok r /\ theta r = Fin total /\
    du r = map (fun m => (Fin (fst (d m)), Fin (snd (d m)))) (seq 0 (mMAX P + 1)) /\
    sum_to (mMAX P + 1) (fun m => fst (d m) * fst (d m) + snd (d m) * snd (d m)) = 1 /\
    forall m, (m <= mMAX P)%nat -> 0 <= fst (d m) /\ 0 <= snd (d m) /\
      total * (fst (d m) * fst (d m)) = Fp (x m) - Fp (x (S m)) /\ total * (snd (d m) * snd (d m)) = Fn (x m) - Fn (x (S m))) /\
  (total = 0 -> exists r, tables P vp vn = Ok r /\ length (du r) = (mMAX P + 1)%nat /\ forall p, In p (du r) -> p = (NaN, NaN)).
Proof.
  intros P vp vn Fp Fn Bp Bn Cp Cn Ha HL x total_.
  pose proof Bp as (Ip & Lp & Pp). pose proof Bn as (In_ & Ln & Pn).
  pose proof (cumulated_unique vp Fp Ip Lp Cp) as Ep. pose proof (cumulated_unique vn Fn In_ Ln Cn) as En.
  assert (Hx : forall j k, (j <= k)%nat -> x k <= x j) by (intros; apply fixed_mesh_decr; auto; apply le_INR in H; lra).
  assert (Xp : forall k, mesh_pos P k = x k) by (intros; apply eps_fixed; auto).
  assert (Xn : forall k, mesh_neg P k = x k) by (intros; apply eps_fixed; auto).
  assert (Mp : forall k, (k <= mMAX P)%nat -> mesh_pos P (S k) <= mesh_pos P k) by (intros; rewrite !Xp; apply Hx; lia).
  assert (Mn : forall k, (k <= mMAX P)%nat -> mesh_neg P (S k) <= mesh_neg P k) by (intros; rewrite !Xn; apply Hx; lia).
  assert (ET : total_ = T P vp vn) by (unfold total_, T; rewrite !Ep, !En, !Xp, !Xn; reflexivity).
  assert (HT : T P vp vn = sum_to (mMAX P + 1) (fun m => Dp P vp m + Dn P vn m)) by (rewrite total; reflexivity).
  assert (Pos : forall m, (m < mMAX P + 1)%nat -> 0 <= Dp P vp m + Dn P vn m).
  { intros m Hm. pose proof (Dp_nonneg P vp Bp Mp m ltac:(lia)). pose proof (Dn_nonneg P vn Bn Mn m ltac:(lia)). lra. }
  split; [|split].
  - rewrite ET, HT. apply sum_to_nonneg. auto.
  - intros Hp. destruct (tables_ok P vp vn Bp Bn Mp Mn) as (r & d & E1 & E2 & E3 & E4 & E5); [rewrite <- ET; auto|]. rewrite ET.
    exists r, d. split; auto. split; auto. split; auto. split; auto. intros m Hmm. rewrite !Ep, !En.
    destruct (E5 m Hmm) as (A & B & C & D). unfold Dp, Dn in *. rewrite !Xp in C. rewrite !Xn in D. auto.
  - intros Hz. apply (nan_ok P vp vn Bp Bn). apply nan_empty; [|rewrite <- ET; auto].
    intros m Hm. rewrite ET, HT in Hz. pose proof (sum_to_zero_inv _ _ Pos ltac:(lra) m ltac:(lia)) as Z. simpl in Z.
    pose proof (Dp_nonneg P vp Bp Mp m ltac:(lia)). pose proof (Dn_nonneg P vn Bn Mn m ltac:(lia)). lra.
Qed.

Lemma negative_form : forall P vp vn Fp Fn m, band vp -> band vn -> cumulated vp Fp -> cumulated vn Fn ->
  let xp k := eps P (g_pos P) (z P + INR k + 1) in
  let xn k := eps P (g_neg P) (z P + INR k + 1) in
  (m <= mMAX P)%nat -> Fp (xp m) < Fp (xp (S m)) \/ Fn (xn m) < Fn (xn (S m)) ->
  exists r, tables P vp vn = Ok r /\ length (du r) = (mMAX P + 1)%nat /\ forall p, In p (du r) -> p = (NaN, NaN).
Proof.
  intros P vp vn Fp Fn m Bp Bn Cp Cn xp xn Hm H.
  pose proof Bp as (Ip & Lp & _). pose proof Bn as (In_ & Ln & _).
  pose proof (cumulated_unique vp Fp Ip Lp Cp) as Ep. pose proof (cumulated_unique vn Fn In_ Ln Cn) as En.
  apply (nan_ok P vp vn Bp Bn). apply (nan_negative P vp vn m Hm). unfold Dp, Dn, mesh_pos, mesh_neg. rewrite !Ep, !En in H. unfold xp, xn in H.
  destruct H; [left|right]; lra.
Qed.
