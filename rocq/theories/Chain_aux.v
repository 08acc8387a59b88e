(** Concrete bands and stars for the examples of Chain_props. *)
From Coq Require Import List ZArith Reals Lia Lra Bool.
From Verif Require Import Base Interp_model Interp_spec Interp_proofs Chain_model Chain_spec Chain_lanczos Chain_moments Chain_tables Chain_flat.
Import ListNotations.
Local Open Scope R_scope.

Definition flat_band : table := [(0, 1 / 2); (1, 1 / 2)].
Definition P3 : cparams := {| Lambda := 2; z := 1; mMAX := 2; adapt := false; flat := true; g_pos := fun _ => 1; g_neg := fun _ => 1; f_pos := fun _ => 1; f_neg := fun _ => 1 |}.
Lemma flat_band_ok : band flat_band.
Proof.
  split; [|split].
  - intros i p q Hp Hq. destruct i as [|[|]]; simpl in *; inversion Hp; inversion Hq; subst; simpl; lra.
  - simpl; lia.
  - intros p [<-|[<-|[]]]; simpl; lra.
Qed.
Definition half (x : R) : R := x / 2.
Lemma flat_cumulated : cumulated flat_band half.
Proof.
  exists (0, 1 / 2), (fun _ => 1 / 2). split; [reflexivity|]. split; [|split].
  - intros x. split; [|split].
    + intros p Hp _. simpl in Hp. inversion Hp. reflexivity.
    + intros p Hp _. simpl in Hp. inversion Hp. reflexivity.
    + intros i p q Hp Hq Hx. destruct i as [|[|]]; simpl in *; inversion Hp; inversion Hq; subst; simpl. field.
  - unfold half. simpl. field.
  - intros x. unfold half, Rdiv. replace (1 * / 2) with (1 * / 2 + x * 0) by ring.
    apply (derivable_pt_lim_mult id (fun _ => / 2)); [apply derivable_pt_lim_id|apply derivable_pt_lim_const].
Qed.
Lemma flat_total : (half (fixed_mesh 2 (1 + INR 0 + 1)) - half (fixed_mesh 2 (1 + INR 3 + 1))) + (half (fixed_mesh 2 (1 + INR 0 + 1)) - half (fixed_mesh 2 (1 + INR 3 + 1))) = 7 / 8.
Proof.
  unfold half, fixed_mesh. simpl. destruct (Rle_dec (1 + 0 + 1) 2); [|lra]. destruct (Rle_dec (1 + (1 + 1 + 1) + 1) 2); [lra|].
  replace (2 - (1 + (1 + 1 + 1) + 1)) with (- INR 3) by (simpl; ring). rewrite Rpower_Ropp, Rpower_pow by lra. field.
Qed.

(** A band without weight. *)
Definition zero_band : table := [(0, 0); (1, 0)].
Lemma zero_band_ok : band zero_band.
Proof.
  split; [|split].
  - intros i p q Hp Hq. destruct i as [|[|]]; simpl in *; inversion Hp; inversion Hq; subst; simpl; lra.
  - simpl; lia.
  - intros p [<-|[<-|[]]]; simpl; lra.
Qed.
Lemma zero_cumulated : cumulated zero_band (fun _ => 0).
Proof.
  exists (0, 0), (fun _ => 0). split; [reflexivity|]. split; [|split].
  - intros x. split; [|split].
    + intros p Hp _. simpl in Hp. inversion Hp. reflexivity.
    + intros p Hp _. simpl in Hp. inversion Hp. reflexivity.
    + intros i p q Hp Hq Hx. destruct i as [|[|]]; simpl in *; inversion Hp; inversion Hq; subst; simpl. field.
  - reflexivity.
  - intros x. apply derivable_pt_lim_const.
Qed.
Lemma zero_form : exists r, tables P3 zero_band zero_band = Ok r /\ du r = [(NaN, NaN); (NaN, NaN); (NaN, NaN)].
Proof.
  assert (HL : 1 < Lambda P3) by (simpl; lra).
  destruct (fixed_form P3 zero_band zero_band _ _ zero_band_ok zero_band_ok zero_cumulated zero_cumulated eq_refl HL) as (_ & _ & H).
  destruct H as (r & E & Hl & Hn); [ring|]. exists r. split; auto. simpl in Hl.
  destruct (du r) as [|a [|b [|c [|]]]]; try discriminate. rewrite (Hn a), (Hn b), (Hn c) by (simpl; auto). reflexivity.
Qed.

(** A symmetric star with levels at 1, 7, -1, -7. *)
Definition u4 : nat -> R * R := fun _ => (1 / 2, 1 / 2).
Definition e4 : nat -> R * R := fun m => match m with O => (1, 1) | _ => (7, 7) end.
Lemma sq_eq a b : 0 <= b -> a = b * b -> sqrt a = b.
Proof. intros H ->. apply sqrt_square. auto. Qed.
Definition next_u (e : nat -> R * R) (s : lstate) (zeta xi : R) : uvec :=
  fun m => (((fst (e m) - zeta) * fst (u_prev s m) - xi_prev s * fst (u_prev2 s m)) / xi / 1,
            ((- snd (e m) - zeta) * snd (u_prev s m) - xi_prev s * snd (u_prev2 s m)) / xi / 1).
Lemma step_run M e s zeta xi :
  msum M (fun m => fst (u_prev s m) * fst (u_prev s m) * fst (e m) - snd (u_prev s m) * snd (u_prev s m) * snd (e m)) = zeta ->
  msum M (fun m => fst (u_prev s m) * fst (u_prev s m) * (fst (e m) * fst (e m)) + snd (u_prev s m) * snd (u_prev s m) * (snd (e m) * snd (e m))) - xi2_prev s - zeta * zeta = xi * xi ->
  0 < xi ->
  msum M (fun m => fst (next_u e s zeta xi m) * fst (next_u e s zeta xi m) + snd (next_u e s zeta xi m) * snd (next_u e s zeta xi m)) = 1 ->
  msum M (fun m => fst (next_u e s zeta xi m) * fst (u_prev s m) * fst (e m) - snd (next_u e s zeta xi m) * snd (u_prev s m) * snd (e m)) = xi ->
  lanczos_step M e s = Ok ((xi, zeta), {| u_prev := next_u e s zeta xi; u_prev2 := u_prev s; xi_prev := xi; xi2_prev := xi * xi |}).
Proof.
  intros H1 H2 H3 H4 H5. unfold lanczos_step. cbv zeta. rewrite H1, H2. destruct (Rle_dec (xi * xi) 0); [nra|]. rewrite sqrt_square by lra.
  unfold fix_norm.
  assert (N : msum M (fun m => fst (((fst (e m) - zeta) * fst (u_prev s m) - xi_prev s * fst (u_prev2 s m)) / xi,
       ((- snd (e m) - zeta) * snd (u_prev s m) - xi_prev s * snd (u_prev2 s m)) / xi) * fst (((fst (e m) - zeta) * fst (u_prev s m) - xi_prev s * fst (u_prev2 s m)) / xi,
       ((- snd (e m) - zeta) * snd (u_prev s m) - xi_prev s * snd (u_prev2 s m)) / xi) + snd (((fst (e m) - zeta) * fst (u_prev s m) - xi_prev s * fst (u_prev2 s m)) / xi,
       ((- snd (e m) - zeta) * snd (u_prev s m) - xi_prev s * snd (u_prev2 s m)) / xi) * snd (((fst (e m) - zeta) * fst (u_prev s m) - xi_prev s * fst (u_prev2 s m)) / xi,
       ((- snd (e m) - zeta) * snd (u_prev s m) - xi_prev s * snd (u_prev2 s m)) / xi)) = 1).
  { rewrite <- H4. rewrite !msum_sum. apply sum_to_ext. intros m Hm. unfold next_u. simpl. field. lra. }
  rewrite N, sqrt_1. destruct (Req_EM_T 1 0); [lra|]. simpl. unfold next_u in *. simpl in *. rewrite H5. reflexivity.
Qed.

Lemma star_example : tridiag 2 1 u4 e4 = Ok [(5, 0); (24 / 5, 0)].
Proof.
  unfold tridiag, fix_norm. simpl msum. rewrite (sq_eq _ 1) by (unfold u4; simpl; lra). destruct (Req_EM_T 1 0); [lra|].
  simpl Nat.add. simpl bind. simpl lanczos_loop.
  rewrite (step_run 2 e4 _ 0 5); [|unfold u4, e4; simpl; field|unfold u4, e4; simpl; field|lra|unfold next_u, u4, e4; simpl; field|unfold next_u, u4, e4; simpl; field].
  simpl bind.
  rewrite (step_run 2 e4 _ 0 (24 / 5)); [|unfold next_u, u4, e4; simpl; field|unfold next_u, u4, e4; simpl; field|lra|unfold next_u, u4, e4; simpl; field|unfold next_u, u4, e4; simpl; field].
  reflexivity.
Qed.

(** A star of two levels: the chain of two sites is complete. *)
Definition u2 : nat -> R * R := fun _ => (3 / 5, 4 / 5).
Definition e2 : nat -> R * R := fun _ => (1, 1).
Lemma two_levels : tridiag 1 0 u2 e2 = Ok [(24 / 25, - (7 / 25))] /\ tridiag 1 1 u2 e2 = Throw.
Proof.
  unfold tridiag, fix_norm. simpl msum. rewrite (sq_eq _ 1) by (unfold u2; simpl; lra). destruct (Req_EM_T 1 0); [lra|].
  simpl Nat.add. simpl bind. simpl lanczos_loop.
  rewrite (step_run 1 e2 _ (- (7 / 25)) (24 / 25)); [|unfold u2, e2; simpl; field|unfold u2, e2; simpl; field|lra|unfold next_u, u2, e2; simpl; field|unfold next_u, u2, e2; simpl; field].
  simpl bind. split; [reflexivity|].
  unfold lanczos_step. cbv zeta. destruct (Rle_dec _ 0) as [|H]; [reflexivity|]. exfalso. apply H. right. unfold next_u, u2, e2. simpl. field.
Qed.

(** An adaptive mesh that grows: g = 4 everywhere. *)
Definition P4 : cparams := {| Lambda := 2; z := 1; mMAX := 2; adapt := true; flat := true; g_pos := fun _ => 4; g_neg := fun _ => 4; f_pos := fun _ => 1; f_neg := fun _ => 1 |}.
Lemma growing_mesh : half (eps P4 (g_pos P4) (z P4 + INR 0 + 1)) < half (eps P4 (g_pos P4) (z P4 + INR 1 + 1)).
Proof.
  unfold eps, half, power. simpl. destruct (Rle_dec (1 + 0 + 1) 2); [|lra]. destruct (Rle_dec (1 + 1 + 1) 2); [lra|].
  replace (2 - (1 + 1 + 1)) with (- INR 1) by (simpl; ring). rewrite Rpower_Ropp, Rpower_pow by lra. simpl. lra.
Qed.
