From Coq Require Import List ZArith Reals Arith Bool Lra Lia Permutation.
From Verif Require Import Base Zavg_model Zavg_spec.
Import ListNotations.
Local Open Scope R_scope.

Lemma insert_perm x l : Permutation (insert x l) (x :: l).
Proof. induction l as [|y t IH]; simpl; auto. destruct (Rle_dec x y); auto. rewrite IH. apply perm_swap. Qed.
Lemma sort_perm l : Permutation (sort l) l.
Proof. induction l; simpl; auto. rewrite insert_perm. auto. Qed.
Lemma sorted_cons a l : sorted (a :: l) <-> (match l with [] => True | b :: _ => a <= b end) /\ sorted l.
Proof. destruct l; simpl; tauto. Qed.
Lemma insert_sorted x l : sorted l -> sorted (insert x l).
Proof.
  induction l as [|y t IH]; [simpl; auto|]. intros H. cbn [insert]. destruct (Rle_dec x y).
  - apply sorted_cons. split; auto.
  - apply sorted_cons in H. destruct H as [H1 H2]. specialize (IH H2). destruct t as [|w t]; [simpl; lra|]. cbn [insert] in *.
    destruct (Rle_dec x w); apply sorted_cons; split; auto; lra.
Qed.
Lemma sort_sorted l : sorted (sort l).
Proof. induction l; simpl; auto. apply insert_sorted; auto. Qed.

Section Mesh.
  Variables (min max ratio a : R) (pos neg : bool).
  Hypothesis Hmin : 0 < min.
  Hypothesis Hmax : min < max.
  Hypothesis Hr : 1 < ratio.
  Hypothesis Ha : 0 <= a < max.

  Lemma loop_bounds z l : mesh_loop min ratio z l -> forall x, In x l -> min < x <= z.
  Proof.
    induction 1 as [z H|z l H _ IH]; intros x Hx; [destruct Hx|]. destruct Hx as [<-|Hx]; [lra|]. specialize (IH x Hx).
    assert (z / ratio <= z); [|lra]. unfold Rdiv. rewrite <- (Rmult_1_r z) at 2. apply Rmult_le_compat_l; [lra|].
    rewrite <- Rinv_1. apply Rinv_le_contravar; lra.
  Qed.
  Lemma loop_head z l : mesh_loop min ratio z l -> min < z -> exists t, l = z :: t.
  Proof. intros H Hz. destruct H; [lra|]. eauto. Qed.
  Lemma loop_exists n : forall z, z / ratio ^ n <= min -> exists l, mesh_loop min ratio z l.
  Proof.
    induction n as [|n IH]; intros z H.
    - exists []. apply mesh_stop. simpl in H. unfold Rdiv in H. rewrite Rinv_1, Rmult_1_r in H. lra.
    - destruct (Rlt_dec min z) as [Hz|Hz]; [|exists []; apply mesh_stop; auto].
      destruct (IH (z / ratio)) as (l & Hl); [|exists (z :: l); apply mesh_next; auto].
      simpl in H. replace (z / ratio / ratio ^ n) with (z / (ratio * ratio ^ n)); auto. field. split; [lra|apply pow_nonzero; lra].
  Qed.
  Lemma loop_terminates : exists l, mesh_loop min ratio max l.
  Proof.
    destruct (Pow_x_infinity ratio ltac:(rewrite Rabs_right; lra) (max / min)) as (N & HN). specialize (HN N (le_n _)).
    apply (loop_exists N). assert (P : 0 < ratio ^ N) by (apply pow_lt; lra). rewrite Rabs_right in HN by lra.
    apply (Rmult_le_reg_r (ratio ^ N)); auto. unfold Rdiv. rewrite Rmult_assoc, Rinv_l, Rmult_1_r by lra.
    apply Rge_le in HN. apply (Rmult_le_compat_l min) in HN; [|lra]. unfold Rdiv in HN. replace (min * (max * / min)) with max in HN by (field; lra). auto.
  Qed.
  Theorem mesh_ok : exists mesh, make_mesh min max ratio a pos neg (Ok mesh) /\ (forall o, make_mesh min max ratio a pos neg o -> exists m, o = Ok m) /\
    sorted mesh /\
    (forall x, In x mesh -> 0 < Rabs x <= max /\ (0 < x -> pos = true) /\ (x < 0 -> neg = true)) /\
    (pos = true -> neg = true -> forall x, In x mesh <-> In (- x) mesh) /\
    (pos = true -> In max mesh).
  Proof.
    destruct loop_terminates as (zs & Hz). eexists. split; [apply mm_ok; eauto|]. split.
    { intros o Ho. inversion Ho; [tauto|eauto]. }
    split; [apply sort_sorted|]. set (raw := flat_map _ zs).
    assert (S : forall x, In x (sort raw) <-> In x raw) by (intros x; split; apply Permutation_in; [|symmetry]; apply sort_perm).
    assert (X : forall z, In z zs -> 0 < a + z * ((max - a) / max) <= max).
    { intros z Hin. pose proof (loop_bounds _ _ Hz z Hin) as B. assert (F : 0 < (max - a) / max) by (apply Rdiv_lt_0_compat; lra). split; [nra|].
      assert (z * ((max - a) / max) <= max * ((max - a) / max)) by (apply Rmult_le_compat_r; lra).
      replace (max * ((max - a) / max)) with (max - a) in H by (field; lra). lra. }
    split; [|split].
    - intros x Hx. apply S in Hx. apply in_flat_map in Hx. destruct Hx as (z & Hin & Hx). specialize (X z Hin).
      apply in_app_or in Hx. destruct Hx as [Hx|Hx].
      + destruct pos; [|destruct Hx]. destruct Hx as [<-|[]]. rewrite Rabs_right by lra. repeat split; auto; lra.
      + destruct neg; [|destruct Hx]. destruct Hx as [<-|[]]. rewrite Rabs_Ropp, Rabs_right by lra. repeat split; auto; lra.
    - intros -> -> x. assert (D : forall y, In y raw -> In (- y) raw).
      { intros y Hy. apply in_flat_map in Hy. destruct Hy as (z & Hin & Hy). apply in_flat_map. exists z. split; auto. simpl in *.
        destruct Hy as [<-|[<-|[]]]; auto. rewrite Ropp_involutive. auto. }
      split; intros Hx; apply S; apply S in Hx; [auto|]. rewrite <- (Ropp_involutive x). auto.
    - intros ->. apply S. apply in_flat_map. destruct (loop_head _ _ Hz Hmax) as (t & ->). exists max. split; [left; auto|]. left. field. lra.
  Qed.
End Mesh.
