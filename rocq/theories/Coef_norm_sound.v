(** Soundness of the normaliser of Coef_norm.v. *)
From Coq Require Import List ZArith Reals Lia Lra Bool.
From Verif Require Import Base Coef_model Coef_norm.
Import ListNotations.
Local Open Scope R_scope.

Section Val.
  Variables (x y : R).
  Hypothesis Hx : 0 <= x.
  Hypothesis Hy : 0 <= y.

  Fixpoint ev1 (p : poly1) : R := match p with [] => 0 | a :: p' => IZR a + y * ev1 p' end.
  Fixpoint ev (p : poly) : R := match p with [] => 0 | a :: p' => ev1 a + x * ev p' end.

  Lemma ev1_add : forall p q, ev1 (padd1 p q) = ev1 p + ev1 q.
  Proof. induction p as [|a p IH]; intros [|b q]; simpl; try lra. rewrite plus_IZR, IH. lra. Qed.
  Lemma ev1_scale : forall c p, ev1 (pscale1 c p) = IZR c * ev1 p.
  Proof. induction p as [|a p IH]; simpl; [lra|]. fold (pscale1 c p). rewrite mult_IZR, IH. ring. Qed.
  Lemma ev1_mul : forall p q, ev1 (pmul1 p q) = ev1 p * ev1 q.
  Proof. induction p as [|a p IH]; intros q; simpl; [lra|]. rewrite ev1_add, ev1_scale. simpl. rewrite IH. ring. Qed.
  Lemma ev_add : forall p q, ev (padd p q) = ev p + ev q.
  Proof. induction p as [|a p IH]; intros [|b q]; simpl; try lra. rewrite ev1_add, IH. lra. Qed.
  Lemma ev_scale : forall c p, ev (pscale c p) = ev1 c * ev p.
  Proof. induction p as [|a p IH]; simpl; [lra|]. fold (pscale c p). rewrite ev1_mul, IH. ring. Qed.
  Lemma ev_mul0 : forall p q, ev (pmul0 p q) = ev p * ev q.
  Proof. induction p as [|a p IH]; intros q; simpl; [lra|]. rewrite ev_add, ev_scale. simpl. rewrite IH. ring. Qed.
  Lemma ev1_opp : forall p, ev1 (map Z.opp p) = - ev1 p.
  Proof. induction p as [|a p IH]; simpl; [lra|]. rewrite opp_IZR, IH. lra. Qed.
  Lemma ev_neg : forall p, ev (pneg p) = - ev p.
  Proof. induction p as [|a p IH]; simpl; [lra|]. fold (pneg p). rewrite ev1_opp, IH. lra. Qed.
  Lemma is_unit : forall p : poly, p = [[1%Z]] \/ p = [[(-1)%Z]] \/ forall A (x y z : A), match p with [[1%Z]] => x | [[(-1)%Z]] => y | _ => z end = z.
  Proof.
    intros [|[|[|[p|p|]|[p|p|]] [|]] [|]]; auto; right; right; reflexivity.
  Qed.
  Lemma ev_mul : forall p q, ev (pmul p q) = ev p * ev q.
  Proof.
    intros p q. unfold pmul. destruct (is_unit p) as [-> |[-> |E]]; [simpl; ring|rewrite ev_neg; simpl; ring|]. rewrite E.
    destruct (is_unit q) as [-> |[-> |E']]; [simpl; ring|rewrite ev_neg; simpl; ring|]. rewrite E'.
    assert (G : forall r, (match p, q with [[a]], [[b]] => [[(a * b)%Z]] | _, _ => r end) = r \/ exists a b, p = [[a]] /\ q = [[b]]).
    { intros r. destruct p as [|[|a [|]] [|]]; auto; destruct q as [|[|b [|]] [|]]; eauto. }
    destruct (G (pmul0 p q)) as [-> |(a & b & -> & ->)]; [apply ev_mul0|]. simpl. rewrite mult_IZR. ring.
  Qed.
  Lemma ev_const : forall z, ev (pconst z) = IZR z.
  Proof. intros z. simpl. ring. Qed.
  Lemma ev_pow : forall p n, ev (ppow p n) = ev p ^ n.
  Proof. induction n as [|n IH]; [simpl; ring|]. change (ev (pmul p (ppow p n)) = ev p ^ S n). rewrite ev_mul, IH. reflexivity. Qed.
  Lemma ev1_zero : forall p, forallb (Z.eqb 0) p = true -> ev1 p = 0.
  Proof.
    induction p as [|a p IH]; [reflexivity|]. cbn [forallb]. intros H. apply andb_true_iff in H. destruct H as [H1 H2].
    apply Z.eqb_eq in H1. subst a. simpl. rewrite IH by exact H2. ring.
  Qed.
  Lemma ev_zero : forall p, pzero p = true -> ev p = 0.
  Proof.
    induction p as [|a p IH]; [reflexivity|]. unfold pzero in *. cbn [forallb]. intros H. apply andb_true_iff in H. destruct H as [H1 H2].
    simpl. rewrite ev1_zero by exact H1. rewrite IH by exact H2. ring.
  Qed.
  Lemma ev_eq : forall p q, peq p q = true -> ev p = ev q.
  Proof. intros p q H. apply ev_zero in H. rewrite ev_add, ev_neg in H. lra. Qed.

  (** atoms *)
  Definition aval (t : atom) : R := let '(v, a, b) := t in IZR a * (match v with O => x | _ => y end) + IZR b.
  Lemma atom_poly_val : forall t, ev (atom_poly t) = aval t.
  Proof. intros [[[|v] [|a|a]] b]; simpl; ring. Qed.
  Lemma aval_pos : forall t, atom_wf t = true -> 0 < aval t.
  Proof.
    intros [[v a] b] H. cbn [atom_wf] in H. apply andb_true_iff in H. destruct H as [H1 H2].
    apply Z.leb_le in H1. apply Z.ltb_lt in H2. apply IZR_le in H1. apply IZR_lt in H2. cbn [aval].
    assert (0 <= IZR a * match v with O => x | S _ => y end) by (destruct v; apply Rmult_le_pos; assumption). lra.
  Qed.
  Definition sq (t : atom) : R := sqrt (aval t).
  Lemma sq_pos : forall t, atom_wf t = true -> 0 < sq t.
  Proof. intros t H. apply sqrt_lt_R0. apply aval_pos; exact H. Qed.
  Lemma sq_neq : forall t, atom_wf t = true -> sq t <> 0.
  Proof. intros t H. pose proof (sq_pos t H). lra. Qed.
  Lemma sq_sq : forall t, atom_wf t = true -> sq t * sq t = aval t.
  Proof. intros t H. apply sqrt_sqrt. pose proof (aval_pos t H). lra. Qed.

  Fixpoint mval (m : mono) : R := match m with [] => 1 | (t, e) :: m' => powerRZ (sq t) e * mval m' end.

  Lemma wf_cons : forall t e m, mono_wf ((t, e) :: m) = true -> atom_wf t = true /\ mono_wf m = true.
  Proof. intros t e m H. unfold mono_wf in *. cbn [forallb fst] in H. apply andb_true_iff in H. exact H. Qed.
  Lemma wf_cons_i : forall t e m, atom_wf t = true -> mono_wf m = true -> mono_wf ((t, e) :: m) = true.
  Proof. intros t e m H1 H2. unfold mono_wf in *. cbn [forallb fst]. rewrite H1, H2. reflexivity. Qed.
  Lemma atom_cmp_eq : forall s t, atom_cmp s t = Eq -> s = t.
  Proof.
    intros [[v a] b] [[v' a'] b']. cbn [atom_cmp]. destruct (Nat.compare v v') eqn:E1; try discriminate.
    destruct (Z.compare a a') eqn:E2; try discriminate. intros E3.
    apply Nat.compare_eq in E1. apply Z.compare_eq in E2. apply Z.compare_eq in E3. congruence.
  Qed.

  Lemma mval_pos : forall m, mono_wf m = true -> 0 < mval m.
  Proof.
    induction m as [|[t e] m IH]; intros H; [simpl; lra|]. apply wf_cons in H. destruct H as [H1 H2]. cbn [mval].
    apply Rmult_lt_0_compat; [apply powerRZ_lt; apply sq_pos; exact H1 | apply IH; exact H2].
  Qed.

  (** one-step unfoldings *)
  Lemma mmul_nil : forall n, mmul [] n = n.
  Proof. reflexivity. Qed.
  Lemma mmul_cons_nil : forall p m, mmul (p :: m) [] = p :: m.
  Proof. intros [s e] m. reflexivity. Qed.
  Lemma mmul_cons : forall s e m t f n, mmul ((s, e) :: m) ((t, f) :: n) =
    match atom_cmp s t with
    | Eq => if (e + f =? 0)%Z then mmul m n else (s, (e + f)%Z) :: mmul m n
    | Lt => (s, e) :: mmul m ((t, f) :: n)
    | Gt => (t, f) :: mmul ((s, e) :: m) n
    end.
  Proof. reflexivity. Qed.

  Lemma mmul_sound : forall m n, mono_wf m = true -> mono_wf n = true -> mono_wf (mmul m n) = true /\ mval (mmul m n) = mval m * mval n.
  Proof.
    induction m as [|[s e] m IHm]; intros n Wm Wn; [rewrite mmul_nil; split; [exact Wn|cbn [mval]; ring]|].
    destruct (wf_cons _ _ _ Wm) as [Ws Wm'].
    induction n as [|[t f] n IHn]; [rewrite mmul_cons_nil; split; [exact Wm|cbn [mval]; ring]|].
    destruct (wf_cons _ _ _ Wn) as [Wt Wn'].
    rewrite mmul_cons. destruct (atom_cmp s t) eqn:E.
    - apply atom_cmp_eq in E. subst t. destruct (IHm n Wm' Wn') as [W V].
      destruct (Z.eqb_spec (e + f) 0) as [E0|E0].
      + split; [exact W|]. rewrite V. cbn [mval]. replace f with (- e)%Z by lia.
        assert (Hk : powerRZ (sq s) e * powerRZ (sq s) (- e) = 1).
        { rewrite <- powerRZ_add by (apply sq_neq; exact Ws). replace (e + - e)%Z with 0%Z by lia. reflexivity. }
        transitivity ((powerRZ (sq s) e * powerRZ (sq s) (- e)) * (mval m * mval n)); [rewrite Hk; ring|ring].
      + split; [apply wf_cons_i; assumption|]. cbn [mval]. rewrite V. rewrite powerRZ_add by (apply sq_neq; exact Ws). ring.
    - destruct (IHm ((t, f) :: n) Wm' Wn) as [W V]. split; [apply wf_cons_i; assumption|]. cbn [mval] in *. rewrite V. ring.
    - destruct (IHn Wn') as [W V]. split; [apply wf_cons_i; assumption|]. cbn [mval] in *. rewrite V. ring.
  Qed.

  Lemma minv_sound : forall m, mono_wf m = true -> mono_wf (minv m) = true /\ mval (minv m) = / mval m.
  Proof.
    induction m as [|[t e] m IH]; intros W; [split; [reflexivity|simpl; lra]|].
    destruct (wf_cons _ _ _ W) as [Wt Wm]. destruct (IH Wm) as [W' V]. cbn [minv map fst snd].
    split; [apply wf_cons_i; assumption|]. cbn [mval]. fold (minv m). rewrite V, powerRZ_neg by (apply sq_neq; exact Wt).
    rewrite Rinv_mult. rewrite powerRZ_inv by (apply sq_neq; exact Wt). reflexivity.
  Qed.

  Lemma mhalf_sound : forall m, mono_wf m = true -> meven m = true -> mono_wf (mhalf m) = true /\ mval (mhalf m) = sqrt (mval m).
  Proof.
    induction m as [|[t e] m IH]; intros W H; [split; [reflexivity|simpl; rewrite sqrt_1; reflexivity]|].
    destruct (wf_cons _ _ _ W) as [Wt Wm]. unfold meven in H. cbn [forallb snd] in H. apply andb_true_iff in H. destruct H as [H1 H2].
    destruct (IH Wm H2) as [W' V]. cbn [mhalf map fst snd]. fold (mhalf m). split; [apply wf_cons_i; assumption|].
    cbn [mval]. rewrite V. apply Z.even_spec in H1. destruct H1 as [k Hk].
    assert (Ek : (Z.div2 e = k)%Z) by (rewrite Z.div2_div; subst e; rewrite Z.mul_comm; apply Z.div_mul; lia). rewrite Ek.
    assert (E2 : powerRZ (sq t) e = powerRZ (sq t) k * powerRZ (sq t) k).
    { rewrite <- powerRZ_add by (apply sq_neq; exact Wt). f_equal. lia. }
    rewrite E2. pose proof (mval_pos m Wm). assert (0 < powerRZ (sq t) k) by (apply powerRZ_lt; apply sq_pos; exact Wt).
    rewrite sqrt_mult by nra. rewrite sqrt_square by lra. reflexivity.
  Qed.

  Lemma apow_sound : forall t e, atom_wf t = true -> Z.even e = true -> (0 <= e)%Z -> ev (apow t e) = powerRZ (sq t) e.
  Proof.
    intros t e W H1 H2. unfold apow. rewrite ev_pow, atom_poly_val. apply Z.even_spec in H1. destruct H1 as [k Hk].
    assert (Ek : (Z.div2 e = k)%Z) by (rewrite Z.div2_div; subst e; rewrite Z.mul_comm; apply Z.div_mul; lia). rewrite Ek.
    assert (Hk0 : (0 <= k)%Z) by lia. rewrite <- (Z2Nat.id k) in Hk by exact Hk0. rewrite Hk.
    replace (2 * Z.of_nat (Z.to_nat k))%Z with (Z.of_nat (Z.to_nat k + Z.to_nat k)) by lia.
    rewrite <- pow_powerRZ. rewrite pow_add, <- Rpow_mult_distr, sq_sq by exact W. reflexivity.
  Qed.

  Lemma mcommon_nil_nil : mcommon [] [] = Some ([], pconst 1, pconst 1).
  Proof. reflexivity. Qed.
  Lemma mcommon_nil_cons : forall t f n, mcommon [] ((t, f) :: n) =
    if Z.even f then match mcommon [] n with
      | Some (r, p, q) => if (0 <=? f)%Z then Some (r, p, pmul (apow t f) q) else Some ((t, f) :: r, pmul (apow t (- f)) p, q)
      | None => None end else None.
  Proof. reflexivity. Qed.
  Lemma mcommon_cons_nil : forall s e m, mcommon ((s, e) :: m) [] =
    if Z.even e then match mcommon m [] with
      | Some (r, p, q) => if (0 <=? e)%Z then Some (r, pmul (apow s e) p, q) else Some ((s, e) :: r, p, pmul (apow s (- e)) q)
      | None => None end else None.
  Proof. reflexivity. Qed.
  Lemma mcommon_cons_cons : forall s e m t f n, mcommon ((s, e) :: m) ((t, f) :: n) =
    match atom_cmp s t with
    | Eq => if Z.even (e - f) then match mcommon m n with
        | Some (r, p, q) => if (f <=? e)%Z then Some ((s, f) :: r, pmul (apow s (e - f)) p, q) else Some ((s, e) :: r, p, pmul (apow s (f - e)) q)
        | None => None end else None
    | Lt => if Z.even e then match mcommon m ((t, f) :: n) with
        | Some (r, p, q) => if (0 <=? e)%Z then Some (r, pmul (apow s e) p, q) else Some ((s, e) :: r, p, pmul (apow s (- e)) q)
        | None => None end else None
    | Gt => if Z.even f then match mcommon ((s, e) :: m) n with
        | Some (r, p, q) => if (0 <=? f)%Z then Some (r, p, pmul (apow t f) q) else Some ((t, f) :: r, pmul (apow t (- f)) p, q)
        | None => None end else None
    end.
  Proof. reflexivity. Qed.

  Lemma pw_cancel : forall t e, atom_wf t = true -> powerRZ (sq t) (- e) * powerRZ (sq t) e = 1.
  Proof. intros t e W. rewrite <- powerRZ_add by (apply sq_neq; exact W). replace (- e + e)%Z with 0%Z by lia. reflexivity. Qed.
  Lemma pw_split : forall t e f, atom_wf t = true -> powerRZ (sq t) e = powerRZ (sq t) (e - f) * powerRZ (sq t) f.
  Proof. intros t e f W. rewrite <- powerRZ_add by (apply sq_neq; exact W). f_equal. lia. Qed.

  Definition common_ok (m n r : mono) (p q : poly) : Prop :=
    mono_wf r = true /\ mval m = ev p * mval r /\ mval n = ev q * mval r.

  (** absorbing one factor of the left list *)
  Lemma absorb_l : forall s e m n r p q, atom_wf s = true -> Z.even e = true -> common_ok m n r p q ->
    (if (0 <=? e)%Z then common_ok ((s, e) :: m) n r (pmul (apow s e) p) q
     else common_ok ((s, e) :: m) n ((s, e) :: r) p (pmul (apow s (- e)) q)).
  Proof.
    intros s e m n r p q W E (W1 & V1 & V2). destruct (Z.leb_spec 0 e) as [L|L].
    - split; [exact W1|]. split; [|exact V2]. rewrite ev_mul, apow_sound by assumption. cbn [mval]. rewrite V1. ring.
    - assert (E' : Z.even (- e) = true) by (rewrite Z.even_opp; exact E).
      split; [apply wf_cons_i; assumption|]. cbn [mval]. split; [rewrite V1; ring|].
      rewrite ev_mul, apow_sound by (try assumption; lia). rewrite V2.
      transitivity ((powerRZ (sq s) (- e) * powerRZ (sq s) e) * (ev q * mval r)); [rewrite pw_cancel by exact W; ring|ring].
  Qed.
  Lemma common_sym : forall m n r p q, common_ok m n r p q -> common_ok n m r q p.
  Proof. intros m n r p q (A & B & C). split; [exact A|]. split; assumption. Qed.

  Lemma mcommon_sound : forall m n r p q, mono_wf m = true -> mono_wf n = true -> mcommon m n = Some (r, p, q) -> common_ok m n r p q.
  Proof.
    induction m as [|[s e] m IHm].
    - induction n as [|[t f] n IHn]; intros r p q Wm Wn H.
      + rewrite mcommon_nil_nil in H. injection H as <- <- <-. split; [reflexivity|]. rewrite ev_const. cbn [mval]. split; ring.
      + rewrite mcommon_nil_cons in H. destruct (Z.even f) eqn:E; [|discriminate]. destruct (wf_cons _ _ _ Wn) as [Wt Wn'].
        destruct (mcommon [] n) as [[[r0 p0] q0]|] eqn:E1; [|discriminate].
        pose proof (IHn r0 p0 q0 Wm Wn' eq_refl) as O. apply common_sym in O. pose proof (absorb_l t f _ _ _ _ _ Wt E O) as A.
        apply common_sym. destruct (0 <=? f)%Z; injection H as <- <- <-; exact A.
    - induction n as [|[t f] n IHn]; intros r p q Wm Wn H; destruct (wf_cons _ _ _ Wm) as [Ws Wm'].
      + rewrite mcommon_cons_nil in H. destruct (Z.even e) eqn:E; [|discriminate].
        destruct (mcommon m []) as [[[r0 p0] q0]|] eqn:E1; [|discriminate].
        pose proof (IHm [] r0 p0 q0 Wm' Wn E1) as O. pose proof (absorb_l s e _ _ _ _ _ Ws E O) as A.
        destruct (0 <=? e)%Z; injection H as <- <- <-; exact A.
      + destruct (wf_cons _ _ _ Wn) as [Wt Wn']. rewrite mcommon_cons_cons in H. destruct (atom_cmp s t) eqn:C.
        * apply atom_cmp_eq in C. subst t. destruct (Z.even (e - f)) eqn:E; [|discriminate].
          destruct (mcommon m n) as [[[r0 p0] q0]|] eqn:E1; [|discriminate].
          destruct (IHm n r0 p0 q0 Wm' Wn' E1) as (W1 & V1 & V2).
          destruct (Z.leb_spec f e) as [L|L]; injection H as <- <- <-.
          -- split; [apply wf_cons_i; assumption|]. cbn [mval]. rewrite ev_mul, apow_sound by (try assumption; lia).
             split; [|rewrite V2; ring]. rewrite V1, (pw_split s e f Ws). ring.
          -- assert (E' : Z.even (f - e) = true) by (replace (f - e)%Z with (- (e - f))%Z by lia; rewrite Z.even_opp; exact E).
             split; [apply wf_cons_i; assumption|]. cbn [mval]. rewrite ev_mul, apow_sound by (try assumption; lia).
             split; [rewrite V1; ring|]. rewrite V2, (pw_split s f e Ws). ring.
        * destruct (Z.even e) eqn:E; [|discriminate].
          destruct (mcommon m ((t, f) :: n)) as [[[r0 p0] q0]|] eqn:E1; [|discriminate].
          pose proof (IHm _ r0 p0 q0 Wm' Wn E1) as O. pose proof (absorb_l s e _ _ _ _ _ Ws E O) as A.
          destruct (0 <=? e)%Z; injection H as <- <- <-; exact A.
        * destruct (Z.even f) eqn:E; [|discriminate].
          destruct (mcommon ((s, e) :: m) n) as [[[r0 p0] q0]|] eqn:E1; [|discriminate].
          pose proof (IHn r0 p0 q0 Wm Wn' eq_refl) as O. apply common_sym in O. pose proof (absorb_l t f _ _ _ _ _ Wt E O) as A.
          apply common_sym. destruct (0 <=? f)%Z; injection H as <- <- <-; exact A.
  Qed.

  (** terms and sums *)
  Definition nval (a : nf) : R := ev (fst a) * mval (snd a).
  Definition nwf (a : nf) : bool := mono_wf (snd a).
  Fixpoint sval (s : msum) : R := match s with [] => 0 | a :: s' => nval a + sval s' end.
  Definition swf (s : msum) : bool := forallb nwf s.

  Lemma mpoly_sound : forall m, mono_wf m = true -> nonneg_even m = true -> ev (mpoly m) = mval m.
  Proof.
    induction m as [|[t e] m IH]; intros W H; [cbn [mpoly fold_right mval]; apply ev_const|].
    destruct (wf_cons _ _ _ W) as [Wt Wm]. unfold nonneg_even in H. cbn [forallb snd] in H. apply andb_true_iff in H. destruct H as [H1 H2].
    apply andb_true_iff in H1. destruct H1 as [H1 H1']. apply Z.leb_le in H1'.
    cbn [mpoly fold_right fst snd mval]. fold (mpoly m). rewrite ev_mul, apow_sound, IH by assumption. reflexivity.
  Qed.
  Lemma factor_sound : forall a, nwf a = true -> nwf (factor a) = true /\ nval (factor a) = nval a.
  Proof.
    intros [p m] W.
    assert (G : let r := (let (q, f) := split_factors p in if mono_wf f && nonneg_even f && peq p (pmul q (mpoly f)) then (q, mmul f m) else (p, m)) in
                nwf r = true /\ nval r = nval (p, m)).
    2:{ unfold factor. destruct p as [|[|[|[]|[]] []] []]; first [exact G|split; [exact W|reflexivity]]. }
    cbv zeta. destruct (split_factors p) as [q f].
    destruct (mono_wf f) eqn:E1; [|split; [exact W|reflexivity]].
    destruct (nonneg_even f) eqn:E2; [|split; [exact W|reflexivity]].
    cbn [andb]. destruct (peq p (pmul q (mpoly f))) eqn:E3; [|split; [exact W|reflexivity]].
    unfold nwf in *. cbn [snd] in *. destruct (mmul_sound f m E1 W) as [W' V]. split; [exact W'|].
    unfold nval. cbn [fst snd]. rewrite V. apply ev_eq in E3. rewrite E3, ev_mul, mpoly_sound by assumption. ring.
  Qed.
  Lemma nadd_sound : forall a b c, nwf a = true -> nwf b = true -> nadd a b = Some c -> nwf c = true /\ nval c = nval a + nval b.
  Proof.
    intros [p m] [q n] c Wa Wb H. unfold nadd in H. cbn [fst snd] in H. destruct (mcommon m n) as [[[r u] v]|] eqn:E; [|discriminate].
    injection H as <-. destruct (mcommon_sound m n r u v Wa Wb E) as (W & V1 & V2). split; [exact W|].
    unfold nval. cbn [fst snd]. rewrite ev_add, !ev_mul, V1, V2. ring.
  Qed.
  Lemma swf_cons : forall a s, swf (a :: s) = true -> nwf a = true /\ swf s = true.
  Proof. intros a s H. unfold swf in *. cbn [forallb] in H. apply andb_true_iff in H. exact H. Qed.
  Lemma swf_cons_i : forall a s, nwf a = true -> swf s = true -> swf (a :: s) = true.
  Proof. intros a s H1 H2. unfold swf in *. cbn [forallb]. rewrite H1, H2. reflexivity. Qed.
  Lemma sinsert_sound : forall s a, nwf a = true -> swf s = true -> swf (sinsert a s) = true /\ sval (sinsert a s) = nval a + sval s.
  Proof.
    induction s as [|b s IH]; intros a Wa Ws; [split; [apply swf_cons_i; [exact Wa|reflexivity]|simpl; lra]|].
    destruct (swf_cons _ _ Ws) as [Wb Ws']. cbn [sinsert]. destruct (nadd a b) as [c|] eqn:E.
    - destruct (nadd_sound a b c Wa Wb E) as [Wc V]. split; [apply swf_cons_i; assumption|]. cbn [sval]. rewrite V. lra.
    - destruct (IH a Wa Ws') as [W V]. split; [apply swf_cons_i; assumption|]. cbn [sval]. rewrite V. lra.
  Qed.
  Lemma sadd_sound : forall s t, swf s = true -> swf t = true -> swf (sadd s t) = true /\ sval (sadd s t) = sval s + sval t.
  Proof.
    induction s as [|a s IH]; intros t Ws Wt; [split; [exact Wt|simpl; lra]|].
    destruct (swf_cons _ _ Ws) as [Wa Ws']. destruct (IH t Ws' Wt) as [W V]. cbn [sadd fold_right]. fold (sadd s t).
    destruct (sinsert_sound (sadd s t) a Wa W) as [W2 V2]. split; [exact W2|]. cbn [sval]. rewrite V2, V. lra.
  Qed.
  Lemma nmul_sound : forall a b, nwf a = true -> nwf b = true -> nwf (nmul a b) = true /\ nval (nmul a b) = nval a * nval b.
  Proof.
    intros [p m] [q n] Wa Wb. unfold nmul, nwf, nval in *. cbn [fst snd] in *. destruct (mmul_sound m n Wa Wb) as [W V].
    split; [exact W|]. rewrite ev_mul, V. ring.
  Qed.
  Lemma smap_mul_sound : forall a t, nwf a = true -> swf t = true -> swf (map (nmul a) t) = true /\ sval (map (nmul a) t) = nval a * sval t.
  Proof.
    induction t as [|b t IH]; intros Wa Wt; [split; [reflexivity|simpl; lra]|].
    destruct (swf_cons _ _ Wt) as [Wb Wt']. destruct (IH Wa Wt') as [W V]. destruct (nmul_sound a b Wa Wb) as [W2 V2].
    cbn [map]. split; [apply swf_cons_i; assumption|]. cbn [sval]. rewrite V, V2. lra.
  Qed.
  Lemma smul_sound : forall s t, swf s = true -> swf t = true -> swf (smul s t) = true /\ sval (smul s t) = sval s * sval t.
  Proof.
    induction s as [|a s IH]; intros t Ws Wt; [split; [reflexivity|simpl; lra]|].
    destruct (swf_cons _ _ Ws) as [Wa Ws']. destruct (IH t Ws' Wt) as [W V]. cbn [smul fold_right]. fold (smul s t).
    destruct (smap_mul_sound a t Wa Wt) as [W1 V1]. destruct (sadd_sound _ _ W1 W) as [W2 V2]. split; [exact W2|].
    cbn [sval]. rewrite V2, V1, V. ring.
  Qed.
  Lemma sneg_sound : forall s, swf s = true -> swf (sneg s) = true /\ sval (sneg s) = - sval s.
  Proof.
    induction s as [|[p m] s IH]; intros W; [split; [reflexivity|simpl; lra]|].
    destruct (swf_cons _ _ W) as [Wa Ws]. destruct (IH Ws) as [W' V]. cbn [sneg map]. split; [apply swf_cons_i; [exact Wa|exact W']|].
    cbn [sval]. fold (sneg s). rewrite V. unfold nval, nneg. cbn [fst snd]. rewrite ev_neg. lra.
  Qed.
  Lemma sclean_sound : forall s, swf s = true -> swf (sclean s) = true /\ sval (sclean s) = sval s.
  Proof.
    induction s as [|a s IH]; intros W; [split; reflexivity|].
    destruct (swf_cons _ _ W) as [Wa Ws]. destruct (IH Ws) as [W' V]. cbn [sclean filter]. destruct (pzero (fst a)) eqn:E; cbn [negb].
    - split; [exact W'|]. cbn [sval]. unfold sclean in V. rewrite V. unfold nval. rewrite ev_zero by exact E. lra.
    - split; [apply swf_cons_i; assumption|]. cbn [sval]. unfold sclean in V. rewrite V. reflexivity.
  Qed.
  Lemma szero_sound : forall s, szero s = true -> sval s = 0.
  Proof.
    induction s as [|a s IH]; intros H; [reflexivity|]. unfold szero in H. cbn [forallb] in H. apply andb_true_iff in H. destruct H as [H1 H2].
    cbn [sval]. rewrite IH by exact H2. unfold nval. rewrite ev_zero by exact H1. lra.
  Qed.
  Lemma sfactor_sound : forall s, swf s = true -> swf (sfactor s) = true /\ sval (sfactor s) = sval s.
  Proof.
    intros s W. destruct (sclean_sound s W) as [W' V']. unfold sfactor. rewrite <- V'. clear V' W. revert W'.
    induction (sclean s) as [|a r IH]; intros W; [split; reflexivity|].
    destruct (swf_cons _ _ W) as [Wa Ws]. destruct (IH Ws) as [W' V]. destruct (factor_sound a Wa) as [W2 V2]. cbn [map].
    split; [apply swf_cons_i; assumption|]. cbn [sval]. rewrite V, V2. reflexivity.
  Qed.
  Lemma is_const_sound : forall p z, is_const p = Some z -> ev p = IZR z.
  Proof. intros p c H. destruct p as [|[|a [|? ?]] [|? ?]]; try discriminate. injection H as <-. simpl. ring. Qed.

  Lemma sinv_sound : forall s r, swf s = true -> sinv s = Some r -> swf r = true /\ sval s <> 0 /\ sval r = / sval s.
  Proof.
    intros s r W H. unfold sinv in H. destruct (sfactor_sound s W) as [W' V].
    destruct (sfactor s) as [|[p m] [|]]; try discriminate.
    destruct (swf_cons _ _ W') as [Wa _]. unfold nwf in Wa. cbn [snd] in Wa. pose proof (mval_pos m Wa) as P.
    destruct (minv_sound m Wa) as [Wi Vi]. cbn [sval] in V. unfold nval in V. cbn [fst snd] in V.
    destruct (is_const p) as [z|] eqn:E; [|discriminate]. apply is_const_sound in E. rewrite E in V.
    assert (C : (z = 1 /\ r = [(pconst 1, minv m)] \/ z = -1 /\ r = [(pconst (-1), minv m)])%Z).
    { destruct z as [|[]|[]]; try discriminate; injection H as <-; [left|right]; split; reflexivity. }
    destruct C as [[-> ->]|[-> ->]]; (split; [apply swf_cons_i; [exact Wi|reflexivity]|]); rewrite <- V; cbn [sval]; unfold nval; cbn [fst snd];
      rewrite ev_const, Vi.
    - split; [lra|]. field. lra.
    - split; [lra|]. field. lra.
  Qed.
  Lemma ssqrt_sound : forall s r, swf s = true -> ssqrt s = Some r -> swf r = true /\ 0 <= sval s /\ sval r = sqrt (sval s).
  Proof.
    intros s r W H. unfold ssqrt in H. destruct (sfactor_sound s W) as [W' V].
    destruct (sfactor s) as [|[p m] [|]]; try discriminate.
    - injection H as <-. cbn [sval] in V. rewrite <- V. rewrite sqrt_0. split; [reflexivity|]. split; [lra|reflexivity].
    - destruct (swf_cons _ _ W') as [Wa _]. unfold nwf in Wa. cbn [snd] in Wa. pose proof (mval_pos m Wa) as P.
      cbn [sval] in V. unfold nval in V. cbn [fst snd] in V.
      destruct (is_const p) as [z|] eqn:E; [|discriminate]. apply is_const_sound in E. rewrite E in V.
      assert (Hz : z = 1%Z) by (destruct z as [|[]|]; try discriminate; reflexivity). subst z.
      destruct (meven m) eqn:Em; [|discriminate]. injection H as <-. destruct (mhalf_sound m Wa Em) as [Wh Vh].
      split; [apply swf_cons_i; [exact Wh|reflexivity]|]. split; [lra|].
      cbn [sval]. unfold nval. cbn [fst snd]. rewrite ev_const, Vh, <- V. replace (1 * mval m + 0) with (mval m) by ring. ring.
  Qed.
  Lemma ssqrt_pos_sound : forall s r, swf s = true -> ssqrt_pos s = Some r -> swf r = true /\ 0 < sval s /\ sval r = sqrt (sval s).
  Proof.
    intros s r W H. unfold ssqrt_pos in H. destruct (sfactor_sound s W) as [W' V]. destruct (sfactor s) as [|a l] eqn:E; [discriminate|].
    destruct (ssqrt_sound s r W H) as (W1 & V1 & V2). split; [exact W1|]. split; [|exact V2].
    unfold ssqrt in H. rewrite E in H. destruct a as [p m]. destruct l; [|discriminate].
    destruct (swf_cons _ _ W') as [Wa _]. unfold nwf in Wa. cbn [snd] in Wa. pose proof (mval_pos m Wa) as P.
    cbn [sval] in V. unfold nval in V. cbn [fst snd] in V.
    destruct (is_const p) as [z|] eqn:Ec; [|discriminate]. apply is_const_sound in Ec. rewrite Ec in V.
    assert (Hz : z = 1%Z) by (destruct z as [|[]|]; try discriminate; reflexivity). subst z. lra.
  Qed.
  Lemma spow_sound : forall n s, swf s = true -> swf (spow s n) = true /\ sval (spow s n) = sval s ^ n.
  Proof.
    induction n as [|n IH]; intros s W.
    - split; [reflexivity|]. cbn [spow sval]. unfold nval. cbn [fst snd mval]. rewrite ev_const. simpl. ring.
    - destruct (IH s W) as [W1 V1]. destruct (smul_sound s (spow s n) W W1) as [W2 V2].
      cbn [spow]. split; [exact W2|]. rewrite V2, V1. reflexivity.
  Qed.

  (** Quantum numbers that fit a shape.  [t v] are the integers whose values are x and y. *)
  Variables (tx ty : Z).
  Hypothesis Ex : x = IZR tx.
  Hypothesis Ey : y = IZR ty.
  Definition comp_ok (c : scomp) (q : Z) : Prop :=
    match c with SFix z => q = z | SGen v c => q = (c + match v with O => tx | _ => ty end)%Z | SAny _ => True end.
  Definition fits (sg : list scomp) (q : list Z) : Prop := Forall2 comp_ok sg q.

  Lemma fits_nth : forall sg q n c, fits sg q -> nth_error sg n = Some c -> exists z, nth_error q n = Some z /\ comp_ok c z.
  Proof.
    intros sg q n c F. revert n. induction F as [|s z sg q H F IH]; intros [|n] E; try discriminate.
    - injection E as <-. exists z. split; [reflexivity|exact H].
    - exact (IH n E).
  Qed.
  Lemma qpoly_sound : forall sg q n p, fits sg q -> qpoly sg n = Some p -> exists z, nth_error q n = Some z /\ ev p = IZR z.
  Proof.
    intros sg q n p F H. unfold qpoly in H. destruct (nth_error sg n) as [c|] eqn:E; [|discriminate].
    destruct (fits_nth sg q n c F E) as (z & Hz & C). exists z. split; [exact Hz|].
    destruct c as [z'|v c|c]; [| |discriminate].
    - injection H as <-. cbn in C. subst z'. apply ev_const.
    - cbn in C. subst z. destruct v; injection H as <-; rewrite plus_IZR; [rewrite <- Ex|rewrite <- Ey]; simpl; ring.
  Qed.

  Definition nn_ok (odd : bool) (nn : Z) : Prop := Z.odd nn = odd.
  Lemma gsum_even : forall sg q l, fits sg q -> geven l = true -> in_range sg l = true -> exists s, gsum q l = Some s /\ Z.even s = true.
  Proof.
    intros sg q l F. induction l as [|[n c] l IH]; intros H1 H2; [exists 0%Z; split; reflexivity|].
    unfold geven, in_range in *. cbn [forallb fst snd] in *. apply andb_true_iff in H1. apply andb_true_iff in H2.
    destruct H1 as [H1 H1']. destruct H2 as [H2 H2']. destruct (IH H1' H2') as (s & Es & Ev).
    apply Nat.ltb_lt in H2. destruct (nth_error sg n) as [c0|] eqn:E; [|apply nth_error_None in E; lia].
    destruct (fits_nth sg q n c0 F E) as (z & Hz & _). exists (c * z + s)%Z. cbn [gsum]. rewrite Hz, Es. split; [reflexivity|].
    rewrite Z.even_add, Z.even_mul, H1, Ev. reflexivity.
  Qed.

  Lemma Some_eq : forall {A} (a b : A), Some a = Some b -> a = b.
  Proof. intros A a b H. congruence. Qed.
  Lemma omap2_some : forall {A B C} (f : A -> B -> C) a b, omap2 f (Some a) (Some b) = Some (f a b).
  Proof. reflexivity. Qed.

  Lemma pow_zpos : forall r k, Z.even k = true -> (0 <= k)%Z -> powerRZ r (k / 2) = r ^ Z.to_nat (k / 2).
  Proof.
    intros r k _ Hk. rewrite <- (Z2Nat.id (k / 2)) at 1 by (apply Z.div_pos; lia). symmetry. apply pow_powerRZ.
  Qed.

  Lemma sfac_sound : forall fl s, swf s = true -> swf (sfac fl s) = true /\ sval (sfac fl s) = sval s.
  Proof. intros [] s W; [apply sfactor_sound; exact W|split; [exact W|reflexivity]]. Qed.

  Theorem norm_f_sound : forall sg odd q nn e fl s, fits sg q -> nn_ok odd nn -> norm_f sg odd fl e = Some s ->
    swf s = true /\ ceval q nn e = Some (sval s).
  Proof.
    intros sg odd q nn e fl s F HN. revert fl s. induction e; intros fl s H; cbn [norm_f] in H.
    - apply Some_eq in H; subst s. split; [reflexivity|]. cbn [ceval sval]. unfold nval. cbn [fst snd mval]. rewrite ev_const. f_equal. ring.
    - destruct (sinv [(pconst (Z.pos d), [])]) as [i|] eqn:E; [|discriminate]. cbn [obind] in H. apply Some_eq in H; subst s.
      destruct (sinv_sound [(pconst (Z.pos d), [])] i eq_refl E) as (W & N & V).
      destruct (smul_sound [(pconst n, [])] i eq_refl W) as [W2 V2]. split; [exact W2|].
      cbn [ceval]. rewrite V2, V. cbn [sval]. unfold nval. cbn [fst snd mval]. rewrite !ev_const. f_equal.
      assert (IZR (Z.pos d) <> 0) by (apply IZR_neq; lia). field; repeat split; lra.
    - destruct (qpoly sg n) as [p|] eqn:E; [|discriminate]. cbn [option_map] in H. apply Some_eq in H; subst s.
      destruct (qpoly_sound sg q n p F E) as (z & Hz & V). destruct (sfac_sound fl [(p, [])] eq_refl) as [W2 V2]. split; [exact W2|].
      cbn [ceval]. rewrite Hz. cbn [option_map]. rewrite V2. cbn [sval]. unfold nval. cbn [fst snd mval]. rewrite V. f_equal. ring.
    - destruct (qpoly sg n) as [p|] eqn:E; [|discriminate]. cbn [option_map] in H. apply Some_eq in H; subst s.
      destruct (qpoly_sound sg q n p F E) as (z & Hz & V).
      assert (Wh : nwf half = true) by reflexivity.
      destruct (nmul_sound (padd p (pconst (-1)), []) half eq_refl Wh) as [W1 V1].
      assert (W2 : swf [nmul (padd p (pconst (-1)), []) half] = true) by (apply swf_cons_i; [exact W1|reflexivity]).
      destruct (sfac_sound fl _ W2) as [W3 V3]. split; [exact W3|].
      cbn [ceval]. rewrite Hz. cbn [option_map]. rewrite V3. cbn [sval]. rewrite V1. unfold nval, half. cbn [fst snd mval].
      rewrite ev_add, !ev_const, V. f_equal.
      assert (E2 : powerRZ (sq (0%nat, 0, 2)%Z) (-2) = / 2).
      { change (-2)%Z with (- (2))%Z. rewrite powerRZ_neg by (apply sq_neq; reflexivity). rewrite powerRZ_inv by (apply sq_neq; reflexivity).
        f_equal. unfold sq. cbn [aval powerRZ]. change (Pos.to_nat 2) with 2%nat. replace (0 * x + 2) with 2 by ring.
        cbn [pow]. rewrite Rmult_1_r. apply sqrt_sqrt. lra. }
      rewrite E2. field.
    - destruct (norm_f sg odd _ e1) as [s1|] eqn:E1; [|discriminate]. destruct (norm_f sg odd _ e2) as [s2|] eqn:E2; [|discriminate]. cbn [obind] in H. apply Some_eq in H; subst s.
      destruct (IHe1 _ s1 E1) as [W1 V1]. destruct (IHe2 _ s2 E2) as [W2 V2]. destruct (sadd_sound s1 s2 W1 W2) as [W V].
      destruct (sfac_sound fl _ W) as [W' V']. split; [exact W'|]. cbn [ceval]. rewrite V1, V2, V', V. reflexivity.
    - destruct (norm_f sg odd _ e1) as [s1|] eqn:E1; [|discriminate]. destruct (norm_f sg odd _ e2) as [s2|] eqn:E2; [|discriminate]. cbn [obind] in H. apply Some_eq in H; subst s.
      destruct (IHe1 _ s1 E1) as [W1 V1]. destruct (IHe2 _ s2 E2) as [W2 V2]. destruct (sneg_sound s2 W2) as [W2n V2n].
      destruct (sadd_sound s1 _ W1 W2n) as [W V].
      destruct (sfac_sound fl _ W) as [W' V']. split; [exact W'|]. cbn [ceval]. rewrite V1, V2, V', V, V2n. reflexivity.
    - destruct (norm_f sg odd _ e1) as [s1|] eqn:E1; [|discriminate]. destruct (norm_f sg odd _ e2) as [s2|] eqn:E2; [|discriminate]. cbn [obind] in H. apply Some_eq in H; subst s.
      destruct (IHe1 _ s1 E1) as [W1 V1]. destruct (IHe2 _ s2 E2) as [W2 V2]. destruct (smul_sound s1 s2 W1 W2) as [W V].
      split; [exact W|]. cbn [ceval]. rewrite V1, V2, V. reflexivity.
    - destruct (norm_f sg odd _ e1) as [s1|] eqn:E1; [|discriminate]. destruct (norm_f sg odd _ e2) as [s2|] eqn:E2; [|discriminate]. cbn [obind] in H.
      destruct (sinv s2) as [i|] eqn:E; [|discriminate]. cbn [obind] in H. apply Some_eq in H; subst s.
      destruct (IHe1 _ s1 E1) as [W1 V1]. destruct (IHe2 _ s2 E2) as [W2 V2]. destruct (sinv_sound s2 i W2 E) as (Wi & Ni & Vi).
      destruct (smul_sound s1 i W1 Wi) as [W V]. split; [exact W|].
      cbn [ceval]. rewrite V1, V2, V, Vi. cbn [obind]. destruct (Req_EM_T (sval s2) 0) as [Z0|_]; [contradiction|]. reflexivity.
    - destruct (norm_f sg odd _ e) as [s1|] eqn:E1; [|discriminate]. cbn [option_map] in H. apply Some_eq in H; subst s.
      destruct (IHe _ s1 E1) as [W1 V1]. destruct (sneg_sound s1 W1) as [W V]. split; [exact W|]. cbn [ceval]. rewrite V1, V. reflexivity.
    - destruct (norm_f sg odd _ e) as [s1|] eqn:E1; [|discriminate]. cbn [obind] in H. destruct (IHe _ s1 E1) as [W1 V1].
      destruct (ssqrt_sound s1 s W1 H) as (W & P & V). split; [exact W|]. cbn [ceval]. rewrite V1. cbn [obind].
      destruct (Rle_dec 0 (sval s1)) as [_|N]; [rewrite V; reflexivity|contradiction].
    - destruct (norm_f sg odd _ e) as [s1|] eqn:E1; [|discriminate]. cbn [obind] in H. destruct (IHe _ s1 E1) as [W1 V1].
      cbn [ceval]. rewrite V1. cbn [obind]. destruct (Z.even k) eqn:Ek.
      + destruct (Z.leb_spec 0 k) as [L|L].
        * apply Some_eq in H; subst s. destruct (spow_sound (Z.to_nat (k / 2)) s1 W1) as [W V]. split; [exact W|].
          rewrite V, pow_zpos by assumption. reflexivity.
        * destruct (sinv s1) as [i|] eqn:E; [|discriminate]. cbn [obind] in H. apply Some_eq in H; subst s.
          destruct (sinv_sound s1 i W1 E) as (Wi & Ni & Vi). destruct (spow_sound (Z.to_nat (- k / 2)) i Wi) as [W V]. split; [exact W|].
          destruct (Req_EM_T (sval s1) 0) as [Z0|_]; [contradiction|]. f_equal. rewrite V, Vi.
          apply Z.even_spec in Ek. destruct Ek as [j Hj]. subst k.
          replace (2 * j / 2)%Z with j by (rewrite Z.mul_comm, Z.div_mul; lia).
          replace (- (2 * j) / 2)%Z with (- j)%Z by (replace (- (2 * j))%Z with (- j * 2)%Z by lia; rewrite Z.div_mul; lia).
          rewrite pow_powerRZ, Z2Nat.id by lia. rewrite powerRZ_neg by (apply Rinv_neq_0_compat; exact Ni). rewrite Rinv_inv. reflexivity.
      + destruct (Z.leb_spec 0 k) as [L|L].
        * destruct (ssqrt s1) as [r|] eqn:E; [|discriminate]. cbn [obind] in H. apply Some_eq in H; subst s.
          destruct (ssqrt_sound s1 r W1 E) as (Wr & Pr & Vr). destruct (spow_sound (Z.to_nat k) r Wr) as [W V]. split; [exact W|].
          destruct (Rle_dec 0 (sval s1)) as [_|N]; [|contradiction]. f_equal. rewrite V, Vr.
          rewrite pow_powerRZ, Z2Nat.id by lia. reflexivity.
        * destruct (ssqrt_pos s1) as [r|] eqn:E; [|discriminate]. cbn [obind] in H. destruct (sinv r) as [i|] eqn:E2; [|discriminate].
          cbn [obind] in H. apply Some_eq in H; subst s.
          destruct (ssqrt_pos_sound s1 r W1 E) as (Wr & Pr & Vr). destruct (sinv_sound r i Wr E2) as (Wi & Ni & Vi).
          destruct (spow_sound (Z.to_nat (- k)) i Wi) as [W V]. split; [exact W|].
          destruct (Rlt_dec 0 (sval s1)) as [_|N]; [|contradiction]. f_equal. rewrite V, Vi, Vr.
          rewrite pow_powerRZ, Z2Nat.id by lia. rewrite Vr in Ni. rewrite powerRZ_neg by (apply Rinv_neq_0_compat; exact Ni).
          rewrite Rinv_inv. reflexivity.
    - destruct (geven l) eqn:E1; [|discriminate]. destruct (in_range sg l) eqn:E2; [|discriminate]. cbn [andb] in H. apply Some_eq in H; subst s.
      destruct (gsum_even sg q l F E1 E2) as (g & Hg & Eg). split; [reflexivity|]. cbn [ceval]. rewrite Hg. cbn [option_map sval].
      unfold nval. cbn [fst snd mval]. rewrite ev_const. unfold signR. unfold nn_ok in HN.
      rewrite !Z.even_add, Eg. rewrite <- !Z.negb_odd. rewrite HN.
      destruct odd, (Z.odd k); cbn; f_equal; ring.
  Qed.
  Theorem norm_sound : forall sg odd q nn e s, fits sg q -> nn_ok odd nn -> norm sg odd e = Some s ->
    swf s = true /\ ceval q nn e = Some (sval s).
  Proof. intros sg odd q nn e s F HN H. exact (norm_f_sound sg odd q nn e true s F HN H). Qed.
End Val.

(** Expressions without the sign (-1)^NN do not depend on it. *)
Lemma ceval_no_sign : forall q nn nn' e, no_sign e = true -> ceval q nn e = ceval q nn' e.
Proof.
  intros q nn nn' e. induction e; intros H; cbn [ceval no_sign] in *; try discriminate; try reflexivity;
    try (apply andb_true_iff in H; destruct H as [H1 H2]; rewrite IHe1, IHe2 by assumption; reflexivity);
    rewrite IHe by assumption; reflexivity.
Qed.
