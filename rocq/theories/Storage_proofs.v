(** Archive round trip. *)
From Coq Require Import List ZArith Lia Bool String Sorted DecimalString.
From Verif Require Import Base Invar_model Invar_proofs Subspaces_model Subspaces_proofs Storage_model Storage_spec.
Import ListNotations.
Local Open Scope list_scope.
Local Open Scope Z_scope.

Lemma codes_ret {A} (a : A) : codes (rret a) [] a.
Proof. split; [reflexivity|]. intros p (q & Hq & E). symmetry in E. apply app_eq_nil in E. tauto. Qed.

Lemma app_split {A} (e1 e2 p q : list A) : e1 ++ e2 = p ++ q ->
  (exists q1, q1 <> [] /\ e1 = p ++ q1) \/ (exists p2, p = e1 ++ p2 /\ e2 = p2 ++ q).
Proof.
  revert p; induction e1 as [|x e1 IH]; intros p E; [right; exists p; auto|].
  destruct p as [|y p]; [left; exists (x :: e1); split; [discriminate|reflexivity]|].
  cbn in E. injection E as <- E. destruct (IH _ E) as [(q1 & H1 & H2)|(p2 & H1 & H2)].
  - left. exists q1. split; auto. cbn. congruence.
  - right. exists p2. split; auto. cbn. congruence.
Qed.

Lemma codes_bind {A B} (d : rd A) (k : A -> rd B) e1 e2 a b : codes d e1 a -> codes (k a) e2 b -> codes (rbind d k) (e1 ++ e2) b.
Proof.
  intros [H1 P1] [H2 P2]. split.
  - intros r. unfold rbind. rewrite <- app_assoc, H1. apply H2.
  - intros p (q & Hq & E). unfold rbind. destruct (app_split _ _ _ _ E) as [(q1 & Hq1 & E1)|(p2 & -> & E2)].
    + rewrite P1; [reflexivity|]. exists q1. auto.
    + rewrite H1. apply P2. exists q. auto.
Qed.
Lemma codes_last {A B} (d : rd A) (f : A -> B) e a : codes d e a -> codes (rbind d (fun x => rret (f x))) e (f a).
Proof. intros H. rewrite <- (app_nil_r e). eapply codes_bind; [exact H|]. apply codes_ret. Qed.

Lemma take_bytes_all b r : take_bytes (List.length b) (b ++ r) = Some (b, r).
Proof. induction b as [|x b IH]; [reflexivity|]. cbn [List.length take_bytes app]. rewrite IH. reflexivity. Qed.
Lemma take_bytes_short n b : (List.length b < n)%nat -> take_bytes n b = None.
Proof. revert b; induction n as [|n IH]; intros b H; [lia|]. cbn [take_bytes]. destruct b; [reflexivity|]. cbn in H. rewrite IH by lia. reflexivity. Qed.
Lemma codes_take b : codes (take_bytes (List.length b)) b b.
Proof.
  split; [apply take_bytes_all|]. intros p (q & Hq & E). apply take_bytes_short. rewrite E, app_length. destruct q; [congruence|cbn; lia].
Qed.
Lemma codes_fixed {A} (n : nat) (f : bytes -> A) b a : List.length b = n -> f b = a -> codes (rbind (take_bytes n) (fun x => rret (f x))) b a.
Proof. intros <- <-. apply codes_last. apply codes_take. Qed.

Lemma le_bytes_length n z : List.length (le_bytes n z) = n.
Proof. revert z; induction n; intros; cbn [le_bytes List.length]; auto. Qed.
Lemma le_value_bytes n : forall z, 0 <= z < 256 ^ Z.of_nat n -> le_value (le_bytes n z) = z.
Proof.
  induction n as [|n IH]; intros z Hz; [change (256 ^ Z.of_nat 0) with 1 in Hz; cbn; lia|].
  cbn [le_bytes le_value]. rewrite Nat2Z.inj_succ, Z.pow_succ_r in Hz by lia. rewrite IH.
  - pose proof (Z.div_mod z 256). lia.
  - split; [apply Z.div_pos; lia|apply Z.div_lt_upper_bound; lia].
Qed.

Lemma codes_size z : fits z -> codes load_size (save_size z) z.
Proof. intros H. apply codes_fixed; [apply le_bytes_length|]. apply le_value_bytes. exact H. Qed.
Lemma signed_mod n z : (0 < n)%nat -> - (256 ^ Z.of_nat n / 2) <= z < 256 ^ Z.of_nat n / 2 -> signed n (z mod 256 ^ Z.of_nat n) = z.
Proof.
  intros Hn Hz. unfold signed. set (m := 256 ^ Z.of_nat n) in *.
  assert (Hm : 0 < m) by (unfold m; apply Z.pow_pos_nonneg; lia).
  assert (He : m = 2 * (m / 2)).
  { unfold m. destruct n as [|n]; [lia|]. rewrite Nat2Z.inj_succ, Z.pow_succ_r by lia. generalize (256 ^ Z.of_nat n). intros y.
    assert (E : 256 * y = (128 * y) * 2) by lia. rewrite E, Z.div_mul by discriminate. lia. }
  destruct (Z.lt_ge_cases z 0) as [Hneg|Hpos].
  - replace (z mod m) with (z + m) by (apply (Z.mod_unique z m (-1)); lia).
    replace (z + m <? m / 2) with false by (symmetry; apply Z.ltb_ge; lia). lia.
  - rewrite Z.mod_small by lia. replace (z <? m / 2) with true by (symmetry; apply Z.ltb_lt; lia). reflexivity.
Qed.
Lemma codes_int n z : (0 < n)%nat -> - (256 ^ Z.of_nat n / 2) <= z < 256 ^ Z.of_nat n / 2 -> codes (load_int n) (save_int n z) z.
Proof.
  intros Hn Hz. apply codes_fixed; [apply le_bytes_length|]. unfold save_int. rewrite le_value_bytes; [apply signed_mod; auto|].
  apply Z.mod_pos_bound. apply Z.pow_pos_nonneg; lia.
Qed.
Lemma codes_bool b : codes load_bool (save_bool b) b.
Proof. apply codes_fixed; destruct b; reflexivity. Qed.
Lemma codes_scalar (S : scalar) (x : S) : faithful S -> codes load_scalar (save_scalar x) x.
Proof. intros H. destruct (H x). apply codes_fixed; auto. Qed.

Lemma codes_n {A} (d : rd A) (e : A -> bytes) l : Forall (fun x => codes d (e x) x) l -> codes (load_n (List.length l) d) (List.concat (map e l)) l.
Proof.
  induction 1 as [|x l Hx _ IH]; [apply codes_ret|]. cbn [List.length load_n map List.concat].
  eapply codes_bind; [exact Hx|]. apply codes_last with (f := fun l => x :: l). exact IH.
Qed.
Lemma codes_vec {A} (d : rd A) (e : A -> bytes) l : small l -> Forall (fun x => codes d (e x) x) l -> codes (load_vec d) (save_vec e l) l.
Proof.
  intros Hs HF. unfold load_vec, save_vec. eapply codes_bind; [apply codes_size; exact Hs|]. rewrite Nat2Z.id. apply codes_n. exact HF.
Qed.
Lemma codes_invar J : wf_invar J -> codes load_invar (save_invar J) J.
Proof.
  intros [Hs HF]. apply codes_vec; auto. eapply Forall_impl; [|exact HF]. intros z Hz. apply codes_int; [lia|].
  change (256 ^ Z.of_nat 4 / 2) with (2 ^ 31). exact Hz.
Qed.

Lemma codes_mat (S : scalar) (m : mat S) : faithful S -> wf_mat m -> codes load_mat (save_mat m) m.
Proof.
  intros HS (Hr & Hc & Er & Ec). destruct m as [r c el]. cbn [mt_rows mt_cols mt_el] in *. unfold load_mat, save_mat. cbn [mt_rows mt_cols mt_el].
  eapply codes_bind; [apply codes_size; exact Hr|]. eapply codes_bind; [apply codes_size; exact Hc|].
  apply codes_last with (f := fun el => {| mt_rows := r; mt_cols := c; mt_el := el |}).
  rewrite <- Er, Nat2Z.id. apply codes_n. eapply Forall_impl; [|exact Ec]. cbn beta. intros row Hrow. rewrite <- Hrow, Nat2Z.id.
  apply codes_n. apply Forall_forall. intros x _. apply codes_scalar; auto.
Qed.

Section Obj.
  Variables (F S : scalar) (nan : F).
  Hypotheses (HF : faithful F) (HS : faithful S).

  Lemma codes_scalars (l : list F) : small l -> codes (load_vec load_scalar) (save_vec save_scalar l) l.
  Proof. intros Hl. apply codes_vec; auto. apply Forall_forall. intros; apply codes_scalar; auto. Qed.

  Lemma codes_values (x0 x : values F) : small (vl_v x) -> small (vl_corrected x) -> small (vl_c x) -> vl_c_shift x = vl_c_shift x0 ->
    codes (load_values F x0) (save_values F x) x.
  Proof.
    intros H1 H2 H3 H4. destruct x as [v s sh ts g co c cs]. cbn [vl_v vl_corrected vl_c vl_c_shift] in *. subst cs.
    unfold load_values, save_values. cbn [vl_v vl_scale vl_shift vl_T_shift vl_abs_GS vl_corrected vl_c vl_c_shift].
    eapply codes_bind; [apply codes_scalars; auto|]. do 4 (eapply codes_bind; [apply codes_scalar; auto|]).
    eapply codes_bind; [apply codes_scalars; auto|].
    apply codes_last with (f := fun c => {| vl_v := v; vl_scale := s; vl_shift := sh; vl_T_shift := ts; vl_abs_GS := g; vl_corrected := co; vl_c := c; vl_c_shift := vl_c_shift x0 |}).
    apply codes_scalars; auto.
  Qed.

  Lemma codes_vectors (x : vectors S) : wf_mat (vc_m x) -> fits (vc_dim x) -> codes (load_vectors S) (save_vectors S x) x.
  Proof.
    intros H1 H2. destruct x as [m d]. cbn [vc_m vc_dim] in *. unfold load_vectors, save_vectors. cbn [vc_m vc_dim].
    eapply codes_bind; [apply codes_mat; auto|]. apply codes_last with (f := fun d => {| vc_m := m; vc_dim := d |}). apply codes_size; auto.
  Qed.

  Lemma codes_eigen (x0 x : eigen F S) : wf_eigen x -> vl_c_shift (en_values x) = vl_c_shift (en_values x0) ->
    codes (load_eigen F S x0) (save_eigen F S x) x.
  Proof.
    intros (H1 & H2 & H3 & H4 & H5 & H6 & H7 & H8 & H9) Hc. destruct x as [v m u np ns la].
    cbn [en_values en_vectors en_U en_nrpost en_nrstored en_last] in *. unfold load_eigen, save_eigen.
    cbn [en_values en_vectors en_U en_nrpost en_nrstored en_last].
    eapply codes_bind; [apply codes_values; auto|]. eapply codes_bind; [apply codes_vectors; auto|].
    eapply codes_bind. { apply codes_vec; [exact H6|]. eapply Forall_impl; [|exact H7]. intros; apply codes_mat; auto. }
    eapply codes_bind; [apply codes_int; [lia|exact H8]|]. eapply codes_bind; [apply codes_int; [lia|exact H9]|].
    apply codes_last with (f := fun la => {| en_values := v; en_vectors := m; en_U := u; en_nrpost := np; en_nrstored := ns; en_last := la |}).
    apply codes_bool.
  Qed.
End Obj.

(** Appending to a std::map in key order. *)
Lemma map_put_last {V} k (v : V) m : Forall (fun p => invar_ltb (fst p) k = true) m -> map_put k v m = m ++ [(k, v)].
Proof.
  induction 1 as [|[k' v'] m H _ IH]; [reflexivity|]. cbn [map_put fst app] in *.
  destruct (invar_ltb k k') eqn:E; [exfalso; pose proof (invar_ltb_trans _ _ _ H E) as X; rewrite invar_ltb_irrefl in X; discriminate|].
  rewrite H, IH. reflexivity.
Qed.

Section MapProofs.
  Context {V : Type} (hdr : bytes) (enc : V -> bytes) (dec : rd V).

  Lemma codes_entries l : forall m, Forall (fun p => wf_invar (fst p) /\ codes dec (enc (snd p)) (snd p)) l ->
    StronglySorted (fun p q => invar_ltb (fst p) (fst q) = true) (m ++ l) ->
    codes (load_entries dec (List.length l) m) (List.concat (flat_map (fun p => [save_invar (fst p); enc (snd p)]) l)) (m ++ l).
  Proof.
    induction l as [|[k v] l IH]; intros m HF HS.
    - rewrite app_nil_r. apply codes_ret.
    - inversion HF as [|? ? [Hk Hv] HF']; subst. cbn [fst snd] in *. cbn [List.length load_entries flat_map app List.concat fst snd].
      eapply codes_bind; [apply codes_invar; exact Hk|]. eapply codes_bind; [exact Hv|].
      rewrite map_put_last.
      + replace (m ++ (k, v) :: l) with ((m ++ [(k, v)]) ++ l) in * by (rewrite <- app_assoc; reflexivity). apply IH; auto.
      + clear -HS. induction m as [|p m IH]; [constructor|]. cbn [app] in HS. inversion HS as [|? ? HS' HF']; subst.
        constructor; [|apply IH; auto]. rewrite Forall_forall in HF'. apply (HF' (k, v)). apply in_or_app. right. left. reflexivity.
  Qed.

  Lemma codes_hdr : codes (load_hdr hdr) hdr tt.
  Proof.
    split.
    - intros r. unfold load_hdr. rewrite take_bytes_all. destruct (list_eq_dec Z.eq_dec hdr hdr); [reflexivity|congruence].
    - intros p Hp. unfold load_hdr. rewrite (proj2 (codes_take hdr) p Hp). reflexivity.
  Qed.

  Lemma codes_map m : wf_map m -> Forall (fun p => codes dec (enc (snd p)) (snd p)) m -> codes (load_map hdr dec) (save_map hdr enc m) m.
  Proof.
    intros (Hs & Hk & HS) HF. unfold load_map, save_map, chunk_list. cbn [List.concat].
    eapply codes_bind; [apply codes_hdr|]. eapply codes_bind; [apply codes_size; exact Hs|]. rewrite Nat2Z.id.
    apply (codes_entries m []); auto. rewrite Forall_forall in *. intros p Hp. auto.
  Qed.
End MapProofs.
