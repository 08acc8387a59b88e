(** Proofs about diag and unitary. *)
From Coq Require Import List ZArith Reals Bool Lia Lra.
From Verif Require Import Base Interp_model Interp_proofs Diagtool_model Diagtool_spec.
Import ListNotations.
Local Open Scope R_scope.

Lemma rsum_sum n f : rsum n f = sum n f.
Proof. induction n as [|n IH]; cbn; [reflexivity | now rewrite IH]. Qed.
Lemma sum_ext n f g : (forall i, (i < n)%nat -> f i = g i) -> sum n f = sum n g.
Proof. induction n as [|n IH]; intros H; cbn; [reflexivity |]. rewrite IH by (intros; apply H; lia). now rewrite H by lia. Qed.
Lemma sum_scale n c f : sum n (fun i => c * f i) = c * sum n f.
Proof. induction n as [|n IH]; cbn; [lra |]. rewrite IH. lra. Qed.

(** ** Rows and arrays *)
Lemma nth_concat n (l : list (list R)) : Forall (fun r => length r = n) l -> forall i j, (j < n)%nat -> nth (j + i * n) (concat l) 0 = entry l i j.
Proof.
  unfold entry. induction 1 as [|r l Hr Hl IH]; intros i j Hj; cbn [concat]; [destruct (j + i * n)%nat; destruct i; destruct j; reflexivity |]. destruct i as [|i].
  - cbn [Nat.mul nth]. rewrite Nat.add_0_r. now rewrite app_nth1 by lia.
  - rewrite app_nth2 by lia. cbn [nth]. rewrite <- IH by assumption. f_equal. lia.
Qed.
Lemma concat_length n (l : list (list R)) : Forall (fun r => length r = n) l -> length (concat l) = (length l * n)%nat.
Proof. induction 1 as [|r l Hr Hl IH]; cbn; [reflexivity |]. rewrite app_length, IH, Hr. reflexivity. Qed.
Lemma nth_map_seq {A} (f : nat -> A) n i d : (i < n)%nat -> nth i (map f (seq 0 n)) d = f i.
Proof. intros H. rewrite (nth_indep _ d (f 0%nat)) by (now rewrite map_length, seq_length). rewrite map_nth. now rewrite seq_nth. Qed.
Lemma entry_build n m f i j : (i < n)%nat -> (j < m)%nat -> entry (map (fun r => map (fun k => f r k) (seq 0 m)) (seq 0 n)) i j = f i j.
Proof. intros Hi Hj. unfold entry. rewrite nth_map_seq by assumption. now apply nth_map_seq. Qed.
Lemma square_build n f : square n (map (fun r => map (fun k => f r k) (seq 0 n)) (seq 0 n)).
Proof.
  split; [now rewrite map_length, seq_length |]. apply Forall_forall. intros r Hr. apply in_map_iff in Hr as (k & <- & _). now rewrite map_length, seq_length.
Qed.
Lemma values_some l t : (t = [] \/ exists u, t = None :: u) -> values (map Some l ++ t) = l.
Proof. intros Ht. induction l as [|x l IH]; cbn; [destruct Ht as [-> | [u ->]]; reflexivity | now rewrite IH]. Qed.

Section Diag.
  Variables (dsyev : nat -> (nat -> R) -> option ((nat -> R) * (nat -> R))) (imax : Z).
  Hypothesis C : dsyev_contract dsyev.
  Lemma lower_symmetric n H i j : square n H -> symmetric n H -> (i < n)%nat -> (j < n)%nat -> lower n (fun p => nth p (concat H) 0) i j = entry H i j.
  Proof.
    intros [_ Hq] Hs Hi Hj. unfold lower. destruct (Nat.leb_spec j i); rewrite (nth_concat n) by assumption; [now apply Hs | reflexivity].
  Qed.
  Lemma diag_square scale n H t : (0 < n)%nat -> square n H -> (t = [] \/ exists u, t = None :: u) ->
    diag_stream dsyev imax scale (map Some (concat H) ++ t) = diagonalize dsyev imax scale n (concat H).
  Proof.
    intros Hn [Hl Hq] Ht. unfold diag_stream. rewrite values_some by assumption. rewrite (concat_length n) by assumption. rewrite Hl. rewrite Nat.sqrt_square.
    destruct (Nat.eqb_spec (n * n) 0); [nia |]. destruct (Nat.eqb_spec n 0); [lia |]. now rewrite Nat.eqb_refl.
  Qed.
  Theorem diag_ok scale n H t d : (0 < n)%nat -> square n H -> symmetric n H -> (t = [] \/ exists u, t = None :: u) -> diag_stream dsyev imax scale (map Some (concat H) ++ t) = Ok d ->
    d_dim d = n /\ exists w, d_values d = map (fun x => x * scale) w /\ eigensystem n H w (d_vectors d).
  Proof.
    intros Hn Hq Hs Ht. rewrite (diag_square scale n H t Hn Hq Ht). unfold diagonalize. destruct (Z.ltb _ _); [discriminate |]. destruct (dsyev n _) as [[w z]|] eqn:E; [| discriminate]. intros [= <-]. split; [reflexivity |]. cbn [d_values d_vectors].
    exists (map w (seq 0 n)). split; [now rewrite map_map |]. assert (En : forall k j, (k < n)%nat -> (j < n)%nat -> entry (map (fun r => map (fun k => z (n * r + k)%nat) (seq 0 n)) (seq 0 n)) k j = z (j + k * n)%nat).
    { intros k j Hk Hj. rewrite (entry_build n n (fun r k => z (n * r + k)%nat)) by assumption. f_equal. lia. }
    split; [now rewrite map_length, seq_length |]. split; [apply square_build |]. split; [| split].
    - intros k i Hk Hi. rewrite nth_map_seq by assumption. rewrite En by assumption. rewrite <- (ds_eigen _ C n _ w z E k i Hk Hi). apply sum_ext. intros j Hj. rewrite En by assumption. now rewrite (lower_symmetric n H) by assumption.
    - intros k l Hk Hl. rewrite <- (ds_orthonormal _ C n _ w z E k l Hk Hl). apply sum_ext. intros j Hj. now rewrite !En by assumption.
    - intros k l Hkl. rewrite !nth_map_seq by lia. now apply (ds_ascending _ C n _ w z E).
  Qed.
  Theorem diag_triangle scale n H K : (0 < n)%nat -> square n H -> square n K -> (forall i j, (i <= j < n)%nat -> entry H i j = entry K i j) ->
    diag_stream dsyev imax scale (map Some (concat H)) = diag_stream dsyev imax scale (map Some (concat K)).
  Proof.
    intros Hn Hq Hk E. rewrite <- (app_nil_r (map Some (concat H))), <- (app_nil_r (map Some (concat K))). rewrite !(diag_square scale n) by auto. unfold diagonalize. destruct (Z.ltb _ _); [reflexivity |].
    rewrite (ds_lower _ C n (fun p => nth p (concat H) 0) (fun p => nth p (concat K) 0)); [reflexivity |]. intros i j Hij. rewrite !(nth_concat n) by (apply Hq || apply Hk || lia). apply E. lia.
  Qed.
End Diag.
Theorem diag_refused dsyev imax scale F : (forall n, (0 < n)%nat -> length (values F) <> (n * n)%nat) -> diag_stream dsyev imax scale F = Throw.
Proof.
  intros H. unfold diag_stream. destruct (Nat.eqb_spec (length (values F)) 0); [reflexivity |]. destruct (Nat.eqb_spec (Nat.sqrt (length (values F))) 0); [reflexivity |]. cbn [orb].
  destruct (Nat.eqb_spec (length (values F)) (Nat.sqrt (length (values F)) * Nat.sqrt (length (values F)))) as [E |]; [| reflexivity]. exfalso. apply (H (Nat.sqrt (length (values F)))); [lia | assumption].
Qed.

(** ** unitary *)
Theorem unitary_ok t l s A B D : op_cols t A = m_rows B -> m_cols B = op_rows l D ->
  exists M, unitary t l s A B D = Ok M /\ m_rows M = op_rows t A /\ m_cols M = op_cols l D /\
    forall i j, m_el M i j = s * sum (m_rows B) (fun p => op t A i p * sum (m_cols B) (fun q => m_el B p q * op l D q j)).
Proof.
  intros H1 H2. unfold unitary, matrix_prod. set (A' := if t then trans A else A). set (D' := if l then trans D else D).
  assert (HA : m_cols A' = op_cols t A /\ m_rows A' = op_rows t A /\ forall i j, m_el A' i j = op t A i j) by (unfold A'; destruct t; repeat split).
  assert (HD : m_cols D' = op_cols l D /\ m_rows D' = op_rows l D /\ forall i j, m_el D' i j = op l D i j) by (unfold D'; destruct l; repeat split).
  destruct HA as (A1 & A2 & A3), HD as (D1 & D2 & D3). rewrite D2, H2, Nat.eqb_refl. cbn [bind m_rows]. rewrite A1, H1, Nat.eqb_refl. cbn [bind].
  assert (Hel : forall i j, rsum (m_rows B) (fun k => m_el A' i k * rsum (op_rows l D) (fun k0 => m_el B k k0 * m_el D' k0 j)) = sum (m_rows B) (fun p => op t A i p * sum (op_rows l D) (fun q => m_el B p q * op l D q j))).
  { intros i j. rewrite rsum_sum. apply sum_ext. intros p _. rewrite A3. f_equal. rewrite rsum_sum. apply sum_ext. intros q _. now rewrite D3. }
  eexists. split; [reflexivity |]. destruct (Req_EM_T s 1) as [-> | _]; cbn [scaled m_rows m_cols m_el]; (split; [assumption | split; [assumption | intros i j]]); rewrite Hel; [symmetry; apply Rmult_1_l | reflexivity].
Qed.
Theorem unitary_mismatch t l s A B D : op_cols t A <> m_rows B \/ m_cols B <> op_rows l D -> unitary t l s A B D = UB.
Proof.
  intros H. unfold unitary, matrix_prod. assert (E1 : m_rows (if l then trans D else D) = op_rows l D) by (now destruct l). assert (E2 : m_cols (if t then trans A else A) = op_cols t A) by (now destruct t). rewrite E1.
  destruct (Nat.eqb_spec (m_cols B) (op_rows l D)); [| reflexivity]. cbn [bind m_rows]. rewrite E2. destruct (Nat.eqb_spec (op_cols t A) (m_rows B)); [| reflexivity]. destruct H; contradiction.
Qed.
Lemma save_entry tol m i j : (i < m_rows m)%nat -> (j < m_cols m)%nat -> entry (save_matrix tol m) i j = if Rlt_dec tol (Rabs (m_el m i j)) then m_el m i j else 0.
Proof. intros Hi Hj. unfold save_matrix. rewrite (entry_build (m_rows m) (m_cols m) (fun i j => if Rltb tol (Rabs (m_el m i j)) then m_el m i j else 0)) by assumption. unfold Rltb. now destruct (Rlt_dec _ _). Qed.
Theorem diagonalises n H w U s tol : square n H -> eigensystem n H w U -> 0 <= tol ->
  exists M, unitary false true s (of_rows n n U) (of_rows n n H) (of_rows n n U) = Ok M /\ m_rows M = n /\ m_cols M = n /\
    forall k l, (k < n)%nat -> (l < n)%nat -> entry (save_matrix tol M) k l = if Nat.eq_dec k l then (if Rlt_dec tol (Rabs (nth k w 0 * s)) then nth k w 0 * s else 0) else 0.
Proof.
  intros Hq (Hw & HU & He & Ho & _) Ht. destruct (unitary_ok false true s (of_rows n n U) (of_rows n n H) (of_rows n n U) eq_refl eq_refl) as (M & E & Hr & Hc & Hel). cbn in Hr, Hc. exists M. repeat split; try assumption.
  intros k l Hk Hl. rewrite save_entry by lia. rewrite Hel. cbn [op of_rows m_el m_rows m_cols].
  assert (X : s * sum n (fun p => nth p (nth k U []) 0 * sum n (fun q => nth q (nth p H []) 0 * nth q (nth l U []) 0)) = if Nat.eq_dec k l then nth k w 0 * s else 0).
  { rewrite (sum_ext n _ (fun p => nth l w 0 * (entry U k p * entry U l p))).
    - rewrite sum_scale. fold (entry U k). rewrite Ho by assumption. unfold delta. destruct (Nat.eq_dec k l); [subst; ring | ring].
    - intros p Hp. change (sum n (fun q => nth q (nth p H []) 0 * nth q (nth l U []) 0)) with (sum n (fun q => entry H p q * entry U l q)). rewrite He by assumption. unfold entry. ring. }
  rewrite X. destruct (Nat.eq_dec k l); [reflexivity |]. now destruct (Rlt_dec _ _).
Qed.

(** ** Text *)
Lemma spells_dims cols l rows : spells l rows -> Forall (fun r => length r = cols) rows -> forall d1 d2, (d2 = 0%nat \/ d2 = cols) -> get_dims d1 d2 l = Ok ((d1 + length rows)%nat, match rows with [] => d2 | _ => cols end).
Proof.
  induction 1 as [|l rows Hs IH|r l rows Hr Hs IH]; intros Hf d1 d2 Hd; cbn [get_dims length].
  - now rewrite Nat.add_0_r.
  - now apply IH.
  - inversion Hf as [|? ? F1 F2]; subst. rewrite map_length. replace (Nat.ltb 0 d2 && negb (Nat.eqb d2 (length r)))%bool with false by (destruct Hd as [-> | ->]; [reflexivity | now rewrite Nat.eqb_refl, andb_false_r]).
    rewrite IH by auto. f_equal. f_equal; [lia | now destruct rows].
Qed.
Lemma proper_stream r : flat_map word_stream (map (fun x : R => ([x], false)) r) = map Some r.
Proof. induction r as [|x r IH]; cbn; [reflexivity | now rewrite IH]. Qed.
Lemma spells_stream l rows : spells l rows -> filtered l = map Some (concat rows).
Proof.
  unfold filtered. induction 1 as [|l rows Hs IH|r l rows Hr Hs IH]; cbn [flat_map concat]; [reflexivity | assumption |]. rewrite IH, proper_stream. now rewrite map_app.
Qed.
Lemma read_many_some r s : read_many (length r) (map Some r ++ s) = Ok (r, s).
Proof. induction r as [|x r IH]; cbn; [reflexivity |]. now rewrite IH. Qed.
Lemma read_rows_some cols rows s : Forall (fun r => length r = cols) rows -> read_rows (length rows) cols (map Some (concat rows) ++ s) = Ok (rows, s).
Proof.
  induction 1 as [|r rows Hr Hf IH]; cbn [length read_rows concat]; [reflexivity |]. rewrite map_app, <- app_assoc. rewrite <- Hr at 1. rewrite read_many_some. cbn [bind]. now rewrite IH.
Qed.
Theorem text_ok cols l rows : spells l rows -> rows <> [] -> Forall (fun r => length r = cols) rows -> read_matrix_text l = Ok (of_rows (length rows) cols rows).
Proof.
  intros Hs Hn Hf. unfold read_matrix_text. rewrite (spells_dims cols l rows Hs Hf 0 0) by now left. cbn [bind Nat.add]. rewrite (spells_stream l rows Hs). destruct rows as [|r rows]; [contradiction |].
  rewrite <- (app_nil_r (map Some _)). rewrite read_rows_some by assumption. reflexivity.
Qed.
Lemma dims_throw l rows : spells l rows -> forall d1 d2 r, (0 < d2)%nat -> In r rows -> length r <> d2 -> get_dims d1 d2 l = Throw.
Proof.
  induction 1 as [|l rows Hs IH|r l rows Hr Hs IH]; intros d1 d2 r0 Hd Hin Hne; cbn [get_dims].
  - destruct Hin.
  - now apply (IH _ _ r0).
  - rewrite map_length. destruct (Nat.eqb_spec d2 (length r)) as [E | E]; [| rewrite (proj2 (Nat.ltb_lt 0 d2) Hd); reflexivity]. rewrite andb_false_r. apply (IH _ _ r0); [lia | | lia]. destruct Hin as [<- | Hin]; [lia | assumption].
Qed.
Theorem text_uneven l rows r1 r2 : spells l rows -> In r1 rows -> In r2 rows -> length r1 <> length r2 -> read_matrix_text l = Throw.
Proof.
  intros Hs H1 H2 Hne. unfold read_matrix_text. replace (get_dims 0 0 l) with (@Throw (nat * nat)); [reflexivity |]. symmetry. assert (G : forall d1, get_dims d1 0 l = Throw); [| apply G].
  induction Hs as [|l rows Hs IH|r l rows Hr Hs IH]; intros d1; cbn [get_dims]; [destruct H1 | now apply IH |]. cbn [andb Nat.ltb Nat.leb]. rewrite map_length. assert (Hpos : (0 < length r)%nat) by (destruct r; [contradiction | cbn; lia]).
  destruct H1 as [<- | H1], H2 as [<- | H2]; [contradiction | now apply (dims_throw l rows Hs _ _ r2); auto | now apply (dims_throw l rows Hs _ _ r1) |].
  destruct (Nat.eq_dec (length r1) (length r)) as [E | E]; [apply (dims_throw l rows Hs _ _ r2); auto; lia | now apply (dims_throw l rows Hs _ _ r1)].
Qed.

(** ** Binary *)
Section Binary.
  Variables (encode : R -> list Z) (decode : list Z -> R).
  Hypothesis Hlen : forall x, length (encode x) = 8%nat.
  Lemma u32_roundtrip n : (Z.of_nat n < 2 ^ 32)%Z -> bytes_u32 (u32_bytes n) = n.
  Proof.
    intros H. unfold bytes_u32, u32_bytes. set (z := Z.of_nat n) in *. replace (z mod 256 + 256 * (z / 256 mod 256) + 65536 * (z / 65536 mod 256) + 16777216 * (z / 16777216 mod 256))%Z with z; [apply Nat2Z.id |].
    assert (0 <= z)%Z by (unfold z; lia). change (2 ^ 32)%Z with 4294967296%Z in H.
    replace (z / 65536)%Z with (z / 256 / 256)%Z by (rewrite Z.div_div by lia; reflexivity). replace (z / 16777216)%Z with (z / 256 / 256 / 256)%Z by (rewrite !Z.div_div by lia; reflexivity).
    pose proof (Z.div_mod z 256). pose proof (Z.div_mod (z / 256) 256). pose proof (Z.div_mod (z / 256 / 256) 256). pose proof (Z.div_mod (z / 256 / 256 / 256) 256).
    assert (z / 256 / 256 / 256 / 256 = 0)%Z by (rewrite !Z.div_div by lia; apply Z.div_small; lia). lia.
  Qed.
  Lemma take_app a b : take_bytes (length a) (a ++ b) = Ok (a, b).
  Proof. unfold take_bytes. rewrite app_length. destruct (Nat.leb_spec (length a) (length a + length b)); [| lia]. now rewrite firstn_app, firstn_all, Nat.sub_diag, skipn_app, skipn_all, Nat.sub_diag, app_nil_r. Qed.
  Lemma read_doubles_ok r F : Forall (fun x => decode (encode x) = x) r -> read_doubles decode (length r) (flat_map encode r ++ F) = Ok (r, F).
  Proof. induction 1 as [|x r Hdec Hr IH]; cbn [length read_doubles flat_map]; [reflexivity |]. rewrite <- app_assoc. rewrite <- (Hlen x). rewrite take_app. cbn [bind]. rewrite IH. cbn [bind]. now rewrite Hdec. Qed.
  Lemma read_double_rows_ok cols rows F : Forall (Forall (fun x => decode (encode x) = x)) rows -> Forall (fun r => length r = cols) rows -> read_double_rows decode (length rows) cols (flat_map (flat_map encode) rows ++ F) = Ok (rows, F).
  Proof. induction 1 as [|r rows Hx Hrows IH]; intros Hf; cbn [length read_double_rows flat_map]; [reflexivity |]. apply Forall_cons_iff in Hf as [Hr Hf]. rewrite <- app_assoc, <- Hr. rewrite read_doubles_ok by assumption. cbn [bind]. rewrite Hr, IH by assumption. reflexivity. Qed.
  Theorem binary_ok d n : Forall (Forall (fun x => decode (encode x) = x)) (d_vectors d) -> d_dim d = n -> square n (d_vectors d) -> (Z.of_nat n < 2 ^ 32)%Z -> read_matrix_bin decode (write_vectors encode d) = Ok (of_rows n n (d_vectors d)).
  Proof.
    intros Hx Hd [Hl Hf] Hn. unfold read_matrix_bin, write_vectors. rewrite Hd. change 4%nat with (length (u32_bytes n)). rewrite take_app. cbn [bind]. rewrite take_app. cbn [bind]. rewrite u32_roundtrip by assumption.
    rewrite <- Hl at 1. rewrite <- (app_nil_r (flat_map _ _)). rewrite read_double_rows_ok by assumption. reflexivity.
  Qed.
  Lemma take_length n F b G : take_bytes n F = Ok (b, G) -> length F = (n + length G)%nat.
  Proof. unfold take_bytes. destruct (Nat.leb_spec n (length F)); [| discriminate]. intros [= <- <-]. rewrite skipn_length. lia. Qed.
  Lemma doubles_length n : forall F l G, read_doubles decode n F = Ok (l, G) -> length F = (8 * n + length G)%nat.
  Proof.
    induction n as [|n IH]; intros F l G; cbn [read_doubles]; [intros [= <- <-]; lia |]. destruct (take_bytes 8 F) as [[b F1]| |] eqn:E1; cbn [bind]; try discriminate. destruct (read_doubles decode n F1) as [[l1 F2]| |] eqn:E2; cbn [bind]; try discriminate. intros [= <- <-].
    apply take_length in E1. apply IH in E2. lia.
  Qed.
  Lemma double_rows_length rows cols : forall F l G, read_double_rows decode rows cols F = Ok (l, G) -> length F = (8 * (rows * cols) + length G)%nat.
  Proof.
    induction rows as [|n IH]; intros F l G; cbn [read_double_rows]; [intros [= <- <-]; lia |]. destruct (read_doubles decode cols F) as [[b F1]| |] eqn:E1; cbn [bind]; try discriminate. destruct (read_double_rows decode n cols F1) as [[l1 F2]| |] eqn:E2; cbn [bind]; try discriminate. intros [= <- <-].
    apply doubles_length in E1. apply IH in E2. lia.
  Qed.
  Lemma doubles_no_UB n : forall F, read_doubles decode n F <> UB.
  Proof. induction n as [|n IH]; intros F; cbn [read_doubles]; [discriminate |]. unfold take_bytes. destruct (Nat.leb _ _); cbn [bind]; [| discriminate]. specialize (IH (skipn 8 F)). destruct (read_doubles decode n _) as [[]| |]; cbn; congruence. Qed.
  Lemma double_rows_no_UB rows cols : forall F, read_double_rows decode rows cols F <> UB.
  Proof. induction rows as [|n IH]; intros F; cbn [read_double_rows]; [discriminate |]. pose proof (doubles_no_UB cols F). destruct (read_doubles decode cols F) as [[b F1]| |]; cbn [bind]; try congruence. specialize (IH F1). destruct (read_double_rows decode n cols F1) as [[]| |]; cbn; congruence. Qed.
  Theorem binary_short d n k : d_dim d = n -> square n (d_vectors d) -> (Z.of_nat n < 2 ^ 32)%Z -> (k < length (write_vectors encode d))%nat -> read_matrix_bin decode (firstn k (write_vectors encode d)) = Throw.
  Proof.
    intros Hd [Hl Hf] Hn Hk. unfold write_vectors in *. rewrite Hd in *. set (v := flat_map (flat_map encode) (d_vectors d)) in *.
    assert (Hv : length v = (8 * (n * n))%nat). { unfold v. rewrite <- Hl at 1. clear -Hf Hlen. induction Hf as [|r rows Hr Hf IH]; cbn [flat_map length Nat.mul]; [lia |]. rewrite app_length, IH. assert (length (flat_map encode r) = 8 * length r)%nat; [| lia]. clear -Hlen. induction r as [|x r IH]; cbn [flat_map length]; [reflexivity |]. rewrite app_length, IH, Hlen. lia. }
    assert (L : length (u32_bytes n) = 4%nat) by reflexivity. rewrite !app_length, L in Hk. unfold read_matrix_bin. set (F := firstn k _). assert (HF : length F = k) by (unfold F; apply firstn_length_le; rewrite !app_length, L; lia).
    destruct (take_bytes 4 F) as [[b1 F1]| |] eqn:E1; cbn [bind]; [| reflexivity | unfold take_bytes in E1; destruct (Nat.leb _ _); discriminate].
    destruct (take_bytes 4 F1) as [[b2 F2]| |] eqn:E2; cbn [bind]; [| reflexivity | unfold take_bytes in E2; destruct (Nat.leb _ _); discriminate].
    pose proof (take_length _ _ _ _ E1) as L1. pose proof (take_length _ _ _ _ E2) as L2. assert (EF : F = u32_bytes n ++ u32_bytes n ++ firstn (k - 8) v).
    { unfold F. rewrite firstn_app, L. rewrite (firstn_all2 (n := k) (u32_bytes n)) by (rewrite L; lia). rewrite firstn_app, L. rewrite (firstn_all2 (n := (k - 4)%nat) (u32_bytes n)) by (rewrite L; lia). now replace (k - 4 - 4)%nat with (k - 8)%nat by lia. }
    set (tl := firstn (k - 8) v) in *. assert (T : forall b, take_bytes 4 (u32_bytes n ++ b) = Ok (u32_bytes n, b)) by (intros b; exact (take_app (u32_bytes n) b)).
    rewrite EF, T in E1. assert (E1' : b1 = u32_bytes n /\ F1 = u32_bytes n ++ tl) by (split; congruence). destruct E1' as [-> ->]. rewrite T in E2. assert (E2' : b2 = u32_bytes n /\ F2 = tl) by (split; congruence). destruct E2' as [-> ->].
    rewrite u32_roundtrip by assumption. unfold tl.
    destruct (read_double_rows decode n n _) as [[rows G]| |] eqn:E; cbn [bind]; [| reflexivity | exfalso; revert E; apply double_rows_no_UB]. apply double_rows_length in E. rewrite firstn_length in E. lia.
  Qed.
End Binary.

(** ** Failures *)
Theorem diag_lapack dsyev imax scale n H : (0 < n)%nat -> square n H ->
  (diag_stream dsyev imax scale (map Some (concat H)) = Throw <-> (imax < Z.of_nat n)%Z \/ dsyev n (fun p => nth p (concat H) 0) = None) /\
  diag_stream dsyev imax scale (map Some (concat H)) <> UB.
Proof.
  intros Hn Hq. rewrite <- (app_nil_r (map Some _)). rewrite diag_square with (n := n) (H := H) by auto. unfold diagonalize. destruct (Z.ltb_spec imax (Z.of_nat n)); [split; [tauto | discriminate] |].
  destruct (dsyev n _) as [[w z]|]; (split; [split; [| ] | discriminate]); try discriminate; auto. intros [H1 | H1]; [lia | discriminate].
Qed.
Lemma words_stream l rows : spells_words l rows -> filtered l = concat rows.
Proof.
  induction 1 as [|l rows Hs IH|r l rows Hr Hs IH]; [reflexivity | exact IH |]. unfold filtered in *. cbn [flat_map concat]. rewrite IH. f_equal. clear. induction r as [|[x|] r IH]; [reflexivity | |]; cbn [map flat_map]; rewrite IH; reflexivity.
Qed.
Lemma words_dims l rows : spells_words l rows -> forall d1 d2, get_dims d1 d2 l = Throw \/ exists c, get_dims d1 d2 l = Ok ((d1 + length rows)%nat, c) /\ Forall (fun r => length r = c) rows /\ (d2 <> 0%nat -> c = d2).
Proof.
  induction 1 as [|l rows Hs IH|r l rows Hr Hs IH]; intros d1 d2; cbn [get_dims].
  - right. exists d2. rewrite Nat.add_0_r. auto.
  - apply IH.
  - rewrite map_length. destruct (andb _ _) eqn:E; [now left |]. destruct (IH (S d1) (length r)) as [H | (c & H & Hf & Hc)]; [now left | right]. assert (length r <> 0%nat) by (destruct r; [contradiction | discriminate]). specialize (Hc H0). subst c. exists (length r). rewrite H. cbn [length]. split; [f_equal; f_equal; lia |]. split; [now constructor |]. intros Hd.
    destruct (Nat.ltb_spec 0 d2); [| lia]. cbn [andb] in E. apply Bool.negb_false_iff in E. now apply Nat.eqb_eq in E.
Qed.
Lemma read_many_spec n : forall s, (exists l s2, s = map Some l ++ s2 /\ length l = n /\ read_many n s = Ok (l, s2)) \/ read_many n s = Throw.
Proof.
  induction n as [|n IH]; intros s; cbn [read_many]; [left; exists [], s; auto |]. destruct s as [|[x|] s]; cbn [read_one bind]; [now right | | now right]. destruct (IH s) as [(l & s2 & -> & Hl & ->) | ->]; [left | now right]. exists (x :: l), s2. cbn. auto.
Qed.
Lemma read_rows_spec cols n : forall s, (exists l s2, s = map Some (concat l) ++ s2 /\ Forall (fun r => length r = cols) l /\ length l = n /\ read_rows n cols s = Ok (l, s2)) \/ read_rows n cols s = Throw.
Proof.
  induction n as [|n IH]; intros s; cbn [read_rows]; [left; exists [], s; auto |]. destruct (read_many_spec cols s) as [(r & s1 & -> & Hr & ->) | ->]; [| now right]. cbn [bind]. destruct (IH s1) as [(l & s2 & -> & Hf & Hl & ->) | ->]; [left | now right]. exists (r :: l), s2. cbn [concat bind length]. rewrite map_app, app_assoc. auto.
Qed.
Theorem text_unreadable l rows : spells_words l rows -> In None (concat rows) -> read_matrix_text l = Throw.
Proof.
  intros Hs Hi. unfold read_matrix_text. destruct (words_dims l rows Hs 0 0) as [-> | (c & -> & Hf & _)]; [reflexivity |]. cbn [bind Nat.add]. rewrite (words_stream l rows Hs). destruct (read_rows_spec c (length rows) (concat rows)) as [(m & s2 & E & Hm & Hl & _) | ->]; [| reflexivity].
  exfalso. assert (L : forall A (k : list (list A)), Forall (fun r => length r = c) k -> length (concat k) = (length k * c)%nat) by (clear; intros A k; induction 1 as [|r k Hr Hk IH]; cbn; [reflexivity | rewrite app_length, IH; lia]).
  assert (s2 = []). { apply length_zero_iff_nil. apply (f_equal (@length (option R))) in E. rewrite app_length, map_length, (L _ _ Hf), (L _ _ Hm), Hl in E. lia. }
  subst s2. rewrite app_nil_r in E. rewrite E in Hi. apply in_map_iff in Hi as (x & Hx & _). discriminate.
Qed.
