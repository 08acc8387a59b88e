(** The matrices before and after the change of the basis describe the same operator; whatever the template, a file that is produced is consistent. *)
From Coq Require Import List ZArith Reals Ascii String Bool Lia Lra.
From Verif Require Import Base Oprecalc_model Datafile_model Datafile_spec Datafile_check Instantiate_model Instantiate_spec Instantiate_mats.
Import ListNotations.
Local Open Scope list_scope.

(** ** Sums *)
Lemma total_swap n m (f : nat -> nat -> R) : total n (fun a => total m (fun b => f a b)) = total m (fun b => total n (fun a => f a b)).
Proof.
  unfold total. induction (seq 0 n) as [|x l IH]; cbn [map fold_right].
  - induction (seq 0 m) as [|y k IHk]; cbn; [reflexivity |]. rewrite <- IHk. ring.
  - rewrite IH. clear IH. induction (seq 0 m) as [|y k IHk]; cbn [map fold_right]; [ring |]. rewrite <- IHk. ring.
Qed.
Lemma total_delta n (f : nat -> R) k : (k < n)%nat -> total n (fun a => f a * delta a k)%R = f k.
Proof.
  unfold total. intros Hk. assert (G : forall l s, (fold_right Rplus 0 (map (fun a => f a * delta a k) (seq s l)) = if (Nat.leb s k && Nat.ltb k (s + l))%bool then f k else 0)%R).
  { induction l as [|l IH]; intros s; cbn [seq map fold_right].
    - destruct (Nat.leb_spec s k), (Nat.ltb_spec k (s + 0)); cbn; try reflexivity; lia.
    - rewrite IH. unfold delta. destruct (Nat.eqb_spec s k) as [-> | Hs].
      + destruct (Nat.leb_spec (S k) k); try lia. destruct (Nat.leb_spec k k); try lia. destruct (Nat.ltb_spec k (k + S l)); try lia. cbn. ring.
      + destruct (Nat.leb_spec (S s) k), (Nat.leb_spec s k), (Nat.ltb_spec k (S s + l)), (Nat.ltb_spec k (s + S l)); cbn; try lia; ring. }
  rewrite G. destruct (Nat.leb_spec 0 k), (Nat.ltb_spec k (0 + n)); cbn; try lia. reflexivity.
Qed.
Definition columns_orthonormal (u : rmatrix) : Prop :=
  forall k l, (k < List.length u)%nat -> (l < List.length u)%nat -> total (List.length u) (fun a => entry u a k * entry u a l)%R = delta k l.
Lemma entry_in_basis u m v a b : (a < List.length u)%nat -> (b < List.length v)%nat ->
  entry (in_basis u m v) a b = total (List.length u) (fun k => total (List.length v) (fun l => entry u a k * entry m k l * entry v b l)%R).
Proof. intros Ha Hb. unfold in_basis, table. unfold entry at 1. rewrite nth_map_seq by assumption. now rewrite nth_map_seq. Qed.
Lemma delta_sym a b : delta a b = delta b a.
Proof. unfold delta. now rewrite Nat.eqb_sym. Qed.
(** Two changes of the basis undo each other. *)
Lemma back_again u m v k l : columns_orthonormal u -> columns_orthonormal v -> (k < List.length u)%nat -> (l < List.length v)%nat ->
  total (List.length u) (fun a => total (List.length v) (fun b => entry u a k * entry (in_basis u m v) a b * entry v b l)%R) = entry m k l.
Proof.
  intros Hu Hv Hk Hl. set (nu := List.length u) in *. set (nv := List.length v) in *.
  transitivity (total nu (fun a => total nv (fun b => total nu (fun k' => total nv (fun l' => (entry u a k' * entry u a k) * (entry v b l' * entry v b l) * entry m k' l'))))%R).
  { apply total_ext. intros a Ha. apply total_ext. intros b Hb. rewrite entry_in_basis by assumption. fold nu nv.
    replace (entry u a k * _ * entry v b l)%R with ((entry u a k * entry v b l) * total nu (fun k0 => total nv (fun l0 => entry u a k0 * entry m k0 l0 * entry v b l0)))%R by ring.
    rewrite <- total_scal. apply total_ext. intros k' Hk'. rewrite <- total_scal. apply total_ext. intros l' Hl'. ring. }
  transitivity (total nu (fun k' => total nv (fun l' => entry m k' l' * delta l' l * delta k' k)))%R.
  { rewrite (total_ext nu _ (fun a => total nu (fun k' => total nv (fun b => total nv (fun l' => (entry u a k' * entry u a k) * (entry v b l' * entry v b l) * entry m k' l')))%R)) by (intros; apply total_swap).
    rewrite total_swap. apply total_ext. intros k' Hk'.
    rewrite (total_ext nu _ (fun a => total nv (fun l' => total nv (fun b => (entry u a k' * entry u a k) * (entry v b l' * entry v b l) * entry m k' l'))%R)) by (intros; apply total_swap).
    rewrite total_swap. apply total_ext. intros l' Hl'.
    transitivity (total nu (fun a => (entry m k' l' * delta l' l) * (entry u a k' * entry u a k)))%R.
    - apply total_ext. intros a Ha. rewrite <- (Hv l' l Hl' Hl). rewrite (total_ext nv _ (fun b => (entry u a k' * entry u a k * entry m k' l') * (entry v b l' * entry v b l))%R) by (intros; ring). rewrite total_scal. fold nv. ring.
    - rewrite total_scal. pose proof (Hu k' k Hk' Hk) as X. fold nu in X. rewrite X. ring. }
  transitivity (total nu (fun k' => entry m k' l * delta k' k))%R.
  - apply total_ext. intros k' Hk'. rewrite (total_ext nv _ (fun l' => delta k' k * (entry m k' l' * delta l' l))%R) by (intros; ring). rewrite total_scal. rewrite total_delta by assumption. ring.
  - apply (total_delta nu (fun k' => entry m k' l)). assumption.
Qed.
Theorem same_operator h1 val1 u h2 val2 v m k l : eigenbasis h1 val1 u -> eigenbasis h2 val2 v -> (k < List.length h1)%nat -> (l < List.length h2)%nat ->
  total (List.length h1) (fun a => total (List.length h2) (fun b => entry u a k * entry (in_basis u m v) a b * entry v b l)%R) = entry m k l.
Proof.
  intros (_ & [Lu _] & _ & _ & Hu & _) (_ & [Lv _] & _ & _ & Hv & _) Hk Hl. rewrite <- Lu, <- Lv in *. apply back_again; assumption.
Qed.
Theorem same_hamiltonian h val u k l : eigenbasis h val u -> (k < List.length h)%nat -> (l < List.length h)%nat ->
  total (List.length h) (fun a => entry u a k * nth a val 0 * entry u a l)%R = entry h k l.
Proof.
  intros H Hk Hl. rewrite <- (same_operator h val u h val u h k l H H Hk Hl). destruct H as (_ & [Lu _] & _ & _ & _ & He).
  apply total_ext. intros a Ha.
  transitivity (total (List.length h) (fun b => (entry u a k * nth a val 0 * entry u b l) * delta b a))%R; [symmetry; apply (total_delta _ (fun b => entry u a k * nth a val 0 * entry u b l)%R); assumption |].
  apply total_ext. intros b Hb. rewrite entry_in_basis by lia. rewrite Lu. rewrite (He a b Ha Hb). rewrite (delta_sym b a). ring.
Qed.

(** ** Any template *)
Section Any.
  Context {V : Type} (N : num V).
  Variables (scan_nat : string -> option (nat * string)) (scan_int : string -> option (Z * string)) (scan_V : string -> option (V * string))
    (strtod : string -> option V) (finite : V -> bool) (rescale : V -> V) (show_nat : nat -> string) (show18 show16 : V -> string)
    (template_file : string -> res string) (evaluate : string -> res (nat * nat * list (list V))) (dsyev : list (list V) -> res (list V * list (list V))).
  Hypotheses (Hfile : forall s, template_file s <> UB) (Heval : forall s, evaluate s <> UB) (Hdsyev : forall m, dsyev m <> UB).
  Hypotheses (Hn : consumes scan_nat) (Hi : consumes scan_int) (HV : consumes scan_V).
  Notation size s := (List.length (s_lines s)).
  Definition kept {A} (n : nat) (r : res (A * @st V)) : Prop := match r with Ok (_, s) => (size s <= n)%nat | Throw => True | UB => False end.
  Definition defined {A} (r : res A) : Prop := match r with UB => False | _ => True end.
  Lemma defined_iff {A} (r : res A) : r <> UB -> defined r.
  Proof. destruct r; cbn; auto; now intros H. Qed.
  Lemma next_lines ls sc out : match next_line N scan_V ls sc out with
    | (Some l, s) => (S (size s) <= List.length ls)%nat /\ l <> ""%string | (None, s) => (size s <= List.length ls)%nat end.
  Proof.
    revert sc out. induction ls as [|x ls IH]; intros sc out; cbn [next_line List.length]; [cbn; lia |].
    destruct (trim x) as [|c t] eqn:E.
    - specialize (IH sc out). destruct (next_line N scan_V ls sc out) as [[l |] s]; [split; [lia | tauto] | lia].
    - destruct (Ascii.eqb c "#").
      + match goal with |- context [next_line N scan_V ls ?a ?b] => specialize (IH a b); destruct (next_line N scan_V ls a b) as [[l |] s] end; [split; [lia | tauto] | lia].
      + cbn. split; [lia | discriminate].
  Qed.
  Lemma next_data s : match next_data_line N scan_V s with (Some l, s') => (S (size s') <= size s)%nat /\ l <> ""%string | (None, s') => (size s' <= size s)%nat end.
  Proof. apply next_lines. Qed.
  Lemma need s : match need_line N scan_V s with Ok (l, s') => (S (size s') <= size s)%nat | Throw => True | UB => False end.
  Proof. unfold need_line. pose proof (next_data s) as H. destruct (next_data_line N scan_V s) as [[l |] s']; tauto. Qed.
  Lemma need_kept s : kept (size s) (need_line N scan_V s).
  Proof. pose proof (need s) as H. unfold kept. destruct (need_line N scan_V s) as [[l s'] | |]; auto. lia. Qed.
  Lemma one_defined {A} (scan : string -> option (A * string)) s : defined (read_one scan s).
  Proof. unfold read_one. destruct (scan _) as [[? ?] |]; cbn; exact Logic.I. Qed.
  Lemma n_defined {A} (scan : string -> option (A * string)) n s : defined (read_n n (read_one scan) s).
  Proof.
    revert s. induction n as [|n IH]; intros s; cbn; [exact Logic.I |]. pose proof (one_defined scan s) as H. destruct (read_one scan s) as [[x r] | |]; cbn [bind]; auto.
    specialize (IH r). destruct (read_n n (read_one scan) r) as [[l r'] | |]; cbn; auto.
  Qed.
  Lemma size_defined t : defined (parse_size scan_nat t).
  Proof. unfold parse_size. destruct (trim t); cbn; auto. destruct (_ || _)%bool; cbn; auto. destruct (scan_nat _) as [[? ?] |]; cbn; auto. destruct (String.eqb _ _); cbn; auto. Qed.
  Lemma invar_defined d t : defined (parse_invar scan_int d t).
  Proof. unfold parse_invar. pose proof (n_defined scan_int d t) as H. destruct (read_n _ _ _) as [[i r] | |]; cbn [bind]; auto. destruct (String.eqb _ _); exact Logic.I. Qed.
  Lemma pair_defined d t : defined (parse_invar_pair scan_int d t).
  Proof.
    unfold parse_invar_pair. pose proof (n_defined scan_int d t) as H. destruct (read_n d _ t) as [[i r] | |]; cbn [bind]; auto.
    pose proof (n_defined scan_int d r) as H'. destruct (read_n d _ r) as [[j r'] | |]; cbn [bind]; auto. destruct (String.eqb _ _); exact Logic.I.
  Qed.
  Lemma file_defined f r c : defined (evaluate_file template_file evaluate f r c).
  Proof.
    unfold evaluate_file. pose proof (defined_iff _ (Hfile f)) as H. destruct (template_file f) as [t | |]; cbn [bind]; auto. pose proof (defined_iff _ (Heval t)) as H'.
    destruct (evaluate t) as [[[a b] x] | |]; cbn [bind]; auto. destruct (_ && _)%bool; exact Logic.I.
  Qed.
  Lemma seed_kept d first f done s : kept (size s) (read_seed N scan_nat scan_int scan_V template_file evaluate dsyev d first f done s).
  Proof.
    unfold read_seed. pose proof (next_data s) as H1. destruct (next_data_line N scan_V s) as [q s1]. pose proof (next_data s1) as H2. destruct (next_data_line N scan_V s1) as [z s2].
    pose proof (next_data s2) as H3. destruct (next_data_line N scan_V s2) as [g s3]. destruct q as [q |], z as [z |], g as [g |]; try exact Logic.I.
    assert (F : defined (if first then factor N s3 else Ok f)) by (destruct first; [unfold factor; destruct (s_scale s3) as [x |]; [destruct (n_lt N _ x) |] |]; exact Logic.I).
    destruct (if first then factor N s3 else Ok f) as [f' | |]; cbn [bind]; auto.
    pose proof (invar_defined d q) as I1. destruct (parse_invar scan_int d q) as [qn | |]; cbn [bind]; auto.
    pose proof (size_defined z) as I2. destruct (parse_size scan_nat z) as [dim | |]; cbn [bind]; auto.
    destruct (negb (Nat.eqb dim 0)); cbn [my_assert bind]; [| exact Logic.I]. destruct (next_word g) as [kw r]. destruct (next_word r) as [file r2].
    destruct (String.eqb kw "DIAG" && negb (String.eqb file ""))%bool; cbn [my_assert bind]; [| exact Logic.I].
    pose proof (file_defined file dim dim) as I3. destruct (evaluate_file template_file evaluate file dim dim) as [m | |]; cbn [bind]; auto.
    pose proof (defined_iff _ (Hdsyev m)) as I4. destruct (dsyev m) as [[val vec] | |]; cbn [bind]; auto.
    destruct (negb (existsb _ done)); cbn [my_assert bind]; [| exact Logic.I]. cbn [kept]. lia.
  Qed.
  Lemma seeds_kept d n first f sm done s : kept (size s) (read_seeds N scan_nat scan_int scan_V template_file evaluate dsyev d n first f sm done s).
  Proof.
    revert first f sm done s. induction n as [|n IH]; intros first f sm done s; cbn [read_seeds]; [cbn; lia |].
    pose proof (seed_kept d first f done s) as H. destruct (read_seed _ _ _ _ _ _ _ d first f done s) as [[[e f1] s1] | |]; cbn [bind]; auto. cbn [kept] in H.
    match goal with |- kept _ (read_seeds N scan_nat scan_int scan_V template_file evaluate dsyev d n false f1 ?a ?b s1) => specialize (IH false f1 a b s1) end.
    unfold kept in *. destruct (read_seeds _ _ _ _ _ _ _ _ _ _ _ _ _ _) as [[x s2] | |]; auto. lia.
  Qed.
  Lemma data_kept d n s : kept (size s) (read_seed_data N scan_nat scan_int scan_V template_file evaluate dsyev d n s).
  Proof.
    unfold read_seed_data. pose proof (seeds_kept d n true (n_one N) (n_top N) [] s) as H. destruct (read_seeds _ _ _ _ _ _ _ _ _ _ _ _ _ _) as [[[[f sm] l] s1] | |]; cbn [bind]; auto.
    destruct (negb _); cbn [my_assert bind]; [exact H | exact Logic.I].
  Qed.
  Lemma more_kept n s : kept (size s) (more_lines N scan_V n s).
  Proof.
    revert s. induction n as [|n IH]; intros s; cbn [more_lines]; [cbn; lia |]. pose proof (need_kept s) as H. destruct (need_line N scan_V s) as [[l s1] | |]; cbn [bind]; auto.
    specialize (IH s1). destruct (more_lines N scan_V n s1) as [[ls s2] | |]; cbn [bind]; auto. cbn [kept] in *. lia.
  Qed.
  Lemma row_defined c l : defined (parse_row strtod c l).
  Proof.
    unfold parse_row. destruct (Nat.eqb _ _); [| exact Logic.I]. induction (words "" l) as [|w ws IH]; cbn; [exact Logic.I |]. destruct (strtod w); cbn [bind]; [| exact Logic.I].
    destruct (mapM _ ws); cbn; auto.
  Qed.
  Lemma rows_defined c ls : defined (mapM (parse_row strtod c) ls).
  Proof. induction ls as [|l ls IH]; cbn; [exact Logic.I |]. pose proof (row_defined c l) as H. destruct (parse_row strtod c l); cbn [bind]; auto. destruct (mapM _ ls); cbn; auto. Qed.
  Lemma matrix_kept l r c s : kept (size s) (read_operator_matrix N scan_V strtod template_file evaluate l r c s).
  Proof.
    assert (G1 : kept (size s) (let* x := evaluate_file template_file evaluate l r c in Ok (x, s))).
    { pose proof (file_defined l r c) as H. destruct (evaluate_file _ _ _ _ _); cbn [bind]; auto. cbn. lia. }
    assert (G2 : kept (size s) (let* (ls, s1) := more_lines N scan_V (r - 1) s in let* x := mapM (parse_row strtod c) (l :: ls) in Ok (x, s1))).
    { pose proof (more_kept (r - 1) s) as H. destruct (more_lines N scan_V (r - 1) s) as [[ls s1] | |]; cbn [bind]; auto. pose proof (rows_defined c (l :: ls)) as H'.
      destruct (mapM (parse_row strtod c) (l :: ls)); cbn [bind]; auto. }
    unfold read_operator_matrix. destruct l as [|a l']; [exact G2 |]. destruct a as [[] [] [] [] [] [] [] []]; solve [exact G2 | exact G1].
  Qed.
  Lemma element_kept d g s : kept (size s) (read_element_block N scan_int scan_V strtod template_file evaluate d g s).
  Proof.
    unfold read_element_block. pose proof (need_kept s) as H. destruct (need_line N scan_V s) as [[q s1] | |]; cbn [bind]; auto. pose proof (pair_defined d q) as H1.
    destruct (parse_invar_pair scan_int d q) as [[i j] | |]; cbn [bind]; auto. destruct (find_seed g i) as [e1 |]; [| exact Logic.I]. destruct (find_seed g j) as [e2 |]; [| exact Logic.I].
    pose proof (need_kept s1) as H2. destruct (need_line N scan_V s1) as [[l s2] | |]; cbn [bind]; auto. pose proof (matrix_kept l (e_dim e1) (e_dim e2) s2) as H3.
    destruct (read_operator_matrix _ _ _ _ _ _ _ _ _) as [[m s3] | |]; cbn [bind]; auto. cbn [kept] in *. lia.
  Qed.
  Lemma elements_kept n d g s : kept (size s) (read_elements_n N scan_int scan_V strtod template_file evaluate n d g s).
  Proof.
    revert s. induction n as [|n IH]; intros s; cbn [read_elements_n]; [cbn; lia |]. pose proof (element_kept d g s) as H. destruct (read_element_block _ _ _ _ _ _ _ _ s) as [[x s1] | |]; cbn [bind]; auto.
    specialize (IH s1). destruct (read_elements_n _ _ _ _ _ _ _ _ _ s1) as [[l s2] | |]; cbn [bind]; auto. cbn [kept] in *. lia.
  Qed.
  Lemma block_kept d g s : kept (size s) (read_matrix_block N scan_nat scan_int scan_V strtod template_file evaluate d g s).
  Proof.
    unfold read_matrix_block. pose proof (need_kept s) as H. destruct (need_line N scan_V s) as [[c s1] | |]; cbn [bind]; auto. pose proof (size_defined c) as H1.
    destruct (parse_size scan_nat c) as [n | |]; cbn [bind]; auto. pose proof (elements_kept n d g s1) as H2. unfold kept in *. destruct (read_elements_n _ _ _ _ _ _ _ _ _ s1) as [[l s2] | |]; auto. lia.
  Qed.
  Lemma tail_defined fuel d expected g nf has s : (size s <= fuel)%nat -> defined (tail_loop N scan_nat scan_int scan_V strtod show_nat show18 template_file evaluate fuel d expected g nf has s).
  Proof.
    revert nf has s. induction fuel as [|fuel IH]; intros nf has s Hs; cbn [tail_loop]; pose proof (next_data s) as H; destruct (next_data_line N scan_V s) as [[l |] s1];
      try (destruct (_ && _)%bool; exact Logic.I); [exfalso; lia |]. destruct H as [H Hl]. destruct l as [|c l]; [contradiction |].
    assert (G : forall t nf' has', defined (let* (b, s2) := read_matrix_block N scan_nat scan_int scan_V strtod template_file evaluate d g s1 in
      tail_loop N scan_nat scan_int scan_V strtod show_nat show18 template_file evaluate fuel d expected g nf' has' (write (t b) s2))).
    { intros t nf' has'. pose proof (block_kept d g s1) as B. destruct (read_matrix_block _ _ _ _ _ _ _ _ _ s1) as [[b s2] | |]; cbn [bind]; auto. apply IH. cbn [kept] in B. cbn. lia. }
    destruct (Ascii.eqb c "f").
    { destruct (Nat.leb (S nf) expected); cbn [my_assert bind]; [| exact Logic.I]. apply (G (fun b => block_text N show_nat show18 (String c l) b)). }
    destruct (String.eqb (String c l) "e").
    { pose proof (need_kept s1) as B. destruct (need_line N scan_V s1) as [[b s2] | |]; cbn [bind]; auto. apply IH. cbn [kept] in B. cbn. lia. }
    destruct (_ || _)%bool; [destruct (_ && _)%bool; exact Logic.I |]. destruct (is_operator_block c); [| exact Logic.I]. apply (G (fun b => block_text N show_nat show18 (String c l) b)).
  Qed.
  Theorem accepted Q nmax wilson s :
    match instantiate N scan_nat scan_int scan_V strtod finite rescale show_nat show18 show16 template_file evaluate dsyev Q nmax wilson s with
    | Ok (out, _) => exists d, read_data V V scan_nat scan_int scan_V scan_V finite rescale Q out = Ok d /\ consistent V V finite Q d
    | Throw => True
    | UB => False
    end.
  Proof.
    unfold instantiate. destruct (Nat.eqb (List.length wilson) 1); cbn [my_assert bind]; [| exact Logic.I]. destruct (negb (q_polarized Q)); cbn [my_assert bind]; [| exact Logic.I].
    assert (Hh : defined (read_header N scan_nat scan_V (St (lines_of s) None ""))).
    { unfold read_header. pose proof (need (St (lines_of s) None "")) as H. destruct (need_line _ _ _) as [[l s1] | |]; cbn [bind]; auto.
      pose proof (one_defined scan_nat l) as H1. destruct (read_one scan_nat l) as [[a r1] | |]; cbn [bind]; auto.
      pose proof (one_defined scan_nat r1) as H2. destruct (read_one scan_nat r1) as [[b r2] | |]; cbn [bind]; auto.
      pose proof (one_defined scan_nat r2) as H3. destruct (read_one scan_nat r2) as [[c r3] | |]; cbn [bind]; auto. }
    destruct (read_header _ _ _ _) as [[[[ch sites] subs] s1] | |]; cbn [bind]; auto. destruct (Nat.eqb ch 1); cbn [my_assert bind]; [| exact Logic.I].
    match goal with |- context [read_seed_data N scan_nat scan_int scan_V template_file evaluate dsyev ?a ?b ?c] => pose proof (data_kept a b c) as H; destruct (read_seed_data N scan_nat scan_int scan_V template_file evaluate dsyev a b c) as [[g s3] | |] end; cbn [bind]; auto.
    match goal with |- context [tail_loop N scan_nat scan_int scan_V strtod show_nat show18 template_file evaluate ?f ?a ?b g 0 false ?c] =>
      pose proof (tail_defined f a b g 0 false c (le_n _)) as H'; destruct (tail_loop N scan_nat scan_int scan_V strtod show_nat show18 template_file evaluate f a b g 0 false c) as [s5 | |] end; cbn [bind]; auto.
    assert (T : forall v, defined (table_text show_nat show16 v nmax)) by (intros v; unfold table_text; destruct (Nat.leb _ _); exact Logic.I).
    assert (M : forall (f : list V * list V -> list V), defined (mapM (fun c => table_text show_nat show16 (f c) nmax) wilson)).
    { intros f. induction wilson as [|w ws IH]; cbn; [exact Logic.I |]. pose proof (T (f w)) as Hw. destruct (table_text _ _ (f w) nmax); cbn [bind]; auto. destruct (mapM _ ws); cbn; auto. }
    unfold z_text. destruct (Nat.eqb (List.length wilson) _); cbn [my_assert bind]; [| exact Logic.I].
    pose proof (M fst) as M1. destruct (mapM (fun c => table_text show_nat show16 (fst c) nmax) wilson) as [xs | |]; cbn [bind]; auto.
    pose proof (M snd) as M2. destruct (mapM (fun c => table_text show_nat show16 (snd c) nmax) wilson) as [zs | |]; cbn [bind]; auto.
    match goal with |- context [read_data V V scan_nat scan_int scan_V scan_V finite rescale Q ?o] => pose proof (data_checked V V scan_nat scan_int scan_V scan_V finite rescale Hn Hi HV HV Q o) as D;
      destruct (read_data V V scan_nat scan_int scan_V scan_V finite rescale Q o) as [x | |] eqn:E end; cbn [bind]; auto. exists x. now rewrite E.
  Qed.
End Any.
