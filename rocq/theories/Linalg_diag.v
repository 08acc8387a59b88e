(** Proofs for C60: diagonalisation through LAPACK. *)
From Coq Require Import List ZArith QArith Qround Lia String.
From Verif Require Import Base Invar_model Symmetry_model Subspaces_model Density_model Linalg_model Linalg_spec.
From mathcomp Require Import ssreflect ssrfun ssrbool eqtype ssrnat seq div fintype bigop ssralg order ssrnum matrix.
Import GRing.Theory Num.Theory.
Local Open Scope ring_scope.
Set Implicit Arguments.
Unset Strict Implicit.
Unset Printing Implicit Defensive.

(** ** Workspace sizes *)
Notation imax32 := (2 ^ 31 - 1)%Z.

Lemma u64_small z : (0 <= z < 2 ^ 64)%Z -> u64 z = z.
Proof. rewrite /u64 => H. exact: Z.mod_small. Qed.
Lemma formula_ok z : (1 <= z < 2 ^ 64)%Z -> checked_workspace_formula z = Ok z.
Proof.
  move=> H. rewrite /checked_workspace_formula u64_small; last lia.
  by have -> : (z <? 1)%Z = false by apply Z.ltb_ge; lia.
Qed.
Lemma max_one_ok z : (0 <= z < 2 ^ 64)%Z -> max_one z = Z.max 1 z.
Proof. move=> H. rewrite /max_one u64_small //. case E: (1 <? z)%Z; [apply Z.ltb_lt in E | apply Z.ltb_ge in E]; lia. Qed.
Lemma formula_max z : (0 <= z < 2 ^ 64)%Z -> checked_workspace_formula (max_one z) = Ok (Z.max 1 z).
Proof. move=> H. rewrite max_one_ok // formula_ok //. lia. Qed.

Definition split_docs (r : routine) (n : Z) : list Z * list Z :=
  match r with Zheev => ([:: Z.max 1 (2 * n - 1)], [:: Z.max 1 (3 * n - 2)])%Z | _ => (documented r n, [::]) end.
Lemma split_app r n : (split_docs r n).1 ++ (split_docs r n).2 = documented r n.
Proof. by case: r => //=; case: ifP. Qed.

Ltac bnd := change (2 ^ 64)%Z with 18446744073709551616%Z in *; change imax32 with 2147483647%Z in *; nia.
Lemma minima_docs r n : (0 <= n <= imax32)%Z -> minima r n = List.map (@Ok Z) (split_docs r n).1.
Proof.
  move=> H. case: r; cbn [minima split_docs documented fst List.map].
  - case E: (n =? 0)%Z; first by apply Z.eqb_eq in E; subst n. apply Z.eqb_neq in E. rewrite formula_max //. bnd.
  - case E: (n <=? 1)%Z; cbn [fst List.map]; first by []. apply Z.leb_gt in E. rewrite !formula_ok //; bnd.
  - rewrite !formula_max //; bnd.
  - case E: (n =? 0)%Z; first by apply Z.eqb_eq in E; subst n. apply Z.eqb_neq in E. rewrite formula_max //. bnd.
  - case E: (n <=? 1)%Z; cbn [fst List.map]; first by []. apply Z.leb_gt in E. rewrite !formula_ok //; bnd.
  - rewrite !formula_max //; bnd.
Qed.
Lemma fixed_docs r n : (0 <= n <= imax32)%Z ->
  mapM id (fixed_sizes imax32 r n) = (if List.forallb (fun z => Z.leb z imax32) (split_docs r n).2 then Ok (split_docs r n).2 else Throw).
Proof.
  move=> H. case: r => //. cbn [split_docs snd List.forallb fixed_sizes mapM]. rewrite /id.
  case E: (n =? 0)%Z; first by apply Z.eqb_eq in E; subst n.
  apply Z.eqb_neq in E. rewrite formula_max; last bnd. rewrite [bind (Ok _) _]/bind.
  rewrite /checked_lapack_int. case E2: (imax32 <? Z.max 1 (3 * n - 2))%Z.
  - apply Z.ltb_lt in E2. by have -> : (Z.max 1 (3 * n - 2) <=? imax32)%Z = false by apply Z.leb_gt.
  - apply Z.ltb_ge in E2. by have -> : (Z.max 1 (3 * n - 2) <=? imax32)%Z = true by apply Z.leb_le.
Qed.

Lemma select_spec ms mn op sr s : select_workspace_size imax32 ms mn op sr = Ok s -> (mn <= s <= imax32)%Z.
Proof.
  rewrite /select_workspace_size. case E: (Z.min ms imax32 <? mn)%Z => //. apply Z.ltb_ge in E.
  rewrite /checked_lapack_int. case E2: (imax32 <? _)%Z => // -[<-]. apply Z.ltb_ge in E2. case: sr E2; lia.
Qed.
Lemma select_succeeds ms mn op sr : (mn <= Z.min ms imax32)%Z -> exists s, select_workspace_size imax32 ms mn op sr = Ok s.
Proof.
  rewrite /select_workspace_size => H. have -> : (Z.min ms imax32 <? mn)%Z = false by apply Z.ltb_ge.
  rewrite /checked_lapack_int.
  have -> : (imax32 <? (if sr then mn else Z.min (Z.max op mn) (Z.min ms imax32)))%Z = false by apply Z.ltb_ge; case: sr; lia.
  by eexists.
Qed.
Lemma sizes_spec ms sr docs qs ws : sizes imax32 ms sr (List.map (@Ok Z) docs) qs = Ok ws ->
  List.Forall2 Z.le docs ws /\ List.Forall (fun z => (z <= imax32)%Z) ws.
Proof.
  elim: docs qs ws => [|d docs IH] [|q qs] ws //=.
  - move=> [<-]. by split.
  - case: (checked_workspace_query q) => //= op. case E: (select_workspace_size _ _ _ _ _) => [s| |] //=.
    case E2: (sizes _ _ _ _ _) => [l| |] //= -[<-]. have [H1 H2] := IH _ _ E2. have := select_spec E => -[H3 H4].
    by split; constructor.
Qed.
Lemma sizes_succeeds ms sr docs qs : List.Forall (fun z => (z <= Z.min ms imax32)%Z) docs ->
  List.Forall2 (fun _ (q : option Z) => exists z, q = Some z /\ (z < 2 ^ 64)%Z) docs qs ->
  exists ws, sizes imax32 ms sr (List.map (@Ok Z) docs) qs = Ok ws.
Proof.
  move=> H1 H2. elim: H2 H1 => [|d q docs' qs' [z [-> Hz]] _ IH] H1 /=; first by eexists.
  inversion H1 as [|? ? Hd Hr]; subst.
  have -> : (2 ^ 64 <? z)%Z = false by apply Z.ltb_ge; lia.
  have -> : (z =? 2 ^ 64)%Z = false by apply Z.eqb_neq; lia.
  rewrite /=. have [s ->] := @select_succeeds ms d z sr Hd. rewrite /=.
  have [l ->] := IH Hr. by eexists.
Qed.

Section Diag.
  Variable C : numClosedFieldType.
  Implicit Types (m : fmat C) (lp : lapack C).

  Lemma wanted_range dim ratio M : (0 < dim)%N -> wanted imax32 dim ratio = Ok M ->
    (1 <= M)%N && (M <= dim)%N.
  Proof.
    move=> D. rewrite /wanted. case: (Qeq_bool _ _) => [[<-]|]; first by rewrite D leqnn.
    case: (_ || _) => // -[<-].
    set c := Qceiling _. have D' : (1 <= Z.of_nat dim)%Z by move/ltP: D; lia.
    by apply/andP; split; apply/leP; lia.
  Qed.

  (** The calls to LAPACK get the documented workspace, and their results are copied unchanged. *)
  Lemma driver_inv lp ms r m ratio sr d : driver imax32 lp ms r m ratio sr = Ok d -> (0 < f_rows m)%N ->
    exists M ws, [/\ (if partial r then wanted imax32 (f_rows m) ratio = Ok M else M = f_rows m),
      (1 <= M)%N /\ (M <= f_rows m)%N,
      List.Forall2 Z.le (documented r (Z.of_nat (f_rows m))) ws /\ List.Forall (fun z => (z <= imax32)%Z) ws,
      a_info (l_run lp r (f_rows m) M (data m) ws) = 0%Z &
      let a := l_run lp r (f_rows m) M (data m) ws in
      d = Raw (if partial r then a_m a else f_rows m) (a_w a)
              (Fmat (if partial r then a_m a else f_rows m) (f_rows m) (fun s j => a_z a (f_rows m * s + j)%N))].
  Proof.
    rewrite /driver => H D. move: H.
    rewrite {1}/checked_lapack_int. case E0: (imax32 <? Z.of_nat (f_rows m))%Z => //. apply Z.ltb_ge in E0. rewrite [bind _ _]/=.
    have Hn : (0 <= Z.of_nat (f_rows m) <= imax32)%Z by lia.
    case EM: (if partial r then wanted imax32 (f_rows m) ratio else Ok (f_rows m)) => [M| |] //. rewrite [bind _ _]/=.
    case EU: (partial r && _); first by [].
    rewrite [bind _ _]/= fixed_docs //. case EF: (List.forallb _ _) => //. rewrite [bind _ _]/=.
    case EQ: (l_query lp r (f_rows m)) => [info qs]. case EI: (info =? 0)%Z => //. rewrite /my_assert [bind _ _]/=.
    rewrite minima_docs //. case ES: (sizes _ _ _ _ _) => [ws| |] //. rewrite [bind _ _]/=.
    have [S1 S2] := sizes_spec ES.
    set w2 := List.app ws (split_docs r (Z.of_nat (f_rows m))).2.
    case EA: (a_info _ =? 0)%Z => //. apply Z.eqb_eq in EA. rewrite [bind _ _]/=.
    case EB: (if partial r && _ then _ else _) => [[]| |] //. rewrite [bind _ _]/=.
    case: ifP => // EC. rewrite /copy_results. case ED: (_ <= _)%N => //. rewrite /my_assert [bind _ _]/= => -[<-].
    exists M, w2.
    have RM : (1 <= M)%N && (M <= f_rows m)%N.
      case P: (partial r) EM => EM; first exact: wanted_range EM. case: EM => <-. by rewrite D leqnn.
    split => //.
    - by case: (partial r) EM => // -[].
    - by move/andP: RM.
    - split.
      + rewrite -split_app /w2. apply: List.Forall2_app => //.
        elim: (split_docs _ _).2 => [|x l IH]; constructor => //. lia.
      + apply List.Forall_app. split => //. apply List.Forall_forall => z Hz.
        move/List.forallb_forall: EF => EF. by have /Z.leb_le := EF _ Hz.
  Qed.

  (** The lower triangle of the column-major view of the array is the transpose of the upper triangle of the matrix. *)
  Lemma lower_data m i j : f_cols m = f_rows m -> (i < f_rows m)%N -> (j < f_rows m)%N ->
    lower (f_rows m) (data m) i j = hermitian (f_el m) j i.
  Proof.
    move=> S Hi Hj. rewrite /lower /hermitian /data S.
    have A : forall x y, (x < f_rows m)%N -> ((x + y * f_rows m) %/ f_rows m = y)%N /\ ((x + y * f_rows m) %% f_rows m = x)%N.
      move=> x y Hx. rewrite addnC divnMDl ?divn_small ?addn0 ?modnMDl ?modn_small //. exact: leq_ltn_trans Hx.
    have [-> ->] := A i j Hi. have [-> ->] := A i i Hi. have [-> ->] := A j i Hj.
    rewrite [j == i]eq_sym. case: ltngtP => // E. by rewrite E.
  Qed.

  Lemma right_left m x v : f_cols m = f_rows m ->
    right_eigen (f_rows m) (lower (f_rows m) (data m)) x v <-> left_eigen (f_rows m) (hermitian (f_el m)) x v.
  Proof.
    move=> S. split => H i Hi.
    - rewrite -H //. apply: eq_bigr => j _. by rewrite lower_data // mulrC.
    - rewrite -H //. apply: eq_bigr => j _. by rewrite lower_data // mulrC.
  Qed.

  Theorem driver_eigenpairs lp ms r m ratio sr d :
    lapack_contract lp -> f_cols m = f_rows m -> (0 < f_rows m)%N -> driver imax32 lp ms r m ratio sr = Ok d ->
    [/\ f_rows (r_vec d) = r_count d, f_cols (r_vec d) = f_rows m,
        (if partial r then wanted imax32 (f_rows m) ratio = Ok (r_count d) else r_count d = f_rows m),
        (1 <= r_count d)%N /\ (r_count d <= f_rows m)%N &
        lowest_eigenpairs (f_rows m) (hermitian (f_el m)) (r_count d) (r_val d) (f_el (r_vec d))].
  Proof.
    move=> L S D H. have [M [ws [HM [M1 M2] [W1 W2] EI ->]]] := driver_inv H D.
    have EM : (if partial r then a_m (l_run lp r (f_rows m) M (data m) ws) else f_rows m) = M.
      case P: (partial r) HM => HM; [exact: (lc_found L W1 M1 M2 EI) | by []].
    rewrite /= EM. split => //.
    have A : forall s j, (f_rows m * s + j = j + s * f_rows m)%N by move=> s j; rewrite addnC mulnC.
    split.
    - move=> s Hs. apply right_left => // i Hi.
      have := lc_eigen L W1 M1 M2 EI Hs. move=> /(_ i Hi) => E. rewrite A -E. apply: eq_bigr => j _. by rewrite A.
    - move=> s t Hs Ht. rewrite -(lc_orthonormal L W1 M1 M2 EI Hs Ht). apply: eq_bigr => j _. by rewrite !A.
    - move=> s t. exact: (lc_ascending L W1 M1 M2 EI).
    - move=> x v /right_left V N0 O s Hs. apply: (lc_lowest L W1 M1 M2 EI) => //; [exact: V | exact: N0 | move=> t Ht].
      rewrite -(O t Ht). apply: eq_bigr => j _. by rewrite A.
  Qed.

  Lemma choose_inv complex name r : choose complex name = Ok r -> accepted complex name /\ (partial r <-> computes_part name).
  Proof.
    rewrite /choose /accepted /computes_part. case: complex.
    all: case E1: (String.eqb name _); [apply String.eqb_eq in E1; subst name; move=> [<-]; split; [by left | split => //= -[] // []//] | ].
    all: case E2: (String.eqb name _); [apply String.eqb_eq in E2; subst name; move=> [<-]; split; [by right; left | split => //= -[] // []//] | ].
    all: case E3: (String.eqb name _); [apply String.eqb_eq in E3; subst name; move=> [<-]; split; [by right; right; left | split => //= -[] // []//] | ].
    all: case E4: (String.eqb name _) => //; apply String.eqb_eq in E4; subst name; move=> [<-]; split; [by right; right; right; left | split => //=; by [left | right; left]].
  Qed.
  Lemma choose_ok complex name : accepted complex name -> exists r, choose complex name = Ok r.
  Proof. rewrite /accepted. case: complex => /= -[<-|[<-|[<-|[<-|[]]]]]; by eexists. Qed.

  Lemma diagonalise_inv lp ms complex name up m ratio sr d : diagonalise imax32 lp ms complex name up m ratio sr = Ok d ->
    up = true /\ (0 < r_count d)%N /\ exists r, choose complex name = Ok r /\ driver imax32 lp ms r m ratio sr = Ok d.
  Proof.
    rewrite /diagonalise. case: up => //. rewrite [bind _ _]/=. case EC: (choose complex name) => [r| |] //. rewrite [bind _ _]/=.
    case ED: (driver _ _ _ _ _ _ _) => [d'| |] //. rewrite [bind _ _]/=. case EP: (0 < r_count d')%N => //. rewrite [bind _ _]/=.
    case: (_ && _) => //= -[E]. subst d'. split=> //. split => //. by exists r.
  Qed.

  Lemma wanted_bounds dim ratio M : (0 < dim)%N -> wanted imax32 dim ratio = Ok M ->
    (M = dim \/ Qle (ratio * inject_Z (Z.of_nat dim)) (inject_Z (Z.of_nat M))) /\
    (M = 1%N \/ Qlt (inject_Z (Z.of_nat M - 1)) (ratio * inject_Z (Z.of_nat dim))).
  Proof.
    move=> D. rewrite /wanted. case E: (Qeq_bool ratio 1).
      apply Qeq_bool_iff in E. move=> [<-]. split; first by left. right. rewrite E Qmult_1_l -Zlt_Qlt. lia.
    case: (_ || _) => // -[<-]. set q := (ratio * _)%Q.
    have L := Qle_ceiling q. have G := Qceiling_lt q. set c := Qceiling q in L G *.
    have D' : (1 <= Z.of_nat dim)%Z by move/ltP: D; lia.
    split.
    - case: (Z.le_gt_cases (Z.of_nat dim) c) => Hc; [left; lia | right].
      apply: Qle_trans L _. rewrite -Zle_Qle. lia.
    - case: (Z.le_gt_cases c 1) => Hc; [left; lia | right].
      apply: Qle_lt_trans G. rewrite -Zle_Qle. lia.
  Qed.

  Theorem diagonalise_eigenpairs lp ms complex name up m ratio sr d :
    lapack_contract lp -> f_cols m = f_rows m -> (0 < f_rows m)%N ->
    diagonalise imax32 lp ms complex name up m ratio sr = Ok d ->
    f_rows (r_vec d) = r_count d /\ f_cols (r_vec d) = f_rows m /\ (1 <= r_count d)%N /\ (r_count d <= f_rows m)%N /\
    lowest_eigenpairs (f_rows m) (hermitian (f_el m)) (r_count d) (r_val d) (f_el (r_vec d)).
  Proof.
    move=> L S D /diagonalise_inv [_ [_ [r [_ H]]]]. by have [? ? _ [? ?] ?] := driver_eigenpairs L S D H.
  Qed.

  Theorem diagonalise_count lp ms complex name up m ratio sr d :
    lapack_contract lp -> f_cols m = f_rows m -> (0 < f_rows m)%N ->
    diagonalise imax32 lp ms complex name up m ratio sr = Ok d ->
    (~ computes_part name -> r_count d = f_rows m) /\
    (computes_part name ->
      (r_count d = f_rows m \/ Qle (ratio * inject_Z (Z.of_nat (f_rows m))) (inject_Z (Z.of_nat (r_count d)))) /\
      (r_count d = 1%N \/ Qlt (inject_Z (Z.of_nat (r_count d) - 1)) (ratio * inject_Z (Z.of_nat (f_rows m))))).
  Proof.
    move=> L S D /diagonalise_inv [_ [_ [r [EC H]]]]. have [_ _ HM _ _] := driver_eigenpairs L S D H.
    have [_ P] := choose_inv EC. case EP: (partial r) HM P => HM P; split.
    - by move=> N; case: N; apply P.
    - move=> _. exact: wanted_bounds HM.
    - by [].
    - move=> K. by have := proj2 P K.
  Qed.

  (** All eigenvectors: U is unitary and U H U^+ is diagonal. *)
  Theorem full_unitary dim (H : nat -> nat -> C) w U : lowest_eigenpairs dim H dim w U ->
    (forall i j, (i < dim)%N -> (j < dim)%N -> \sum_(r < dim) (U r i)^* * U r j = delta C i j) /\
    (forall r s, (r < dim)%N -> (s < dim)%N -> \sum_(i < dim) (\sum_(j < dim) U r j * H j i) * (U s i)^* = w r * delta C r s).
  Proof.
    move=> [E O _ _]. split.
    - pose u : 'M[C]_dim := \matrix_(r, j) U r j. pose v : 'M[C]_dim := \matrix_(j, r) (U r j)^*.
      have UV : u *m v = 1%:M.
        apply/matrixP => r s. rewrite !mxE. rewrite -[RHS]/((r == s)%:R). have := O r s (ltn_ord r) (ltn_ord s).
        rewrite /dot /delta => Q. transitivity (\sum_(j < dim) U r j * (U s j)^*).
          apply: eq_bigr => j _. by rewrite !mxE.
        rewrite Q -val_eqE /=. by case: (_ == _).
      have VU := mulmx1C UV. move=> i j Hi Hj.
      have := congr1 (fun M : 'M[C]_dim => M (Ordinal Hi) (Ordinal Hj)) VU. rewrite !mxE -val_eqE /=.
      rewrite /delta => Q. transitivity (((i == j)%N)%:R : C); last by case: (_ == _).
      rewrite -Q. apply: eq_bigr => r _. by rewrite !mxE.
    - move=> r s Hr Hs. rewrite -(O r s Hr Hs) /dot mulr_sumr. apply: eq_bigr => i _. by rewrite E // mulrA.
  Qed.

  Theorem diagonalise_succeeds lp ms complex name m ratio sr :
    queries_answered lp -> accepted complex name -> f_cols m = f_rows m -> (0 < f_rows m)%N ->
    (forall r M ws, a_info (l_run lp r (f_rows m) M (data m) ws) = 0%Z) ->
    (forall r M ws, a_m (l_run lp r (f_rows m) M (data m) ws) = M) ->
    (forall r, List.Forall (fun z => (z <= Z.min ms imax32)%Z) (documented r (Z.of_nat (f_rows m)))) ->
    Qle 0 ratio -> Qle ratio 1 -> (Z.of_nat (f_rows m) * Z.of_nat (f_rows m) <= imax32)%Z -> (2 * Z.of_nat (f_rows m) <= imax32)%Z ->
    exists d, diagonalise imax32 lp ms complex name true m ratio sr = Ok d.
  Proof.
    move=> Q /choose_ok [r EC] S D I0 MM W R0 R1 N2 N1. rewrite /diagonalise EC [bind _ _]/=.
    set n := Z.of_nat (f_rows m) in W N2 N1 *. have D' : (1 <= n)%Z by rewrite /n; move/ltP: D; lia.
    have Hn : (0 <= n <= imax32)%Z by lia.
    rewrite /driver -/n. rewrite {1}/checked_lapack_int. have -> : (imax32 <? n)%Z = false by apply Z.ltb_ge; lia.
    rewrite [bind (Ok n) _]/=.
    have [M [EM ME]] : exists M, (if partial r then wanted imax32 (f_rows m) ratio else Ok (f_rows m)) = Ok M /\ ((1 <= M)%N && (M <= f_rows m)%N).
      case: (partial r); last by exists (f_rows m); rewrite D leqnn.
      suff [M EM] : exists M, wanted imax32 (f_rows m) ratio = Ok M by exists M; split => //; exact: wanted_range EM.
      rewrite /wanted. case: (Qeq_bool _ _); first by eexists. rewrite -/n.
      have QN : Qle 0 (inject_Z n) by rewrite -(Zle_Qle 0); lia.
      have C1 : (0 <= Qceiling (ratio * inject_Z n))%Z.
        rewrite -(Qceiling_Z 0). apply: Qceiling_resp_le. exact: Qmult_le_0_compat.
      have C2 : (Qceiling (ratio * inject_Z n) <= n)%Z.
        rewrite -[X in (_ <= X)%Z](Qceiling_Z n). apply: Qceiling_resp_le.
        rewrite -[X in Qle _ X]Qmult_1_l. exact: Qmult_le_compat_r.
      have -> : (imax32 <? Qceiling (ratio * inject_Z n))%Z = false by apply Z.ltb_ge; lia.
      have -> : (Qceiling (ratio * inject_Z n) <? - imax32 - 1)%Z = false by apply Z.ltb_ge; lia.
      by rewrite eqn0Ngt D /=; eexists.
    rewrite EM [bind (Ok M) _]/=. move/andP: ME => [M1 M2].
    have M2' : (Z.of_nat M <= n)%Z by rewrite /n; move/leP: M2; lia.
    have -> : (imax32 <? 2 * Z.of_nat M)%Z = false by apply Z.ltb_ge; lia.
    have -> : (imax32 <? n * Z.of_nat M)%Z = false by apply Z.ltb_ge; nia.
    rewrite andbF [bind (Ok tt) _]/=. rewrite fixed_docs //.
    have Wr := W r. rewrite -split_app in Wr. apply List.Forall_app in Wr. move: Wr => [W1 W2].
    have -> : List.forallb (fun z : Z => (z <=? imax32)%Z) (split_docs r n).2 = true.
      apply/List.forallb_forall => z Hz. apply/Z.leb_le. move/List.Forall_forall: W2 => W2. have := W2 _ Hz. lia.
    rewrite [bind (Ok _) _]/=. have [zs [-> [Lz Fz]]] := Q r (f_rows m). rewrite [bind (my_assert _) _]/=.
    rewrite minima_docs //.
    have [ws ->] : exists ws, sizes imax32 ms sr (List.map (@Ok Z) (split_docs r n).1) (List.map Some zs) = Ok ws.
      apply: sizes_succeeds => //. have EL : List.length (split_docs r n).1 = List.length zs.
        rewrite Lz. case: (r) => //=; by case: (_ <=? _)%Z.
      elim: (split_docs r n).1 zs EL Fz {Lz} => [|x l IH] [|z zs] //= [EL] Fz; constructor.
      - inversion Fz; subst. exists z. split => //. lia.
      - apply: IH => //. by inversion Fz.
    rewrite [bind (Ok ws) _]/=. rewrite I0 [bind (my_assert _) _]/=. rewrite MM eqxx andbF [bind (Ok tt) _]/=.
    have EMM : (if partial r then M else f_rows m) = M by case: (partial r) EM => // -[].
    rewrite EMM ltnn /copy_results M2 [bind (my_assert _) _]/= [bind (Ok _) _]/=.
    by rewrite M1 [bind (my_assert _) _]/= M2 S eqxx [bind (my_assert _) _]/=; eexists.
  Qed.

  (** Beyond 46340 the size of the array of eigenvectors overflows, whatever LAPACK does. *)
  Theorem r_variant_overflow lp ms complex name m sr : (46340 < Z.of_nat (f_rows m) <= imax32)%Z -> accepted complex name -> computes_part name ->
    diagonalise imax32 lp ms complex name true m 1 sr = UB.
  Proof.
    move=> [H1 H2] A K. have [r EC] := choose_ok A. have [_ P] := choose_inv EC. have PR : partial r by apply P.
    rewrite /diagonalise EC [bind _ _]/= /driver PR. rewrite {1}/checked_lapack_int.
    have -> : (imax32 <? Z.of_nat (f_rows m))%Z = false by apply Z.ltb_ge.
    rewrite [bind (Ok _) _]/=.
    have -> : (imax32 <? Z.of_nat (f_rows m) * Z.of_nat (f_rows m))%Z = true.
      apply Z.ltb_lt. change imax32 with 2147483647%Z. nia.
    by rewrite orbT.
  Qed.

  Theorem diagonalise_refuses lp ms complex name up m ratio sr : ~ accepted complex name \/ up = false ->
    diagonalise imax32 lp ms complex name up m ratio sr = Throw.
  Proof.
    rewrite /diagonalise. case: up; last by [].
    move=> [N | //]. rewrite [bind _ _]/=. case EC: (choose complex name) => [r| |] //.
    - by case: N; have [] := choose_inv EC.
    - move: EC. rewrite /choose. by case: complex {N}; repeat (case: ifP => _ //).
  Qed.

  (** Sorting eigenpairs. *)
  Theorem sorted_pairs p (w z : nat -> C) dim M : Permutation.Permutation p (List.seq 0 M) ->
    (forall r s, (r <= s)%N -> (s < M)%N -> w (List.nth r p 0%N) <= w (List.nth s p 0%N)) -> (0 < dim)%N ->
    let w' := (sort_eigenpairs p w z dim M).1 in let z' := (sort_eigenpairs p w z dim M).2 in
    (forall r s, (r <= s)%N -> (s < M)%N -> w' r <= w' s) /\
    (forall r, (r < M)%N -> exists s, (s < M)%N /\ w' r = w s /\ forall j, (j < dim)%N -> z' (dim * r + j)%N = z (dim * s + j)%N) /\
    (forall s, (s < M)%N -> exists r, (r < M)%N /\ w' r = w s /\ forall j, (j < dim)%N -> z' (dim * r + j)%N = z (dim * s + j)%N).
  Proof.
    move=> P SO D w' z'. have Lp : List.length p = M by rewrite (Permutation.Permutation_length P) List.seq_length.
    have Hz : forall r j, (r < M)%N -> (j < dim)%N -> z' (dim * r + j)%N = z (dim * List.nth r p 0 + j)%N.
      move=> r j Hr Hj. rewrite /z' /sort_eigenpairs /=.
      have -> : (dim * r + j < M * dim)%N.
        apply: (@leq_trans (r.+1 * dim)%N); last by rewrite leq_pmul2r. by rewrite mulSn addnC mulnC ltn_add2r.
      by rewrite [(dim * r)%N]mulnC divnMDl // divn_small // addn0 modnMDl modn_small.
    have Hw : forall r, (r < M)%N -> w' r = w (List.nth r p 0%N) by move=> r Hr; rewrite /w' /= Hr.
    split; [|split].
    - move=> r s Hrs Hs. rewrite !Hw //; [exact: SO | exact: leq_ltn_trans Hs].
    - move=> r Hr. exists (List.nth r p 0%N). split; last by split; [exact: Hw | move=> j; exact: Hz].
      have : List.In (List.nth r p 0%N) (List.seq 0 M).
        apply: (Permutation.Permutation_in _ P). apply: List.nth_In. rewrite Lp. exact/ltP.
      move/List.in_seq => [_ H]. exact/ltP.
    - move=> s Hs. have : List.In s p.
        apply: (Permutation.Permutation_in _ (Permutation.Permutation_sym P)). apply/List.in_seq. split; [exact: Nat.le_0_l | exact/ltP].
      move/(List.In_nth _ _ 0%N) => [r [Hr E]]. rewrite Lp in Hr. exists r. move/ltP: Hr => Hr.
      split => //. split; first by rewrite Hw // E. move=> j Hj. by rewrite Hz // E.
  Qed.
End Diag.
