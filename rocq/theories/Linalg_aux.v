(** Examples for C60 and C61: a LAPACK that solves 2 x 2 problems with equal diagonal elements, and small products. *)
From Coq Require Import List ZArith QArith Lia String.
From Verif Require Import Base Invar_model Symmetry_model Subspaces_model Density_model Linalg_model Linalg_spec Linalg_diag Linalg_gemm.
From mathcomp Require Import ssreflect ssrfun ssrbool eqtype ssrnat seq div fintype bigop ssralg order ssrnum.
Import Order.TTheory GRing.Theory Num.Theory.
Local Open Scope ring_scope.
Set Implicit Arguments.
Unset Strict Implicit.
Unset Printing Implicit Defensive.

Section Ex.
  Variable C : numClosedFieldType.

  Definition half_root : C := (sqrtC 2%:R)^-1.
  Lemma half_root_sq : half_root * half_root + half_root * half_root = 1.
  Proof.
    rewrite /half_root -invfM -expr2 sqrtCK -mulr2n -mulr_natl divff //. by rewrite pnatr_eq0.
  Qed.
  Lemma half_root_real : half_root^* = half_root.
  Proof. apply: CrealP. apply: ger0_real. by rewrite invr_ge0 sqrtC_ge0 ler0n. Qed.

  Definition ex_lapack : lapack C := Lapack
    (fun r _ => (0%Z, List.map (@Some Z) (List.repeat 1000%Z (arrays r))))
    (fun _ dim M a _ => Answer (if [&& dim == 2%N, 'Re (a 0%N) == 'Re (a 3%N) & 0 <= a 1%N] then 0%Z else 1%Z) M
       (fun s => if s == 0%N then 'Re (a 0%N) - a 1%N else 'Re (a 0%N) + a 1%N)
       (fun p => if p == 1%N then - half_root else half_root)).

  Lemma ex_info dim (a : nat -> C) : (if [&& dim == 2%N, 'Re (a 0%N) == 'Re (a 3%N) & 0 <= a 1%N] then 0%Z else 1%Z) = 0%Z ->
    [/\ dim = 2%N, 'Re (a 3%N) = 'Re (a 0%N), 0 <= a 1%N & (a 1%N)^* = a 1%N].
  Proof.
    case: ifP => // /and3P [/eqP D /eqP E P] _. split => //. by apply: CrealP; apply: ger0_real.
  Qed.

  Lemma half_root_neq0 : half_root != 0.
  Proof. by rewrite invr_eq0 sqrtC_eq0 pnatr_eq0. Qed.
  Lemma ex_contract : lapack_contract ex_lapack.
  Proof.
    have S2 : forall F : 'I_2 -> C, \sum_(j < 2) F j = F ord0 + F ord_max.
      move=> F. rewrite !big_ord_recr big_ord0 /= add0r. congr (F _ + F _); exact: val_inj.
    split; rewrite /=.
    - by [].
    - move=> _ dim M a _ _ M1 M2 /ex_info [D E P R] s Hs. subst dim.
      move=> i Hi. rewrite S2 /= /lower.
      have Hs2 : (s < 2)%N by apply: leq_trans Hs M2.
      case: s Hs Hs2 => [|[|//]] _ _; case: i Hi => [|[|//]] _ /=; rewrite ?R ?E ?mul0n ?mul1n ?add0n ?addn0 /=.
      + by rewrite mulrN mulrBl.
      + by rewrite !mulrN mulrBl opprB.
      + by rewrite mulrDl.
      + by rewrite addrC mulrDl.
    - move=> _ dim M a _ _ M1 M2 /ex_info [D E P R] s t Hs Ht. subst dim.
      have Hs2 : (s < 2)%N by apply: leq_trans Hs M2. have Ht2 : (t < 2)%N by apply: leq_trans Ht M2.
      rewrite /dot S2 /=.
      case: s Hs Hs2 => [|[|//]] _ _; case: t Ht Ht2 => [|[|//]] _ _ /=; rewrite ?rmorphN /= half_root_real ?mulrNN ?half_root_sq //.
      + by rewrite mulNr subrr.
      + by rewrite mulrN subrr.
    - move=> _ dim M a _ _ M1 M2 /ex_info [D E P R] s t Hst Ht. subst dim.
      have Ht2 : (t < 2)%N by apply: leq_trans Ht M2.
      case: t Hst Ht Ht2 => [|[|//]] Hst _ _ /=.
      + by move: Hst; rewrite leqn0 => ->.
      + case: ifP => _ //. by rewrite ler_add2l (le_trans _ P) // oppr_le0.
    - move=> _ dim M a _ _ M1 M2 /ex_info [D E P R] x v V [i [Hi N0]] O s Hs. subst dim.
      have O0 := O 0%N M1. rewrite /dot S2 /= rmorphN /= half_root_real mulrN in O0.
      have V01 : v 0%N = v 1%N.
        apply: (mulIf half_root_neq0). apply/eqP. by rewrite -subr_eq0 O0.
      have N0' : v 0%N != 0.
        apply/eqP => Z0. apply: N0. case: i Hi => [|[|//]] _ //. by rewrite -V01.
      have := V 0%N isT. rewrite S2 /= /lower /= ?mul0n ?mul1n ?addn0 R -V01 -mulrDl => /(mulIf N0') <-.
      case: s Hs => [|s] Hs /=.
      + by rewrite ler_add2l (le_trans _ P) // oppr_le0.
      + have M2' : (2 <= M)%N by apply: leq_ltn_trans Hs.
        have := O 1%N M2'. rewrite /dot S2 /= half_root_real -V01 -mulrDr => /eqP. rewrite mulf_eq0 (negbTE N0') /=.
        by rewrite -mulr2n mulrn_eq0 (negbTE half_root_neq0).
  Qed.

  Lemma ex_queries : queries_answered ex_lapack.
  Proof.
    move=> r dim. exists (List.repeat 1000%Z (arrays r)). split => //. split; first exact: List.repeat_length.
    apply/List.Forall_forall => z H. rewrite (List.repeat_spec _ _ _ H). lia.
  Qed.

  (** The matrix (5 2; 2 5); only the upper triangle is filled in. *)
  Definition ex_ham : fmat C := Fmat 2 2 (fun i j => if i == j then 5%:R else if (i < j)%N then 2%:R else 0).
  Lemma ex_info_ok r M ws : a_info (l_run ex_lapack r 2 M (data ex_ham) ws) = 0%Z.
  Proof. by rewrite /= /data /= eqxx ler0n. Qed.
  Lemma ex_run (name : string) sr : accepted false name ->
    exists d, diagonalise imax32 ex_lapack (2 ^ 60) false name true ex_ham 1 sr = Ok d.
  Proof.
    move=> A. apply: diagonalise_succeeds => //.
    - exact: ex_queries.
    - exact: ex_info_ok.
    - case; repeat constructor; by [].
  Qed.
  Definition ex_result : raw_eigen C :=
    Raw 2 (fun s => if s == 0%N then 'Re (5%:R : C) - 2%:R else 'Re (5%:R : C) + 2%:R)
        (Fmat 2 2 (fun r j => if (2 * r + j == 1)%N then - half_root else half_root)).
  Lemma ex_result_of sr : diagonalise imax32 ex_lapack (2 ^ 60) false "dsyev"%string true ex_ham 1 sr = Ok ex_result.
  Proof.
    have [d E] := @ex_run "dsyev"%string sr (or_introl Logic.eq_refl). rewrite E. congr Ok.
    have [_ [_ [r [EC H]]]] := diagonalise_inv E. have ER : r = Dsyev by case: EC. subst r.
    have [M [ws [EM _ _ _ ->]]] := driver_inv H isT. rewrite /= in EM. by subst M.
  Qed.

  (** A 2 x 2 block at the right of a 2 x 3 matrix, and two small factors. *)
  Definition ex_m : view C := View (fun p => p%:R) 1 3 2 2.
  Definition ex_a : view C := View (fun p => p.+1%:R) 0 1 2 1.
  Definition ex_b : view C := View (fun p => (p + 3)%:R) 0 1 2 1.
  Lemma ex_small : small imax32 ex_m /\ small imax32 ex_a /\ small imax32 ex_b.
  Proof. rewrite /small /=. by split; [split | split; split]. Qed.
  (** u is 2 x 1. *)
  Definition ex_o : view C := View (fun p => p%:R) 0 2 2 2.
  Definition ex_t : view C := View (fun p => p%:R) 0 1 1 1.
End Ex.
