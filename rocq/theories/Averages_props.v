(** C72: what the averaging tools compute. *)
From Coq Require Import List ZArith Reals Bool Lia Lra Permutation Sorted.
From Verif Require Import Base Interp_model Interp_spec Averages_model Averages_spec Averages_proofs Averages_aux.
Import ListNotations.
Local Open Scope R_scope.

(** intavg: on a common mesh, the mean of the interpolants. *)
Theorem C72_mean input : input <> [] -> Forall (fun t => increasing t /\ t <> []) input ->
  exists r, intavg input = Ok r /\ common_mesh (map (map fst) input) (map fst r) /\
    Forall (fun p => exists ys, Forall2 (fun t y => linear_interpolant t (fst p) y) input ys /\ snd p = Some (mean ys)) r.
Proof. exact (intavg_ok input). Qed.
Print Assumptions C72_mean.
Example C72_mean_nonvacuous : exists r, intavg [odd_table; even_table] = Ok r /\ common_mesh [[1; 3]; [2; 4]] (map fst r) /\
    Forall (fun p => exists ys, Forall2 (fun t y => linear_interpolant t (fst p) y) [odd_table; even_table] ys /\ snd p = Some (mean ys)) r.
Proof. apply (C72_mean [odd_table; even_table]); [discriminate |]. repeat constructor; try discriminate; [exact odd_increasing | exact even_increasing]. Qed.

(** Equal tables are given back. *)
Theorem C72_equal_tables t n : (0 < n)%nat -> increasing t -> t <> [] -> (forall p q, In p t -> In q t -> near (fst p) (fst q) -> fst p = fst q) -> (forall p, In p t -> fst p <> 0) ->
  intavg (repeat t n) = Ok (map (fun p => (fst p, Some (snd p))) t).
Proof. exact (equal_tables t n). Qed.
Print Assumptions C72_equal_tables.
Example C72_equal_tables_nonvacuous : intavg [odd_table; odd_table] = Ok [(1, Some 10); (3, Some 30)].
Proof.
  apply (C72_equal_tables odd_table 2); [lia | exact odd_increasing | discriminate | |].
  - exact odd_apart.
  - intros p [<- | [<- | []]]; cbn; lra.
Qed.

(** An abscissa zero is repeated, once for every table. *)
Theorem C72_zero_refuted : increasing [(0, 1); (1, 2)] /\ intavg [[(0, 1); (1, 2)]; [(0, 1); (1, 2)]] = Ok [(0, Some 1); (0, Some 1); (1, Some 2)].
Proof. exact (conj from_zero_increasing zero_average). Qed.
Print Assumptions C72_zero_refuted.
(** intavg does not sort the tables: of one in descending order only the first value is used. *)
Theorem C72_descending_refuted : intavg [[(2, 5); (1, 3)]] = Ok [(1, Some 5); (2, Some 5)].
Proof. exact descending_average. Qed.
Print Assumptions C72_descending_refuted.

(** tdavg: for every column the mean of the interpolants of the blocks, minus that of the reference; the lines may be in any order. *)
Theorem C72_thermodynamics n input reference : input <> [] -> Forall (good_block n) input -> (forall d, reference = Some d -> Forall (good_block n) d /\ length d = length input) ->
  exists r, tdavg n input reference = Ok r /\ common_mesh (map (map fst) input) (map fst r) /\
    Forall (fun p => length (snd p) = n /\ forall j, (j < n)%nat -> exists ys zs, Forall2 (fun b y => column_value j b (fst p) y) input ys /\
      match reference with None => zs = map (fun _ => 0) input | Some d => Forall2 (fun b z => column_value j b (fst p) z) d zs end /\ nth_error (snd p) j = Some (Some (mean ys - mean zs))) r.
Proof. exact (tdavg_ok n input reference). Qed.
Print Assumptions C72_thermodynamics.
Example C72_thermodynamics_nonvacuous : exists r, tdavg 2 [block_1; block_2] (Some [block_2; block_2]) = Ok r /\ common_mesh [[2; 1]; [1; 3]] (map fst r).
Proof.
  destruct (C72_thermodynamics 2 [block_1; block_2] (Some [block_2; block_2])) as (r & E & M & _).
  - discriminate.
  - exact (Forall_cons _ block_1_good (Forall_cons _ block_2_good (Forall_nil _))).
  - intros d [= <-]. split; [exact (Forall_cons _ block_2_good (Forall_cons _ block_2_good (Forall_nil _))) | reflexivity].
  - now exists r.
Qed.

(** The values are determined by the lines. *)
Theorem C72_value_unique j b T y z : b <> [] -> column_value j b T y -> column_value j b T z -> y = z.
Proof. exact (column_unique j b T y z). Qed.
Print Assumptions C72_value_unique.

(** With the data themselves as the reference, nothing is left. *)
Theorem C72_self_reference n input r : input <> [] -> Forall (good_block n) input -> tdavg n input (Some input) = Ok r -> Forall (fun p => snd p = repeat (Some 0) n) r.
Proof. exact (self_reference n input r). Qed.
Print Assumptions C72_self_reference.

(** References with another number of blocks are refused. *)
Theorem C72_reference_count n input d : length d <> length input -> tdavg n input (Some d) = Throw.
Proof. exact (reference_count n input d). Qed.
Print Assumptions C72_reference_count.
