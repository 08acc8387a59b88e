(** Property theorems C76: the tool [bw]. *)
From Coq Require Import List ZArith Reals Lra Sorting String.
From Coquelicot Require Import Coquelicot.
From Verif Require Import Base Interp_model Bw_model Bw_spec Bw_run_spec Bw_kernel Bw_proofs Bw_aux.
Import List ListNotations.
Local Open Scope string_scope.
Local Open Scope list_scope.
Local Open Scope R_scope.

(** C76. For valid options and readable files the program ends, in a build with and without active assertions, and the files it
    writes are those of the specification: raw data merged over the files, the peaks broadened on the mesh, and widths and mesh
    adapted in each pass as in the paper of Freyn and Florens. *)
Theorem C76_run : forall debug files o bufs, valid o -> readable files o bufs -> exists fuel0 peaks m b fs,
  (forall fuel, (fuel0 <= fuel)%nat -> bw fuel debug files o = Some (Ok fs)) /\ merged (o_nz o) (List.concat bufs) peaks /\ passes o peaks (o_iter o) m b fs.
Proof. exact run_ok. Qed.
Print Assumptions C76_run.

(** After any number of passes the widths are positive, and between the smallest width allowed and the initial one. *)
Theorem C76_widths : forall o peaks i m b fs, valid o -> passes o peaks i m b fs ->
  List.length b = List.length peaks /\ List.Forall (fun y => 0 < y <= o_b0 o /\ lower o <= y) b.
Proof. exact widths_form. Qed.
Print Assumptions C76_widths.

(** After any number of passes the mesh is in ascending order and without the point zero, contains the initial mesh, and lies in
    the same interval; without the option -d it is the initial mesh. *)
Theorem C76_mesh : forall o peaks i m b fs, valid o -> passes o peaks i m b fs -> StronglySorted Rlt m /\ ~ In 0 m /\
  exists m0, initial_mesh (o_min o) (o_max o) (o_ratio o) m0 /\ incl m0 m /\ (forall x, In x m -> exists lo hi, In lo m0 /\ In hi m0 /\ lo <= x <= hi) /\ (o_dyn o <= 0 -> m = m0).
Proof. exact mesh_form. Qed.
Print Assumptions C76_mesh.

(** The kernel is normalised on its side of zero. *)
Theorem C76_kernel_positive : forall alpha w, 0 < alpha -> 0 < w -> is_RInt_gen (log_gaussian alpha w) (at_right 0) (Rbar_locally p_infty) 1.
Proof. exact unit_pos. Qed.
Print Assumptions C76_kernel_positive.
Theorem C76_kernel_negative : forall alpha w, 0 < alpha -> w < 0 -> is_RInt_gen (log_gaussian alpha w) (Rbar_locally m_infty) (at_left 0) 1.
Proof. exact unit_neg. Qed.
Print Assumptions C76_kernel_negative.

(** Whatever the widths are, the broadened spectrum has the weight of the peaks on either side of zero. *)
Theorem C76_weight : forall peaks b, List.length b = List.length peaks -> List.Forall (fun y => 0 < y) b ->
  is_RInt_gen (broadened peaks b) (at_right 0) (Rbar_locally p_infty) (weight_above peaks) /\ is_RInt_gen (broadened peaks b) (Rbar_locally m_infty) (at_left 0) (weight_below peaks).
Proof. exact weight_form. Qed.
Print Assumptions C76_weight.

(** The whole program: one file is written, after the last pass; its rows are values of one function, which has the weight of the
    raw data on either side of zero. *)
Theorem C76_whole : forall debug files o bufs n, valid o -> readable files o bufs -> o_iter o = S n -> o_savemore o = false -> o_saveall o = false -> o_positive o = false ->
  exists fuel0 peaks m b, merged (o_nz o) (List.concat bufs) peaks /\ List.length b = List.length peaks /\ List.Forall (fun y => 0 < y <= o_b0 o /\ lower o <= y) b /\
    (forall fuel, (fuel0 <= fuel)%nat -> bw fuel debug files o = Some (Ok [(("a" ++ tostring (S n) ++ ".dat")%string, rows (trimmed o) m (map (broadened peaks b) m))])) /\
    is_RInt_gen (broadened peaks b) (at_right 0) (Rbar_locally p_infty) (weight_above peaks) /\ is_RInt_gen (broadened peaks b) (Rbar_locally m_infty) (at_left 0) (weight_below peaks).
Proof. exact whole_ok. Qed.
Print Assumptions C76_whole.

(** Without -s and -S nothing is written before the last pass, so with -n 0 nothing at all. *)
Theorem C76_nothing_before_the_end : forall o peaks i m b fs, o_savemore o = false -> o_saveall o = false -> passes o peaks i m b fs -> (i < o_iter o)%nat \/ o_iter o = 0%nat /\ i = 0%nat -> fs = [].
Proof. exact nothing_form. Qed.
Print Assumptions C76_nothing_before_the_end.

(** Errors on the command line, unreadable files and files with half a pair are rejected. *)
Theorem C76_bad_arguments : forall fuel debug files o, o_b0 o <= 0 \/ (o_nz o < 1)%Z -> bw fuel debug files o = Some Throw.
Proof. exact reject_ok. Qed.
Print Assumptions C76_bad_arguments.
Theorem C76_bad_file : forall fuel debug files o i, valid o -> (1 <= i <= Z.to_nat (o_nz o))%nat ->
  (let f := files (if (o_one o && (o_nz o =? 1)%Z)%bool then o_name o else (tostring i ++ "/" ++ o_name o)%string) in f = None \/ exists g, f = Some g /\ ((8 * List.length (values g) + rest g) mod 16 <> 0)%nat) -> bw fuel debug files o = Some Throw.
Proof. exact bad_file_ok. Qed.
Print Assumptions C76_bad_file.

(** The lower end of the mesh is not checked: with -m 0 or a negative number the program does not end. *)
Theorem C76_endless_refuted : forall debug files o bufs fuel, 0 < o_b0 o -> (1 <= o_nz o)%Z -> lower o <= o_b0 o -> o_min o <= 0 -> o_min o < o_max o -> 1 < o_ratio o ->
  readable files o bufs -> bw fuel debug files o = None.
Proof. exact endless_ok. Qed.
Print Assumptions C76_endless_refuted.

(** The weight of a peak at zero frequency is lost without a message. *)
Theorem C76_zero_peak_refuted : forall debug files o n, valid o -> o_nz o = 1%Z -> o_iter o = S n -> readable files o [[(0, 1)]] ->
  exists fuel0 fs m, (forall fuel, (fuel0 <= fuel)%nat -> bw fuel debug files o = Some (Ok fs)) /\ In (("a" ++ tostring (S n) ++ ".dat")%string, rows (trimmed o) m (map (fun _ => 0) m)) fs.
Proof. exact zero_peak_ok. Qed.
Print Assumptions C76_zero_peak_refuted.

Example C76_example : valid bw_options /\ readable bw_files bw_options bw_data /\ o_iter bw_options = 3%nat /\ o_dyn bw_options = 1 / 10.
Proof. exact (conj bw_valid (conj bw_readable (conj eq_refl eq_refl))). Qed.
Example C76_example_endless : 0 < o_b0 bw_endless /\ lower bw_endless <= o_b0 bw_endless /\ o_min bw_endless <= 0 < o_max bw_endless /\ 1 < o_ratio bw_endless /\ readable bw_files bw_endless bw_data.
Proof. exact bw_endless_form. Qed.
Example C76_example_zero : valid bw_single /\ readable bw_zero_file bw_single [[(0, 1)]].
Proof. exact (conj bw_single_valid bw_zero_readable). Qed.
