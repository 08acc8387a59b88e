(** Property theorem C27. *)
From Coq Require Import List ZArith.
From Verif Require Import Base Patch_model Steps_model Steps_spec Steps_proofs.
Import ListNotations.

(** C27. Whatever is done at a step, a run does it at the steps Ninit, ..., Nmax-1 in this order (in the first run after the
    initial calculation, if requested), stops at the first failure, and always ends positioned at the last step. *)
Theorem C27_steps_in_order : forall (p : sparams) (D : Type) (iterate calc0 : step -> D -> res D), (sp_Ninit p < sp_Nmax p)%nat ->
  forall nrg_run d r, run_steps p iterate calc0 nrg_run d r <->
    r = with_step (nth_step (sp_Nmax p - 1)) (in_order ((if (nrg_run && sp_calc0 p)%bool then [calc0 {| s_true := Z.of_nat (sp_Ninit p) - 1; s_ndx := sp_Ninit p - 1 |}] else []) ++
          map (fun m => iterate (nth_step m)) (seq (sp_Ninit p) (sp_Nmax p - sp_Ninit p))) d).
Proof. exact (fun p D iterate calc0 H => run_iff p iterate calc0 H). Qed.
Print Assumptions C27_steps_in_order.

(** Exactly the first step is flagged first and the last one last. *)
Theorem C27_flags : forall p n, (sp_Ninit p <= n < sp_Nmax p)%nat ->
  (step_first p (nth_step n) = true <-> n = sp_Ninit p) /\ (step_last p (nth_step n) = true <-> n = (sp_Nmax p - 1)%nat).
Proof. exact flags. Qed.
Print Assumptions C27_flags.

(** Nothing is run unless there is at least one step. *)
Theorem C27_empty_chain_rejected : forall p, validate_after_data_file p = if (sp_Ninit p <? sp_Nmax p)%nat then Ok tt else Throw.
Proof. exact validate_iff. Qed.
Print Assumptions C27_empty_chain_rejected.

(** With substeps every pair of site and channel is visited exactly once, site by site. *)
Theorem C27_substeps : forall p Nmax0, map (fun n => step_NM p (nth_step n)) (seq 0 (determine_Nmax true (sp_channels p) Nmax0)) = list_prod (seq 0 Nmax0) (seq 0 (sp_channels p)).
Proof. exact nm_all. Qed.
Print Assumptions C27_substeps.

Example C27_example :
  let p := {| sp_Ninit := 1; sp_Nmax := 4; sp_channels := 1; sp_substeps := false; sp_calc0 := true |} in
  run_steps p (fun s d => Ok (d ++ [s_ndx s])) (fun s d => Ok (d ++ [s_ndx s])) true [] (Ok (nth_step 3, [0; 1; 2; 3]%nat)).
Proof. intros p. apply run_iff; [unfold p; cbn; auto|]. reflexivity. Qed.
