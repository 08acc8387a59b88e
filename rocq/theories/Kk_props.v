(** C67: the Kramers-Kronig tool. *)
From Coq Require Import List Reals Lra Sorted Permutation PeanoNat.
From Coquelicot Require Import Coquelicot.
From Verif Require Import Base Kk_model Kk_spec Kk_proofs Kk_init Kk_aux.
Import ListNotations.
Local Open Scope R_scope.

(** The value is 1/pi times the principal value of the integral of f(x)/(x - Z) over the range of the table. *)
Theorem C67_value : forall integr f df X Z, exact_quadrature integr -> - X < Z < X -> smooth_at f X Z (df Z) ->
  exists v, calc integr f df X Z = Some v /\ principal_value f X Z (PI * v).
Proof. exact calc_principal_value. Qed.
Print Assumptions C67_value.
Example C67_value_case : exists v, calc exact_integr (fun x => x * x) (fun x => 2 * x) 3 1 = Some v /\ principal_value (fun x => x * x) 3 1 (PI * v).
Proof. apply C67_value; [exact exact_integr_ok | lra | apply square_smooth]. Qed.

(** There is only one principal value. *)
Theorem C67_unique : forall f X Z u v, principal_value f X Z u -> principal_value f X Z v -> u = v.
Proof. exact principal_value_unique. Qed.
Print Assumptions C67_unique.
Example C67_unique_case : exists v, principal_value (fun x => x * x) 3 1 v.
Proof. destruct C67_value_case as (v & _ & H). exists (PI * v). exact H. Qed.

(** At the ends of the table, where the principal value does not exist in general, f(Z) is subtracted. *)
Theorem C67_ends : forall integr f df X Z, exact_quadrature integr -> 0 < X -> Rabs Z = X -> smooth_at f X Z (df Z) ->
  calc integr f df X Z = Some (RInt (fun x => (f x - f Z) / (x - Z)) (- X) X / PI).
Proof. exact calc_ends. Qed.
Print Assumptions C67_ends.
Example C67_ends_case : calc exact_integr (fun x => x * x) (fun x => 2 * x) 3 (- (3))
  = Some (RInt (fun x => (x * x - - (3) * - (3)) / (x - - (3))) (- (3)) 3 / PI).
Proof. apply (C67_ends exact_integr (fun x => x * x) (fun x => 2 * x)); [exact exact_integr_ok | lra | rewrite Rabs_left; lra | apply square_smooth]. Qed.

(** A table that is accepted holds the points of the input in increasing order, an even number of them, at least 6, symmetric around 0 to
    within the tolerance. *)
Theorem C67_accepted : forall fcmp im0 im, fcmp_contract fcmp -> init fcmp im0 = Ok im ->
  Permutation im0 im /\ StronglySorted Rlt (map fst im) /\ Nat.Even (length im) /\ (6 <= length im)%nat
  /\ forall i, (i < length im)%nat ->
       let a := nth i (map fst im) 0 in let b := nth (length im - 1 - i) (map fst im) 0 in
       Rabs (a + b) <= 2 / 100000000 * Rmax (Rabs a) (Rabs b).
Proof. exact init_ok. Qed.
Print Assumptions C67_accepted.
Example C67_accepted_case : fcmp_contract ex_fcmp /\ init ex_fcmp ex_skew = Ok ex_skew.
Proof. exact (conj ex_fcmp_ok ex_skew_ok). Qed.

(** Every symmetric table is accepted, whatever the order of its lines. *)
Theorem C67_accepts : forall fcmp im0 im, fcmp_contract fcmp -> Permutation im0 im -> StronglySorted Rlt (map fst im) ->
  Nat.Even (length im) -> (6 <= length im)%nat ->
  (forall i, (i < length im)%nat -> nth (length im - 1 - i) (map fst im) 0 = - nth i (map fst im) 0) ->
  init fcmp im0 = Ok im.
Proof. exact init_accepts. Qed.
Print Assumptions C67_accepts.
Example C67_accepts_case : init ex_fcmp ex_table = Ok ex_sorted.
Proof. apply C67_accepts; [exact ex_fcmp_ok | exact ex_perm | exact ex_increasing | exists 3%nat; reflexivity | cbn; auto | exact ex_symmetric]. Qed.

(** The tool as a whole: one line for each point, in increasing order. *)
Theorem C67_tool : forall fcmp integr spline im0 out, fcmp_contract fcmp -> exact_quadrature integr -> kk fcmp integr spline im0 = Ok out ->
  exists im, Permutation im0 im /\ StronglySorted Rlt (map fst im) /\ map fst out = map fst im
  /\ let X := last (map fst im) 0 in let '(f, df) := spline im in
     forall x r, In (x, r) out -> - X < x < X -> smooth_at f X x (df x) -> exists v, r = Some v /\ principal_value f X x (PI * v).
Proof. exact tool. Qed.
Print Assumptions C67_tool.
Example C67_tool_case : exists out, kk ex_fcmp exact_integr ex_spline ex_table = Ok out /\ length out = 6%nat.
Proof. unfold kk. rewrite C67_accepts_case. cbn [bind ex_spline]. eexists. split; [reflexivity|]. reflexivity. Qed.

(** A table whose lowest point lies below minus the highest one, within the tolerance, is accepted, but the value at this point is NaN. *)
Theorem C67_asymmetric_refuted : forall fcmp integr spline im0 out, fcmp_contract fcmp -> kk fcmp integr spline im0 = Ok out ->
  exists im, init fcmp im0 = Ok im
  /\ let Xmin := hd 0 (map fst im) in let Xmax := last (map fst im) 0 in
     (Xmin < - Xmax -> hd (0, Some 0) out = (Xmin, None)).
Proof. exact tool_nan. Qed.
Print Assumptions C67_asymmetric_refuted.
Example C67_asymmetric_refuted_case : exists out, kk ex_fcmp exact_integr ex_spline ex_skew = Ok out /\ hd (0, Some 0) out = (low, None).
Proof.
  destruct (kk ex_fcmp exact_integr ex_spline ex_skew) as [out| |] eqn:E.
  - exists out. split; [reflexivity|]. destruct (C67_asymmetric_refuted _ _ _ _ _ ex_fcmp_ok E) as (im & Ei & H).
    rewrite ex_skew_ok in Ei. injection Ei as <-. apply H. cbn. unfold low. lra.
  - exfalso. unfold kk in E. rewrite ex_skew_ok in E. discriminate.
  - exfalso. unfold kk in E. rewrite ex_skew_ok in E. discriminate.
Qed.
