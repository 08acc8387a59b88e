(** Property theorem C33. *)
From Coq Require Import List ZArith.
From Verif Require Import Base Invar_model Invar_spec Symmetry_model Symmetry_spec Symmetry_tables Subspaces_model Density_model Recalc_model
  Hamilton_model Hamilton_spec Hamilton_step Hamilton_aux.
From mathcomp Require Import ssreflect ssrfun ssrbool eqtype ssrnat fintype bigop ssralg ssrnum.
Import GRing.Theory Num.Theory.
Local Open Scope ring_scope.

(** C33. For every shipped symmetry table, every set of spectra of the previous step, every sector and every list of table
    lines: the matrix is built without error exactly when every line is acceptable.  It then has one row per basis state
    (local state, ancestor state), only its upper triangle is filled, and the Hermitian matrix it stands for is the rescaled
    diagonal of old energies plus the sum of the operators of the lines. *)
Theorem C33_hamiltonian : forall (C : numClosedFieldType) (sh : shipped_table) (scale stp : C) (spin : nat) prev opch J,
  List.In sh shipped -> admissible (ts (sh_sym sh)) J -> spectra C prev ->
  (forall A x, List.In (A, x) prev -> multiplet (sh_sym sh) A) -> forall calls,
  exists d anc, ancestors (sh_sym sh) (sh_combs sh) (sh_tab sh) J = Ok anc /\
    mk_subdims (sh_sym sh) (sh_combs sh) (sh_tab sh) (List.map (fun p => (fst p, Z.of_nat (fst (snd p)))) prev) J anc =
      Ok {| sd_dims := d; sd_anc := anc |} /\
    List.length d = sh_combs sh /\
    ((exists h, hamiltonian (sh_sym sh) (sh_combs sh) (sh_tab sh) scale stp spin prev opch J calls = Ok h) <->
     forall c, List.In c calls -> acceptable C d anc opch c) /\
    forall h, hamiltonian (sh_sym sh) (sh_combs sh) (sh_tab sh) scale stp spin prev opch J calls = Ok h ->
      Z.of_nat (f_rows h) = zsum d /\ Z.of_nat (f_cols h) = zsum d /\ upper C h /\
      (forall r, Nat.lt r (f_rows h) -> exists i a, Nat.lt i (List.length d) /\ Nat.lt a (bsize d i) /\ r = row d i a) /\
      forall i a j b, Nat.lt i (List.length d) -> Nat.lt a (bsize d i) -> Nat.lt j (List.length d) -> Nat.lt b (bsize d j) ->
        completed C h (row d i a) (row d j b) =
        (if Nat.eqb i j && Nat.eqb a b then stp * old_energy C anc prev i a else 0) + sum_terms C scale spin anc opch calls i a j b.
Proof. exact hamiltonian_ok. Qed.
Print Assumptions C33_hamiltonian.

(** Four ancestors with 1, 2, 1 and 1 states, a term above and one below the diagonal, a shift and a constant coupling. *)
Example C33_example : forall C : numClosedFieldType,
  List.In ham_sh shipped /\ admissible (ts (sh_sym ham_sh)) ham_J /\ spectra C (ham_prev C) /\
  (forall A x, List.In (A, x) (ham_prev C) -> multiplet (sh_sym ham_sh) A) /\
  exists d anc, ancestors (sh_sym ham_sh) (sh_combs ham_sh) (sh_tab ham_sh) ham_J = Ok anc /\
    mk_subdims (sh_sym ham_sh) (sh_combs ham_sh) (sh_tab ham_sh) (List.map (fun p => (fst p, Z.of_nat (fst (snd p)))) (ham_prev C)) ham_J anc =
      Ok {| sd_dims := d; sd_anc := anc |} /\ d = cons 1%Z (cons 2%Z (cons 1%Z (cons 1%Z nil))) /\
    (forall c, List.In c (ham_calls C) -> acceptable C d anc (ham_opch C) c) /\
    term C 1 2 anc (ham_opch C) (COffdiag 1 2 0 0 (Some 2%:R)) 0 0 1 1 = 4%:R /\
    term C 1 2 anc (ham_opch C) (COffdiag 4 3 0 0 (Some 3%:R)) 2 0 3 0 = - (3%:R * 'i).
Proof. exact ham_case. Qed.

(** C33 does not hold of the total-angular-momentum symmetry, whose own wrapper around the hopping term looks at the sectors of
    the following local states: the first line of its table is never inserted although its two sectors are coupled, and the
    lines naming the last local state read past the end of the list of sectors.  Both for every sector and every matrix. *)
Theorem C33_angular_momentum_first_refuted : forall (C : numClosedFieldType) (scale : C) d anc opch J,
  admissible (ts (sh_sym qj_sh)) J -> ancestors (sh_sym qj_sh) (sh_combs qj_sh) (sh_tab qj_sh) J = Ok anc ->
  (forall fnr factor h, offdiag_QJ scale d anc opch (sh_sym qj_sh) qj_f 1 2 0 fnr factor h = Ok h) /\
  ((2 <= List.nth 1 J 0)%Z -> exists A B, List.nth_error anc 0 = Some A /\ List.nth_error anc 1 = Some B /\
    triangle (sh_sym qj_sh) A B (qj_f 0) = Ok true).
Proof. exact (fun C scale d anc opch J HJ Ha => conj (@qj_first C scale d anc opch J HJ Ha) (@qj_true anc J HJ Ha)). Qed.
Print Assumptions C33_angular_momentum_first_refuted.

Theorem C33_angular_momentum_last_refuted : forall (C : numClosedFieldType) (scale : C) d anc opch J,
  admissible (ts (sh_sym qj_sh)) J -> ancestors (sh_sym qj_sh) (sh_combs qj_sh) (sh_tab qj_sh) J = Ok anc ->
  forall ch fnr factor h, offdiag_QJ scale d anc opch (sh_sym qj_sh) qj_f 58 64 ch fnr factor h = UB.
Proof. exact qj_last. Qed.
Print Assumptions C33_angular_momentum_last_refuted.
