(** Property theorems C17, C18, C19, C29. *)
From Coq Require Import List ZArith Bool String Sorted.
From Verif Require Import Base Invar_model Subspaces_model Storage_model Storage_spec Storage_proofs Storage_io Storage_aux.
Import ListNotations.
Local Open Scope string_scope.
Local Open Scope list_scope.
Local Open Scope Z_scope.

(** C17. The events of [w] (every crash point, every failing operation, every amount of data written early) are arbitrary. *)
Theorem C17_crash_atomic : forall T fn chunks (w : world T) o w', save_file fn chunks w = (o, w') ->
  w_fs w' fn = w_fs w fn \/ w_fs w' fn = Some (List.concat chunks).
Proof. exact @crash_atomic. Qed.
Print Assumptions C17_crash_atomic.
Theorem C17_failed_save : forall T fn chunks (w w' : world T), save_file fn chunks w = (Exn, w') ->
  w_fs w' fn = w_fs w fn /\ (w_fs w' (fn ++ ".tmp")%string = None \/ w_left w' = true).
Proof. exact @failed_save. Qed.
Print Assumptions C17_failed_save.
Theorem C17_successful_save : forall T fn chunks (w w' : world T), save_file fn chunks w = (Val tt, w') ->
  w_fs w' fn = Some (List.concat chunks) /\ w_fs w' (fn ++ ".tmp")%string = None.
Proof. exact @successful_save. Qed.
Print Assumptions C17_successful_save.
Theorem C17_only_touches_its_files : forall T fn chunks (w : world T) o w', save_file fn chunks w = (o, w') ->
  forall g, g <> fn -> g <> (fn ++ ".tmp")%string -> w_fs w' g = w_fs w g.
Proof. exact @save_only_touches. Qed.
Print Assumptions C17_only_touches_its_files.
Theorem C17_other_steps_untouched : forall T wd f N chunks (w : world T) o w', save_file (rhofn wd N f) chunks w = (o, w') -> no_digit_end f ->
  forall f' N', no_digit_end f' -> (f', N') <> (f, N) -> w_fs w' (rhofn wd N' f') = w_fs w (rhofn wd N' f').
Proof. exact @other_steps. Qed.
Print Assumptions C17_other_steps_untouched.
Theorem C17_history : forall T wd l, (forall x, In x l -> no_digit_end (fst (fst x))) -> forall (w : world T) o w', run_saves wd l w = (o, w') ->
  forall f N, no_digit_end f ->
    w_fs w' (rhofn wd N f) = w_fs w (rhofn wd N f) \/ exists chunks, In (f, N, chunks) l /\ w_fs w' (rhofn wd N f) = Some (List.concat chunks).
Proof. exact @history. Qed.
Print Assumptions C17_history.
Theorem C17_unitary_recoverable : forall (F S : scalar) (nan : F) (hdr : bytes), faithful F -> faithful S ->
  forall fn old new (w : world (list (invar * eigen F S))) o w' w2,
  diag_ok nan old -> diag_ok nan new -> w_fs w fn = Some (save_map hdr (save_eigen F S) old) ->
  save_file fn (chunk_list hdr (save_eigen F S) new) w = (o, w') -> w_fs w2 = w_fs w' -> w_ev w2 = [] ->
  exists w3, load_file fn (load_map hdr (load_eigen F S (eigen0 F S nan))) false w2 = (Val tt, w3) /\ (w_mem w3 = old \/ w_mem w3 = new) /\ (o = Val tt -> w_mem w3 = new).
Proof. exact diag_recoverable. Qed.
Print Assumptions C17_unitary_recoverable.
Theorem C17_rho_recoverable : forall (S : scalar) (hdr : bytes), faithful S ->
  forall fn old new (w : world (list (invar * mat S))) o w' w2,
  rho_ok old -> rho_ok new -> w_fs w fn = Some (save_map hdr save_mat old) ->
  save_file fn (chunk_list hdr (@save_mat S) new) w = (o, w') -> w_fs w2 = w_fs w' -> w_ev w2 = [] ->
  exists w3, load_file fn (load_map hdr (@load_mat S)) false w2 = (Val tt, w3) /\ (w_mem w3 = old \/ w_mem w3 = new) /\ (o = Val tt -> w_mem w3 = new).
Proof. exact rho_recoverable. Qed.
Print Assumptions C17_rho_recoverable.
Theorem C17_undisturbed_save_succeeds : forall T fn chunks (w : world T), (forall e, In e (w_ev w) -> exists k, e = EvOk k) ->
  exists w', save_file fn chunks w = (Val tt, w').
Proof. exact @save_file_succeeds. Qed.
Print Assumptions C17_undisturbed_save_succeeds.
(** The directory holds an old version; the process dies in the third operation (5 bytes written), fails while flushing, or succeeds. *)
Example C17_case : no_digit_end "unitary" /\ no_digit_end "rho" /\ no_digit_end "rhofdm" /\
  (let r := save_file (unitaryfn "wd" 12) [[1; 2; 3]; [4; 5; 6]] (world_of [EvOk 0; EvOk 1; EvCrash 5]) in
   fst r = Dead /\ w_fs (snd r) "wd/unitary12" = Some [7; 7] /\ w_fs (snd r) "wd/unitary12.tmp" = Some [1; 2; 3; 4; 5; 6]) /\
  (let r := save_file (unitaryfn "wd" 12) [[1; 2; 3]; [4; 5; 6]] (world_of [EvOk 0; EvOk 1; EvOk 2; EvFail 1]) in
   fst r = Exn /\ w_fs (snd r) "wd/unitary12" = Some [7; 7] /\ w_fs (snd r) "wd/unitary12.tmp" = None) /\
  (let r := save_file (unitaryfn "wd" 12) [[1; 2; 3]; [4; 5; 6]] (world_of []) in
   fst r = Val tt /\ w_fs (snd r) "wd/unitary12" = Some [1; 2; 3; 4; 5; 6] /\ w_fs (snd r) "wd/unitary12.tmp" = None).
Proof. repeat split; try (intros d H; inversion H; reflexivity); try discriminate; reflexivity. Qed.

(** C18 *)
Theorem C18_load_atomic : forall T fn (d : rd T) rm (w : world T) o w', load_file fn d rm w = (o, w') ->
  (o = Val tt -> exists c r, w_fs w fn = Some c /\ d c = Some (w_mem w', r) /\ w_fs w' fn = if rm then None else w_fs w fn) /\
  (o = Exn -> w_mem w' = w_mem w /\ w_fs w' fn = w_fs w fn) /\
  (w_fs w' fn <> w_fs w fn -> rm = true /\ w_fs w' fn = None /\ exists c r a, w_fs w fn = Some c /\ d c = Some (a, r)) /\
  (forall g, g <> fn -> w_fs w' g = w_fs w g).
Proof. exact @load_atomic. Qed.
Print Assumptions C18_load_atomic.
Theorem C18_undisturbed_load : forall T fn (d : rd T) rm (w : world T) c a r, (forall e, In e (w_ev w) -> exists k, e = EvOk k) ->
  w_fs w fn = Some c -> d c = Some (a, r) -> exists w', load_file fn d rm w = (Val tt, w') /\ w_mem w' = a.
Proof. exact @load_file_succeeds. Qed.
Print Assumptions C18_undisturbed_load.
Example C18_case :
  (let r := load_file "f" load_mat true (one_file (save_mat some_mat) []) in fst r = Val tt /\ w_mem (snd r) = some_mat /\ w_fs (snd r) "f" = None) /\
  (let r := load_file "f" load_mat true (one_file (removelast (save_mat some_mat)) []) in
   fst r = Exn /\ w_mem (snd r) = w_mem (one_file [] []) /\ w_fs (snd r) "f" = Some (removelast (save_mat some_mat))) /\
  (let r := load_file "f" load_mat true (one_file (save_mat some_mat) [EvOk 0; EvOk 0; EvOk 0; EvFail 0]) in
   fst r = Exn /\ w_mem (snd r) = w_mem (one_file [] []) /\ w_fs (snd r) "f" = Some (save_mat some_mat)).
Proof. repeat split; vm_compute; reflexivity. Qed.

(** C19. Reading back what was written gives the same object; every incomplete copy is rejected. *)
Theorem C19_matrix_roundtrip : forall S : scalar, faithful S -> forall m : mat S, wf_mat m ->
  (forall r, load_mat (save_mat m ++ r) = Some (m, r)) /\ (forall p, proper_prefix p (save_mat m) -> @load_mat S p = None).
Proof. exact matrix_roundtrip. Qed.
Print Assumptions C19_matrix_roundtrip.
Theorem C19_eigen_roundtrip : forall (F S : scalar) (nan : F), faithful F -> faithful S -> forall x : eigen F S, eigen_ok nan x ->
  (forall r, load_eigen F S (eigen0 F S nan) (save_eigen F S x ++ r) = Some (x, r)) /\
  (forall p, proper_prefix p (save_eigen F S x) -> load_eigen F S (eigen0 F S nan) p = None).
Proof. exact eigen_roundtrip. Qed.
Print Assumptions C19_eigen_roundtrip.
Theorem C19_unitary_file_roundtrip : forall (F S : scalar) (nan : F) (hdr : bytes), faithful F -> faithful S -> forall m, diag_ok nan m ->
  load_map hdr (load_eigen F S (eigen0 F S nan)) (save_map hdr (save_eigen F S) m) = Some (m, []) /\
  (forall p, proper_prefix p (save_map hdr (save_eigen F S) m) -> load_map hdr (load_eigen F S (eigen0 F S nan)) p = None).
Proof. exact diag_roundtrip. Qed.
Print Assumptions C19_unitary_file_roundtrip.
Theorem C19_rho_file_roundtrip : forall (S : scalar) (hdr : bytes), faithful S -> forall m, rho_ok m ->
  load_map hdr (@load_mat S) (save_map hdr save_mat m) = Some (m, []) /\
  (forall p, proper_prefix p (save_map hdr (@save_mat S) m) -> load_map hdr (@load_mat S) p = None).
Proof. exact rho_roundtrip. Qed.
Print Assumptions C19_rho_file_roundtrip.
Example C19_case : faithful bit /\ wf_mat some_mat /\ rho_ok [([0; -1], some_mat); ([0; 2], {| mt_rows := 0; mt_cols := 3; mt_el := [] |})] /\
  eigen_ok (F := bit) (S := bit) false some_eigen.
Proof.
  split; [intros [|]; split; reflexivity|].
  assert (Hm : wf_mat some_mat) by (repeat split; try (apply Z.leb_le; reflexivity); try reflexivity; repeat constructor).
  split; [exact Hm|]. split.
  - split; [|repeat constructor; try exact Hm; try (apply Z.leb_le; reflexivity)]. split; [split; [apply Z.leb_le|]; reflexivity|]. split.
    + repeat constructor; try (apply Z.leb_le; reflexivity).
    + repeat constructor.
  - split; [|reflexivity]. repeat split; try (apply Z.leb_le; reflexivity); try reflexivity; repeat constructor; try (apply Z.leb_le; reflexivity).
Qed.

(** C29: refuted - stored steps are never reused. *)
Theorem C29_resume_refuted : exists fs wd Ninit Nmax, (Ninit < Nmax)%nat /\ (forall N, (Ninit <= N < Nmax)%nat -> exists c, fs (unitaryfn wd N) = Some c) /\
  forall ndx, (Ninit <= ndx < Nmax)%nat -> reuses true (params_laststored true fs wd Ninit) ndx = false.
Proof. exact resume_refuted. Qed.
Print Assumptions C29_resume_refuted.
Theorem C29_resume_is_ignored : forall resume fs wd Ninit ndx, reuses resume (params_laststored resume fs wd Ninit) ndx = false.
Proof. exact resume_never. Qed.
Print Assumptions C29_resume_is_ignored.
(** What the code would do if the search ran after Nmax is known. *)
Theorem C29_resume_with_known_Nmax : forall fs wd Ninit Nmax k, (Ninit <= k < Nmax)%nat -> (exists c, fs (unitaryfn wd k) = Some c) ->
  (forall N, (k < N < Nmax)%nat -> fs (unitaryfn wd N) = None) ->
  forall ndx, (Ninit <= ndx)%nat -> reuses true (init_laststored true fs wd Ninit Nmax) ndx = true <-> (ndx <= k)%nat.
Proof. exact resume_if_fixed. Qed.
Print Assumptions C29_resume_with_known_Nmax.
Example C29_case : let fs := fun g => if String.eqb g (unitaryfn "d" 3) then Some [1] else None in
  init_laststored true fs "d" 0 10 = Some 3%nat /\ params_laststored true fs "d" 0 = None.
Proof. split; reflexivity. Qed.
