(** Storage theorems in the form used by Storage_props.v. *)
From Coq Require Import List ZArith Lia Bool String Ascii Sorted.
From Verif Require Import Base Invar_model Subspaces_model Storage_model Storage_spec Storage_proofs Storage_io.
Import ListNotations.
Local Open Scope string_scope.
Local Open Scope list_scope.
Local Open Scope Z_scope.

Section Run.
  Context {T : Type}.
  Implicit Types w : world T.

  Lemma crash_atomic fn chunks w o w' : save_file fn chunks w = (o, w') -> w_fs w' fn = w_fs w fn \/ w_fs w' fn = Some (List.concat chunks).
  Proof. intros H. apply (save_file_spec _ _ _ _ _ H). Qed.
  Lemma failed_save fn chunks w w' : save_file fn chunks w = (Exn, w') -> 
    w_fs w' fn = w_fs w fn /\ (w_fs w' (fn ++ ".tmp")%string = None \/ w_left w' = true).
  Proof. intros H. apply (save_file_spec _ _ _ _ _ H). reflexivity. Qed.
  Lemma successful_save fn chunks w w' : save_file fn chunks w = (Val tt, w') ->
    w_fs w' fn = Some (List.concat chunks) /\ w_fs w' (fn ++ ".tmp")%string = None.
  Proof. intros H. apply (save_file_spec _ _ _ _ _ H). reflexivity. Qed.
  Lemma save_only_touches fn chunks w o w' : save_file fn chunks w = (o, w') -> forall g, g <> fn -> g <> (fn ++ ".tmp")%string -> w_fs w' g = w_fs w g.
  Proof. intros H. apply (save_file_spec _ _ _ _ _ H). Qed.

  Lemma history wd l : (forall x, In x l -> no_digit_end (fst (fst x))) -> forall w o w', run_saves wd l w = (o, w') ->
    forall f N, no_digit_end f ->
      w_fs w' (rhofn wd N f) = w_fs w (rhofn wd N f) \/ exists chunks, In (f, N, chunks) l /\ w_fs w' (rhofn wd N f) = Some (List.concat chunks).
  Proof.
    induction l as [|[[f0 N0] chunks] l IH]; intros Hl w o w' H f N Hf.
    - inversion H; subst; auto.
    - cbn [run_saves] in H. unfold iobind in H. destruct (save_file (rhofn wd N0 f0) chunks w) as [o1 w1] eqn:E.
      assert (One : w_fs w1 (rhofn wd N f) = w_fs w (rhofn wd N f) \/ (f, N) = (f0, N0) /\ w_fs w1 (rhofn wd N f) = Some (List.concat chunks)).
      { destruct (string_dec f f0) as [->|Nf]; [destruct (Nat.eq_dec N N0) as [->|NN]|].
        - destruct (crash_atomic _ _ _ _ _ E); auto.
        - left. eapply save_step_others; eauto. congruence.
        - left. eapply save_step_others; eauto; [apply (Hl (f0, N0, chunks)); left; reflexivity|congruence]. }
      assert (Stop : w' = w1 -> w_fs w' (rhofn wd N f) = w_fs w (rhofn wd N f) \/
               exists chunks0, In (f, N, chunks0) ((f0, N0, chunks) :: l) /\ w_fs w' (rhofn wd N f) = Some (List.concat chunks0)).
      { intros ->. destruct One as [X|[Ef X]]; [auto|right]. inversion Ef; subst. exists chunks. split; [left; reflexivity|exact X]. }
      destruct o1 as [[]| |]; [|apply Stop; congruence|apply Stop; congruence].
      destruct (IH (fun x Hx => Hl x (or_intror Hx)) _ _ _ H f N Hf) as [X|(c & Hc & X)].
      + rewrite X. destruct One as [Y|[Ef Y]]; [auto|right]. inversion Ef; subst. exists chunks. split; [left; reflexivity|exact Y].
      + right. exists c. split; [right; exact Hc|exact X].
  Qed.

  Lemma other_steps wd f N chunks w o w' : save_file (rhofn wd N f) chunks w = (o, w') -> no_digit_end f ->
    forall f' N', no_digit_end f' -> (f', N') <> (f, N) -> w_fs w' (rhofn wd N' f') = w_fs w (rhofn wd N' f').
  Proof. apply save_step_others. Qed.

  Lemma load_atomic fn (d : rd T) rm w o w' : load_file fn d rm w = (o, w') ->
    (o = Val tt -> exists c r, w_fs w fn = Some c /\ d c = Some (w_mem w', r) /\ w_fs w' fn = if rm then None else w_fs w fn) /\
    (o = Exn -> w_mem w' = w_mem w /\ w_fs w' fn = w_fs w fn) /\
    (w_fs w' fn <> w_fs w fn -> rm = true /\ w_fs w' fn = None /\ exists c r a, w_fs w fn = Some c /\ d c = Some (a, r)) /\
    (forall g, g <> fn -> w_fs w' g = w_fs w g).
  Proof.
    intros H. destruct (load_file_spec _ _ _ _ _ _ H) as (A & B & C & D & E). split; [exact B|]. split; [|split; [exact E|exact A]].
    intros ->. split; [apply C; discriminate|apply D; reflexivity].
  Qed.
End Run.

(** Saved contents of a map, read by the matching reader. *)
Section Codec.
  Context {V : Type} (hdr : bytes) (enc : V -> bytes) (dec : rd V).
  Notation obj := (list (invar * V)).
  Definition coded (m : obj) : Prop := wf_map m /\ Forall (fun p => codes dec (enc (snd p)) (snd p)) m.
  Lemma load_of_saved m : coded m -> load_map hdr dec (save_map hdr enc m) = Some (m, []).
  Proof. intros [H1 H2]. destruct (codes_map hdr enc dec m H1 H2) as [H _]. rewrite <- (app_nil_r (save_map hdr enc m)) at 1. apply H. Qed.

  (** Save with any events (crash, failures), then restart and load without events. *)
  Lemma recoverable fn (old new : obj) (w : world obj) o w' w2 : coded old -> coded new -> w_fs w fn = Some (save_map hdr enc old) ->
    save_file fn (chunk_list hdr enc new) w = (o, w') ->
    w_fs w2 = w_fs w' -> w_ev w2 = [] ->
    exists w3, load_file fn (load_map hdr dec) false w2 = (Val tt, w3) /\ (w_mem w3 = old \/ w_mem w3 = new) /\ (o = Val tt -> w_mem w3 = new).
  Proof.
    intros Ho Hn Hf H E2 Ev.
    assert (Hb : benign w2) by (intros e He; rewrite Ev in He; destruct He).
    destruct (save_file_spec _ _ _ _ _ H) as (A & B & _).
    destruct o as [[]| |].
    - destruct (B eq_refl) as [X _].
      destruct (load_file_succeeds fn (load_map hdr dec) false w2 _ new [] Hb ltac:(rewrite E2; exact X) (load_of_saved new Hn)) as (w3 & L & M).
      exists w3. auto.
    - destruct A as [X|X].
      + rewrite Hf in X. destruct (load_file_succeeds fn (load_map hdr dec) false w2 _ old [] Hb ltac:(rewrite E2; exact X) (load_of_saved old Ho)) as (w3 & L & M).
        exists w3. split; [auto|]. split; [auto|discriminate].
      + destruct (load_file_succeeds fn (load_map hdr dec) false w2 _ new [] Hb ltac:(rewrite E2; exact X) (load_of_saved new Hn)) as (w3 & L & M).
        exists w3. split; [auto|]. split; [auto|discriminate].
    - destruct A as [X|X].
      + rewrite Hf in X. destruct (load_file_succeeds fn (load_map hdr dec) false w2 _ old [] Hb ltac:(rewrite E2; exact X) (load_of_saved old Ho)) as (w3 & L & M).
        exists w3. split; [auto|]. split; [auto|discriminate].
      + destruct (load_file_succeeds fn (load_map hdr dec) false w2 _ new [] Hb ltac:(rewrite E2; exact X) (load_of_saved new Hn)) as (w3 & L & M).
        exists w3. split; [auto|]. split; [auto|discriminate].
  Qed.
End Codec.

Lemma matrix_roundtrip (S : scalar) : faithful S -> forall m : mat S, wf_mat m ->
  (forall r, load_mat (save_mat m ++ r) = Some (m, r)) /\ (forall p, proper_prefix p (save_mat m) -> @load_mat S p = None).
Proof. intros HS m Hm. exact (codes_mat S m HS Hm). Qed.

Lemma eigen_roundtrip (F S : scalar) (nan : F) : faithful F -> faithful S -> forall x : eigen F S, eigen_ok nan x ->
  (forall r, load_eigen F S (eigen0 F S nan) (save_eigen F S x ++ r) = Some (x, r)) /\
  (forall p, proper_prefix p (save_eigen F S x) -> load_eigen F S (eigen0 F S nan) p = None).
Proof. intros HF HS x [Hx Hn]. exact (codes_eigen F S HF HS (eigen0 F S nan) x Hx Hn). Qed.

Lemma diag_coded (F S : scalar) (nan : F) : faithful F -> faithful S -> forall m, diag_ok nan m -> coded (save_eigen F S) (load_eigen F S (eigen0 F S nan)) m.
Proof.
  intros HF HS m [H1 H2]. split; [exact H1|]. rewrite Forall_forall in *. intros p Hp. destruct (H2 p Hp) as [A B].
  exact (codes_eigen F S HF HS (eigen0 F S nan) _ A B).
Qed.
Lemma rho_coded (S : scalar) : faithful S -> forall m, rho_ok m -> coded (@save_mat S) load_mat m.
Proof. intros HS m [H1 H2]. split; [exact H1|]. rewrite Forall_forall in *. intros p Hp. apply codes_mat; auto. Qed.
Lemma diag_roundtrip (F S : scalar) (nan : F) (hdr : bytes) : faithful F -> faithful S -> forall m, diag_ok nan m ->
  load_map hdr (load_eigen F S (eigen0 F S nan)) (save_map hdr (save_eigen F S) m) = Some (m, []) /\
  (forall p, proper_prefix p (save_map hdr (save_eigen F S) m) -> load_map hdr (load_eigen F S (eigen0 F S nan)) p = None).
Proof.
  intros HF HS m Hm. pose proof (diag_coded F S nan HF HS m Hm) as Hc. split; [apply load_of_saved; exact Hc|].
  destruct Hc as [A B]. apply (codes_map hdr _ _ m A B).
Qed.
Lemma rho_roundtrip (S : scalar) (hdr : bytes) : faithful S -> forall m, rho_ok m ->
  load_map hdr (@load_mat S) (save_map hdr save_mat m) = Some (m, []) /\
  (forall p, proper_prefix p (save_map hdr (@save_mat S) m) -> load_map hdr (@load_mat S) p = None).
Proof.
  intros HS m Hm. pose proof (rho_coded S HS m Hm) as Hc. split; [apply load_of_saved; exact Hc|].
  destruct Hc as [A B]. apply (codes_map hdr _ _ m A B).
Qed.
Lemma diag_recoverable (F S : scalar) (nan : F) (hdr : bytes) : faithful F -> faithful S -> forall fn old new (w : world (list (invar * eigen F S))) o w' w2,
  diag_ok nan old -> diag_ok nan new -> w_fs w fn = Some (save_map hdr (save_eigen F S) old) ->
  save_file fn (chunk_list hdr (save_eigen F S) new) w = (o, w') -> w_fs w2 = w_fs w' -> w_ev w2 = [] ->
  exists w3, load_file fn (load_map hdr (load_eigen F S (eigen0 F S nan))) false w2 = (Val tt, w3) /\ (w_mem w3 = old \/ w_mem w3 = new) /\ (o = Val tt -> w_mem w3 = new).
Proof. intros HF HS fn old new w o w' w2 Ho Hn. apply recoverable; apply diag_coded; auto. Qed.
Lemma rho_recoverable (S : scalar) (hdr : bytes) : faithful S -> forall fn old new (w : world (list (invar * mat S))) o w' w2,
  rho_ok old -> rho_ok new -> w_fs w fn = Some (save_map hdr save_mat old) ->
  save_file fn (chunk_list hdr (@save_mat S) new) w = (o, w') -> w_fs w2 = w_fs w' -> w_ev w2 = [] ->
  exists w3, load_file fn (load_map hdr (@load_mat S)) false w2 = (Val tt, w3) /\ (w_mem w3 = old \/ w_mem w3 = new) /\ (o = Val tt -> w_mem w3 = new).
Proof. intros HS fn old new w o w' w2 Ho Hn. apply recoverable; apply rho_coded; auto. Qed.

(** Resume. *)
Lemma resume_never (resume : bool) fs wd Ninit ndx : reuses resume (params_laststored resume fs wd Ninit) ndx = false.
Proof. unfold params_laststored, init_laststored, last_found. replace (0 - Ninit)%nat with 0%nat by lia. destruct resume; reflexivity. Qed.
Lemma resume_refuted : exists fs wd Ninit Nmax, (Ninit < Nmax)%nat /\ (forall N, (Ninit <= N < Nmax)%nat -> exists c, fs (unitaryfn wd N) = Some c) /\
  forall ndx, (Ninit <= ndx < Nmax)%nat -> reuses true (params_laststored true fs wd Ninit) ndx = false.
Proof.
  exists (fun _ => Some []), "wd", 0%nat, 20%nat. split; [lia|]. split; [eauto|]. intros; apply resume_never.
Qed.
(** Were the search for stored steps to run with the final Nmax, consecutive stored steps would be reused. *)
Lemma last_found_max fs wd Ninit Nmax k : (Ninit <= k < Nmax)%nat -> (exists c, fs (unitaryfn wd k) = Some c) ->
  (forall N, (k < N < Nmax)%nat -> fs (unitaryfn wd N) = None) -> last_found fs wd Ninit Nmax = Some k.
Proof.
  intros Hk [c Hc] Hn. unfold last_found.
  replace (Nmax - Ninit)%nat with ((k - Ninit) + S (Nmax - k - 1))%nat by lia. rewrite seq_app, fold_left_app.
  set (f := fun acc N => match fs (unitaryfn wd N) with Some _ => Some N | None => acc end).
  set (a := fold_left f _ None). clearbody a. cbn [seq fold_left]. replace (Ninit + (k - Ninit))%nat with k by lia. unfold f at 2. rewrite Hc.
  assert (G : forall n s, (k < s)%nat -> (s + n <= Nmax)%nat -> fold_left f (seq s n) (Some k) = Some k).
  { induction n as [|n IH]; intros s H1 H2; [reflexivity|]. cbn [seq fold_left]. unfold f at 2. rewrite Hn by lia. apply IH; lia. }
  apply G; lia.
Qed.
Lemma resume_if_fixed fs wd Ninit Nmax k : (Ninit <= k < Nmax)%nat -> (exists c, fs (unitaryfn wd k) = Some c) ->
  (forall N, (k < N < Nmax)%nat -> fs (unitaryfn wd N) = None) ->
  forall ndx, (Ninit <= ndx)%nat -> reuses true (init_laststored true fs wd Ninit Nmax) ndx = true <-> (ndx <= k)%nat.
Proof. intros H1 H2 H3 ndx Hx. unfold reuses, init_laststored. rewrite (last_found_max _ _ _ _ k) by auto. cbn [andb]. apply Nat.leb_le. Qed.

(** Concrete cases. *)
Definition bit : scalar := {| sc_type := bool; sc_width := 1; sc_image := fun b : bool => [if b then 1 else 0]; sc_of := fun l => match l with [1] => true | _ => false end |}.
Definition world_of (ev : list event) : world unit :=
  {| w_fs := fun g => if String.eqb g (unitaryfn "wd" 12) then Some [7; 7] else None; w_out := None; w_bad := false; w_mem := tt; w_left := false; w_ev := ev |}.
Definition one_file (c : bytes) (ev : list event) : world (mat bit) :=
  {| w_fs := fun g => if String.eqb g "f" then Some c else None; w_out := None; w_bad := false;
     w_mem := {| mt_rows := 0; mt_cols := 0; mt_el := [] |}; w_left := false; w_ev := ev |}.
Definition some_mat : mat bit := {| mt_rows := 2; mt_cols := 1; mt_el := [[true]; [false]] |}.
Definition some_eigen : eigen bit bit :=
    {| en_values := {| vl_v := [true; false] : list bit; vl_scale := true : bit; vl_shift := true; vl_T_shift := true; vl_abs_GS := true; vl_corrected := [] : list bit; vl_c := [true] : list bit; vl_c_shift := false |};
       en_vectors := {| vc_m := some_mat; vc_dim := 1 |}; en_U := [some_mat; some_mat]; en_nrpost := -1; en_nrstored := 5; en_last := true |}.
