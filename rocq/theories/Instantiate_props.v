(** C68: the data file made from a template describes the model of the template in the basis of its eigenstates. *)
From Coq Require Import List ZArith Reals Ascii String Bool.
From Verif Require Import Base Oprecalc_model Oprecalc_spec Datafile_model Datafile_spec Datafile_aux Instantiate_model Instantiate_spec Instantiate_final Instantiate_same Instantiate_aux.
Import ListNotations.
Local Open Scope string_scope.
Local Open Scope list_scope.

(** A sensible template: a file is made, and what the reader of data files gets from it is the contents of the template, with the energies counted
    from the lowest eigenvalue in units of the scale, all operators in the bases of eigenstates, and the coefficients of the Wilson chain. *)
Theorem C68_instantiated (top : R) (scan_nat : string -> option (nat * string)) (scan_int : string -> option (Z * string)) (scan_R : string -> option (R * string))
    (strtod : string -> option R) (finite : R -> bool) (rescale : R -> R) (show_nat : nat -> string) (show18 show16 : R -> string) (read18 read16 : R -> R)
    (template_file : string -> res string) (evaluate : string -> res (nat * nat * rmatrix)) (dsyev : rmatrix -> res (list R * rmatrix)) :
  (forall x, shows scan_R (read18 x) (show18 x)) -> (forall x, shows scan_R (read16 x) (show16 x)) ->
  (forall n, shows scan_nat n (show_nat n)) -> (forall n, ~ starts_with (fun c => c = "#"%char) (show_nat n)) -> (forall x, finite x = true) ->
  forall (Q : dparams) (nmax : nat) (xi zeta : list R) (T : template) (s : string),
  template_text scan_nat scan_int scan_R strtod template_file evaluate T s -> good_template scan_int Q T ->
  (forall i h, In (i, h) (t_subspaces T) -> symmetric h -> exists val vec, dsyev h = Ok (val, vec) /\ eigenbasis h val vec /\ forall x, In x val -> (x / t_scale T < top)%R) ->
  q_polarized Q = false -> q_pol2x2 Q = false -> (nmax < List.length xi)%nat -> (nmax < List.length zeta)%nat ->
  exists out bases ground d,
    instantiate (real_num top) scan_nat scan_int scan_R strtod finite rescale show_nat show18 show16 template_file evaluate dsyev Q nmax [(xi, zeta)] s = Ok (out, ground) /\
    Forall2 (fun p b => eigenbasis (snd p) (fst b) (snd b)) (t_subspaces T) bases /\ lowest bases ground /\
    read_data R R scan_nat scan_int scan_R scan_R finite rescale Q out = Ok d /\
    stored R R rescale Q (data_content read18 read16 (q_symtype Q) nmax T bases ground xi zeta) d.
Proof. exact (instantiated top scan_nat scan_int scan_R strtod finite rescale show_nat show18 show16 read18 read16 template_file evaluate dsyev). Qed.
Print Assumptions C68_instantiated.
Example C68_instantiated_ex : exists out ground bases d,
  instantiate (real_num 1000) scan_count scan_signed scan_real word_real (fun _ => true) (fun x => x) show_count show_real show_real files solve diagonal ex_params 0 [([4%R], [6%R])] tmpl_text = Ok (out, ground) /\
  read_data R R scan_count scan_signed scan_real scan_real (fun _ => true) (fun x => x) ex_params out = Ok d /\
  stored R R (fun x => x) ex_params (data_content read_real read_real "QS" 0 tmpl bases ground [4%R] [6%R]) d.
Proof.
  destruct (C68_instantiated 1000 scan_count scan_signed scan_real word_real (fun _ => true) (fun x => x) show_count show_real show_real read_real read_real files solve diagonal
    real_shown real_shown count_shown count_hash (fun _ => eq_refl) ex_params 0 [4%R] [6%R] tmpl tmpl_text tmpl_ok tmpl_good tmpl_solved eq_refl eq_refl (le_n _) (le_n _)) as (out & bases & ground & d & H1 & _ & _ & H2 & H3).
  now exists out, ground, bases, d.
Qed.

(** The matrix in the basis of eigenstates describes the same operator: changing back gives the matrix of the template. *)
Theorem C68_same_operator (h : rmatrix) (val : list R) (u : rmatrix) (h' : rmatrix) (val' : list R) (v m : rmatrix) (k l : nat) :
  eigenbasis h val u -> eigenbasis h' val' v -> (k < List.length h)%nat -> (l < List.length h')%nat ->
  total (List.length h) (fun a => total (List.length h') (fun b => entry u a k * entry (in_basis u m v) a b * entry v b l)%R) = entry m k l.
Proof. exact (same_operator h val u h' val' v m k l). Qed.
Print Assumptions C68_same_operator.
(** So does the diagonal matrix of the eigenvalues. *)
Theorem C68_same_hamiltonian (h : rmatrix) (val : list R) (u : rmatrix) (k l : nat) :
  eigenbasis h val u -> (k < List.length h)%nat -> (l < List.length h)%nat ->
  total (List.length h) (fun a => entry u a k * nth a val 0 * entry u a l)%R = entry h k l.
Proof. exact (same_hamiltonian h val u k l). Qed.
Print Assumptions C68_same_hamiltonian.
Example C68_same_ex : eigenbasis h1 [(-10)%R] [[1%R]] /\ eigenbasis h2 [0%R; 25%R] u2.
Proof. exact (conj h1_basis h2_basis). Qed.

(** Any text as a template, any arithmetic: an exception, or a file that the reader accepts, with consistent contents. *)
Theorem C68_accepted_by_reader (V : Type) (N : num V) (scan_nat : string -> option (nat * string)) (scan_int : string -> option (Z * string)) (scan_V : string -> option (V * string))
    (strtod : string -> option V) (finite : V -> bool) (rescale : V -> V) (show_nat : nat -> string) (show18 show16 : V -> string)
    (template_file : string -> res string) (evaluate : string -> res (nat * nat * list (list V))) (dsyev : list (list V) -> res (list V * list (list V))) :
  (forall s, template_file s <> UB) -> (forall s, evaluate s <> UB) -> (forall m, dsyev m <> UB) -> consumes scan_nat -> consumes scan_int -> consumes scan_V ->
  forall (Q : dparams) (nmax : nat) (wilson : list (list V * list V)) (s : string),
  match instantiate N scan_nat scan_int scan_V strtod finite rescale show_nat show18 show16 template_file evaluate dsyev Q nmax wilson s with
  | Ok (out, _) => exists d, read_data V V scan_nat scan_int scan_V scan_V finite rescale Q out = Ok d /\ consistent V V finite Q d
  | Throw => True
  | UB => False
  end.
Proof. exact (accepted N scan_nat scan_int scan_V strtod finite rescale show_nat show18 show16 template_file evaluate dsyev). Qed.
Print Assumptions C68_accepted_by_reader.
Example C68_accepted_by_reader_ex : (forall s, nan_solve s <> UB) /\ (forall m, nan_dsyev m <> UB) /\ consumes scan_count /\ consumes scan_signed /\ consumes scan_opt /\
  exists out, nan_instantiate 0 [([Some 4%Z], [Some 6%Z])] nan_text = Ok (out, Some 5%Z).
Proof. split; [apply nan_defined |]. split; [apply nan_defined |]. split; [exact count_consumes |]. split; [exact signed_consumes |]. split; [exact opt_consumes |]. eexists. vm_compute. reflexivity. Qed.

(** Refuted: "a matrix element that is not a number is never turned into a number".  It is written as zero, and the file is accepted. *)
Theorem C68_not_a_number_refuted : exists out d,
  nan_solve "op.n" = Ok (1%nat, 1%nat, [[None]]) /\
  nan_instantiate 0 [([Some 4%Z], [Some 6%Z])] nan_text = Ok (out, Some 5%Z) /\ nan_read out = Ok d /\
  map_get String.eqb "n_d" (set_of _ (b_ops _ _ (d_blocks _ _ d)) Ts) = Some [(([0; 1], [0; 1])%Z, [[Some 0%Z]])].
Proof. eexists. eexists. split; [reflexivity |]. split; [vm_compute; reflexivity |]. split; vm_compute; reflexivity. Qed.
Print Assumptions C68_not_a_number_refuted.
