(** C64: the data file is read as written; files that are inconsistent or end too early are refused. *)
From Coq Require Import List ZArith Ascii String Bool.
From Verif Require Import Base Oprecalc_model Datafile_model Datafile_spec Datafile_read Datafile_check Datafile_aux.
Import ListNotations.
Local Open Scope string_scope.
Local Open Scope list_scope.

(** Everything that a file with sensible contents says is stored in its place, whatever the layout of the text. *)
Theorem C64_data_file_read (R V : Type) (scan_nat : string -> option (nat * string)) (scan_int : string -> option (Z * string))
    (scan_R : string -> option (R * string)) (scan_V : string -> option (V * string)) (finite : V -> bool) (rescale : R -> R) (Q : dparams) (c : content R V) (s : string) :
  good_content R V scan_int finite Q c -> file_text R V scan_nat scan_int scan_R scan_V (q_invdim Q) c s ->
  exists d, read_data R V scan_nat scan_int scan_R scan_V finite rescale Q s = Ok d /\ stored R V rescale Q c d.
Proof. exact (data_file_read R V scan_nat scan_int scan_R scan_V finite rescale Q c s). Qed.
Print Assumptions C64_data_file_read.
Example C64_data_file_read_ex : good_content Z Z scan_signed small ex_params ex_content /\ file_text Z Z scan_count scan_signed scan_signed scan_signed 2 ex_content ex_text.
Proof. exact (conj ex_good ex_file). Qed.

(** A file that ends inside the sizes, the energies, the f operators or a block is refused. *)
Theorem C64_short_file_refused (R V : Type) (scan_nat : string -> option (nat * string)) (scan_int : string -> option (Z * string))
    (scan_R : string -> option (R * string)) (scan_V : string -> option (V * string)) (finite : V -> bool) (rescale : R -> R) (Q : dparams) (c : content R V) (s : string) :
  good_content R V scan_int finite Q c -> file_cut R V scan_nat scan_int scan_R scan_V (q_invdim Q) c s ->
  read_data R V scan_nat scan_int scan_R scan_V finite rescale Q s = Throw.
Proof. exact (data_file_cut R V scan_nat scan_int scan_R scan_V finite rescale Q c s). Qed.
Print Assumptions C64_short_file_refused.
Example C64_short_file_refused_ex : good_content Z Z scan_signed small ex_params ex_content /\ file_cut Z Z scan_count scan_signed scan_signed scan_signed 2 ex_content ex_cut_text.
Proof. exact (conj ex_good ex_cut). Qed.

(** Any text at all: an exception, or data that are consistent. *)
Theorem C64_accepted_data_consistent (R V : Type) (scan_nat : string -> option (nat * string)) (scan_int : string -> option (Z * string))
    (scan_R : string -> option (R * string)) (scan_V : string -> option (V * string)) (finite : V -> bool) (rescale : R -> R) :
  consumes scan_nat -> consumes scan_int -> consumes scan_R -> consumes scan_V -> forall (Q : dparams) (s : string),
  match read_data R V scan_nat scan_int scan_R scan_V finite rescale Q s with Ok d => consistent R V finite Q d | Throw => True | UB => False end.
Proof. exact (data_checked R V scan_nat scan_int scan_R scan_V finite rescale). Qed.
Print Assumptions C64_accepted_data_consistent.
Example C64_accepted_data_consistent_ex : consumes scan_count /\ consumes scan_signed /\ exists d, read_example ex_text = Ok d.
Proof. split; [exact count_consumes |]. split; [exact signed_consumes |]. destruct (data_file_read Z Z _ _ _ _ _ twice _ _ _ ex_good ex_file) as (d & E & _). now exists d. Qed.

(** Another version, or none. *)
Theorem C64_version_refused (R V : Type) (scan_nat : string -> option (nat * string)) (scan_int : string -> option (Z * string))
    (scan_R : string -> option (R * string)) (scan_V : string -> option (V * string)) (finite : V -> bool) (rescale : R -> R) (Q : dparams) (l : list hline) (s rest : string) :
  header_text l s rest -> (forall w, In (HVersion w) l -> exists v, shows scan_int v w) ->
  ((forall w, ~ In (HVersion w) l) \/ exists l1 w l2 v, l = l1 ++ HVersion w :: l2 /\ shows scan_int v w /\ v <> 9%Z /\ forall w', ~ In (HVersion w') l2) ->
  read_data R V scan_nat scan_int scan_R scan_V finite rescale Q s = Throw.
Proof. exact (version_refused R V scan_nat scan_int scan_R scan_V finite rescale Q l s rest). Qed.
Print Assumptions C64_version_refused.
Example C64_version_refused_ex : header_text [HText " symtype QS"] ("# symtype QS" ++ nl "1 1 2")%string "1 1 2".
Proof. apply (ht_text " symtype QS"); [now apply line_ok | intros H; discriminate |]. apply ht_nil. cbn. split; discriminate. Qed.

(** A file that was made for another symmetry. *)
Theorem C64_symmetry_refused (R V : Type) (scan_nat : string -> option (nat * string)) (scan_int : string -> option (Z * string))
    (scan_R : string -> option (R * string)) (scan_V : string -> option (V * string)) (finite : V -> bool) (rescale : R -> R) (Q : dparams) (l : list hline) (sym s rest : string) :
  consumes scan_nat -> header_text l s rest -> good_header scan_int l sym -> sym <> q_symtype Q ->
  read_data R V scan_nat scan_int scan_R scan_V finite rescale Q s = Throw.
Proof. exact (symtype_refused R V scan_nat scan_int scan_R scan_V finite rescale Q l sym s rest). Qed.
Print Assumptions C64_symmetry_refused.
Example C64_symmetry_refused_ex : header_text (c_header Z Z ex_content) ex_text ex_numbers /\ good_header scan_signed (c_header Z Z ex_content) "QS".
Proof. exact (conj ex_header ex_good_header). Qed.

(** The labels of the f operators are not looked at: with the channels in another order the file is accepted and the operators of the
    channels are interchanged. *)
Theorem C64_f_labels_refuted :
  exists d, read_data Z Z scan_count scan_signed scan_signed scan_signed small twice ex_params (two_channels "0" "1") = Ok d /\
    read_data Z Z scan_count scan_signed scan_signed scan_signed small twice ex_params (two_channels "1" "0") = Ok d /\
    d_opch Z Z d = [[[(([1; 2], [0; 1]), [[3]])]]; [[(([1; 2], [0; 1]), [[4]])]]]%Z.
Proof. exact (ex_intro _ two_data (conj (proj1 labels_ignored) (conj (proj2 labels_ignored) eq_refl))). Qed.
Print Assumptions C64_f_labels_refuted.

(** A file that was cut between two blocks is accepted without the rest. *)
Theorem C64_cut_between_blocks_refuted :
  op_names (read_data Z Z scan_count scan_signed scan_signed scan_signed small twice ex_params (two_channels "0" "1" ++ lost_block)) = Some ["n_d"] /\
  op_names (read_data Z Z scan_count scan_signed scan_signed scan_signed small twice ex_params (two_channels "0" "1")) = Some [].
Proof. exact block_lost. Qed.
Print Assumptions C64_cut_between_blocks_refuted.
