(** What C64 talks about: the text of a data file with given contents. *)
From Coq Require Import List ZArith Ascii String.
From Verif Require Import Base Oprecalc_model Oprecalc_spec Datafile_model.
Import ListNotations.
Local Open Scope string_scope.
Local Open Scope list_scope.

Definition all_blank (s : string) : Prop := all_chars (fun c => blank c = true) s.
Definition one_line (s : string) : Prop := all_chars (fun c => c <> newline) s.
(** The word [w] is read by [scan] as [v], and nothing after it is touched; nothing is read from an empty text. *)
Definition shows {A} (scan : string -> option (A * string)) (v : A) (w : string) : Prop :=
  w <> "" /\ all_chars (fun c => blank c = false) w /\ (forall s, starts_blank s -> scan (w ++ s)%string = Some (v, s)) /\ scan "" = None.
(** [s] consists of the words separated by any blank space (blanks, tabs, newlines), and then [rest]. *)
Inductive joined : list string -> string -> string -> Prop :=
| j_nil s : joined [] s s
| j_cons b w ws s rest : all_blank b -> starts_blank s -> joined ws s rest -> joined (w :: ws) (b ++ w ++ s)%string rest.
(** Comment lines and blank space. *)
Inductive filler : string -> Prop :=
| f_nil : filler ""
| f_space c s : In c [" "%char; tab; newline] -> filler s -> filler (String c s)
| f_comment t s : one_line t -> filler s -> filler (String "#" (t ++ String newline s))%string.
Definition starts_with (p : ascii -> Prop) (s : string) : Prop := match s with "" => False | String c _ => p c end.

(** ** Sizes *)
Definition ops_per_channel (sym : string) : nat :=
  if in_dec string_dec sym ["U1"; "SU2"; "DBLSU2"] then 2 (* spin up and down *)
  else if in_dec string_dec sym ["NONE"; "P"; "PP"] then 4 (* also creation and annihilation *)
  else 1.
Definition tables_expected (Q : dparams) (channels : nat) : nat :=
  match q_pol2x2 Q, q_polarized Q with true, _ => 4 * channels | false, true => 2 * channels | false, false => channels end.

(** ** Header *)
Inductive hline := HText (t : string) | HVersion (w : string).
Definition contains_symtype (t : string) : Prop := exists a b, a <> "" /\ t = (a ++ "symtype" ++ b)%string.
(** The line ends with the name of the symmetry. *)
Definition names_symtype (t sym : string) : Prop :=
  contains_symtype t /\ sym <> "" /\ all_chars (fun c => c <> " "%char /\ c <> tab) sym /\
  exists a c, t = (a ++ String c sym)%string /\ (c = " "%char \/ c = tab).
Inductive header_text : list hline -> string -> string -> Prop :=
| ht_nil s : starts_with (fun c => c <> "#"%char /\ c <> newline) s -> header_text [] s s
| ht_text t l s rest : one_line t -> ~ starts_with (fun c => c = "!"%char) t -> header_text l s rest ->
    header_text (HText t :: l) (String "#" (t ++ String newline s)) rest
| ht_version w l s rest : header_text l s rest -> header_text (HVersion w :: l) (String "#" (String "!" (w ++ String newline s))) rest.

Section Contents.
  Variables (R V : Type) (scan_nat : string -> option (nat * string)) (scan_int : string -> option (Z * string))
    (scan_R : string -> option (R * string)) (scan_V : string -> option (V * string)) (finite : V -> bool) (rescale : R -> R).
  Notation elements := (list ((list Z * list Z) * list (list V))).

  Inductive item :=
  | IComment (text : string)
  | IEnergy (label : string) (x : R)
  | IOp (t : optype) (name : string) (m : elements)
  | ICoef (letter : ascii) (label : string) (tabs : list (list (list V))).
  Record content := {
    c_header : list hline; c_symtype : string; c_channels : nat; c_Nmax : nat; c_subspaces : list (list Z * list R);
    c_f : list (list elements); c_items : list item }.

  (** ** Words *)
  Definition tok_vector {A} (scan : string -> option (A * string)) (v : list A) (ws : list string) : Prop := Forall2 (shows scan) v ws.
  (** A length (or the last index) and the values. *)
  Definition tok_counted {A} (scan : string -> option (A * string)) (last_index : bool) (v : list A) (ws : list string) : Prop :=
    exists w ws', ws = w :: ws' /\ (if last_index then exists n, List.length v = S n /\ shows scan_nat n w else shows scan_nat (List.length v) w) /\ tok_vector scan v ws'.
  (** Something written after something else. *)
  Inductive tok_list {A} (tok : A -> list string -> Prop) : list A -> list string -> Prop :=
  | tl_nil : tok_list tok [] []
  | tl_cons x l w ws : tok x w -> tok_list tok l ws -> tok_list tok (x :: l) (w ++ ws).
  Definition tok_subspace (invdim : nat) (p : list Z * list R) (ws : list string) : Prop :=
    exists w1 w2, ws = w1 ++ w2 /\ List.length (fst p) = invdim /\ tok_vector scan_int (fst p) w1 /\ tok_counted scan_R false (snd p) w2.
  Definition tok_matrix (m : list (list V)) (ws : list string) : Prop := tok_list (tok_vector scan_V) m ws.
  Definition tok_pair (p : (list Z * list Z) * list (list V)) (ws : list string) : Prop :=
    exists w1 w2 w3, ws = w1 ++ w2 ++ w3 /\ tok_vector scan_int (fst (fst p)) w1 /\ tok_vector scan_int (snd (fst p)) w2 /\ tok_matrix (snd p) w3.
  Definition tok_elements (m : elements) (ws : list string) : Prop :=
    exists w ws', ws = w :: ws' /\ shows scan_nat (List.length m) w /\ tok_list tok_pair m ws'.
  (** The operator of channel i, number j. *)
  Definition tok_f (i j : nat) (m : elements) (ws : list string) : Prop :=
    exists w1 w2 ws', ws = "f" :: w1 :: w2 :: ws' /\ shows scan_nat i w1 /\ shows scan_nat j w2 /\ tok_elements m ws'.
  Inductive tok_from {A} (tok : nat -> A -> list string -> Prop) : nat -> list A -> list string -> Prop :=
  | tf_nil i : tok_from tok i [] []
  | tf_cons i x l w ws : tok i x w -> tok_from tok (S i) l ws -> tok_from tok i (x :: l) (w ++ ws).
  Definition tok_opch (f : list (list elements)) (ws : list string) : Prop := tok_from (fun i => tok_from (tok_f i) 0) 0 f ws.
  Definition tok_tables (t : list (list (list V))) (ws : list string) : Prop := tok_list (tok_list (tok_counted scan_V true)) t ws.

  (** ** Blocks *)
  Definition letter_of (t : optype) : ascii := match t with Ts => "s" | Tp => "p" | Tg => "g" | Td => "d" | Tt => "t" | Tot => "o" | Tq => "q" end%char.
  Inductive item_text : item -> string -> string -> Prop :=
  | it_comment b t rest : all_blank b -> one_line t -> item_text (IComment t) (b ++ String "#" (t ++ String newline rest)) rest
  | it_energy b t x w s rest : all_blank b -> one_line t -> shows scan_R x w -> joined [w] s rest ->
      item_text (IEnergy t x) (b ++ String "e" (t ++ String newline s)) rest
  | it_op b t n m ws s rest : all_blank b -> one_line n -> tok_elements m ws -> joined ws s rest ->
      item_text (IOp t n m) (b ++ String (letter_of t) (n ++ String newline s)) rest
  | it_coef b c t tabs ws s rest : all_blank b -> one_line t -> In c ["z"; "Z"; "X"; "T"]%char -> tok_tables tabs ws -> joined ws s rest ->
      item_text (ICoef c t tabs) (b ++ String c (t ++ String newline s)) rest.
  Inductive items_text : list item -> string -> Prop :=
  | its_nil s : all_blank s -> items_text [] s
  | its_cons x l s rest : item_text x s rest -> items_text l rest -> items_text (x :: l) s.

  (** ** The whole file *)
  Inductive file_text (invdim : nat) (c : content) : string -> Prop :=
  | ft_all s s1 w1 w2 w3 s2 f1 s3 ws1 s4 f2 s5 ws2 s6 :
      header_text (c_header c) s s1 ->
      shows scan_nat (c_channels c) w1 -> shows scan_nat (c_Nmax c) w2 -> shows scan_nat (List.length (c_subspaces c)) w3 -> joined [w1; w2; w3] s1 s2 ->
      filler f1 -> s2 = (f1 ++ s3)%string -> starts_with (fun ch => ch <> "#"%char /\ blank ch = false) s3 ->
      tok_list (tok_subspace invdim) (c_subspaces c) ws1 -> joined ws1 s3 s4 ->
      filler f2 -> s4 = (f2 ++ s5)%string -> starts_with (fun ch => ch <> "#"%char /\ blank ch = false) s5 ->
      tok_opch (c_f c) ws2 -> joined ws2 s5 s6 ->
      items_text (c_items c) s6 ->
      file_text invdim c s.

  (** ** A file that ends too early: between the words of a part of it, and before the last of them *)
  Definition cut (ws : list string) (s : string) : Prop := exists ws1 ws2 tail, ws = ws1 ++ ws2 /\ ws2 <> [] /\ joined ws1 s tail /\ all_blank tail.
  Definition ends_or (p : ascii -> Prop) (s : string) : Prop := s = "" \/ starts_with p s.
  Inductive items_begin : list item -> string -> string -> Prop :=
  | ib_nil s : items_begin [] s s
  | ib_cons x l s mid rest : item_text x s mid -> items_begin l mid rest -> items_begin (x :: l) s rest.
  Inductive item_cut : item -> string -> Prop :=
  | ic_energy b t x w s : all_blank b -> one_line t -> shows scan_R x w -> cut [w] s -> item_cut (IEnergy t x) (b ++ String "e" (t ++ String newline s))
  | ic_op b t n m ws s : all_blank b -> one_line n -> tok_elements m ws -> cut ws s -> item_cut (IOp t n m) (b ++ String (letter_of t) (n ++ String newline s))
  | ic_coef b c t tabs ws s : all_blank b -> one_line t -> In c ["z"; "Z"; "X"; "T"]%char -> tok_tables tabs ws -> cut ws s ->
      item_cut (ICoef c t tabs) (b ++ String c (t ++ String newline s)).
  Inductive file_cut (invdim : nat) (c : content) : string -> Prop :=
  | fc_header s s1 w1 w2 w3 :
      header_text (c_header c) s s1 ->
      shows scan_nat (c_channels c) w1 -> shows scan_nat (c_Nmax c) w2 -> shows scan_nat (List.length (c_subspaces c)) w3 -> cut [w1; w2; w3] s1 ->
      file_cut invdim c s
  | fc_subspaces s s1 w1 w2 w3 s2 f1 s3 ws1 :
      header_text (c_header c) s s1 ->
      shows scan_nat (c_channels c) w1 -> shows scan_nat (c_Nmax c) w2 -> shows scan_nat (List.length (c_subspaces c)) w3 -> joined [w1; w2; w3] s1 s2 ->
      filler f1 -> s2 = (f1 ++ s3)%string -> ends_or (fun ch => ch <> "#"%char /\ blank ch = false) s3 ->
      tok_list (tok_subspace invdim) (c_subspaces c) ws1 -> cut ws1 s3 ->
      file_cut invdim c s
  | fc_f s s1 w1 w2 w3 s2 f1 s3 ws1 s4 f2 s5 ws2 :
      header_text (c_header c) s s1 ->
      shows scan_nat (c_channels c) w1 -> shows scan_nat (c_Nmax c) w2 -> shows scan_nat (List.length (c_subspaces c)) w3 -> joined [w1; w2; w3] s1 s2 ->
      filler f1 -> s2 = (f1 ++ s3)%string -> starts_with (fun ch => ch <> "#"%char /\ blank ch = false) s3 ->
      tok_list (tok_subspace invdim) (c_subspaces c) ws1 -> joined ws1 s3 s4 ->
      filler f2 -> s4 = (f2 ++ s5)%string -> ends_or (fun ch => ch <> "#"%char /\ blank ch = false) s5 ->
      tok_opch (c_f c) ws2 -> cut ws2 s5 ->
      file_cut invdim c s
  | fc_item s s1 w1 w2 w3 s2 f1 s3 ws1 s4 f2 s5 ws2 s6 l1 x l2 s7 :
      header_text (c_header c) s s1 ->
      shows scan_nat (c_channels c) w1 -> shows scan_nat (c_Nmax c) w2 -> shows scan_nat (List.length (c_subspaces c)) w3 -> joined [w1; w2; w3] s1 s2 ->
      filler f1 -> s2 = (f1 ++ s3)%string -> starts_with (fun ch => ch <> "#"%char /\ blank ch = false) s3 ->
      tok_list (tok_subspace invdim) (c_subspaces c) ws1 -> joined ws1 s3 s4 ->
      filler f2 -> s4 = (f2 ++ s5)%string -> starts_with (fun ch => ch <> "#"%char /\ blank ch = false) s5 ->
      tok_opch (c_f c) ws2 -> joined ws2 s5 s6 ->
      c_items c = l1 ++ x :: l2 -> items_begin l1 s6 s7 -> item_cut x s7 ->
      file_cut invdim c s.

  (** ** Contents that make sense *)
  Definition good_header (l : list hline) (sym : string) : Prop :=
    (exists l1 t l2, l = l1 ++ HText t :: l2 /\ names_symtype t sym /\ forall t', In (HText t') l2 -> ~ contains_symtype t') /\
    (exists l1 w l2, l = l1 ++ HVersion w :: l2 /\ shows scan_int 9%Z w /\ forall w', ~ In (HVersion w') l2) /\
    (forall w, In (HVersion w) l -> exists v, shows scan_int v w).
  Definition good_elements (subspaces : list (list Z * list R)) (m : elements) : Prop :=
    NoDup (map fst m) /\
    forall i1 i2 x, In ((i1, i2), x) m -> exists e1 e2, In (i1, e1) subspaces /\ In (i2, e2) subspaces /\
      List.length x = List.length e1 /\ forall row, In row x -> List.length row = List.length e2 /\ forall v, In v row -> finite v = true.
  Definition good_item (c : content) (coefch : nat) (x : item) : Prop :=
    match x with
    | IComment _ | IEnergy _ _ => True
    | IOp _ _ m => good_elements (c_subspaces c) m
    | ICoef letter _ tabs => List.length tabs = (if Ascii.eqb letter "T" then 4 else 2)%nat /\ forall t, In t tabs -> List.length t = coefch
    end.
  (** The value given by the last item of a kind. *)
  Definition last_of {A} (f : item -> option A) (l : list item) : option A := fold_left (fun a x => match f x with Some v => Some v | None => a end) l None.
  Definition energy_item (x : item) : option R := match x with IEnergy _ v => Some v | _ => None end.
  Definition op_item (t : optype) (n : string) (x : item) : option elements :=
    match x with IOp t' n' m => if (optype_eqb t' t && String.eqb n' n)%bool then Some m else None | _ => None end.
  (** The k-th coefficient of the blocks with a letter. *)
  Definition coef_item (letter : ascii) (k : nat) (x : item) : option (list (list V)) :=
    match x with ICoef c _ tabs => if Ascii.eqb c letter then nth_error tabs k else None | _ => None end.
  Definition coefficient (c : content) (letter : ascii) (k : nat) : list (list V) := match last_of (coef_item letter k) (c_items c) with Some t => t | None => [] end.

  Definition good_content (Q : dparams) (c : content) : Prop :=
    good_header (c_header c) (c_symtype c) /\ c_symtype c = q_symtype Q /\ (1 <= c_channels c)%nat /\
    NoDup (map fst (c_subspaces c)) /\
    (List.length (c_f c) = c_channels c /\ forall l, In l (c_f c) -> List.length l = ops_per_channel (q_symtype Q) /\ forall m, In m l -> good_elements (c_subspaces c) m) /\
    (forall x, In x (c_items c) -> good_item c (tables_expected Q (c_channels c)) x) /\
    (exists t l, nth_error (coefficient c "z" 0) 0 = Some (t :: l) /\ List.length l = c_Nmax c).

  (** Everything is stored as written. *)
  Definition stored (Q : dparams) (c : content) (d : data R V) : Prop :=
    d_diag R V d = map (fun p => (fst p, if q_rescaled Q then snd p else map rescale (snd p))) (c_subspaces c) /\
    d_opch R V d = c_f c /\ d_Nmax R V d = c_Nmax c /\ d_channels R V d = c_channels c /\
    let b := d_blocks R V d in
    b_gs R V b = last_of energy_item (c_items c) /\
    (forall t n, map_get String.eqb n (set_of elements (b_ops R V b) t) = last_of (op_item t n) (c_items c)) /\
    b_xi R V b = coefficient c "z" 0 /\ b_zeta R V b = coefficient c "z" 1 /\ b_delta R V b = coefficient c "Z" 0 /\ b_kappa R V b = coefficient c "Z" 1 /\
    b_xiR R V b = coefficient c "X" 0 /\ b_zetaR R V b = coefficient c "X" 1 /\
    b_ep R V b = coefficient c "T" 0 /\ b_em R V b = coefficient c "T" 1 /\ b_u0p R V b = coefficient c "T" 2 /\ b_u0m R V b = coefficient c "T" 3.
End Contents.

(** ** What holds of every file that is accepted *)
Section Accepted.
  Variables (R V : Type) (finite : V -> bool).
  Definition consistent (Q : dparams) (d : data R V) : Prop :=
    let diag := d_diag R V d in
    let b := d_blocks R V d in
    NoDup (map fst diag) /\ (forall i e, In (i, e) diag -> List.length i = q_invdim Q) /\
    (1 <= d_channels R V d)%nat /\ List.length (d_opch R V d) = d_channels R V d /\
    (forall l, In l (d_opch R V d) -> List.length l = ops_per_channel (q_symtype Q) /\ forall m, In m l -> good_elements R V finite diag m) /\
    (forall t n m, In (n, m) (set_of _ (b_ops R V b) t) -> good_elements R V finite diag m) /\
    (forall t, In t [b_xi R V b; b_zeta R V b; b_delta R V b; b_kappa R V b; b_xiR R V b; b_zetaR R V b; b_ep R V b; b_em R V b; b_u0p R V b; b_u0m R V b] ->
       t = [] \/ List.length t = tables_expected Q (d_channels R V d)) /\
    (exists t0 l r, b_xi R V b = (t0 :: l) :: r /\ List.length l = d_Nmax R V d).
End Accepted.
(** Reading a number never gives characters back. *)
Definition consumes {A} (scan : string -> option (A * string)) : Prop := forall s v r, scan s = Some (v, r) -> (String.length r <= String.length s)%nat.
