(** Specification vocabulary for storage. *)
From Coq Require Import List ZArith Bool String Ascii Sorted.
From Verif Require Import Base Invar_model Subspaces_model Storage_model.
Import ListNotations.
Local Open Scope string_scope.
Local Open Scope list_scope.
Local Open Scope Z_scope.

(** Reading [e] gives [a] and leaves what follows; reading an incomplete copy of [e] is an error. *)
Definition proper_prefix (p e : bytes) : Prop := exists q, q <> [] /\ e = p ++ q.
Definition codes {A} (d : rd A) (e : bytes) (a : A) : Prop :=
  (forall r, d (e ++ r) = Some (a, r)) /\ (forall p, proper_prefix p e -> d p = None).

(** The memory image of a floating-point number determines the number (bit for bit). *)
Definition faithful (S : scalar) : Prop := forall x : S, List.length (sc_image S x) = sc_width S /\ sc_of S (sc_image S x) = x.

Definition fits (z : Z) : Prop := 0 <= z < 2 ^ 64.
Definition small {A} (l : list A) : Prop := fits (Z.of_nat (List.length l)).

(** A matrix has the numbers of rows and columns it claims. *)
Definition wf_mat {S} (m : mat S) : Prop :=
  fits (mt_rows m) /\ fits (mt_cols m) /\ Z.of_nat (List.length (mt_el m)) = mt_rows m /\
  Forall (fun row => Z.of_nat (List.length row) = mt_cols m) (mt_el m).
(** Sizes fit in size_t; the truncation counters are C++ longs. *)
Definition wf_eigen {F S : scalar} (x : eigen F S) : Prop :=
  small (vl_v (en_values x)) /\ small (vl_corrected (en_values x)) /\ small (vl_c (en_values x)) /\
  wf_mat (vc_m (en_vectors x)) /\ fits (vc_dim (en_vectors x)) /\ small (en_U x) /\ Forall wf_mat (en_U x) /\
  - 2 ^ 63 <= en_nrpost x < 2 ^ 63 /\ - 2 ^ 63 <= en_nrstored x < 2 ^ 63.
(** The criterion shift, which is not stored, has its initial value. *)
Definition shift_unset {F S : scalar} (nan : F) (x : eigen F S) : Prop := vl_c_shift (en_values x) = nan.

Definition wf_invar (J : invar) : Prop := small J /\ Forall (fun z => - 2 ^ 31 <= z < 2 ^ 31) J.
(** Contents of a std::map: strictly increasing keys. *)
Definition wf_map {V} (m : list (invar * V)) : Prop :=
  small m /\ Forall (fun p => wf_invar (fst p)) m /\ StronglySorted (fun p q => invar_ltb (fst p) (fst q) = true) m.
(** Objects as they occur when a step is stored. *)
Definition eigen_ok {F S : scalar} (nan : F) (x : eigen F S) : Prop := wf_eigen x /\ shift_unset nan x.
Definition diag_ok {F S : scalar} (nan : F) (m : list (invar * eigen F S)) : Prop := wf_map m /\ Forall (fun p => eigen_ok nan (snd p)) m.
Definition rho_ok {S : scalar} (m : list (invar * mat S)) : Prop := wf_map m /\ Forall (fun p => wf_mat (snd p)) m.

(** Last character. *)
Fixpoint last_char (s : string) : option ascii := match s with EmptyString => None | String a EmptyString => Some a | String _ s' => last_char s' end.
Definition is_digit (a : ascii) : bool := existsb (Ascii.eqb a) ["0"; "1"; "2"; "3"; "4"; "5"; "6"; "7"; "8"; "9"]%char.
(** File names such as "unitary", "rho", "rhofdm". *)
Definition no_digit_end (f : string) : Prop := f <> EmptyString /\ forall d, last_char f = Some d -> is_digit d = false.

(** A sequence of saves of files of a run, stopped by the first exception or death. *)
Fixpoint run_saves {T} (wd : string) (l : list (string * nat * list bytes)) : io T unit :=
  match l with [] => ioret tt | (f, N, chunks) :: l' => iobind (save_file (rhofn wd N f) chunks) (fun _ => run_saves wd l') end.
