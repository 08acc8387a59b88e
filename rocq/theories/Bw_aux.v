(** Examples for the tool [bw]. *)
From Coq Require Import List ZArith Reals Lra Lia Bool Sorting String.
From Verif Require Import Base Interp_model Bw_model Bw_spec Bw_run_spec Bw_proofs.
Import ListNotations.
Local Open Scope string_scope.
Local Open Scope list_scope.
Local Open Scope R_scope.

(** Two values of z, a dynamic mesh, three passes. *)
Definition bw_options : options :=
  {| o_min := 1; o_max := 5; o_ratio := 2; o_iter := 3; o_trim := 2; o_positive := false; o_b0 := 1; o_bmin := - 999; o_q := 1;
     o_savemore := false; o_saveall := false; o_dyn := 1 / 10; o_one := false; o_name := "spec.bin"; o_nz := 2 |}.
Definition bw_data : list (list (R * R)) := [[(- 1, 1 / 4); (1, 3 / 4)]; [(3, 1 / 2); (1, 1 / 2)]].
Definition bw_files (s : string) : option binary :=
  if String.eqb s "1/spec.bin" then Some {| values := [- 1; 1 / 4; 1; 3 / 4]; rest := 0 |}
  else if String.eqb s "2/spec.bin" then Some {| values := [3; 1 / 2; 1; 1 / 2]; rest := 0 |}
  else if String.eqb s "odd" then Some {| values := [1; 2; 3]; rest := 0 |} else None.
Lemma bw_valid : valid bw_options.
Proof. constructor; unfold lower; cbn; try lra; try lia. destruct (Rlt_dec (- 999) 0); [| lra]. destruct (Rlt_dec 0 (1 / 10)); lra. Qed.
Lemma bw_readable : readable bw_files bw_options bw_data.
Proof. split; [reflexivity |]. intros [| [| i]] l H; cbn in H; [| | destruct i; discriminate]; assert (E : l = nth 0 [l] []) by reflexivity; injection H; intros <-; reflexivity. Qed.
(** The frequency 0 is the lower end of the mesh: the program does not end. *)
Definition bw_endless : options :=
  {| o_min := 0; o_max := 5; o_ratio := 2; o_iter := 3; o_trim := 2; o_positive := false; o_b0 := 1; o_bmin := - 999; o_q := 1;
     o_savemore := false; o_saveall := false; o_dyn := 0; o_one := false; o_name := "spec.bin"; o_nz := 2 |}.
Lemma bw_endless_readable : readable bw_files bw_endless bw_data.
Proof. exact bw_readable. Qed.
Lemma bw_endless_lower : lower bw_endless <= o_b0 bw_endless.
Proof. unfold lower. cbn. destruct (Rlt_dec (- 999) 0); [| lra]. destruct (Rlt_dec 0 0); lra. Qed.
(** One file with one peak at zero frequency, read with the option -o. *)
Definition bw_single : options :=
  {| o_min := 1; o_max := 5; o_ratio := 2; o_iter := 3; o_trim := 0; o_positive := false; o_b0 := 1; o_bmin := 1 / 2; o_q := 1;
     o_savemore := true; o_saveall := true; o_dyn := 0; o_one := true; o_name := "zero.bin"; o_nz := 1 |}.
Lemma bw_single_valid : valid bw_single.
Proof. constructor; unfold lower; cbn; try lra; try lia. destruct (Rlt_dec (1 / 2) 0); lra. Qed.
Definition bw_zero_file (s : string) : option binary := if String.eqb s "zero.bin" then Some {| values := [0; 1]; rest := 0 |} else None.
Lemma bw_zero_readable : readable bw_zero_file bw_single [[(0, 1)]].
Proof. split; [reflexivity |]. intros [| i] l H; cbn in H; [| destruct i; discriminate]. injection H; intros <-. reflexivity. Qed.
Lemma bw_endless_form : 0 < o_b0 bw_endless /\ lower bw_endless <= o_b0 bw_endless /\ o_min bw_endless <= 0 < o_max bw_endless /\ 1 < o_ratio bw_endless /\ readable bw_files bw_endless bw_data.
Proof. repeat split; try exact bw_endless_lower; try (cbn; lra); apply bw_endless_readable. Qed.
