(** C79: the report of the times and of the memory at the end of a run. *)
From Coq Require Import List ZArith Bool Ascii String Sorted.
From Verif Require Import Base Time_model Time_spec Time_proofs.
Import ListNotations.
Local Open Scope list_scope.
Local Open Scope Z_scope.

(** After any sequence of timed sections, with a clock that does not go back, the report lists the whole time, the time spent in each
    section that took more than one hundredth of it, in the order of the names, and the rest; the lines add up to the whole time and
    none is negative. *)
Theorem C79_report : forall (t0 : Z) (h : list section) (u : Z), in_time t0 h u -> exists s l other, play (events h) (fresh t0) [] = Ok (s, []) /\
  report u s = ("All"%string, u - t0) :: l ++ [("Other"%string, other)] /\ StronglySorted before (map fst l) /\
  (forall x v, In (x, v) l <-> v = spent h x /\ u - t0 < 100 * v) /\ 0 <= other /\ total (map snd l) + other = u - t0.
Proof. exact report_right. Qed.
Print Assumptions C79_report.
Example C79_report_nonvacuous : in_time 100 [("diag"%string, 110, 400); ("DM"%string, 400, 402); ("abc"%string, 500, 540); ("diag"%string, 600, 700)] 1100 /\
  exists s, play (events [("diag"%string, 110, 400); ("DM"%string, 400, 402); ("abc"%string, 500, 540); ("diag"%string, 600, 700)]) (fresh 100) [] = Ok (s, []) /\
    report 1100 s = [("All"%string, 1000); ("abc"%string, 40); ("diag"%string, 390); ("Other"%string, 570)].
Proof.
  split; [do 4 (apply T_more; [discriminate|discriminate|]); apply T_none; discriminate|].
  eexists. split; [vm_compute; reflexivity|]. vm_compute. reflexivity.
Qed.

(** A section that is entered while another one is open ends the run by an exception, whatever came before. *)
Theorem C79_nested : forall (t0 : Z) (h : list section) (x : string) (a : Z) (y : string) (b : Z) (rest : list event),
  play (events h ++ Enter x a :: Enter y b :: rest) (fresh t0) [] = Throw.
Proof. exact nested_throws. Qed.
Print Assumptions C79_nested.
Example C79_nested_nonvacuous : play (events [("diag"%string, 110, 400)] ++ [Enter "DM" 500; Leave 510]) (fresh 100) [] <> Throw /\
  play (events [("diag"%string, 110, 400)] ++ [Enter "DM" 500; Enter "diag" 505; Leave 507; Leave 510]) (fresh 100) [] = Throw.
Proof. split; [discriminate|reflexivity]. Qed.

(** The number of megabytes is printed with its digits in groups of three from the right, separated by apostrophes. *)
Theorem C79_digits : forall w : list ascii, w <> [] -> exists g gs, format_memory w = joined (g :: gs) /\ (1 <= List.length g <= 3)%nat /\
  Forall (fun h => List.length h = 3%nat) gs /\ List.concat (g :: gs) = w.
Proof. exact digits_grouped. Qed.
Print Assumptions C79_digits.
Example C79_digits_nonvacuous : format_memory (list_ascii_of_string "12345678") = list_ascii_of_string "12'345'678" /\
  format_memory (list_ascii_of_string "100") = list_ascii_of_string "100".
Proof. split; reflexivity. Qed.

(** The peak is the largest of the readings. *)
Theorem C79_peak : forall l : list Z, In (peak l) (0 :: l) /\ Forall (fun z => z <= peak l) (0 :: l).
Proof. exact peak_right. Qed.
Print Assumptions C79_peak.
Example C79_peak_nonvacuous : peak [5; 9; 3] = 9.
Proof. reflexivity. Qed.
