(** What C69 and C70 talk about. *)
From Coq Require Import List Ascii String.
From Verif Require Import Params_spec.
Import ListNotations.
Local Open Scope list_scope.

(** The settings in all blocks called [name]; the flag: the first line is in such a block. *)
Inductive in_blocks (name : list ascii) : bool -> list (list ascii) -> list (list ascii * list ascii) -> Prop :=
| ib_end b : in_blocks name b [] []
| ib_begin b l ls kv : header name l -> in_blocks name true ls kv -> in_blocks name b (l :: ls) kv
| ib_other b l ls kv : means l NewBlock -> ~ header name l -> in_blocks name false ls kv -> in_blocks name b (l :: ls) kv
| ib_nothing b l ls kv : means l Nothing -> in_blocks name b ls kv -> in_blocks name b (l :: ls) kv
| ib_inside l ls k v kv : means l (Setting k v) -> in_blocks name true ls kv -> in_blocks name true (l :: ls) ((k, v) :: kv)
| ib_outside l ls k v kv : means l (Setting k v) -> in_blocks name false ls kv -> in_blocks name false (l :: ls) kv.
(** Every line that starts a block has a closing bracket at its end. *)
Definition closed_headers (ls : list (list ascii)) : Prop := forall l, In l ls -> means l NewBlock -> exists n, header n l.

(** The names of files that a run removes: fixed ones, the name of the parameter file followed by the name of one of its blocks, and all that
    start with vec. or ham. *)
Definition temporary (param : list ascii) (block_names : list ascii -> Prop) (name : list ascii) : Prop :=
  In name (map list_ascii_of_string ["xi.dat"; "zeta.dat"; "theta.dat"; "xi1.dat"; "zeta1.dat"; "theta1.dat"; "val"; "vec"; "mat"; "mat.res"; "ham";
                                    "param.param"; "param.dmft"; "param.extra"; "solverlog"; "solverlogneg"]%string) \/
  (exists s, block_names s /\ name = param ++ "."%char :: s) \/
  (exists t, name = list_ascii_of_string "vec." ++ t) \/ (exists t, name = list_ascii_of_string "ham." ++ t).
Definition block_of (ls : list (list ascii)) (s : list ascii) : Prop := s <> [] /\ exists l, In l ls /\ header s l.
