(** C74: what annotated.dat and custom contain. *)
From Coq Require Import List ZArith Reals Bool String Lia Lra Permutation Sorted.
From Verif Require Import Interp_model Annotated_model Annotated_spec Annotated_proofs Annotated_aux.
Import ListNotations.
Local Open Scope string_scope.
Local Open Scope list_scope.
Local Open Scope R_scope.

(** Without grouping: the lowest levels in order, without cutting a cluster. *)
Theorem C74_levels P scale total_energy mult to_string diag : (0 < dumpannotated P)%nat -> dumpgroups P = false -> levels diag <> [] ->
  exists l len, listed diag l /\ complete_clusters (dumpannotated P) (grouptol P) l len /\
    dump P scale total_energy mult to_string diag = Some (map (fun p => State (scaled_energy P scale total_energy (fst p)) (snd p)) (firstn len l)).
Proof. exact (dump_states P scale total_energy mult to_string diag). Qed.
Print Assumptions C74_levels.
Example C74_levels_nonvacuous : exists l len, listed two_sectors l /\ complete_clusters 2 (1 / 10) l len /\
    dump (two_settings false) 1 0 sector_size sector_name two_sectors = Some (map (fun p => State (scaled_energy (two_settings false) 1 0 (fst p)) (snd p)) (firstn len l)).
Proof. apply (C74_levels (two_settings false)); [cbn; lia | reflexivity | discriminate]. Qed.

(** With grouping: the levels written are divided into groups in order; each line describes one group, which consists of the levels that are degenerate with
    its first one, and no later level, written or not, is degenerate with that. *)
Theorem C74_groups P scale total_energy mult to_string diag : (0 < dumpannotated P)%nat -> dumpgroups P = true -> levels diag <> [] -> 0 <= grouptol P -> (forall p, In p (levels diag) -> 0 <= fst p) ->
  exists l len gs lines, listed diag l /\ complete_clusters (dumpannotated P) (grouptol P) l len /\ dump P scale total_energy mult to_string diag = Some lines /\
    List.concat gs = firstn len l /\
    Forall2 (fun g x => exists e qn d, x = Group e qn d /\ describes (scaled_energy P scale total_energy) mult to_string g e qn d) gs lines /\
    forall g1 p t g2, gs = g1 ++ (p :: t) :: g2 ->
      (forall q, In q (p :: t) -> degenerate (grouptol P) (fst q) (fst p)) /\ forall q, In q (List.concat g2 ++ skipn len l) -> ~ degenerate (grouptol P) (fst q) (fst p).
Proof. exact (dump_grouped P scale total_energy mult to_string diag). Qed.
Print Assumptions C74_groups.
Example C74_groups_nonvacuous : exists l len gs lines, listed two_sectors l /\ complete_clusters 2 (1 / 10) l len /\ dump (two_settings true) 1 0 sector_size sector_name two_sectors = Some lines /\
    List.concat gs = firstn len l /\
    Forall2 (fun g x => exists e qn d, x = Group e qn d /\ describes (scaled_energy (two_settings true) 1 0) sector_size sector_name g e qn d) gs lines /\
    forall g1 p t g2, gs = g1 ++ (p :: t) :: g2 ->
      (forall q, In q (p :: t) -> degenerate (1 / 10) (fst q) (fst p)) /\ forall q, In q (List.concat g2 ++ skipn len l) -> ~ degenerate (1 / 10) (fst q) (fst p).
Proof. apply (C74_groups (two_settings true)); [cbn; lia | reflexivity | discriminate | cbn; lra | exact sectors_positive]. Qed.

(** When all levels are written, the degeneracies sum up to the number of states. *)
Theorem C74_all_counted P scale total_energy mult to_string diag : (List.length (levels diag) <= dumpannotated P)%nat -> dumpgroups P = true -> levels diag <> [] ->
  exists lines, dump P scale total_energy mult to_string diag = Some lines /\ list_sum (map degeneracy_of lines) = total mult (levels diag).
Proof. exact (all_counted P scale total_energy mult to_string diag). Qed.
Print Assumptions C74_all_counted.
Example C74_all_counted_nonvacuous : exists lines, dump chain_settings 1 0 sector_size sector_name two_sectors = Some lines /\ list_sum (map degeneracy_of lines) = 11%nat.
Proof. apply (C74_all_counted chain_settings 1 0 sector_size sector_name two_sectors); [cbn; lia | reflexivity | discriminate]. Qed.

(** Two levels that count as degenerate may be on different lines, since the lines compare with the first level only. *)
Theorem C74_chain_refuted : degenerate (grouptol chain_settings) 14 12 /\
  dump chain_settings 1 0 sector_size sector_name [([1%Z], [10; 14]); ([0%Z], [12])] = Some [Group (Some 10) ["0"; "1"] 8; Group (Some 14) ["1"] 3].
Proof. exact (conj near_14_12 chain_groups). Qed.
Print Assumptions C74_chain_refuted.

(** The file is written unless dumpannotated is zero. *)
Theorem C74_nothing P scale total_energy mult to_string diag : dump P scale total_energy mult to_string diag = None <-> dumpannotated P = 0%nat.
Proof. exact (dump_none P scale total_energy mult to_string diag). Qed.
Print Assumptions C74_nothing.

(** The units of the energies. *)
Theorem C74_energies P scale total_energy e : dumpEscale P <> 0 ->
  (dumpabs P = false -> dumpscaled P = true -> scaled_energy P scale total_energy e = Some (e / dumpEscale P)) /\
  (dumpabs P = false -> dumpscaled P = false -> scaled_energy P scale total_energy e = Some (e * scale / dumpEscale P)) /\
  (dumpabs P = true -> dumpscaled P = false -> scaled_energy P scale total_energy e = Some ((e * scale + total_energy) / dumpEscale P)).
Proof. exact (energies P scale total_energy e). Qed.
Print Assumptions C74_energies.
Example C74_energies_nonvacuous : scaled_energy three_settings 4 6 3 = Some ((3 * 4 + 6) / 2).
Proof. apply (C74_energies three_settings 4 6 3); [cbn; lra | reflexivity | reflexivity]. Qed.

(** custom: every column holds the values of the operator that it is labelled with, whatever was measured before. *)
Theorem C74_custom (V : Type) (zero : V) ops opsg m : NoDup (map fst ops ++ map fst opsg) -> fst (custom_row zero ops opsg m) = map snd (ops ++ opsg).
Proof. exact (custom_ok zero ops opsg m). Qed.
Print Assumptions C74_custom.
Theorem C74_columns (V : Type) (zero : V) ops opsg m : field_numbers (fields_of ops opsg) = seq 1 (List.length (field_names (fields_of ops opsg))) /\ field_names (fields_of ops opsg) = "T" :: map fst (ops ++ opsg) /\
    List.length (fst (custom_row zero ops opsg m)) = List.length (fields_of ops opsg).
Proof. exact (columns zero ops opsg m). Qed.
Print Assumptions C74_columns.
Example C74_custom_nonvacuous : fst (custom_row 0 [("n", 1); ("n^2", 2)] [("Q", 3)] [("n", 7)]) = [1; 2; 3].
Proof. apply (C74_custom R 0 [("n", 1); ("n^2", 2)] [("Q", 3)]). repeat constructor; cbn; intuition discriminate. Qed.

(** A local and a global operator of the same name share one value. *)
Theorem C74_same_name_refuted (V : Type) (zero v w : V) name m : fst (custom_row zero [(name, v)] [(name, w)] m) = [w; w].
Proof. exact (same_name zero v w name m). Qed.
Print Assumptions C74_same_name_refuted.
