(** Theorems about [Node.reassign_inputs] (C47). *)
From Verif Require Import Base Dict NodeModel NodeSpec NodeProofs.

(** The renamed node depends on the new names of the parameters that got no value. *)
Theorem C47_dependencies {V E T} (n : pnode V E T) names values k :
  k ∈ dkeys (pn_inputs (reassign_inputs n names values)) <->
  exists p, p ∈ dkeys (pn_inputs n) /\ dget values p = None /\ rename names p = k.
Proof. apply dkeys_reassigned. Qed.

(** Whatever values [m] its variables have, the renamed node calls the original callable with
    each parameter bound to its literal, or to the value of the variable it was renamed to. *)
Theorem C47_reassign_partial {V E T} (n : pnode V E T) names values m :
  clash_free names values (pn_inputs n) ->
  let n' := reassign_inputs n names values in
  (exists kw, pn_call n' (kwargs (pn_inputs n') m) = pn_call n kw /\ NoDup (dkeys kw) /\
     forall k, dget kw k = match dget values k with
                           | Some v => Some v
                           | None => if decide (k ∈ dkeys (pn_inputs n)) then m !! rename names k else None
                           end) /\
  (forall p, p ∈ dkeys (pn_inputs n) -> dget values p = None ->
     dget (pn_inputs n') (rename names p) = dget (pn_inputs n) p).
Proof. intros C n'. split; [by apply reassign_call|]. intros p. by apply reassigned_input_get. Qed.

(** ** Examples: a function [a - b * c] with [c] optional (default 100) *)
Definition sub_fn (kw : gmap name nat) : res string nat :=
  Ok (default 0 (kw !! "a") - default 0 (kw !! "b") * default 100 (kw !! "c")).
Definition sub_node : pnode nat string unit :=
  from_fn "f" tt [("a", (tt, REQUIRED)); ("b", (tt, REQUIRED)); ("c", (tt, OPTIONAL))] sub_fn.
(** Swapping the names of the parameters. *)
Example swap_clash_free : clash_free [("a", "b"); ("b", "a")] [("c", 2)] (pn_inputs sub_node).
Proof.
  unfold clash_free. split_and!; try (apply (bool_decide_unpack _); by vm_compute).
  - intros k Hk. cbn in Hk. apply elem_of_list_singleton in Hk as ->. done.
  - intros k k' Hk Hk'. cbn in Hk, Hk'.
    repeat (apply elem_of_cons in Hk as [-> | Hk]); [..|by apply elem_of_nil in Hk];
      repeat (apply elem_of_cons in Hk' as [-> | Hk']); try (by apply elem_of_nil in Hk'); cbn; done.
Qed.
Example swap_run : pn_call (reassign_inputs sub_node [("a", "b"); ("b", "a")] [("c", 2)]) [("b", 50); ("a", 7)] = Ok 36.
Proof. by vm_compute. Qed.

(** ** Refutations *)
(** A literal for a parameter whose name is also the variable another parameter is renamed
    to: the other parameter receives the literal and the literal's parameter its default. *)
Theorem C47_literal_name_refuted : exists (n : pnode nat string unit) names values m v,
  (* c := 2 literally, a := variable c = 50, b := variable b = 7 *)
  names = [("a", "c")] /\ values = [("c", 2)] /\ m = {["c" := 50; "b" := 7]} /\
  let n' := reassign_inputs n names values in
  pn_call n' (kwargs (pn_inputs n') m) = Ok v /\
  pn_call n [("a", 50); ("b", 7); ("c", 2)] <> Ok v.
Proof. exists sub_node, [("a", "c")], [("c", 2)], {["c" := 50; "b" := 7]}, 0. split_and!; try done; by vm_compute. Qed.
(** Two parameters renamed to the same variable: one of them is not passed. *)
Theorem C47_same_source_refuted : exists (n : pnode nat string unit) names m,
  names = [("a", "x"); ("b", "x")] /\ m = {["x" := 3]} /\
  let n' := reassign_inputs n names [] in
  pn_call n' (kwargs (pn_inputs n') m) = Err (NMissing "a") /\
  pn_call n [("a", 3); ("b", 3)] = Ok 0.
Proof. exists sub_node, [("a", "x"); ("b", "x")], {["x" := 3]}. split_and!; try done; by vm_compute. Qed.
(** A parameter renamed to the name of another, unchanged, one. *)
Theorem C47_other_parameter_refuted : exists (n : pnode nat string unit) names m,
  names = [("a", "b")] /\ m = {["b" := 3]} /\
  let n' := reassign_inputs n names [] in
  pn_call n' (kwargs (pn_inputs n') m) = Err (NMissing "b") /\
  pn_call n [("a", 3); ("b", 3)] = Ok 0.
Proof. exists sub_node, [("a", "b")], {["b" := 3]}. split_and!; try done; by vm_compute. Qed.

Print Assumptions C47_dependencies.
Print Assumptions C47_reassign_partial.
Print Assumptions C47_literal_name_refuted.
Print Assumptions C47_same_source_refuted.
Print Assumptions C47_other_parameter_refuted.
