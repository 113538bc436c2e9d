(** Adding nodes to a built graph: hamilton/graph.py 742-755 and hamilton/io/materialization.py 463-481. *)
From Verif Require Import Base Dict GraphModel.

Section Relink.
Context {T : Type}.
Variable types_match adapter_match : T -> T -> bool.

Inductive relink_error := DuplicateNames (x : name) | Linking (e : build_error).

(** [{**a, **b}] *)
Definition merged (a b : dict (gnode T)) : dict (gnode T) := foldl (fun d kn => dset d kn.1 kn.2) a b.

(** graph.py 742-755 [FunctionGraph.with_nodes]; one of the duplicates is named. The nodes of [old] are copied, so the
    graph it is called on stays as it is. *)
Definition with_nodes (old new : dict (gnode T)) : res relink_error (dict (gnode T)) :=
  match filter (fun x => x ∈ dkeys new) (dkeys old) with
  | x :: _ => Err (DuplicateNames x)
  | [] => match update_dependencies types_match adapter_match (merged old new) true with
          | Ok g => Ok g
          | Err e => Err (Linking e)
          end
  end.

(** materialization.py 470-481: nodes of loaders take the place of nodes with their names. *)
Definition replace_nodes (old new : dict (gnode T)) : res relink_error (dict (gnode T)) :=
  match update_dependencies types_match adapter_match (merged old new) true with
  | Ok g => Ok g
  | Err e => Err (Linking e)
  end.
End Relink.
