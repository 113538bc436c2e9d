(** The grouping strategy by levels: hamilton/execution/grouping.py 298-317 [GroupNodesByLevel].
    The other strategies are in GroupModel. *)
From stdpp Require Import pretty.
From Verif Require Import Base ExecModel TopoModel GroupModel.

(** The nodes as graph_functions.py 16-81 see them. *)
Definition level_nodes (g : graph) (nodes : list name) : list tnode :=
  map (fun x => TNode x (match g !! x with Some nd => dep_names nd | None => [] end)) nodes.

(** grouping.py 299-317: one group per level. *)
Definition group_by_level (g : graph) (nodes : list name) : option (list ngroup) :=
  match group_nodes_by_level (level_nodes g nodes) with
  | None => None
  | Some levels => Some (imap (fun i l => NGroup ("level_" +:+ pretty i) None l BLOCK) levels)
  end.
