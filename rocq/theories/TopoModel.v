(** Model of hamilton/execution/graph_functions.py 16-81 (topological sort, levels) and of
    hamilton/execution/grouping.py 298-317 (GroupNodesByLevel). *)
From Verif Require Import Base.

(** A node as these functions see it: its name and the names in [input_types] (a Python
    dict, so without repetition). Inside a graph [node.dependencies] carries the same names
    (graph.py 117-142), so [get_node_levels] uses the same list. *)
Record tnode := TNode { tn_name : name; tn_deps : list name }.
Definition tnames (nodes : list tnode) : list name := map tn_name nodes.

(** graph_functions.py 32-45: [depended_on_by_map]. *)
Definition add_dependents (names : list name) (m : gmap name (list tnode)) (n : tnode)
  : gmap name (list tnode) :=
  foldl (fun m d => if decide (d ∈ names)
                    then <[d := (match m !! d with Some l => l | None => [] end) ++ [n]]> m
                    else m) m (tn_deps n).
Definition depended_on_by_map (nodes : list tnode) : gmap name (list tnode) :=
  foldl (add_dependents (tnames nodes)) ∅ nodes.

(** graph_functions.py 36-47: [dependency_map] and [in_degrees]. *)
Definition local_deps (nodes : list tnode) (n : tnode) : list name :=
  filter (fun d => d ∈ tnames nodes) (tn_deps n).
Definition in_degrees (nodes : list tnode) : gmap name Z :=
  foldl (fun m n => <[tn_name n := Z.of_nat (length (local_deps nodes n))]> m) ∅ nodes.

(** graph_functions.py 56-60: the inner loop. *)
Fixpoint relax (deg : gmap name Z) (queue : list tnode) (next : list tnode) : gmap name Z * list tnode :=
  match next with
  | [] => (deg, queue)
  | n :: next' =>
      match deg !! tn_name n with
      | None => relax deg queue next'
      | Some k =>
          let deg' := <[tn_name n := (k - 1)%Z]> deg in
          relax deg' (if decide (k - 1 = 0)%Z then queue ++ [n] else queue) next'
      end
  end.

(** graph_functions.py 53-61: the while loop; [None]: out of fuel (excluded by theorem). *)
Fixpoint kahn (fuel : nat) (dob : gmap name (list tnode)) (deg : gmap name Z)
         (queue sorted : list tnode) : option (list tnode) :=
  match queue with
  | [] => Some sorted
  | n :: queue' =>
      match fuel with
      | 0 => None
      | S fuel' =>
          let next := match dob !! tn_name n with Some l => l | None => [] end in
          let r := relax deg queue' next in
          kahn fuel' dob (fst r) (snd r) (sorted ++ [n])
      end
  end.

(** graph_functions.py 16-62 *)
Definition topologically_sort_nodes (nodes : list tnode) : option (list tnode) :=
  let deg := in_degrees nodes in
  let sources := filter (fun n => deg !! tn_name n = Some 0%Z) nodes in
  kahn (length nodes) (depended_on_by_map nodes) deg sources [].

(** graph_functions.py 65-81; [None]: KeyError (the list was not sorted). The dict is kept as
    an insertion-ordered association list. *)
Definition max_list (l : list nat) : nat := foldr max 0 l.
Fixpoint levels_from (names : list name) (levels : list (name * nat)) (nodes : list tnode)
  : option (list (name * nat)) :=
  match nodes with
  | [] => Some levels
  | n :: nodes' =>
      match mapM (fun d => (list_to_map levels : gmap name nat) !! d)
                 (filter (fun d => d ∈ names) (tn_deps n)) with
      | None => None
      | Some [] => levels_from names (levels ++ [(tn_name n, 0)]) nodes'
      | Some ls => levels_from names (levels ++ [(tn_name n, S (max_list ls))]) nodes'
      end
  end.
Definition get_node_levels (sorted : list tnode) : option (list (name * nat)) :=
  levels_from (tnames sorted) [] sorted.

(** grouping.py 298-317: names per group, in order. [nodes_by_level] has one key per distinct
    level. *)
Definition group_nodes_by_level (nodes : list tnode) : option (list (list name)) :=
  match topologically_sort_nodes nodes with
  | None => None
  | Some sorted =>
      match get_node_levels sorted with
      | None => None
      | Some levels =>
          let distinct := length (remove_dups (map snd levels)) in
          Some (map (fun i => map fst (filter (fun p => p.2 = i) levels)) (seq 0 distinct))
      end
  end.
