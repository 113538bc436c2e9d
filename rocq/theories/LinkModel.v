(** Executing resolved functions: the graph built from their nodes together with the
    callables those nodes carry. *)
From Verif Require Import Base Dict NodeModel NodeSpec GraphModel ExecModel.

Section Link.
Context {V E T : Type}.

(** hamilton/graph.py 170-180: the dictionary of node objects, later definitions replacing
    earlier ones, names in the config skipped. It is [GraphModel.collect] when the node
    objects carry their callables. *)
Definition registered (config : list name) (ps : list (pnode V E T)) : dict (pnode V E T) :=
  foldl (fun d n => if decide (pn_name n ∈ config) then d else dset d (pn_name n) n) [] ps.

(** What [GraphModel] looks at in a node object (node.py 44-125). *)
Definition fdef_of (n : pnode V E T) : fdef T := FDef (pn_name n) (pn_type n) (pn_inputs n).

(** hamilton/graph.py 990-1004 and execution/graph_functions.py 219-226: a node is executed by
    calling its callable with the keyword arguments collected from its dependencies, which
    are in the order of its parameters. A name without a function is never called. *)
Definition callables (ns : dict (pnode V E T)) (x : name) (kw : gmap name V) : res (nerr E) V :=
  match dget ns x with
  | Some n => pn_call n (kwargs (pn_inputs n) kw)
  | None => Err (NKey x)
  end.
End Link.
