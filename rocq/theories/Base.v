(** Shared vocabulary of the model: exceptions as values, nodes, graphs. *)
From stdpp Require Export prelude gmap strings list sets relations.

(** Outcome of a Python call: a value, or a raised exception [e]. *)
Inductive res (E A : Type) : Type :=
| Ok (a : A)
| Err (e : E).
Arguments Ok {E A} a.
Arguments Err {E A} e.

Notation name := string (only parsing).

(** hamilton/node.py 33-41, [DependencyType]: REQUIRED or OPTIONAL. *)
Inductive deptype := REQUIRED | OPTIONAL.
Global Instance deptype_eq_dec : EqDecision deptype.
Proof. solve_decision. Defined.

(** A node as far as the traversals look at it (hamilton/node.py 44-125):
    - [nd_ext]   : [Node.user_defined] (node_source = EXTERNAL), 185-186;
    - [nd_deps]  : [Node.dependencies] in order, each with the dependency type that
                   [node_.input_types[n.name]] gives for it;
    - [nd_rdeps] : [Node.depended_on_by] in order.
    Simplification: Python holds references to node objects; inside one graph node
    objects and names are in bijection ([FunctionGraph.nodes] is keyed by name), so
    the model refers to nodes by name. *)
Record node := Node {
  nd_ext : bool;
  nd_deps : list (name * deptype);
  nd_rdeps : list name;
}.

Definition graph := gmap name node.

(** Names of the dependencies of a node. *)
Definition dep_names (nd : node) : list name := (nd_deps nd).*1.

(** [edge g x d]: [d] is a dependency of [x]. *)
Definition edge (g : graph) (x d : name) : Prop :=
  exists nd, g !! x = Some nd /\ d ∈ dep_names nd.

(** A graph as produced by hamilton/graph.py 117-142 [update_dependencies]:
    dependencies are nodes of the graph, the adjacency is two-sided, external nodes
    have no dependencies, and a node has each parameter name once. *)
Record wf_graph (g : graph) : Prop := {
  wf_closed : forall x d, edge g x d -> is_Some (g !! d);
  wf_rdeps : forall x d nd, edge g x d -> g !! d = Some nd -> x ∈ nd_rdeps nd;
  wf_rdeps_back : forall x d nd, g !! d = Some nd -> x ∈ nd_rdeps nd -> edge g x d;
  wf_ext : forall x nd, g !! x = Some nd -> nd_ext nd = true -> nd_deps nd = [];
  wf_nodup : forall x nd, g !! x = Some nd -> NoDup (dep_names nd);
}.

(** No dependency cycles. *)
Definition acyclic (g : graph) : Prop := forall x, ~ tc (edge g) x x.

Lemma elem_of_concat {A} (x : A) (ls : list (list A)) : x ∈ concat ls <-> exists l, x ∈ l /\ l ∈ ls.
Proof.
  rewrite elem_of_list_In, in_concat. setoid_rewrite elem_of_list_In. naive_solver.
Qed.
