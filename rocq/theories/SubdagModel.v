(** @subdag and @parameterized_subdag (hamilton/function_modifiers/recursive.py 29-591) and
    [prune_nodes] (605-636). *)
From Verif Require Import Base Dict NodeModel PipeModel.

Section Subdag.
Context {V E T : Type}.
Notation node := (pnode V E T).
Notation dep := (dep V).

(** recursive.py 29-30 *)
Definition assign_namespace (nm namespace : name) : name := (namespace ++ "." ++ nm)%string.

(** recursive.py 45-70 [create_identity_node]; [list(kwargs.values())[0]], the IndexError of
    an empty list is written as a KeyError of "0". *)
Definition identity_node (from nm : name) (t : T) : node :=
  PNode nm t [(from, (t, REQUIRED))]
    (fun kw => match kw with (_, v) :: _ => Ok v | [] => Err (NKey "0") end).
(** recursive.py 91-108 [create_static_node] *)
Definition static_node (nm : name) (t : T) (v : V) : node := PNode nm t [] (fun _ => Ok v).

(** recursive.py 73-88 [extract_all_known_types] *)
Definition known_types (nodes : list node) : dict T :=
  foldl (fun d n => foldl (fun d kt => dset d kt.1 kt.2.1) d (pn_inputs n)) [] nodes.

(** recursive.py 111-131 [_validate_config_inputs]: true if InvalidDecoratorException is not
    raised (the second loop checks the classes of the inputs, which are [dep] here). *)
Definition config_inputs_ok (config : dict V) (inputs : dict dep) : bool :=
  forallb (fun k => bool_decide (k ∉ dkeys inputs)) (dkeys config).

(** The names that the callables of namespaced nodes take themselves (344-350). *)
Definition sub_reserved : list name := ["_callabl"; "_kwarg_mapping"; "_new_name"; "_new_name_map"].
(** What such a callable does when an argument has one of these names: not modelled. *)
Variable captured : dict V -> res (nerr E) V.
(** [type(value)] *)
Variable type_of : V -> T.

(** recursive.py 318-329: the names that move into the namespace. *)
Definition new_name_map (nodes : list node) (namespace : name) (inputs : dict dep) (config : dict V) : dict name :=
  let add := foldl (fun d k => dset d k (assign_namespace k namespace)) in
  add (add (add [] (map pn_name nodes)) (dkeys inputs)) (dkeys config).
(** recursive.py 337-340 [kwarg_mapping]: new name to parameter. *)
Definition kwarg_mapping (names : dict name) (ins : dict (T * deptype)) : dict name :=
  foldl (fun d k => dset d (rename names k) k) [] (dkeys ins).
(** recursive.py 351: [{_kwarg_mapping[kwarg]: value for kwarg, value in kwargs.items()}] *)
Fixpoint unmap_kwargs (mapping : dict name) (acc : dict V) (kw : dict V) : res (nerr E) (dict V) :=
  match kw with
  | [] => Ok acc
  | (k, v) :: kw' =>
      match dget mapping k with
      | None => Err (NKey k)
      | Some o => unmap_kwargs mapping (dset acc o v) kw'
      end
  end.
Definition mapped_call (mapping : dict name) (call : dict V -> res (nerr E) V) (kw : dict V) : res (nerr E) V :=
  match unmap_kwargs mapping [] kw with Ok kw' => call kw' | Err e => Err e end.
(** recursive.py 364-366: input types of the new names. *)
Definition mapped_inputs (mapping : dict name) (ins : dict (T * deptype)) : dict (T * deptype) :=
  omap (fun nk => (fun t => (nk.1, t)) <$> dget ins nk.2) mapping.
(** recursive.py 332-371: one node of [add_namespace]; the async variant awaits the same call. *)
Definition namespaced_node (names : dict name) (n : node) : node :=
  let mapping := kwarg_mapping names (pn_inputs n) in
  PNode (rename names (pn_name n)) (pn_type n) (mapped_inputs mapping (pn_inputs n))
    (fun kw => if existsb (fun k => bool_decide (k ∈ dkeys kw)) sub_reserved then captured kw
               else mapped_call mapping (pn_call n) kw).
(** recursive.py 304-372 [add_namespace] *)
Definition add_namespace (nodes : list node) (namespace : name) (inputs : dict dep) (config : dict V) : list node :=
  map (namespaced_node (new_name_map nodes namespace inputs config)) nodes.

(** recursive.py 258-301 [_create_additional_static_nodes]; [nodes] are the namespaced ones. *)
Definition static_nodes (nodes : list node) (namespace : name) (inputs : dict dep) (config : dict V) : list node :=
  omap (fun kd =>
    let nm := assign_namespace kd.1 namespace in
    match kd.2 with
    | DValue v => Some (static_node nm (type_of v) v)
    | DSource s => (fun t => identity_node s nm t) <$> dget (known_types nodes) nm
    end) inputs
  ++ map (fun kv => static_node (assign_namespace kv.1 namespace) (type_of kv.2) kv.2) config.

(** recursive.py 374-404 [add_final_node]; [fn] is the node of the decorated function. *)
Definition final_node (fn : node) (node_name namespace : name) (external : list name) : node :=
  let ren k := if decide (k ∈ external) then k else assign_namespace k namespace in
  let mapping := foldl (fun d k => dset d (ren k) k) [] (dkeys (pn_inputs fn)) in
  PNode node_name (pn_type fn) (dmapk ren (pn_inputs fn)) (mapped_call mapping (pn_call fn)).

(** recursive.py 424-437 [generate_nodes]; [nodes] is what [collect_nodes] returns (251-256). *)
Definition subdag (nodes : list node) (inputs : dict dep) (config : dict V) (namespace final : name) (external : list name) (fn : node) : list node :=
  let nodes' := add_namespace nodes namespace inputs config in
  nodes' ++ static_nodes nodes' namespace inputs config ++ [final_node fn final namespace external].

(** recursive.py 572-591 [parameterized_subdag.generate_nodes]: [nodes] depends on the
    configuration of each parameterization. *)
Record subdag_params := SubdagParams { sp_inputs : dict dep; sp_config : dict V; sp_external : option (list name) }.
Definition parameterized_subdag (collect : dict V -> list node) (inputs : dict dep) (config : dict V) (external : list name)
    (ps : dict subdag_params) (fn : node) : list node :=
  flat_map (fun kp =>
    let config' := dupd config (sp_config kp.2) in
    subdag (collect config') (dupd inputs (sp_inputs kp.2)) config' kp.1 kp.1 (default external (sp_external kp.2)) fn) ps.

(** ** [prune_nodes] *)
(** recursive.py 625-629: the dependencies of one node. *)
Definition push_deps (m : dict node) (deps : list name) (stack : list name) (seen : list name) : list name * list name :=
  foldl (fun '(stack, seen) dep =>
    if decide (dep ∉ seen /\ is_Some (dget m dep)) then (dep :: stack, dep :: seen) else (stack, seen)) (stack, seen) deps.
(** recursive.py 622-629: the stack, its top first; None: not finished within [fuel] rounds. *)
Fixpoint prune_loop (m : dict node) (fuel : nat) (stack seen : list name) (output : list node) : option (list node) :=
  match fuel with
  | O => None
  | S fuel =>
      match stack with
      | [] => Some output
      | x :: stack =>
          match dget m x with
          | None => None (* not reached: the stack holds nodes *)
          | Some n => let '(stack, seen) := push_deps m (dkeys (pn_inputs n)) stack seen in
                      prune_loop m fuel stack seen (output ++ [n])
          end
      end
  end.
Inductive prune_result := Pruned (nodes : list node) | PruneValueError | PruneStuck.
(** recursive.py 605-636. [order] is the order in which the set of the selected nodes is
    listed (620), which depends on hashes. *)
Definition prune_nodes (order : list name -> list name) (nodes : list node) (select : option (list name)) : prune_result :=
  match select with
  | None => Pruned nodes
  | Some select =>
      let m := foldl (fun d n => dset d (pn_name n) n) [] nodes in
      let start := filter (fun c => is_Some (dget m c)) (remove_dups select) in
      match prune_loop m (S (length m)) (rev (order start)) select [] with
      | None => PruneStuck
      | Some output => if forallb (fun c => bool_decide (c ∈ map pn_name output)) select then Pruned output else PruneValueError
      end
  end.
End Subdag.
Arguments subdag_params : clear implicits.
