(** Model of the graph queries: hamilton/graph.py 959-1074, hamilton/driver.py 1139-1335,
    hamilton/execution/graph_functions.py 334-402. *)
From Verif Require Import Base ExecModel.

(** ** [directional_dfs_traverse], graph.py 1033-1074 *)
Section Directional.
Variable next : name -> list name.      (* next_nodes_fn, by name *)
Variable ext : name -> bool.            (* node.user_defined *)

(** The sets [nodes] and [user_nodes] that the nested function mutates. *)
Definition sets := (gset name * gset name)%type.

(** graph.py 1056-1058: loop over the next nodes. *)
Fixpoint visit_next (rec : sets -> name -> option sets) (st : sets) (ns : list name) : option sets :=
  match ns with
  | [] => Some st
  | n :: ns' =>
      if decide (n ∈ st.1) then visit_next rec st ns'
      else match rec st n with
           | Some st' => visit_next rec st' ns'
           | None => None
           end
  end.

(** graph.py 1054-1060. [None]: out of fuel (excluded by theorem). *)
Fixpoint dfs_visit (fuel : nat) (st : sets) (x : name) : option sets :=
  match fuel with
  | 0 => None
  | S fuel' =>
      match visit_next (dfs_visit fuel') ({[x]} ∪ st.1, st.2) (next x) with
      | None => None
      | Some st' => Some (if ext x then (st'.1, {[x]} ∪ st'.2) else st')
      end
  end.

Inductive query_result :=
| Found (nodes users : gset name)
| Unknown (missing : list name)     (* ValueError: Unknown nodes requested *)
| QFuel.

(** graph.py 1062-1074. [known x]: [x] is a node of the graph (or in the config, whose keys
    are nodes); [runtime x]: [x] is a runtime input. *)
Fixpoint visit_starts (fuel : nat) (known runtime : name -> bool) (st : sets) (missing : list name)
         (starts : list name) : query_result :=
  match starts with
  | [] => match missing with [] => Found st.1 st.2 | _ => Unknown missing end
  | x :: starts' =>
      if known x then
        match dfs_visit fuel st x with
        | Some st' => visit_starts fuel known runtime st' missing starts'
        | None => QFuel
        end
      else visit_starts fuel known runtime st
             (if runtime x then missing else missing ++ [x]) starts'
  end.
End Directional.

Section Queries.
Variable g : graph.

Definition is_ext (x : name) : bool := match g !! x with Some nd => nd_ext nd | None => false end.
Definition is_node (x : name) : bool := bool_decide (is_Some (g !! x)).

Definition traverse (next : name -> list name) (runtime : name -> bool) (starts : list name) : query_result :=
  visit_starts next is_ext (S (size g)) is_node runtime (∅, ∅) [] starts.

(** graph.py 959-969 [get_downstream_nodes] / driver.py 1139-1148 [what_is_downstream_of] *)
Definition get_downstream_nodes (xs : list name) : query_result :=
  traverse (fun x => match g !! x with Some nd => nd_rdeps nd | None => [] end) (fun _ => false) xs.

Section Upstream.
Context {V : Type}.
Variable config : gmap name V.

(** graph.py 991-1008, [next_nodes_function]. [None] for inputs/overrides is Python's None
    (compile time). *)
Definition upstream_next (inputs overrides : option (gmap name V)) (x : name) : list name :=
  match g !! x with
  | None => []
  | Some nd =>
      let overridden := match overrides with Some o => bool_decide (is_Some (o !! x)) | None => false end in
      if overridden then []
      else match inputs with
           | None => dep_names nd
           | Some inp =>
               (filter (fun p : name * deptype =>
                  (is_ext p.1 && bool_decide (inp !! p.1 = None) && bool_decide (config !! p.1 = None)
                   && bool_decide (p.2 = OPTIONAL)) = false)
                 (nd_deps nd)).*1
           end
  end.

(** graph.py 971-1012 *)
Definition get_upstream_nodes (inputs overrides : option (gmap name V)) (final_vars : list name)
  : query_result :=
  traverse (upstream_next inputs overrides)
           (fun x => match inputs with Some i => bool_decide (is_Some (i !! x)) | None => false end)
           final_vars.

(** driver.py 1283-1291 [what_is_upstream_of] *)
Definition what_is_upstream_of (xs : list name) : query_result := get_upstream_nodes None None xs.

(** driver.py 1294-1335 [what_is_the_path_between]; [None]: ValueError for an unknown name. *)
Definition what_is_the_path_between (up down : name) : option (gset name) :=
  if negb (is_node up) then None
  else if negb (is_node down) then None
  else match get_downstream_nodes [up], what_is_upstream_of [down] with
       | Found ds _, Found us _ => Some (ds ∩ us)
       | _, _ => None
       end.

(** graph_functions.py 385-402 *)
Definition node_is_required_by_anything (x : name) (node_set : gset name) : bool :=
  match g !! x with
  | None => false
  | Some nd =>
      existsb (fun w => bool_decide (w ∈ node_set) &&
                 match g !! w with
                 | Some ndw => existsb (fun p : name * deptype => bool_decide (p.1 = x) && bool_decide (p.2 = REQUIRED)) (nd_deps ndw)
                 | None => false
                 end) (nd_rdeps nd)
  end.

Inductive input_error :=
| RequiredMissing (x : name)       (* driver.py 557-561 *)
| TypeMismatch (x : name).         (* driver.py 573-577 *)

(** driver.py 522-582 [validate_inputs]; [valid_type x v] is the check of lines 563-572 (None
    is always valid; the adapter's or htypes' check otherwise). [None]: the ValueError of
    combine_config_and_inputs. The error list is a set here (Python sorts the messages). *)
Variable valid_type : name -> V -> bool.
Definition validate_inputs (users nodes : gset name) (inputs : gmap name V)
  : option (list input_error) :=
  match combine_config_and_inputs config inputs with
  | None => None
  | Some all_inputs =>
      Some (omap (fun x =>
        match all_inputs !! x with
        | None => if node_is_required_by_anything x nodes then Some (RequiredMissing x) else None
        | Some v => if valid_type x v then None else Some (TypeMismatch x)
        end) (elements users))
  end.

Context {E : Type}.
(** driver.py 786-834 [__raw_execute] with the default executor. The check for
    Parallelizable/Collect nodes (driver.py 819-820) is not part of this model: no node of
    the graph is of that kind. *)
Inductive raw_result :=
| RUnknown (missing : list name)
| RClash
| RInvalid (errors : list input_error)
| RRun (a : answer V E)
| RFuel.

Definition odefault (o : option (gmap name V)) : gmap name V := match o with Some m => m | None => ∅ end.

Definition raw_execute (F : list (event V E) -> name -> gmap name V -> res E V)
    (inputs overrides : option (gmap name V)) (final_vars : list name) : raw_result :=
  match get_upstream_nodes inputs overrides final_vars with
  | Unknown missing => RUnknown missing
  | QFuel => RFuel
  | Found nodes users =>
      match validate_inputs users nodes (odefault inputs) with
      | None => RClash
      | Some (e :: errors) => RInvalid (e :: errors)
      | Some [] =>
          RRun (default_execute F g config (odefault inputs) (odefault overrides) final_vars)
      end
  end.
End Upstream.

(** ** [nodes_between], graph_functions.py 334-382 *)
Section Between.
Variable cond : name -> bool.     (* search_condition *)

Record bstate := BState { b_out : gset name; b_visited : gset name; b_found : option name }.

(** 372-373: [any_deps_included |= dfs_traverse(n)] over the dependencies. *)
Fixpoint between_deps (rec : bstate -> name -> option (bool * bstate)) (s : bstate) (acc : bool)
         (ds : list name) : option (bool * bstate) :=
  match ds with
  | [] => Some (acc, s)
  | d :: ds' =>
      match rec s d with
      | Some (b, s') => between_deps rec s' (acc || b) ds'
      | None => None
      end
  end.

(** 358-377 *)
Fixpoint between_dfs (fuel : nat) (s : bstate) (x : name) : option (bool * bstate) :=
  match fuel with
  | 0 => None
  | S fuel' =>
      if cond x then Some (true, BState (b_out s) (b_visited s) (Some x))
      else if decide (x ∈ b_visited s) then Some (bool_decide (x ∈ b_out s), s)
      else
        let ds := match g !! x with Some nd => dep_names nd | None => [] end in
        match between_deps (between_dfs fuel') (BState (b_out s) ({[x]} ∪ b_visited s) (b_found s)) false ds with
        | None => None
        | Some (true, s') => Some (true, BState ({[x]} ∪ b_out s') (b_visited s') (b_found s'))
        | Some (false, s') => Some (false, s')
        end
  end.

(** 379-382: start from the dependencies of the end node. *)
Definition nodes_between (end_node : name) : option (option name * gset name) :=
  let ds := match g !! end_node with Some nd => dep_names nd | None => [] end in
  match between_deps (between_dfs (S (size g))) (BState ∅ ∅ None) false ds with
  | Some (_, s) => Some (b_found s, b_out s)
  | None => None
  end.
End Between.

(** graph.py 1014-1031 [FunctionGraph.nodes_between]; [None]: KeyError for an unknown end. *)
Definition graph_nodes_between (start end_ : name) : option (gset name) :=
  if is_node end_ then
    match nodes_between (fun x => bool_decide (x = start)) end_ with
    | Some (Some s, out) => Some ({[s]} ∪ out ∪ {[end_]})
    | Some (None, _) => Some ∅
    | None => None
    end
  else None.
End Queries.
