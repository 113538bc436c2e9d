(** Model of hamilton/execution/grouping.py: node groups, task specs, the task plan. *)
From Verif Require Import Base Dict ExecModel TraverseModel TopoModel.

(** hamilton/node.py 21-31 [NodeType]: EXTERNAL is [nd_ext]; STANDARD, EXPAND
    (Parallelizable) and COLLECT are the roles below. *)
Inductive role := RStandard | RExpand | RCollect.
Global Instance role_eq_dec : EqDecision role.
Proof. solve_decision. Defined.

(** grouping.py 16-32 [NodeGroupPurpose] *)
Inductive purpose := EXPAND | GATHER | BLOCK | SINGLE.
Global Instance purpose_eq_dec : EqDecision purpose.
Proof. solve_decision. Defined.

(** grouping.py 35-75 [NodeGroup] *)
Record ngroup := NGroup {
  ng_base : string;
  ng_spawn : option string;
  ng_nodes : list name;
  ng_purpose : purpose }.

Section Grouping.
Variable g : graph.
Variable role_of : name -> role.
(** [list(s)] for a Python set: some enumeration of it. *)
Variable ord : gset name -> list name.

Definition is_expander (x : name) : bool := bool_decide (role_of x = RExpand).

(** grouping.py 208-243, one collector. [None]: AttributeError ([expander] is None), or out
    of fuel. [groups] and [visited] are the accumulators. *)
Definition group_collector (node_names : list name) (c : name) : option (list ngroup * list name) :=
  match nodes_between g is_expander c with
  | Some (Some e, block) =>
      let collect := NGroup ("collect-" +:+ e) (Some ("expand-" +:+ e)) [c] GATHER in
      if bool_decide (e ∈ node_names)
      then Some ([NGroup ("expand-" +:+ e) None [e] EXPAND;
                  NGroup ("block-" +:+ e) (Some ("expand-" +:+ e)) (ord block) BLOCK;
                  collect], ord block ++ [e; c])
      else Some ([collect], [c])
  | _ => None
  end.

Fixpoint group_collectors (node_names : list name) (cs : list name) : option (list ngroup * list name) :=
  match cs with
  | [] => Some ([], [])
  | c :: cs' =>
      match group_collector node_names c, group_collectors node_names cs' with
      | Some (gs, vs), Some (gs', vs') => Some (gs ++ gs', vs ++ vs')
      | _, _ => None
      end
  end.

(** grouping.py 191-257 [GroupByRepeatableBlocks.group_nodes] *)
Definition group_by_blocks (nodes : list name) : option (list ngroup) :=
  match group_collectors nodes (filter (fun x => role_of x = RCollect) nodes) with
  | None => None
  | Some (gs, visited) =>
      Some (gs ++ map (fun x => NGroup x None [x] SINGLE) (filter (fun x => x ∉ visited) nodes))
  end.

(** grouping.py 260-266 *)
Definition role_purpose (r : role) : purpose :=
  match r with RExpand => EXPAND | RCollect => GATHER | RStandard => BLOCK end.

(** grouping.py 269-281 [GroupNodesIndividually] *)
Definition group_individually (nodes : list name) : list ngroup :=
  map (fun x => NGroup x None [x] (role_purpose (role_of x))) nodes.

(** grouping.py 284-295 [GroupNodesAllAsOne]; [None]: IndexError *)
Definition group_all (nodes : list name) : option (list ngroup) :=
  match nodes with
  | [] => None
  | x :: _ => Some [NGroup "root" None nodes (role_purpose (role_of x))]
  end.

(** ** Task specs *)
Context {V : Type}.

(** grouping.py 78-90 [TaskSpec], without the adapter. [ts_outputs], [ts_overrides] and
    [ts_deps] are [outputs_to_compute], [overrides] and [base_dependencies]. *)
Record tspec := TSpec {
  ts_base : string;
  ts_spawn : option string;
  ts_nodes : list name;
  ts_purpose : purpose;
  ts_outputs : list name;
  ts_overrides : gmap name V;
  ts_deps : list string }.

Variable overrides : gmap name V.

Definition deps_of (x : name) : list (name * deptype) := match g !! x with Some nd => nd_deps nd | None => [] end.
Definition rdeps_of (x : name) : list name := match g !! x with Some nd => nd_rdeps nd | None => [] end.
Definition overridden (x : name) : bool := bool_decide (is_Some (overrides !! x)).

(** grouping.py 349-366: is the node an output of its group? *)
Definition is_output (outputs group_nodes : list name) (x : name) : bool :=
  bool_decide (x ∈ outputs)
  || existsb (fun w => negb (overridden w) && negb (bool_decide (w ∈ group_nodes))) (rdeps_of x).

(** grouping.py 343-380: first pass for one group; the [TaskSpec] without its dependencies. *)
Definition plan_group (outputs : list name) (ng : ngroup) : tspec :=
  TSpec (ng_base ng) (ng_spawn ng) (ng_nodes ng) (ng_purpose ng)
        (filter (fun x => overridden x = false /\ is_output outputs (ng_nodes ng) x = true) (ng_nodes ng))
        (filter (fun p : name * V => p.1 ∈ ng_nodes ng) overrides)
        [].

(** grouping.py 342-352: [node_to_task_map], a later group wins. *)
Fixpoint task_of (groups : list ngroup) (x : name) : option string :=
  match groups with
  | [] => None
  | ng :: groups' =>
      match task_of groups' x with
      | Some b => Some b
      | None => if bool_decide (x ∈ ng_nodes ng) && negb (overridden x) then Some (ng_base ng) else None
      end
  end.

(** grouping.py 387-404: the dependencies of one task. The Python set is modelled as a list
    without duplicates in order of first insertion; its enumeration order plays no role
    afterwards except in the order of [realized_dependencies]. [None]: ValueError. *)
Definition add_once (l : list string) (b : string) : list string := if decide (b ∈ l) then l else l ++ [b].

Fixpoint plan_deps_of (groups : list ngroup) (group_nodes : list name) (acc : list string)
         (ds : list (name * deptype)) : option (list string) :=
  match ds with
  | [] => Some acc
  | (d, dt) :: ds' =>
      if overridden d || bool_decide (d ∈ group_nodes) then plan_deps_of groups group_nodes acc ds'
      else match task_of groups d with
           | Some b => plan_deps_of groups group_nodes (add_once acc b) ds'
           | None => match dt with
                     | OPTIONAL => plan_deps_of groups group_nodes acc ds'
                     | REQUIRED => None
                     end
           end
  end.

Fixpoint plan_deps (groups : list ngroup) (group_nodes : list name) (acc : list string)
         (xs : list name) : option (list string) :=
  match xs with
  | [] => Some acc
  | x :: xs' =>
      if overridden x then plan_deps groups group_nodes acc xs'
      else match plan_deps_of groups group_nodes acc (deps_of x) with
           | Some acc' => plan_deps groups group_nodes acc' xs'
           | None => None
           end
  end.

Fixpoint plan_tasks (groups : list ngroup) (outputs : list name) (l : list ngroup) : option (list tspec) :=
  match l with
  | [] => Some []
  | ng :: l' =>
      match plan_deps groups (ng_nodes ng) [] (ng_nodes ng), plan_tasks groups outputs l' with
      | Some ds, Some ts =>
          let t := plan_group outputs ng in
          Some (TSpec (ts_base t) (ts_spawn t) (ts_nodes t) (ts_purpose t) (ts_outputs t) (ts_overrides t) ds :: ts)
      | _, _ => None
      end
  end.

(** grouping.py 320-405 [create_task_plan] *)
Definition create_task_plan (groups : list ngroup) (outputs : list name) : option (list tspec) :=
  plan_tasks groups outputs groups.

(** grouping.py 92-119 [get_input_vars] of a task: required and optional variables. *)
Definition input_var (nodes : list name) (ov : gmap name V) (acc : gset name * gset name) (p : name * deptype)
  : gset name * gset name :=
  let '(d, dt) := p in
  if bool_decide (is_Some (ov !! d)) then acc
  else if is_ext g d || negb (bool_decide (d ∈ nodes)) then
    match dt with
    | REQUIRED => ({[d]} ∪ acc.1, acc.2 ∖ {[d]})
    | OPTIONAL => (acc.1, {[d]} ∪ acc.2)
    end
  else acc.

Definition input_vars_node (nodes : list name) (ov : gmap name V) (acc : gset name * gset name) (x : name)
  : gset name * gset name :=
  if bool_decide (is_Some (ov !! x)) then acc
  else foldl (input_var nodes ov) (if is_ext g x then ({[x]} ∪ acc.1, acc.2) else acc) (deps_of x).

Definition get_input_vars (t : tspec) : gset name * gset name :=
  foldl (input_vars_node (ts_nodes t) (ts_overrides t)) (∅, ∅) (ts_nodes t).

End Grouping.
Arguments tspec : clear implicits.
