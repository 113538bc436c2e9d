(** [Driver.materialize]: data savers appended to and data loaders put into a graph
    (hamilton/io/materialization.py 117-262, 439-483, hamilton/driver.py 1463-1709). *)
From Verif Require Import Base Dict NodeModel PipeModel AdapterModel.

Section Materialize.
Context {V E T : Type}.
Notation node := (pnode V E T).
(** As in AdapterModel. *)
Variable vpair : V -> V -> V.
Variable vfst : V -> option V.
Variable tuple_of : T -> T.
Variable dict_type : T.
(** hamilton/graph.py 44-114 [add_dependency]: whether the types along the edges fit, and the type
    an external node gets. *)
Variable types_ok : dict node -> bool.
Variable ext_type : dict node -> name -> T.

(** Function graphs are the nodes with callables by name; the external nodes that
    graph.py 117-142 [update_dependencies] adds are the parameters that are no such node. *)
Definition graph_names (g : dict node) : list name :=
  dkeys g ++ concat (map (fun kn : name * node => dkeys (pn_inputs kn.2)) g).
Definition type_in (g : dict node) (x : name) : T :=
  match dget g x with Some n => pn_type n | None => ext_type g x end.

(** materialization.py 117-262, [to.x(id=, dependencies=, combine=, kwargs)] and [from_.x(target=, kwargs)]:
    [mt_combine] is the output type and [build_result] of the result builder. Literal keyword
    arguments have been wrapped by [process_kwargs] (95-115), dependencies have been converted to
    names (193-210). *)
Record mat := Mat {
  mt_id : name;
  mt_savers : list (acls V E T);
  mt_combine : option (T * (dict V -> res E V));
  mt_deps : list name;
  mt_kws : dict (dep V);
}.
Record ext := Ext {
  ex_target : name;
  ex_loaders : list (acls V E T);
  ex_kws : dict (dep V);
}.

(** ValueError / InvalidDecoratorException. *)
Inductive merr :=
| MDependency (id : name)   (* dependencies that are not in the graph *)
| MCombine (id : name)      (* several dependencies and no result builder *)
| MAdapter (e : aerr)
| MDuplicate                (* node names that exist already *)
| MTarget (x : name)        (* target of a loader not in the graph *)
| MTypes                    (* types do not match *)
| MNothing                  (* no output requested *)
| MUnbound                  (* UnboundLocalError *)
| MKey (x : name)           (* KeyError *)
| MRun (e : E).             (* raised by the execution *)

Definition build_name (id : name) : name := (id ++ "_build_result")%string.
(** 230-244: the node that joins the dependencies. *)
Definition join_node (g : dict node) (m : mat) (t : T) (build : dict V -> res E V) : node :=
  PNode (build_name (mt_id m)) t
    (foldl (fun d x => dset d x (type_in g x, REQUIRED)) [] (mt_deps m))
    (fun kw => user (build kw)).
(** What the savers read of the node they save: its name and type. *)
Definition data_node (x : name) (t : T) : node := PNode x t [] (fun _ => Err (NKey x)).
Definition as_merr {A} (r : res aerr A) : res merr A := match r with Ok a => Ok a | Err e => Err (MAdapter e) end.

(** 212-262 [_resolve_dependencies], [generate_nodes]. *)
Definition mat_nodes (g : dict node) (m : mat) : res merr (list node) :=
  if forallb (fun x => bool_decide (x ∈ graph_names g)) (mt_deps m) then
    match mt_combine m with
    | None =>
        match mt_deps m with
        | [x] => bindr (as_merr (saver_node dict_type (mt_savers m) (mt_kws m) (Some (mt_id m)) None (data_node x (type_in g x)))) (fun s => Ok [s])
        | _ => Err (MCombine (mt_id m))
        end
    | Some (t, build) =>
        bindr (as_merr (saver_node dict_type (mt_savers m) (mt_kws m) (Some (mt_id m)) None (join_node g m t build))) (fun s =>
        Ok [join_node g m t build; s])
    end
  else Err (MDependency (mt_id m)).

Fixpoint collect {A} (f : A -> res merr (list node)) (l : list A) : res merr (list node) :=
  match l with
  | [] => Ok []
  | a :: l' => bindr (f a) (fun ns => bindr (collect f l') (fun rest => Ok (ns ++ rest)))
  end.
Definition by_name (ns : list node) : dict node := foldl (fun d n => dset d (pn_name n) n) [] ns.

(** graph.py 742-756 [with_nodes]. *)
Definition with_nodes (g new : dict node) : res merr (dict node) :=
  if existsb (fun x => bool_decide (x ∈ graph_names g)) (dkeys new) then Err MDuplicate
  else if types_ok (dupd g new) then Ok (dupd g new) else Err MTypes.

(** 136-152 [ExtractorFactory.generate_nodes]. *)
Definition ext_nodes (g : dict node) (x : ext) : res merr (list node) :=
  if decide (ex_target x ∈ graph_names g) then
    bindr (as_merr (loader_nodes vpair vfst tuple_of (ex_loaders x) (ex_kws x) (ex_target x) (type_in g (ex_target x)) None)) (fun ls => Ok [ls.1; ls.2])
  else Err (MTarget (ex_target x)).

(** 439-483 [modify_graph]. *)
Definition modify_graph (g : dict node) (mats : list mat) (exts : list ext) : res merr (dict node) :=
  bindr (collect (mat_nodes g) mats) (fun ms =>
  bindr (with_nodes g (by_name ms)) (fun g1 =>
  bindr (collect (ext_nodes g1) exts) (fun ls =>
  let g2 := foldl (fun d n => dset d (pn_name n) n) g1 ls in
  if types_ok g2 then Ok g2 else Err MTypes))).

(** driver.py 1631-1706: [exec] stands for the validation and execution of the variables in
    the modified graph. The second component are the calls of the [post_graph_execute]
    hooks (success and results); the [finally] block reads [function_graph], which is
    unbound if the exception was raised before it was assigned. The other hooks and
    telemetry are not modelled. *)
Definition take_results (r : dict V) (xs : list name) : res merr (dict V) :=
  foldl (fun acc x => bindr acc (fun d => match dget r x with Some v => Ok (dset d x v) | None => Err (MKey x) end)) (Ok []) xs.
Definition materialize (has_hook : bool) (exec : dict node -> list name -> res E (dict V)) (g : dict node)
    (mats : list mat) (exts : list ext) (vars : list name) : res merr (dict V * dict V) * list (bool * option (dict V)) :=
  let before :=
    if decide (mats = []%list /\ vars = []%list) then Err MNothing else modify_graph g mats exts in
  match before with
  | Err e => if has_hook then (Err MUnbound, []) else (Err e, [])
  | Ok g' =>
      let ids := map mt_id mats in
      let r := match exec g' (vars ++ ids) with
               | Err e => Err (MRun e)
               | Ok raw => bindr (take_results raw ids) (fun m => bindr (take_results raw vars) (fun a => Ok (m, a)))
               end in
      (r, if has_hook then [match r with Ok (_, a) => (true, Some a) | Err _ => (false, None) end] else [])
  end.
End Materialize.
Arguments mat : clear implicits.
Arguments ext : clear implicits.
Arguments merr : clear implicits.
