(** Data loaders and savers: @load_from, @save_to, @dataloader and @datasaver
    (hamilton/function_modifiers/adapters.py) and the selection of target nodes by
    transformers (hamilton/function_modifiers/base.py). *)
From Verif Require Import Base Dict NodeModel PipeModel.

Section Adapters.
Context {V E T : Type}.
(** Python tuples of two and [x[0]] (None: the object cannot be indexed); [Tuple[dict, t]] and the
    type of metadata. *)
Variable vpair : V -> V -> V.
Variable vfst : V -> option V.
Variable tuple_of : T -> T.
Variable dict_type : T.
Notation node := (pnode V E T).

(** hamilton/io/data_adapters.py 14-178: a loader or saver class: the fields of the dataclass
    without and with defaults (64-91), whether Any is among its applicable types,
    [applies_to], and what constructing it with keyword arguments and then calling
    [load_data] (data and metadata) or [save_data] does. [can_load] and [can_save] are
    true. *)
Record acls := ACls {
  ac_required : dict T;
  ac_optional : dict T;
  ac_any : bool;
  ac_applies : T -> bool;
  ac_load : gmap name V -> res E (V * V);
  ac_save : gmap name V -> V -> res E V;
}.

(** InvalidDecoratorException / ValueError when the nodes are made. *)
Inductive aerr :=
| ANoClass          (* no class for the type *)
| AMissing          (* missing required parameters *)
| AExtra            (* extra parameters *)
| ANoInject         (* several parameters and no inject_ *)
| ABadInject        (* inject_ is not a parameter *)
| ANoTarget         (* target node not found *)
| ANotOne.          (* not exactly one target node *)

(** adapters.py 100-129 [resolve_adapter_class]. *)
Definition resolve_class (t : T) (classes : list acls) : option acls :=
  let applicable := filter (fun c => ac_applies c t = true) (rev classes) in
  let any := filter (fun c => ac_any c = true) (rev classes) in
  match applicable with
  | c :: _ => Some c
  | [] => match any with c :: _ => Some c | [] => None end
  end.

(** 46-69 [AdapterFactory.validate]. *)
Definition validate (c : acls) (kws : dict (dep V)) : res aerr unit :=
  if existsb (fun k => bool_decide (dget kws k = None)) (dkeys (ac_required c)) then Err AMissing
  else if existsb (fun k => bool_decide (dget (ac_required c) k = None) && bool_decide (dget (ac_optional c) k = None)) (dkeys kws)
       then Err AExtra
       else Ok tt.

(** Constructing the dataclass with keyword arguments (71-79). *)
Definition construct (c : acls) (kw : dict V) : res (nerr E) (gmap name V) :=
  match find (fun k => bool_decide (dget (ac_required c) k = None) && bool_decide (dget (ac_optional c) k = None)) (dkeys kw) with
  | Some k => Err (NUnexpected k)
  | None =>
      match find (fun k => bool_decide (dget kw k = None)) (dkeys (ac_required c)) with
      | Some k => Err (NMissing k)
      | None => Ok (list_to_map kw)
      end
  end.

(** 82-97 [resolve_kwargs]: [upstream_of] are the dependencies and [literal_of] the
    resolved arguments. *)

(** 203-223 and 549-569: the parameters of a loader or saver node. *)
Definition adapter_inputs (c : acls) (kws : dict (dep V)) : dict (T * deptype) :=
  let deps := upstream_of kws in
  let req := foldl (fun d kt => dset d (rename deps kt.1) (kt.2, REQUIRED)) [] (ac_required c) in
  let opt := foldl (fun d kt => match dget deps kt.1 with Some s => dset d s (kt.2, OPTIONAL) | None => d end) req (ac_optional c) in
  filter (fun kt => dget (literal_of kws) kt.1 = None) opt.

(** 196-199 and 540-543: the keyword arguments for the class. Simplification: the names of the
    private parameters of [load_data] and [save_data] are assumed not to be sources. *)
Definition adapter_kwargs (kws : dict (dep V)) (kw : dict V) : dict V :=
  dupd (literal_of kws) (dmapk (rename (reverse_names (upstream_of kws))) kw).

Definition bindr {X A B} (r : res X A) (f : A -> res X B) : res X B :=
  match r with Ok a => f a | Err e => Err e end.
Definition user {A} (r : res E A) : res (nerr E) A :=
  match r with Ok a => Ok a | Err e => Err (NUser e) end.

(** 188-201 [load_data]. *)
Definition load_call (c : acls) (kws : dict (dep V)) (kw : dict V) : res (nerr E) V :=
  bindr (construct c (adapter_kwargs kws kw)) (fun a =>
  bindr (user (ac_load c a)) (fun dm => Ok (vpair dm.1 dm.2))).

(** 245-246 [filter_function]. *)
Definition filter_call (loader : name) (kw : dict V) : res (nerr E) V :=
  match dget kw loader with
  | None => Err (NKey loader)
  | Some v => match vfst v with Some d => Ok d | None => Err (NKey "0") end
  end.

(** 169-266 [get_loader_nodes]. *)
Definition loader_name (namespace : option name) (p : name) : name :=
  match namespace with Some f => (f ++ ".load_data." ++ p)%string | None => ("load_data." ++ p)%string end.
Definition select_name (namespace : option name) (p : name) : name :=
  match namespace with Some f => (f ++ ".select_data." ++ p)%string | None => p end.
Definition loader_nodes (classes : list acls) (kws : dict (dep V)) (p : name) (t : T) (namespace : option name) : res aerr (node * node) :=
  match resolve_class t classes with
  | None => Err ANoClass
  | Some c =>
      bindr (validate c kws) (fun _ =>
      Ok (PNode (loader_name namespace p) (tuple_of t) (adapter_inputs c kws) (load_call c kws),
          PNode (select_name namespace p) t [(loader_name namespace p, (tuple_of t, REQUIRED))]
                (filter_call (loader_name namespace p))))
  end.

(** 150-167 [_select_param_to_inject]. *)
Definition select_param (inject : option name) (params : list name) : res aerr name :=
  match inject with
  | None => match params with [p] => Ok p | _ => Err ANoInject end
  | Some p => if decide (p ∈ params) then Ok p else Err ABadInject
  end.

(** base.py 239-257 [find_injectable_params]. *)
Definition injectable_params (nodes : list node) : dict T :=
  foldl (fun d n => foldl (fun d kt => if decide (kt.1 ∈ map pn_name nodes) then d else dset d kt.1 kt.2.1) d (pn_inputs n)) [] nodes.

(** adapters.py 268-288 [inject_nodes] within base.py 259-280 [transform_dag]; [fn] is the name of
    the decorated function. *)
Definition load_from (classes : list acls) (kws : dict (dep V)) (inject : option name) (fn : name) (nodes : list node) : res aerr (list node) :=
  let params := injectable_params nodes in
  bindr (select_param inject (dkeys params)) (fun p =>
  match dget params p with
  | None => Err ABadInject
  | Some t =>
      bindr (loader_nodes classes kws p t (Some fn)) (fun ls =>
      Ok (map (fun n => if decide (p ∈ dkeys (pn_inputs n)) then reassign_inputs n [(p, pn_name ls.2)] [] else n) nodes
          ++ [ls.1; ls.2]))
  end).

(** 533-547 [save_data]. *)
Definition save_call (c : acls) (kws : dict (dep V)) (data : name) (kw : dict V) : res (nerr E) V :=
  let kw' := adapter_kwargs kws kw in
  match dget kw' data with
  | None => Err (NKey data)
  | Some d =>
      bindr (construct c (filter (fun kv => kv.1 <> data) kw')) (fun a =>
      user (ac_save c a d))
  end.

(** 506-581 [create_saver_node]. *)
Definition saver_node (classes : list acls) (kws : dict (dep V)) (output target : option name) (n : node) : res aerr node :=
  let data := default (pn_name n) target in
  let nm := match output with Some o => o | None => ("save." ++ data)%string end in
  match resolve_class (pn_type n) classes with
  | None => Err ANoClass
  | Some c =>
      bindr (validate c kws) (fun _ =>
      Ok (PNode nm dict_type (dset (adapter_inputs c kws) data (pn_type n, REQUIRED)) (save_call c kws data)))
  end.

(** base.py 358, 396-455: the target of a transformer; [non_final n] says whether the node has
    the tag [hamilton.non_final_node]. *)
Inductive target := TNone | TAll | TName (x : name) | TNames (xs : list name).
Definition final_nodes (non_final : node -> bool) (nodes : list node) : list node :=
  filter (fun n => pn_name n ∉ concat (map (fun n => dkeys (pn_inputs n)) nodes) /\ non_final n = false) nodes.
Definition select_nodes (non_final : node -> bool) (t : target) (nodes : list node) : res aerr (list node) :=
  match t with
  | TNone => Ok (final_nodes non_final nodes)
  | TAll => Ok nodes
  | TName x =>
      match filter (fun n => pn_name n = x) nodes with
      | [] => Err ANoTarget
      | out => Ok out
      end
  | TNames xs =>
      let out := filter (fun n => pn_name n ∈ xs) nodes in
      if decide (length out = length xs) then Ok out else Err ANoTarget
  end.

(** base.py 457-470 [compliment], 472-508 [transform_dag] and 486-490 [transform_targets].
    [node_ not in nodes_to_transform] is identity or node.py 238-256 [__eq__]; the model
    compares names, as the nodes of one function have distinct names. *)
Definition compliment (nodes sel : list node) : list node :=
  filter (fun n => pn_name n ∉ map pn_name sel) nodes.
Fixpoint transform_targets {X} (f : node -> res X (list node)) (sel : list node) : res X (list node) :=
  match sel with
  | [] => Ok []
  | n :: sel' => bindr (f n) (fun ns => bindr (transform_targets f sel') (fun rest => Ok (ns ++ rest)))
  end.
Definition transform_dag (non_final : node -> bool) (t : target) (f : node -> res aerr (list node)) (nodes : list node) : res aerr (list node) :=
  bindr (select_nodes non_final t nodes) (fun sel =>
  bindr (transform_targets f sel) (fun out => Ok (compliment nodes sel ++ out))).

(** base.py 541-566 [SingleNodeNodeTransformer.transform_targets] and adapters.py 583-597
    [SaveToDecorator.transform_node]. *)
Definition save_to (non_final : node -> bool) (classes : list acls) (kws : dict (dep V)) (output tgt : option name) (nodes : list node) : res aerr (list node) :=
  bindr (select_nodes non_final (match tgt with Some x => TName x | None => TNone end) nodes) (fun sel =>
  match sel with
  | [n] => bindr (saver_node classes kws output tgt n) (fun s => Ok (compliment nodes sel ++ [s; n]))
  | _ => Err ANotOne
  end).

(** 756-799 [dataloader.generate_nodes]; [n] is the node of the decorated function and [t] the
    type of the data. *)
Definition dataloader (n : node) (t : T) : list node :=
  let l := (pn_name n ++ ".loader")%string in
  [PNode l (pn_type n) (pn_inputs n) (pn_call n); PNode (pn_name n) t [(l, (pn_type n, REQUIRED))] (filter_call l)].
End Adapters.
Arguments acls : clear implicits.
