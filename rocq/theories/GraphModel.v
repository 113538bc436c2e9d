(** Model of graph construction, hamilton/graph.py 40-187. *)
From Verif Require Import Base Dict.

Section Build.
(** Type annotations and the two type comparisons used by [add_dependency]:
    [types_match] is hamilton/htypes.py 115-135, [adapter_match] the optional
    [do_check_edge_types_match] adapter method (constantly false when no adapter
    implements it). *)
Context {T : Type}.
Variable types_match : T -> T -> bool.
Variable adapter_match : T -> T -> bool.
(** [typing.Any], the type of config-only nodes (graph.py 186). *)
Variable any_type : T.

(** A node resolved from a function: name and parameters ([input_types], an ordered dict
    from parameter name to type and dependency type; node.py 83-125). *)
Record fdef := FDef { fd_name : name; fd_type : T; fd_params : list (name * (T * deptype)) }.

(** Node objects during construction (node.py 47-125). *)
Record gnode := GNode {
  gn_ext : bool;
  gn_type : T;
  gn_params : list (name * (T * deptype));   (* input_types *)
  gn_deps : list name;                       (* dependencies, in append order *)
  gn_rdeps : list name;                      (* depended_on_by, in append order *)
}.

Inductive build_error :=
| Duplicate (x : name)         (* graph.py 174-179 *)
| InputTypes (x : name)        (* graph.py 79-88 *)
| EdgeTypes (x : name).        (* graph.py 95-102 *)

(** graph.py 170-180: one node per resolved function; names in the config are skipped,
    duplicates are errors unless overriding is allowed. *)
Fixpoint collect (config : list name) (allow : bool) (nodes : dict gnode) (defs : list fdef)
  : res build_error (dict gnode) :=
  match defs with
  | [] => Ok nodes
  | n :: defs' =>
      if decide (fd_name n ∈ config) then collect config allow nodes defs'
      else if decide (is_Some (dget nodes (fd_name n))) then
        if allow
        then collect config allow
               (dset nodes (fd_name n) (GNode false (fd_type n) (fd_params n) [] [])) defs'
        else Err (Duplicate (fd_name n))
      else collect config allow
               (dset nodes (fd_name n) (GNode false (fd_type n) (fd_params n) [] [])) defs'
  end.

Definition set_type (n : gnode) (t : T) : gnode :=
  GNode (gn_ext n) t (gn_params n) (gn_deps n) (gn_rdeps n).
Definition add_rdep (n : gnode) (x : name) : gnode :=
  GNode (gn_ext n) (gn_type n) (gn_params n) (gn_deps n) (gn_rdeps n ++ [x]).
Definition add_dep (n : gnode) (x : name) : gnode :=
  GNode (gn_ext n) (gn_type n) (gn_params n) (gn_deps n ++ [x]) (gn_rdeps n).

(** Mutation of the node object stored under [k]. *)
Definition dmod (nodes : dict gnode) (k : name) (f : gnode -> gnode) : dict gnode :=
  match dget nodes k with Some n => dset nodes k (f n) | None => nodes end.

(** graph.py 40-114 [add_dependency]. Python mutates the two node objects; the model
    updates their dictionary entries. [originating_functions] are not modelled. *)
Definition add_dependency (nodes : dict gnode) (func : name) (p : name) (pt : T)
  : res build_error (dict gnode) :=
  let edges nodes := dmod (dmod nodes func (fun n => add_dep n p)) p (fun n => add_rdep n func) in
  match dget nodes p with
  | Some rn =>
      if types_match pt (gn_type rn) || adapter_match pt (gn_type rn)
      then Ok (edges nodes)
      else if gn_ext rn then
        if types_match (gn_type rn) pt || adapter_match pt (gn_type rn)
        then Ok (edges (dset nodes p (set_type rn pt)))
        else Err (InputTypes p)
      else Err (EdgeTypes p)
  | None => Ok (edges (dset nodes p (GNode true pt [] [] [])))
  end.

Fixpoint add_params (nodes : dict gnode) (func : name) (ps : list (name * (T * deptype)))
  : res build_error (dict gnode) :=
  match ps with
  | [] => Ok nodes
  | (p, (pt, _)) :: ps' =>
      match add_dependency nodes func p pt with
      | Ok nodes' => add_params nodes' func ps'
      | Err e => Err e
      end
  end.

(** graph.py 139-141: loop over a snapshot of the dictionary. *)
Fixpoint add_all (nodes : dict gnode) (snapshot : dict gnode) : res build_error (dict gnode) :=
  match snapshot with
  | [] => Ok nodes
  | (x, n) :: rest =>
      match add_params nodes x (gn_params n) with
      | Ok nodes' => add_all nodes' rest
      | Err e => Err e
      end
  end.

(** graph.py 117-142 [update_dependencies]; [reset] copies the nodes without their edges. *)
Definition reset_refs (n : gnode) : gnode := GNode (gn_ext n) (gn_type n) (gn_params n) [] [].
Definition update_dependencies (nodes : dict gnode) (reset : bool) : res build_error (dict gnode) :=
  let nodes := if reset then map (fun kn => (kn.1, reset_refs kn.2)) nodes else nodes in
  add_all nodes nodes.

(** graph.py 184-186 *)
Fixpoint add_config (nodes : dict gnode) (config : list name) : dict gnode :=
  match config with
  | [] => nodes
  | k :: config' =>
      add_config (match dget nodes k with
                  | Some _ => nodes
                  | None => dset nodes k (GNode true any_type [] [] [])
                  end) config'
  end.

(** graph.py 145-187 [create_function_graph] with [fg = None] (the only way it is called,
    graph.py 736); [defs] is what [resolve_nodes] yields over all functions of all modules
    in order. *)
Definition create_function_graph (defs : list fdef) (config : list name) (allow : bool)
  : res build_error (dict gnode) :=
  match collect config allow [] defs with
  | Err e => Err e
  | Ok nodes =>
      match update_dependencies nodes false with
      | Err e => Err e
      | Ok nodes' => Ok (add_config nodes' config)
      end
  end.

(** The view of a finished graph that the traversals use. *)
Definition to_node (n : gnode) : node :=
  Node (gn_ext n)
       (map (fun p => (p, match dget (gn_params n) p with
                          | Some (_, dt) => dt
                          | None => REQUIRED
                          end)) (gn_deps n))
       (gn_rdeps n).
Definition to_graph (nodes : dict gnode) : graph :=
  list_to_map (map (fun kn => (kn.1, to_node kn.2)) nodes).

End Build.
Arguments fdef : clear implicits.
Arguments gnode : clear implicits.

(** ** Collecting functions from modules (hamilton/graph_utils.py 6-24) *)

(** [p in s] on Python strings. *)
Fixpoint str_contains (p s : string) : bool :=
  String.prefix p s || match s with EmptyString => false | String _ s' => str_contains p s' end.

(** graph_utils.py 6-7 *)
Definition is_submodule (child parent : string) : bool := str_contains parent child.

(** A member of a module: whether it is a function, its [__name__], and the name of the
    module it was defined in ([inspect.getmodule]). *)
Record member := Member { mb_key : string; mb_function : bool; mb_name : string; mb_module : string }.

(** graph_utils.py 10-24. [members] is what [inspect.getmembers] enumerates. *)
Definition find_functions (module_name : string) (members : list member) : list member :=
  filter (fun m => (mb_function m && negb (String.prefix "_" (mb_name m))
                    && is_submodule (mb_module m) module_name) = true) members.

(** ** A fragment of Python's type annotations (hamilton/htypes.py 24-135):
    [typing.Any], classes with a subclass relation, and unions of classes.
    Generics, TypeVars, tuples, Parallelizable/Collect are not in the fragment. *)
Inductive ty := TAny | TClass (c : nat) | TUnion (cs : list nat).
Section Types.
Variable subclass : nat -> nat -> bool.   (* issubclass *)

(** Equality of annotations; unions are compared as sets. *)
Definition ty_eqb (a b : ty) : bool :=
  match a, b with
  | TAny, TAny => true
  | TClass c, TClass c' => Nat.eqb c c'
  | TUnion cs, TUnion cs' =>
      forallb (fun c => existsb (Nat.eqb c) cs') cs && forallb (fun c => existsb (Nat.eqb c) cs) cs'
  | _, _ => false
  end.

(** htypes.py 38-91 on the fragment. *)
Definition custom_subclass_check (requested param : ty) : bool :=
  match param with
  | TAny => true
  | TClass p => match requested with
                | TClass r => subclass r p || Nat.eqb r p
                | _ => false
                end
  | TUnion ps =>
      match requested with
      | TClass r => existsb (fun p => subclass r p || Nat.eqb r p) ps
      | TUnion _ => ty_eqb requested param
      | TAny => false
      end
  end.

(** htypes.py 115-135 on the fragment. *)
Definition ty_match (param required : ty) : bool :=
  match required with
  | TAny => true
  | _ => ty_eqb required param || custom_subclass_check required param
  end.
End Types.
