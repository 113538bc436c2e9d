(** Versions of nodes and dataflows, and the diff of two: hamilton/graph_types.py 25-86, 158-183, 226-234; hamilton/cli/logic.py 58-104,
    123-195; hamilton/cli/commands.py 27-65, 97-106; hamilton/graph.py 102-110, 168-187. *)
From stdpp Require Import sorting.
From Verif Require Import Base Dict CacheKeyModel FingerprintModel.

(** What [ast.parse] makes of a source: function definitions (by name and head: decorators, parameters, types) with their bodies,
    strings as statements, and all other statements and expressions. Comments and layout are not in it. *)
Inductive tree :=
| Def (fname : name) (head : string) (body : list tree)
| Text (s : string)
| Other (head : string) (body : list tree).

(** graph_types 25-62 [_remove_docs_and_comments]: [ast.walk] over all definitions (the children are listed before a body is cut;
    a string has no children). *)
Fixpoint drop_docs (t : tree) : tree :=
  match t with
  | Def n h b => Def n h (match b with Text _ :: b' => map drop_docs b' | _ => map drop_docs b end)
  | Text s => Text s
  | Other h b => Other h (map drop_docs b)
  end.

Section Model.
(** [ast.unparse] and sha256 of a tree; sha256 of a printed list; the parameters in the head of a definition. *)
Variable hash : tree -> string.
Variable sha : list (option string) -> string.
Variable params : string -> list name.

(** A python function: its source can be read, or [inspect.getsource] raises OSError. *)
Record fn := Fn { f_name : name; f_head : string; f_body : list tree; f_readable : bool }.
Definition tree_of (f : fn) : tree := Def (f_name f) (f_head f) (f_body f).
Definition params_of (f : fn) : list name := params (f_head f).
(** 65-86 [hash_source_code] with [strip] (of a source that can be parsed). *)
Definition hash_source (f : fn) : option string := if f_readable f then Some (hash (drop_docs (tree_of f))) else None.

(** 89-157 [HamiltonNode]: is_external_input, originating_functions; the graph: its nodes by name. *)
Record hnode := HNode { h_external : bool; h_origins : option (list fn) }.
Definition hgraph := dict hnode.
(** 159-183 [version] *)
Definition version (x : name) (n : hnode) : option string :=
  match h_origins n with
  | None | Some [] => if h_external n then Some x else None
  | Some (f :: _) => hash_source f
  end.

(** graph.py 168-187 [create_function_graph] for functions without decorators: nodes of functions except those in the config; inputs
    where no node has the name of a parameter, with the functions that originate the asking node (102-110; that more are added at the
    end for narrower types, 93, is left out); and what is left of the config. *)
Definition function_nodes (config : list name) (fns : list fn) : dict fn :=
  foldl (fun d f => if decide (f_name f ∈ config) then d else dset d (f_name f) f) [] fns.
Definition add_missing (g : hgraph) (x : name) (n : hnode) : hgraph := match dget g x with Some _ => g | None => dset g x n end.
Definition graph_of (config : list name) (fns : list fn) : hgraph :=
  let fs := function_nodes config fns in
  let g0 := map (fun kv => (kv.1, HNode false (Some [kv.2]))) fs in
  let g1 := foldl (fun g kv => foldl (fun g p => add_missing g p (HNode true (Some [kv.2]))) g (params_of kv.2)) g0 fs in
  foldl (fun g x => add_missing g x (HNode true None)) g1 config.

(** logic.py 71-76 [hash_hamilton_nodes] *)
Definition hash_nodes (g : hgraph) : dict (option string) := map (fun kv => (kv.1, version kv.1 kv.2)) g.
(** 79-94 [map_nodes_to_functions]: [None] is an IndexError. *)
Fixpoint map_nodes (g : hgraph) : option (dict name) :=
  match g with
  | [] => Some []
  | (x, n) :: g =>
    match h_origins n with
    | None => map_nodes g
    | Some [] => None
    | Some (f :: _) => match map_nodes g with Some d => Some ((x, f_name f) :: d) | None => None end
    end
  end.
(** 58-68 [version_hamilton_functions]: [None] is an OSError. *)
Fixpoint hash_functions (fns : list fn) : option (dict string) :=
  match fns with
  | [] => Some []
  | f :: fns => match hash_source f, hash_functions fns with Some h, Some d => Some ((f_name f, h) :: d) | _, _ => None end
  end.
(** 97-102 [hash_dataflow]: [None] is a TypeError (None and a string are not compared; one value alone is not compared). *)
Definition hash_dataflow (d : dict (option string)) : option string :=
  match map snd d with
  | [v] => Some (sha [v])
  | vs => if forallb (fun v => match v with Some _ => true | None => false end) vs then Some (sha (map Some (merge_sort str_le (omap id vs)))) else None
  end.
(** graph_types 226-234 [HamiltonGraph.version] *)
Definition graph_version (g : hgraph) : string := sha (map Some (merge_sort str_le (omap id (map snd (hash_nodes g))))).

(** logic.py 172-195 [diff_versions]; [.get] does not tell None from nothing. *)
Definition getv (d : dict (option string)) (x : name) : option string := match dget d x with Some v => v | None => None end.
Record diff := Diff { current_only : list name; reference_only : list name; edit : list name }.
Definition diff_versions (cur ref : dict (option string)) : diff :=
  Diff (map fst (filter (fun kv => getv ref kv.1 = None) cur))
       (map fst (filter (fun kv => getv cur kv.1 = None) ref))
       (map fst (filter (fun kv => getv ref kv.1 <> None /\ kv.2 <> getv ref kv.1) cur)).
(** commands.py 27-65 [diff]: the function of each node. *)
Definition with_functions (fcur fref : dict name) (xs : list name) : dict (option name) :=
  map (fun x => (x, match dget fcur x with Some f => Some f | None => dget fref x end)) xs.
Definition full_diff (cur ref : hgraph) : option (dict (option name) * dict (option name) * dict (option name)) :=
  let d := diff_versions (hash_nodes cur) (hash_nodes ref) in
  match map_nodes cur, map_nodes ref with
  | Some fc, Some fr => Some (with_functions fc fr (current_only d), with_functions fc fr (reference_only d), with_functions fc fr (edit d))
  | _, _ => None
  end.

(** 123-169 [diff_nodes_against_functions]: [None] is a KeyError. *)
Fixpoint against_nodes (nodes : dict (option string)) (origins : dict string) (n2o : dict name) : option (list name * list name) :=
  match nodes with
  | [] => Some ([], [])
  | (x, v) :: nodes =>
    match dget n2o x with
    | None => None
    | Some o =>
      match against_nodes nodes origins n2o with
      | None => None
      | Some (added, code) =>
        match dget origins o with
        | None => Some (x :: added, code)
        | Some w => if decide (v = Some w) then Some (added, code) else Some (added, x :: code)
        end
      end
    end
  end.
Definition diff_against (nodes : dict (option string)) (origins : dict string) (n2o : dict name) : option (list name * list name * list name) :=
  match against_nodes nodes origins n2o with
  | None => None
  | Some (added, code) => Some (added, code, map fst (filter (fun kv => Some kv.2 ∉ map snd nodes) origins))
  end.
End Model.
