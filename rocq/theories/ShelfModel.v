(** The (deprecated) CacheAdapter, hamilton/lifecycle/default.py 326-438. *)
From Verif Require Import Base ExecModel ExecSpec.

Section Shelf.
(** Values and exceptions. *)
Context {V E : Type}.
(** [pickle.dumps] (None: it raises) and [pickle.loads]; [shelve] pickles what it stores. The bytes depend on the
    value only; functions do not change their arguments. *)
Variable pickle : V -> option string.
Variable unpickle : string -> res E V.
(** [hashlib.sha256(...).hexdigest()] *)
Variable digest : string -> string.
(** Python's None. *)
Variable none : V.
Variable is_none : V -> bool.
(** What [pickle.dumps] and [inspect.getsource] raise. *)
Variable pickle_error source_error : E.

(** Callables of nodes: a function with its source, after graph_types.py 73-84 has removed documentation and
    comments (None: [inspect.getsource] raises), or a [functools.partial] of a callable. *)
Inductive callable :=
| CFn (source : option string) (fn : gmap name V -> res E V)
| CPartial (c : callable) (bound : gmap name V).
Fixpoint call (c : callable) (kw : gmap name V) : res E V :=
  match c with CFn _ fn => fn kw | CPartial c' bound => call c' (kw ∪ bound) end.
(** default.py 387-389: partials are unwrapped. *)
Fixpoint source_of (c : callable) : option string :=
  match c with CFn s _ => s | CPartial c' _ => source_of c' end.

(** [self.cache] (the file, by key), [self.used_nodes_hash], [self.cache_vars], and (not in the code) the
    functions invoked. [nodes_history], kept in the same file under a key that is no digest, is
    never read by executions and is left out. *)
Record sstate := SState { ss_shelf : gmap string string; ss_used : gmap name string; ss_vars : list name; ss_log : list name }.

(** The values of the keyword arguments, in the order of the dependencies of the node (graph_functions.py 199-202). *)
Definition values (nd : node) (kw : gmap name V) : list V := omap (fun d => kw !! d) (dep_names nd).

Fixpoint pickles (l : list V) : option string :=
  match l with
  | [] => Some ""
  | v :: l' => match pickle v, pickles l' with Some a, Some b => Some (a +:+ b) | _, _ => None end
  end.
(** default.py 429-438 [create_key]; None: [pickle.dumps] raises. *)
Definition create_key (node_hash : string) (vals : list V) : option string :=
  match pickles vals with Some s => Some (digest (node_hash +:+ s)) | None => None end.

(** default.py 373-399 [run_to_execute_node] *)
Definition run_to_execute_node (st : sstate) (x : name) (c : callable) (nd : node) (kw : gmap name V) : sstate * res E V :=
  let logged := SState (ss_shelf st) (ss_used st) (ss_vars st) (ss_log st ++ [x]) in
  if bool_decide (x ∈ ss_vars st) then
    match source_of c with
    | None => (st, Err source_error)
    | Some s =>
        let node_hash := digest s in
        match create_key node_hash (values nd kw) with
        | None => (st, Err pickle_error)
        | Some key =>
            let miss := (SState (ss_shelf st) (<[x := node_hash]> (ss_used st)) (ss_vars st) (ss_log st ++ [x]), call c kw) in
            match ss_shelf st !! key with
            | None => miss
            | Some b =>
                match unpickle b with
                | Err e => (st, Err e)
                | Ok v => if is_none v then miss else (st, Ok v)
                end
            end
        end
    end
  else (logged, call c kw).

(** default.py 401-415 [run_after_node_execution]; [result] is None after a failure. *)
Definition run_after_node_execution (st : sstate) (x : name) (nd : node) (kw : gmap name V) (result : V) : sstate * option E :=
  if bool_decide (x ∈ ss_vars st) then
    match ss_used st !! x with
    | None => (st, None)
    | Some node_hash =>
        match create_key node_hash (values nd kw), pickle result with
        | Some key, Some b => (SState (<[key := b]> (ss_shelf st)) (ss_used st) (ss_vars st) (ss_log st), None)
        | _, _ => (st, Some pickle_error)
        end
    end
  else (st, None).

(** graph_functions.py 255-331 [execute_lifecycle_for_node] with this adapter: the hook runs after failures too and
    what it raises replaces the outcome. *)
Definition execute_node (st : sstate) (x : name) (c : callable) (nd : node) (kw : gmap name V) : sstate * res E V :=
  let '(st1, r) := run_to_execute_node st x c nd kw in
  let '(st2, err) := run_after_node_execution st1 x nd kw (match r with Ok v => v | Err _ => none end) in
  (st2, match err with Some e => Err e | None => r end).

(** A request to a driver that uses the adapter. *)
Record request := Request {
  rq_graph : graph;
  rq_fns : name -> callable;
  rq_config : gmap name V;
  rq_inputs : gmap name V;
  rq_overrides : gmap name V;
  rq_final : list name;
}.
Section Run.
Variable rq : request.
Definition step (st : sstate) (x : name) (kw : gmap name V) : sstate * res E V :=
  match rq_graph rq !! x with
  | Some nd => execute_node st x (rq_fns rq x) nd kw
  | None => (st, Err source_error)   (* not reached: only nodes of the graph are executed *)
  end.
Definition replay (st : sstate) (tr : list (event V E)) : sstate :=
  foldl (fun st ev => match ev with Call x kw _ => (step st x kw).1 | _ => st end) st tr.
(** default.py 367-371 [run_before_graph_execution]; the order in which all nodes are listed does not matter. *)
Definition before_graph (st : sstate) : sstate :=
  match ss_vars st with
  | [] => SState (ss_shelf st) (ss_used st) (map fst (map_to_list (rq_graph rq))) (ss_log st)
  | _ => st
  end.
Definition shelf_execute (st : sstate) : sstate * answer V E :=
  let st1 := before_graph st in
  let a := default_execute (fun tr x kw => (step (replay st1 tr) x kw).2) (rq_graph rq)
             (rq_config rq) (rq_inputs rq) (rq_overrides rq) (rq_final rq) in
  (replay st1 (trace_of a), a).
End Run.

(** The life of an adapter object for the file: the requests it serves. *)
Fixpoint serve (st : sstate) (rqs : list request) : sstate * list (answer V E) :=
  match rqs with
  | [] => (st, [])
  | rq :: rqs' => let '(st1, a) := shelf_execute rq st in let '(st2, l) := serve st1 rqs' in (st2, a :: l)
  end.
(** Adapter objects one after the other, each with its [cache_vars] (default.py 342-358). *)
Fixpoint lifetimes (shelf : gmap string string) (log : list name) (ls : list (list name * list request)) : (gmap string string * list name) * list (list (answer V E)) :=
  match ls with
  | [] => ((shelf, log), [])
  | (vars, rqs) :: ls' =>
      let '(st, l) := serve (SState shelf ∅ vars log) rqs in
      let '(r, rest) := lifetimes (ss_shelf st) (ss_log st) ls' in (r, l :: rest)
  end.
End Shelf.
Arguments callable : clear implicits.
Arguments request : clear implicits.
