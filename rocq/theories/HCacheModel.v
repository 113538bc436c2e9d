(** The caching graph adapter, hamilton/experimental/h_cache.py 199-395. *)
From Verif Require Import Base ExecModel ExecSpec.

Section HCache.
(** Values, exceptions, contents of files. *)
Context {V E C : Type}.
Variable g : graph.
(** The node's [cache] tag (h_cache.py 359). *)
Variable fmt : name -> option string.
(** [_write_cache] of a value in a format (335-337): the content of the file afterwards ([None]: it
    was not touched) and the exception raised, if any; writers open the file, which truncates it,
    before they serialize (169-170, 187-188).  [_read_cache] of an existing file (339-346, 376-384); the empty object
    it is given depends only on the type of the node. *)
Variable write : string -> name -> V -> option C * option E.
Variable read : string -> name -> C -> res E V.

(** The files in [cache_path] by their name, [self.computed_nodes], and (not in the code) the
    functions invoked so far. *)
Record hstate := HState { hs_files : gmap string C; hs_computed : gset name; hs_log : list name }.

(** 362: [f"{self.cache_path}/{node.name}.{cache_format}"] *)
Definition path (x : name) (fm : string) : string := x +:+ "." +:+ fm.

Section Run.
(** [self.force_compute], and the functions of the nodes. *)
Variable force : gset name.
Variable f : name -> gmap name V -> res E V.

(** 360: [any(dep.name in self.computed_nodes for dep in node.dependencies)] *)
Definition implicitly_forced (st : hstate) (x : name) : bool :=
  match g !! x with
  | Some nd => existsb (fun d => bool_decide (d ∈ hs_computed st)) (dep_names nd)
  | None => false
  end.

(** 348-390 [execute_node] *)
Definition execute_node (st : hstate) (x : name) (kw : gmap name V) : hstate * res E V :=
  let implicit := implicitly_forced st x in
  match fmt x with
  | Some fm =>
      let compute :=
        let st1 := HState (hs_files st) (hs_computed st) (hs_log st ++ [x]) in
        match f x kw with
        | Err e => (st1, Err e)
        | Ok v =>
            let '(content, err) := write fm x v in
            let files := match content with Some c => <[path x fm := c]> (hs_files st) | None => hs_files st end in
            match err with
            | Some e => (HState files (hs_computed st) (hs_log st1), Err e)
            | None => (HState files ({[x]} ∪ hs_computed st) (hs_log st1), Ok v)
            end
        end in
      if bool_decide (x ∈ force) || implicit then compute
      else match hs_files st !! path x fm with
           | None => compute
           | Some c => (st, read fm x c)
           end
  | None =>
      (HState (hs_files st) (if implicit then {[x]} ∪ hs_computed st else hs_computed st) (hs_log st ++ [x]), f x kw)
  end.

(** The state after the node executions of a trace; the default executor calls the nodes through
    the adapter (lifecycle/api.py 137-140). *)
Definition replay (st : hstate) (tr : list (event V E)) : hstate :=
  foldl (fun st ev => match ev with Call x kw _ => (execute_node st x kw).1 | _ => st end) st tr.
Definition hcached_fn (st : hstate) : list (event V E) -> name -> gmap name V -> res E V :=
  fun tr x kw => (execute_node (replay st tr) x kw).2.
End Run.

(** A request to a driver with the adapter. [rq_builds]: the result is built by the adapter
    (Driver.execute, not Driver.raw_execute or Driver.materialize without it); only then, and
    only if nothing was raised, [computed_nodes] is cleared (392-395). *)
Record request := Request {
  rq_fns : name -> gmap name V -> res E V;
  rq_config : gmap name V;
  rq_inputs : gmap name V;
  rq_overrides : gmap name V;
  rq_final : list name;
  rq_builds : bool;
}.
Definition build_result (st : hstate) : hstate := HState (hs_files st) ∅ (hs_log st).
Definition hcached_execute (force : gset name) (st : hstate) (rq : request) : hstate * answer V E :=
  let a := default_execute (hcached_fn force (rq_fns rq) st) g (rq_config rq) (rq_inputs rq) (rq_overrides rq) (rq_final rq) in
  let st' := replay force (rq_fns rq) st (trace_of a) in
  (match a with Answer _ _ => if rq_builds rq then build_result st' else st' | _ => st' end, a).

(** What happens to a cache directory: executions, new adapter objects for it (283-308), files
    removed by someone. *)
Inductive action :=
| AExec (rq : request)
| ANew (force : gset name)
| ADelete (file : string).
Fixpoint session (force : gset name) (st : hstate) (acts : list action) : (gset name * hstate) * list (answer V E) :=
  match acts with
  | [] => ((force, st), [])
  | AExec rq :: acts' =>
      let '(st', a) := hcached_execute force st rq in
      let '(r, l) := session force st' acts' in (r, a :: l)
  | ANew force' :: acts' => session force' (HState (hs_files st) ∅ (hs_log st)) acts'
  | ADelete p :: acts' => session force (HState (delete p (hs_files st)) (hs_computed st) (hs_log st)) acts'
  end.
End HCache.
Arguments hstate : clear implicits.
Arguments request : clear implicits.
Arguments action : clear implicits.
