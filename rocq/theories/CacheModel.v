(** Model of the caching adapter, hamilton/caching/adapter.py, under the default executor
    (every [task_id] is None, so every node role is STANDARD, adapter.py 519-536). *)
From Coq Require Import Ascii.
From stdpp Require Import pretty.
From Verif Require Import Base Dict ExecModel CacheKeyModel FingerprintModel.

(** adapter.py 44-104, [CachingBehavior]. *)
Inductive behavior := DEFAULT | RECOMPUTE | DISABLE | IGNORE.
Global Instance behavior_eq_dec : EqDecision behavior.
Proof. solve_decision. Defined.

(** Exceptions leaving the execution of a node under the adapter: the one of the node's
    function, a KeyError of a lookup in [self.behaviors[run_id]], the AssertionError of
    adapter.py 1424. *)
Inductive cexn (E : Type) := CUser (e : E) | CKeyError (k : name) | CAssert.
Arguments CUser {E} e.
Arguments CKeyError {E} k.
Arguments CAssert {E}.

(** State of adapter and stores.
    - [cs_meta]: the metadata store, cache key to data version;
    - [cs_res]: the result store, data version to result;
    - [cs_dv], [cs_key]: [self.data_versions[run_id]] and [self.cache_keys[run_id]] of the
      current run;
    - [cs_uuid]: number of [uuid.uuid4()] values drawn so far;
    - [cs_log]: the calls of node functions made by [_execute_node] (821-837), in order. *)
Record cstate (V : Type) := CState {
  cs_meta : gmap string string;
  cs_res : gmap string V;
  cs_dv : gmap name string;
  cs_key : gmap name string;
  cs_uuid : nat;
  cs_log : list (name * gmap name V);
}.
Arguments CState {V}.
Arguments cs_meta {V}.
Arguments cs_res {V}.
Arguments cs_dv {V}.
Arguments cs_key {V}.
Arguments cs_uuid {V}.
Arguments cs_log {V}.

(** What the adapter sees of the dataflow in one run.
    - [ce_call]: [node.callable];
    - [ce_defaults]: [node.default_parameter_values];
    - [ce_code]: [HamiltonNode.version] (graph_types.py 160-183), the hash of the source code;
    - [ce_beh]: [self.behaviors[run_id]] ([None]: no entry);
    - [ce_loaders], [ce_savers]: [self._data_loaders[run_id]], [self._data_savers[run_id]]. *)
Record cenv (V E : Type) := CEnv {
  ce_graph : graph;
  ce_call : name -> gmap name V -> res E V;
  ce_defaults : name -> gmap name V;
  ce_code : name -> string;
  ce_beh : name -> option behavior;
  ce_loaders : gset name;
  ce_savers : gset name;
}.
Arguments CEnv {V E}.
Arguments ce_graph {V E}.
Arguments ce_call {V E}.
Arguments ce_defaults {V E}.
Arguments ce_code {V E}.
Arguments ce_beh {V E}.
Arguments ce_loaders {V E}.
Arguments ce_savers {V E}.

Section Adapter.
Context {V E : Type}.
(** [fingerprinting.hash_value] *)
Variable hash : V -> string.
(** [str(uuid.uuid4())] of the n-th draw *)
Variable uuid : nat -> string.
(** [result[0]] if [isinstance(result, tuple)], None otherwise *)
Variable head : V -> option V.
(** cache_key.py 6-7 *)
Variable compress : string -> string.
(** Metadata store: true for InMemoryMetadataStore.set (stores/memory.py 38-41, overwrites),
    false for SQLiteMetadataStore.set (stores/sqlite.py 145-153, INSERT OR IGNORE). *)
Variable overwrite : bool.

Notation cstate := (cstate V).
Notation cenv := (cenv V E).
Notation cexn := (cexn E).

(** ["<tag>" + f"_{uuid.uuid4()}"] *)
Definition fresh (tag : string) (st : cstate) : cstate * string :=
  (CState (cs_meta st) (cs_res st) (cs_dv st) (cs_key st) (S (cs_uuid st)) (cs_log st),
   tag +:+ String "_"%char (uuid (cs_uuid st))).

(** adapter.py 777-803, [_version_data] / [version_data]. *)
Definition version_data (st : cstate) (v : V) : cstate * string :=
  if decide (hash v = UNHASHABLE) then fresh "<unhashable>" st else (st, hash v).

Definition set_dv (st : cstate) (x : name) (s : string) : cstate :=
  CState (cs_meta st) (cs_res st) (<[x := s]> (cs_dv st)) (cs_key st) (cs_uuid st) (cs_log st).
Definition set_key (st : cstate) (x : name) (s : string) : cstate :=
  CState (cs_meta st) (cs_res st) (cs_dv st) (<[x := s]> (cs_key st)) (cs_uuid st) (cs_log st).
Definition log_call (st : cstate) (x : name) (kw : gmap name V) : cstate :=
  CState (cs_meta st) (cs_res st) (cs_dv st) (cs_key st) (cs_uuid st) (cs_log st ++ [(x, kw)]).
(** [metadata_store.set]. Simplification: for an IGNOREd node there is no cache key and the
    stores record the data version under None; that entry is never read (766), so it is not
    kept here. *)
Definition set_meta (st : cstate) (k : option string) (s : string) : cstate :=
  match k with
  | None => st
  | Some k =>
      let m := if overwrite then <[k := s]> (cs_meta st)
               else match cs_meta st !! k with Some _ => cs_meta st | None => <[k := s]> (cs_meta st) end in
      CState m (cs_res st) (cs_dv st) (cs_key st) (cs_uuid st) (cs_log st)
  end.
Definition set_res (st : cstate) (s : string) (v : V) : cstate :=
  CState (cs_meta st) (<[s := v]> (cs_res st)) (cs_dv st) (cs_key st) (cs_uuid st) (cs_log st).

(** adapter.py 1031-1066, 1126-1131: version the inputs, then the overrides. *)
Definition version_all (st : cstate) (vs : list (name * V)) : cstate :=
  foldl (fun st p => let '(st', s) := version_data st p.2 in set_dv st' p.1 s) st vs.

(** adapter.py 1084-1131, [pre_graph_execute]: new dictionaries for the run. The order of the
    inputs only decides which uuid is drawn when. *)
Definition pre_graph_execute (st : cstate) (inputs overrides : gmap name V) : cstate :=
  let st0 := CState (cs_meta st) (cs_res st) ∅ ∅ (cs_uuid st) (cs_log st) in
  version_all (version_all st0 (map_to_list inputs)) (map_to_list overrides).

Section Run.
Variable env : cenv.
(** the runtime inputs of the run *)
Variable inputs : gmap name V.

(** adapter.py 1114-1116, 1038: [self.code_versions[run_id][x]]; the entry of a variable given
    as an input is overwritten. Simplification: every node has a code version (1026-1029 only
    versions the nodes of the execution path). *)
Definition code_version (x : name) : string :=
  match inputs !! x with
  | Some _ => "input__" +:+ x
  | None => ce_code env x
  end.

(** adapter.py 1067-1082, [_resolve_default_parameter_values]. *)
Definition resolve_defaults (x : name) (kw : gmap name V) : gmap name V := kw ∪ ce_defaults env x.

(** adapter.py 1175-1220: the data version of one dependency in the cache key. *)
Definition dep_version (st : cstate) (d : name) (v : V) : res cexn (cstate * string) :=
  match ce_beh env d with
  | None => Err (CKeyError d)
  | Some IGNORE => Ok (st, "<ignore>")
  | Some DISABLE => Ok (fresh "<disable>" st)
  | Some _ =>
      let '(st', s) := match cs_dv st !! d with
                       | None => version_data st v
                       | Some s => (st, s)
                       end in
      if decide (s = UNHASHABLE) then Ok (fresh "<unhashable>" st') else Ok (st', s)
  end.

(** adapter.py 1174-1220: the loop over the keyword arguments. *)
Fixpoint dep_versions (st : cstate) (acc : dict string) (kws : list (name * V))
  : res cexn (cstate * dict string) :=
  match kws with
  | [] => Ok (st, acc)
  | (d, v) :: kws' =>
      match dep_version st d v with
      | Err e => Err e
      | Ok (st', s) => dep_versions st' (acc ++ [(d, s)]) kws'
      end
  end.

(** adapter.py 1133-1231, [pre_node_execute]. *)
Definition pre_node_execute (st : cstate) (x : name) (kw : gmap name V) : res cexn cstate :=
  match ce_beh env x with
  | None => Err (CKeyError x)
  | Some IGNORE | Some DISABLE => Ok st
  | Some _ =>
      match dep_versions st [] (map_to_list (resolve_defaults x kw)) with
      | Err e => Err e
      | Ok (st', deps) =>
          Ok (set_key st' x (create_cache_key compress x (code_version x) deps))
      end
  end.

(** adapter.py 683-733: memory first, then the metadata store. *)
Definition get_data_version (st : cstate) (x : name) (key : option string) : option string :=
  match cs_dv st !! x with
  | Some s => Some s
  | None => match key with None => None | Some k => cs_meta st !! k end
  end.

(** adapter.py 1258-1293 and 1350-1383: execute the node, version and record the result.
    [record] is false for DISABLE. *)
Definition execute_node (st : cstate) (x : name) (kw : gmap name V) (record : bool)
  : cstate * res cexn V :=
  let full := resolve_defaults x kw in
  let st1 := log_call st x full in
  match ce_call env x full with
  | Err e => (st1, Err (CUser e))
  | Ok v =>
      if record then
        let v' := if decide (x ∈ ce_loaders env) then default v (head v) else v in
        let '(st2, s0) := version_data st1 v' in
        let s := if decide (x ∈ ce_savers env) then x +:+ "__metadata" else s0 in
        (set_meta (set_dv st2 x s) (cs_key st !! x) s, Ok v')
      else (st1, Ok v)
  end.

(** adapter.py 1234-1385, [do_node_execute]. The branch for ResultRetrievalError (1343-1347)
    is left out: no store raises it. *)
Definition do_node_execute (st : cstate) (x : name) (kw : gmap name V) : cstate * res cexn V :=
  match ce_beh env x with
  | None => (st, Err (CKeyError x))
  | Some DISABLE => execute_node st x kw false
  | Some RECOMPUTE | Some IGNORE => execute_node st x kw true
  | Some DEFAULT =>
      match get_data_version st x (cs_key st !! x) with
      | None => execute_node st x kw true
      | Some s =>
          if decide (s = UNHASHABLE) then execute_node st x kw true
          else match cs_res st !! s with
               | None => execute_node st x kw true
               | Some v => (set_dv st x s, Ok v)
               end
      end
  end.

(** adapter.py 1387-1459, [post_node_execute] after success, without [@cache(format=...)];
    after a failure it only logs (1404-1413). *)
Definition post_node_execute (st : cstate) (x : name) (v : V) : res cexn cstate :=
  match ce_beh env x with
  | None => Err (CKeyError x)
  | Some DISABLE => Ok st
  | Some _ =>
      match get_data_version st x (cs_key st !! x) with
      | None => Err CAssert
      | Some s => Ok (match cs_res st !! s with Some _ => st | None => set_res st s v end)
      end
  end.

(** execution/graph_functions.py 255-331, [execute_lifecycle_for_node] with this adapter. *)
Definition cached_node (st : cstate) (x : name) (kw : gmap name V) : cstate * res cexn V :=
  match pre_node_execute st x kw with
  | Err e => (st, Err e)
  | Ok st1 =>
      match do_node_execute st1 x kw with
      | (st2, Err e) => (st2, Err e)
      | (st2, Ok v) =>
          match post_node_execute st2 x v with
          | Err e => (st2, Err e)
          | Ok st3 => (st3, Ok v)
          end
      end
  end.

(** The state after the node executions of a trace. *)
Definition replay (st : cstate) (tr : list (event V cexn)) : cstate :=
  foldl (fun st ev => match ev with Call x kw _ => (cached_node st x kw).1 | _ => st end) st tr.

(** The default executor calls nodes through the adapter: what a node returns depends on the
    node executions before. *)
Definition cached_fn (st : cstate) : list (event V cexn) -> name -> gmap name V -> res cexn V :=
  fun tr x kw => (cached_node (replay st tr) x kw).2.
End Run.

(** A request to a driver with a cache: Driver.execute, driver.py 584-652. *)
Record request := Request {
  rq_env : cenv;
  rq_config : gmap name V;
  rq_inputs : gmap name V;
  rq_overrides : gmap name V;
  rq_final : list name;
}.

Definition cached_execute (st : cstate) (rq : request) : cstate * answer V cexn :=
  let st0 := pre_graph_execute st (rq_inputs rq) (rq_overrides rq) in
  let a := default_execute (cached_fn (rq_env rq) (rq_inputs rq) st0) (ce_graph (rq_env rq))
             (rq_config rq) (rq_inputs rq) (rq_overrides rq) (rq_final rq) in
  (replay (rq_env rq) (rq_inputs rq) st0
     (match a with Answer _ tr | Failed _ tr => tr | Clash | Diverged => [] end), a).

(** What happens to a cache: executions, and deletions in the stores between them. *)
Inductive action :=
| AExec (rq : request)
| ADelMeta (k : string)      (* metadata_store.delete *)
| ADelRes (s : string)       (* result_store.delete *)
| ADelAllMeta | ADelAllRes.  (* delete_all *)

Fixpoint session (st : cstate) (acts : list action) : cstate * list (answer V cexn) :=
  match acts with
  | [] => (st, [])
  | AExec rq :: acts' =>
      let '(st', a) := cached_execute st rq in
      let '(st'', l) := session st' acts' in (st'', a :: l)
  | ADelMeta k :: acts' =>
      session (CState (delete k (cs_meta st)) (cs_res st) (cs_dv st) (cs_key st) (cs_uuid st) (cs_log st)) acts'
  | ADelRes s :: acts' =>
      session (CState (cs_meta st) (delete s (cs_res st)) (cs_dv st) (cs_key st) (cs_uuid st) (cs_log st)) acts'
  | ADelAllMeta :: acts' =>
      session (CState ∅ (cs_res st) (cs_dv st) (cs_key st) (cs_uuid st) (cs_log st)) acts'
  | ADelAllRes :: acts' =>
      session (CState (cs_meta st) ∅ (cs_dv st) (cs_key st) (cs_uuid st) (cs_log st)) acts'
  end.

(** Without the adapter: the node called with its keyword arguments, graph_functions.py 297. *)
Definition plain_fn (env : cenv) : list (event V cexn) -> name -> gmap name V -> res cexn V :=
  fun _ x kw => match ce_call env x kw with Ok v => Ok v | Err e => Err (CUser e) end.
Definition plain_execute (rq : request) : answer V cexn :=
  default_execute (plain_fn (rq_env rq)) (ce_graph (rq_env rq))
    (rq_config rq) (rq_inputs rq) (rq_overrides rq) (rq_final rq).

(** A new cache. *)
Definition empty_cache : cstate := CState ∅ ∅ ∅ ∅ 0 [].
End Adapter.
