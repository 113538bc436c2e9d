(** Assumptions under which a cache must be transparent. *)
From Coq Require Import Ascii.
From Verif Require Import Base Strings ExecModel ExecSpec CacheKeyModel FingerprintModel CacheModel.

Section Spec.
Context {V E : Type}.

(** Collision-free data versions, fresh uuids, lossless compression; none of the texts
    contains the separators of cache keys. *)
Record versions_ok (hash : V -> string) (uuid : nat -> string) (compress : string -> string) : Prop := {
  vo_hash_inj : forall v w, hash v = hash w -> hash v <> UNHASHABLE -> v = w;
  vo_hash_plain : forall v, lacks ","%char (hash v);
  vo_hash_unhashable : forall v n, hash v <> "<unhashable>" +:+ String "_" (uuid n);
  vo_hash_disable : forall v n, hash v <> "<disable>" +:+ String "_" (uuid n);
  vo_uuid_inj : forall m n, uuid m = uuid n -> m = n;
  vo_uuid_plain : forall n, lacks ","%char (uuid n);
  vo_compress : exists decompress, forall s, decompress (compress s) = Some s;
  vo_compress_dash : forall s, lacks "-"%char (compress s);
}.

(** A request to a driver whose functions are determined by [code]: the function with the
    given (safe) node name and code version.
    - the dataflow is well formed and without cycles;
    - code versions determine functions;
    - filling in the default values of parameters does not change what a function returns;
    - every node has a caching behaviour, no IGNOREd node has dependents;
    - there are no data savers, and data loaders do not load tuples;
    - no input has the name of a function;
    - parameter names contain no comma. *)
Record request_ok (head : V -> option V) (code : string -> string -> gmap name V -> res E V)
       (rq : @request V E) : Prop := {
  ro_wf : wf_graph (ce_graph (rq_env rq));
  ro_acyclic : acyclic (ce_graph (rq_env rq));
  ro_code : forall x kw, ce_call (rq_env rq) x kw = code (safe_name x) (ce_code (rq_env rq) x) kw;
  ro_defaults : forall x kw, ce_call (rq_env rq) x (kw ∪ ce_defaults (rq_env rq) x) = ce_call (rq_env rq) x kw;
  ro_defaults_dom : forall x nd d, ce_graph (rq_env rq) !! x = Some nd ->
      is_Some (ce_defaults (rq_env rq) x !! d) -> d ∈ dep_names nd;
  ro_beh : forall x, is_Some (ce_graph (rq_env rq) !! x) -> is_Some (ce_beh (rq_env rq) x);
  ro_ignore : forall x d, edge (ce_graph (rq_env rq)) x d -> ce_beh (rq_env rq) d <> Some IGNORE;
  ro_savers : forall x, is_Some (ce_graph (rq_env rq) !! x) -> x ∉ ce_savers (rq_env rq);
  ro_loaders : forall x kw v, x ∈ ce_loaders (rq_env rq) -> ce_call (rq_env rq) x kw = Ok v -> head v = None;
  ro_inputs : forall x nd, is_Some (rq_inputs rq !! x) -> ce_graph (rq_env rq) !! x = Some nd -> nd_ext nd = true;
  ro_names : forall x d, edge (ce_graph (rq_env rq)) x d -> lacks ","%char d;
}.

(** The executions among the actions. *)
Fixpoint requests_of (acts : list (@action V E)) : list (@request V E) :=
  match acts with
  | [] => []
  | AExec rq :: acts' => rq :: requests_of acts'
  | _ :: acts' => requests_of acts'
  end.

(** No deletions. *)
Fixpoint no_deletions (acts : list (@action V E)) : Prop :=
  match acts with
  | [] => True
  | AExec _ :: acts' => no_deletions acts'
  | _ :: _ => False
  end.

(** Every value that occurs in the execution has a fingerprint. *)
Record hashable_run (hash : V -> string) (rq : @request V E) : Prop := {
  hr_given : forall d v, rq_inputs rq !! d = Some v \/ rq_config rq !! d = Some v \/ rq_overrides rq !! d = Some v ->
      hash v <> UNHASHABLE;
  hr_defaults : forall x d v, is_Some (ce_graph (rq_env rq) !! x) -> ce_defaults (rq_env rq) x !! d = Some v ->
      hash v <> UNHASHABLE;
  hr_results : forall x kw v, Call x kw (Ok v) ∈ trace_of (plain_execute rq) -> hash v <> UNHASHABLE;
}.

(** Every behaviour is DEFAULT. *)
Definition all_default (rq : @request V E) : Prop :=
  forall x, is_Some (ce_graph (rq_env rq) !! x) -> ce_beh (rq_env rq) x = Some DEFAULT.
End Spec.
