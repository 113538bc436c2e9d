(** What is assumed of pickling and hashing, and when the source of a function identifies it. *)
From Verif Require Import Base ExecModel ExecSpec ShelfModel.

Section Spec.
Context {V E : Type}.
Variable pickle : V -> option string.
Variable unpickle : string -> res E V.
Variable digest : string -> string.
Variable none : V.
Variable is_none : V -> bool.

(** Pickles end with a stop code, are told apart from what follows, and can be read back. *)
Record pickles_ok : Prop := {
  pk_prefix : forall v w p q a b, pickle v = Some p -> pickle w = Some q -> p +:+ a = q +:+ b -> v = w /\ a = b;
  pk_nonempty : forall v, pickle v <> Some "";
  pk_load : forall v p, pickle v = Some p -> unpickle p = Ok v;
  pk_none : forall v, is_none v = true <-> v = none;
}.
(** No collisions; where a digest ends is known (all have the same length). *)
Record digest_ok : Prop := {
  dg_inj : forall s t, digest s = digest t -> s = t;
  dg_prefix : forall s t a b, digest s +:+ a = digest t +:+ b -> digest s = digest t /\ a = b;
}.

(** Keyword arguments with which a node can be called. *)
Definition arguments (nd : node) (kw : gmap name V) : Prop :=
  (forall d w, kw !! d = Some w -> d ∈ dep_names nd) /\
  (forall d, (d, REQUIRED) ∈ nd_deps nd -> is_Some (kw !! d)).

(** Functions with the same source give the same result on the same sequence of argument values. *)
Definition sources_identify (U : list (request V E)) : Prop :=
  forall rq1 rq2 x1 x2 nd1 nd2 kw1 kw2 s,
    rq1 ∈ U -> rq2 ∈ U ->
    rq_graph rq1 !! x1 = Some nd1 -> rq_graph rq2 !! x2 = Some nd2 ->
    source_of (rq_fns rq1 x1) = Some s -> source_of (rq_fns rq2 x2) = Some s ->
    arguments nd1 kw1 -> arguments nd2 kw2 -> values nd1 kw1 = values nd2 kw2 ->
    call (rq_fns rq1 x1) kw1 = call (rq_fns rq2 x2) kw2.
(** Every function has the same source in all requests. *)
Definition one_source (rqs : list (request V E)) : Prop :=
  forall rq1 rq2 x, rq1 ∈ rqs -> rq2 ∈ rqs -> source_of (rq_fns rq1 x) = source_of (rq_fns rq2 x).
Definition graphs_ok (U : list (request V E)) : Prop :=
  forall rq, rq ∈ U -> wf_graph (rq_graph rq) /\ acyclic (rq_graph rq).
(** Everything can be pickled and every function has a source. *)
Definition nothing_unpicklable : Prop := forall v, is_Some (pickle v).
Definition all_sourced (U : list (request V E)) : Prop :=
  forall rq x nd, rq ∈ U -> rq_graph rq !! x = Some nd -> nd_ext nd = false -> is_Some (source_of (rq_fns rq x)).

(** What the file holds under the key of a source and argument values is None or the value that every function with
    this source has on these arguments. *)
Definition shelf_ok (U : list (request V E)) (shelf : gmap string string) : Prop :=
  forall s vals key b, create_key pickle digest (digest s) vals = Some key -> shelf !! key = Some b ->
    exists v, unpickle b = Ok v /\
      (v = none \/
       forall rq x nd kw, rq ∈ U -> rq_graph rq !! x = Some nd -> source_of (rq_fns rq x) = Some s ->
         arguments nd kw -> values nd kw = vals -> call (rq_fns rq x) kw = Ok v).

Definition plain (rq : request V E) : answer V E :=
  default_execute (fun _ x => call (rq_fns rq x)) (rq_graph rq) (rq_config rq) (rq_inputs rq) (rq_overrides rq) (rq_final rq).
End Spec.
