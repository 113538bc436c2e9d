(** What the dataframe given to a function under Spark's @with_columns should be. *)
From Verif Require Import Base Dict NodeModel NodeSpec PipeModel PipeSpec SubdagModel SparkModel.

(** The entries of [d] under the names [l]. *)
Definition pick {A} (l : list name) (d : dict A) : gmap name A := list_to_map (omap (fun k => (fun a => (k, a)) <$> dget d k) l).

Section Spec.
Context {C U E T : Type}.
Notation V := (sval C U E).

(** A function of a group: the column it computes, the columns it reads, what it takes from the
    enclosing graph, and the new column. *)
Record colfn := ColFn {
  cf_name : name;
  cf_reads : list name;
  cf_ext : dict deptype;
  cf_call : gmap name C -> gmap name V -> res (nerr E) C;
}.

Section Columns.
Variable ns : dict (pnode V E T).
Variable env : gmap name V.
Variable fs : list colfn.
Variable d0 : dict C.

(** [ext] are the variables of the graph that [f] takes. *)
Definition externals (f : colfn) (ext : gmap name V) : Prop :=
  (forall k w, ext !! k = Some w -> k ∈ dkeys (cf_ext f)) /\ (forall k dt, (k, dt) ∈ cf_ext f -> given ns env k dt (ext !! k)).

(** [colval x c]: column [x] of the group over the dataframe [d0] is [c]: the function of that
    name applied to the columns it reads, or else the column of [d0]. *)
Inductive colval : name -> C -> Prop :=
| cv_orig x c : x ∉ map cf_name fs -> dget d0 x = Some c -> colval x c
| cv_fn f cm ext c : f ∈ fs ->
    (forall k u, cm !! k = Some u -> k ∈ cf_reads f) ->
    (forall k u, cm !! k = Some u -> colval k u) ->
    (forall k, k ∈ cf_reads f -> cm !! k = None -> k ∉ map cf_name fs /\ dget d0 k = None) ->
    externals f ext -> cf_call f cm ext = Ok c -> colval (cf_name f) c.

(** [new] are the columns [names] in that order. *)
Definition columns (names : list name) (new : dict C) : Prop :=
  dkeys new = names /\ forall x c, dget new x = Some c -> colval x c.
End Columns.

(** The dataframe [d] made of [d0] and the new columns [new]: they replace or follow the
    columns of [d0], and those that are not selected are left out; or (@select) the selected ones alone. *)
Definition final (m : mode) (select : option (list name)) (d0 new d : dict C) : Prop :=
  match m with
  | Append =>
      let kept x := x ∉ dkeys new \/ x ∈ default (dkeys new) select in
      dkeys d = filter kept (dkeys d0) ++ filter (fun x => kept x /\ x ∉ dkeys d0) (dkeys new) /\
      forall x, dget d x = if decide (kept x) then match dget new x with Some c => Some c | None => dget d0 x end else None
  | Select => dkeys d = default (dkeys new) select /\ forall x c, (x, c) ∈ d -> dget new x = Some c
  end.

(** ** UDFs *)
Variable is_series : T -> bool.
Variable spark_type series_type : T -> bool.
Variable value_error : E.
Variable sort : list name -> list name.
Variable spark_apply : bool -> (list V -> res (nerr E) V) -> list C -> res (nerr E) C.

(** What a function of pandas series or primitives computes from the columns [cm] and the
    variables [ext]: Spark is given, in the order [sort], the columns that are there; the variables are bound. It is refused if
    a required parameter is neither, if only some of those from the dataframe are series, or if its type is not supported. *)
Definition udf_column (n : pnode V E T) (cm : gmap name C) (ext : gmap name V) : res (nerr E) C :=
  let required := filter (fun kt : name * (T * deptype) => kt.2.2 = REQUIRED /\ ext !! kt.1 = None) (pn_inputs n) in
  let series := map (fun kt => is_series kt.2.1) required in
  let params := sort (filter (fun k => is_Some (cm !! k)) (dkeys (pn_inputs n))) in
  let column pandas :=
    match mapM (fun k => cm !! k) params with
    | Some cols => spark_apply pandas (fun cells => pn_call n (dupd (kwargs (pn_inputs n) ext) (zip params cells))) cols
    | None => Err (NUser value_error)
    end in
  if decide (Forall (fun kt : name * (T * deptype) => is_Some (cm !! kt.1)) required) then
    if decide (true ∈ series) then
      if decide (false ∈ series) then Err (NUser value_error)
      else if series_type (pn_type n) then column true else Err (NUser value_error)
    else if spark_type (pn_type n) then column false else Err (NUser value_error)
  else Err (NUser value_error).
(** As a function of the group whose functions are named [names] when the columns [cols] are passed. *)
Definition udf_fn (names cols : list name) (n : pnode V E T) : colfn :=
  ColFn (pn_name n) (filter (fun k => k ∈ names \/ k ∈ cols) (dkeys (pn_inputs n)))
    (map (fun kt => (kt.1, kt.2.2)) (filter (fun kt => kt.1 ∉ names /\ kt.1 ∉ cols) (pn_inputs n))) (udf_column n).

(** ** Functions of dataframes *)
(** A node with the dataframe parameter [target] that adds the column of [f]: it takes, besides columns
    that are passed or computed, the variables of [f], and it reads no column of the group that it does not depend on. *)
Record adds (names cols : list name) (n : pnode V E T) (target : name) (f : colfn) : Prop := {
  adds_name : cf_name f = pn_name n;
  adds_reads : forall k, k ∈ cf_reads f -> k ∈ names -> k ∈ dkeys (pn_inputs n);
  adds_ext : forall k dt, (k, dt) ∈ cf_ext f -> (exists t, (k, (t, dt)) ∈ pn_inputs n) /\ k <> target /\ k ∉ names /\ k ∉ cols;
  adds_all : forall k t dt, (k, (t, dt)) ∈ pn_inputs n -> k = target \/ k ∈ names \/ k ∈ cols \/ (k, dt) ∈ cf_ext f;
  adds_call : forall kw d, NoDup (dkeys kw) -> dget kw target = Some (SDf d) ->
    pn_call n kw = match cf_call f (pick (cf_reads f) d) (pick (dkeys (cf_ext f)) kw) with
                   | Ok c => Ok (SDf (dset d (pn_name n) c)) | Err e => Err e end;
}.
Definition implements (names cols : list name) (s : snode C U E T) (f : colfn) : Prop :=
  match sn_tag s with
  | None => f = udf_fn names cols (sn s)
  | Some (target, _) => adds names cols (sn s) target f
  end.

(** The names fit together: nothing is named "_select" or like the dataframe parameter [p] (which only functions
    of it have), parameters are distinct, and what is read from outside is neither reserved nor looks like a name of the namespace [N]. *)
Record spark_fits (nodes : list (snode C U E T)) (cols : list name) (p N : name) : Prop := {
  sf_names : NoDup (map sn_name nodes);
  sf_p : p ∉ map sn_name nodes;
  sf_p_name : p <> "_select" /\ p ∉ sub_reserved /\ forall k, p <> assign_namespace k N;
  sf_fn : forall s, s ∈ nodes -> sn_name s <> "_select" /\ NoDup (dkeys (pn_inputs (sn s))) /\ "_select" ∉ dkeys (pn_inputs (sn s));
  sf_p_in : forall s, s ∈ nodes -> p ∈ dkeys (pn_inputs (sn s)) -> exists l, sn_tag s = Some (p, l);
  sf_outer : forall s k, s ∈ nodes -> k ∈ dkeys (pn_inputs (sn s)) -> k ∉ map sn_name nodes -> k ∉ cols ->
    k ∉ sub_reserved /\ forall k', k <> assign_namespace k' N;
}.
(** Nothing that a UDF takes from the graph is a column of the dataframe or a dataframe. *)
Definition udf_apart (ns : dict (pnode V E T)) (env : gmap name V) (nodes : list (snode C U E T)) (cols : list name) (d0 : dict C) : Prop :=
  forall s k, s ∈ nodes -> sn_tag s = None -> k ∈ dkeys (pn_inputs (sn s)) -> k ∉ map sn_name nodes -> k ∉ cols ->
    k ∉ dkeys d0 /\ forall d, ~ value ns env k (SDf d).

(** ** Which functions are run *)
(** The function [x] depends on the function [y]. *)
Definition reads_fn (nodes : list (snode C U E T)) (x y : name) : Prop :=
  exists s, s ∈ nodes /\ sn_name s = x /\ y ∈ dkeys (pn_inputs (sn s)) /\ y ∈ map sn_name nodes.
(** [run]: each of the functions that the selection needs (all, when there is none), once, after those it depends on. *)
Definition run_order (nodes : list (snode C U E T)) (select : option (list name)) (run : list name) : Prop :=
  NoDup run /\
  (forall x, x ∈ run <-> x ∈ map sn_name nodes /\ match select with None => True | Some sel => exists y, y ∈ sel /\ y ∈ map sn_name nodes /\ rtc (reads_fn nodes) y x end) /\
  (forall l1 x l2, run = l1 ++ x :: l2 -> forall y, reads_fn nodes x y -> y ∈ l1).
End Spec.
