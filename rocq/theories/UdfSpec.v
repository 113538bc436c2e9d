(** What executing functions on the columns of a dataframe means. *)
From Verif Require Import Base Dict NodeModel NodeSpec ExecModel ExecSpec SparkModel SparkSpec.

(** [l] without repetitions, in the order of first occurrences. *)
Fixpoint firsts (l : list name) : list name :=
  match l with [] => [] | x :: l => x :: filter (fun y => y <> x) (firsts l) end.

Section Spec.
Context {C U E T : Type}.
Notation V := (sval C U E).
Notation node := (pnode V E T).

(** A variable is a column or a value of the driver's side. *)
Inductive uval := UCol (c : C) | UVal (v : V).
Definition cols (kw : gmap name uval) : gmap name C := omap (fun v => match v with UCol c => Some c | UVal _ => None end) kw.
Definition vals (kw : gmap name uval) : gmap name V := omap (fun v => match v with UCol _ => None | UVal v => Some v end) kw.

Variable is_series : T -> bool.
Variable spark_type series_type : T -> bool.
Variable value_error : E.
Variable sort : list name -> list name.
Variable spark_apply : bool -> (list V -> res (nerr E) V) -> list C -> res (nerr E) C.
Variable fns : name -> node.

(** A function of columns is a column (SparkSpec.udf_column); a function without arguments that are columns is called. *)
Definition column_fn (x : name) (kw : gmap name uval) : res (nerr E) uval :=
  let n := fns x in
  if decide (cols kw = ∅) then
    match pn_call n (kwargs (pn_inputs n) (vals kw)) with Ok v => Ok (UVal v) | Err e => Err e end
  else
    match udf_column is_series spark_type series_type value_error sort spark_apply n (cols kw) (vals kw) with Ok c => Ok (UCol c) | Err e => Err e end.

Variable d0 : dict C.
(** A dataframe given for a variable stands for its column of that name. *)
Definition seen (m : gmap name V) : gmap name uval :=
  map_imap (fun k v => Some (match v, dget d0 k with SDf _, Some c => UCol c | _, _ => UVal v end)) m.

(** [m] gives the dataframe [d0] for its columns, and no other dataframe. *)
Definition gives_columns (m : gmap name V) : Prop :=
  forall k v, m !! k = Some v -> k ∈ dkeys d0 \/ (exists d, v = SDf d) -> k ∈ dkeys d0 /\ v = SDf d0.

(** A use of the adapter as it is documented: one dataframe, given for its columns; functions have other
    names than the columns, and those on the driver's side return no dataframes. *)
Record udf_request (g : graph) (config inputs overrides : gmap name V) (fv : list name) : Prop := {
  ur_wf : wf_graph g;
  ur_acyclic : acyclic g;
  ur_node : forall x nd, g !! x = Some nd -> nd_ext nd = false ->
    pn_name (fns x) = x /\ map (fun kt => (kt.1, kt.2.2)) (pn_inputs (fns x)) = nd_deps nd;
  ur_d0 : NoDup (dkeys d0);
  ur_config : gives_columns config;
  ur_inputs : gives_columns inputs;
  ur_overrides : gives_columns overrides;
  (* columns that functions take optionally are given *)
  ur_optional : forall x nd k, g !! x = Some nd -> (k, OPTIONAL) ∈ nd_deps nd -> k ∈ dkeys d0 -> is_Some ((inputs ∪ config) !! k);
  ur_names : forall x nd, g !! x = Some nd -> nd_ext nd = false -> x ∉ dkeys d0;
  ur_values : forall x nd kw v d, g !! x = Some nd -> nd_ext nd = false ->
    (forall k d, (k, SDf d) ∉ kw) -> pn_call (fns x) kw = Ok v -> v <> SDf d;
  ur_requested : forall x, x ∈ fv -> is_Some (g !! x);
}.

(** [c] is the column for the requested variable [x]: its column, or its value in every row. A pyspark Column is
    evaluated on some dataframe. *)
Variable lit : option U -> option C.
Definition column_for (g : graph) (inputs overrides : gmap name V) (x : name) (c : C) : Prop :=
  let eval := eval column_fn g (seen inputs) (seen overrides) x in
  eval (UCol c) \/ (exists u, eval (UVal (SVal u)) /\ lit (Some u) = Some c) \/
  (exists h d, eval (UVal (SCol h)) /\ h d = Ok c) \/ (absent g (seen inputs) (seen overrides) x /\ lit None = Some c).
(** There is no column for it. *)
Definition no_column_for (g : graph) (inputs overrides : gmap name V) (x : name) : Prop :=
  let eval := eval column_fn g (seen inputs) (seen overrides) x in
  (exists u, eval (UVal (SVal u)) /\ lit (Some u) = None) \/
  (exists h d e, eval (UVal (SCol h)) /\ h d = Err e) \/ (absent g (seen inputs) (seen overrides) x /\ lit None = None).
End Spec.
Arguments uval : clear implicits.
