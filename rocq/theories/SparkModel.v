(** @with_columns and @select for Spark: the linearisation of a group of functions into a
    chain of dataframes (hamilton/plugins/h_spark.py 234-422, 514-1219 and 1298-1306; the base
    class is hamilton/function_modifiers/recursive.py 656-851). *)
From Verif Require Import Base Dict NodeModel PipeModel SubdagModel TopoModel.

Section Spark.
(** Columns of dataframes, other Python values, exceptions, annotations. *)
Context {C U E T : Type}.

(** A dataframe is an ordered dict of its columns (names are compared exactly, and rows are not
    modelled: a column is whatever [C] is). A pyspark [Column] is an expression that is
    evaluated on a dataframe. Spark evaluates lazily; here an exception of a function is raised when its
    column is added. *)
Inductive sval := SDf (d : dict C) | SCol (x : dict C -> res E C) | SVal (u : U).
Notation node := (pnode sval E T).

(** [custom_subclass_check(t, DataFrame)], [custom_subclass_check(t, Column)], [t == pd.Series]
    (after [get_type_information]), and DataFrame itself. *)
Variable is_df is_column is_series : T -> bool.
Variable df_type : T.
(** [get_spark_type] (h_spark.py 223-234) does not raise; the type arguments of a
    [htypes.column] annotation are there and convertible (389-402). *)
Variable spark_type series_type : T -> bool.
(** ValueError, AttributeError (a method of a value that is no dataframe), AnalysisException (a
    selected column is not there). *)
Variable value_error attribute_error analysis_error : E.
(** Python's [sorted] on names. *)
Variable sort : list name -> list name.
(** [udf(f, _)(cols)] (false) and [pandas_udf(f, _)(cols)] (true) evaluated on the dataframe that the
    columns are from; [f] takes its arguments by position. *)
Variable spark_apply : bool -> (list sval -> res (nerr E) sval) -> list C -> res (nerr E) C.
(** As in SubdagModel. *)
Variable captured : dict sval -> res (nerr E) sval.
Variable order : list name -> list name.

(** ** DataFrame methods *)
Definition with_column (d : dict C) (x : name) (c : C) : dict C := dset d x c.
Definition drop_columns (cols : list name) (d : dict C) : dict C := filter (fun kc => kc.1 ∉ cols) d.
Definition select_columns (cols : list name) (d : dict C) : option (dict C) := mapM (fun c => (fun v => (c, v)) <$> dget d c) cols.

(** ** UDFs *)
Section Udf.
Variable n : node.
(** h_spark.py 255-291 [_determine_parameters_to_bind]: the parameters from the dataframe and
    those that are bound. *)
Fixpoint parameters_to_bind (kw : dict sval) (columns : list name) (ins : dict (T * deptype)) : res (nerr E) (list name * dict sval) :=
  match ins with
  | [] => Ok ([], [])
  | (k, (_, dt)) :: ins =>
      let rest f := match parameters_to_bind kw columns ins with Ok (ps, bs) => Ok (f ps bs) | Err e => Err e end in
      if decide (k ∈ columns) then rest (fun ps bs => (k :: ps, bs))
      else match dget kw k with
           | Some (SCol x) => rest (fun ps bs => (ps, (k, SCol x) :: bs))
           | Some (SVal u) => rest (fun ps bs => (ps, (k, SVal u) :: bs))
           | _ => if decide (dt = REQUIRED) then Err (NUser value_error) else rest pair
           end
  end.
(** h_spark.py 236-253 [_get_pandas_annotations], without the names. *)
Definition pandas_annotations (bound : dict sval) : list bool :=
  map (fun kt => is_series kt.2.1) (filter (fun kt => dget bound kt.1 = None /\ kt.2.2 = REQUIRED) (pn_inputs n)).
(** h_spark.py 336-368 [_fabricate_spark_function]: [partial_fn] with the positional arguments
    under the sorted names. *)
Definition spark_function (bound : dict sval) (params : list name) (cells : list sval) : res (nerr E) sval :=
  pn_call n (dupd bound (zip (sort params) cells)).
(** h_spark.py 371-422 [_lambda_udf] *)
Definition lambda_udf (d : dict C) (kw : dict sval) : res (nerr E) sval :=
  match parameters_to_bind kw (dkeys d) (pn_inputs n) with
  | Err e => Err e
  | Ok (params, bound) =>
      let ann := pandas_annotations bound in
      let apply pandas :=
        match mapM (dget d) (sort params) with
        | None => Err (NUser analysis_error) (* not reached: the names are columns *)
        | Some cols =>
            match spark_apply pandas (spark_function bound params) cols with
            | Ok c => Ok (SDf (with_column d (pn_name n) c))
            | Err e => Err e
            end
        end in
      if existsb id ann then
        if forallb id ann then
          if series_type (pn_type n) then apply true else Err (NUser value_error)
        else Err (NUser value_error)
      else if spark_type (pn_type n) then apply false else Err (NUser value_error)
  end.
End Udf.

(** [kwargs[linear]] as the dataframe of a method call *)
Definition dataframe_of (kw : dict sval) (k : name) : res (nerr E) (dict C) :=
  match dget kw k with
  | None => Err (NKey k)
  | Some (SDf d) => Ok d
  | Some _ => Err (NUser attribute_error)
  end.

(** h_spark.py 514-606 [sparkify_node_with_udf]: [linear] is the previous dataframe, [base] the
    one the decorated function takes, [base_param] is [pass_dataframe_as]; [group] and
    [frame] are the names whose intersections with the parameters are given. (The names of the defaults
    of [new_callable] are assumed not to be parameters.) *)
Definition sparkify_udf (n : node) (linear base : name) (base_param : option name) (group frame : list name) : node :=
  let ins := pn_inputs n in
  let in_group := filter (fun k => k ∈ group) (dkeys ins) in
  let in_frame := filter (fun k => k ∈ frame) (dkeys ins) in
  let df := (df_type, REQUIRED) in
  let i1 := filter (fun kt => kt.1 ∉ in_frame) ins in
  let i2 := dset i1 linear df in
  let i3 := foldl (fun d k => dset d k df) i2 in_group in
  let i4 := if bool_decide (is_Some base_param) && bool_decide (base ∈ dkeys ins) then dset i3 base df else i3 in
  let i5 := if bool_decide (in_frame = []) then i4 else dset i4 base df in
  PNode (pn_name n) df_type i5 (fun kw =>
    match dataframe_of kw linear with
    | Err e => Err e
    | Ok d => lambda_udf n d (filter (fun kv => kv.1 ∉ in_frame /\ kv.1 ∉ in_group /\ kv.1 <> linear /\ kv.1 <> base) kw)
    end).

(** ** Functions of dataframes *)
(** A node with the tags of [require_columns]: its target and its columns. *)
Record snode := SNode { sn : node; sn_tag : option (name * list name) }.
Definition sn_name (s : snode) : name := pn_name (sn s).
Definition df_params (n : node) : list name := dkeys (filter (fun kt => is_df kt.2.1) (pn_inputs n)).
(** h_spark.py 609-634 [derive_dataframe_parameter] without a requested one *)
Definition derive_parameter (n : node) : option name := match df_params n with [p] => Some p | _ => None end.

(** h_spark.py 712-757 [require_columns.transform_node]; None is ValueError. *)
Definition require_columns (columns : list name) (n : node) : option snode :=
  match derive_parameter n with
  | None => None
  | Some param =>
      let call kw := pn_call n (filter (fun kv => kv.1 ∈ dkeys (pn_inputs n)) kw) in
      let ins := dupd (pn_inputs n) (map (fun c => (c, (df_type, REQUIRED))) (filter (fun c => c ∉ dkeys (pn_inputs n)) columns)) in
      let tag := Some (param, columns) in
      if is_column (pn_type n) then
        Some (SNode (PNode (pn_name n) df_type ins (fun kw =>
          match call kw with
          | Err e => Err e
          | Ok out =>
              match dataframe_of kw param with
              | Err e => Err e
              | Ok d =>
                  match out with
                  | SCol x => match x d with Ok c => Ok (SDf (with_column d (pn_name n) c)) | Err e => Err (NUser e) end
                  | _ => Err (NUser attribute_error)
                  end
              end
          end)) tag)
      else Some (SNode (PNode (pn_name n) (pn_type n) ins call) tag)
  end.
(** h_spark.py 986-1004 [_prep_nodes] *)
Definition prep_node (s : snode) : option snode :=
  match df_params (sn s) with
  | [col] => require_columns [col] (sn s)
  | _ => Some s
  end.
(** h_spark.py 801-876 [require_columns.sparkify_node] *)
Definition sparkify_df (n : node) (target linear base : name) (base_param : option name) (group frame : list name) : node :=
  let ins := pn_inputs n in
  let df := (df_type, REQUIRED) in
  let i1 := filter (fun kt => kt.1 <> target /\ kt.1 ∉ frame) ins in
  let i2 := dset i1 linear df in
  let i3 := foldl (fun d k => dset d k df) i2 (filter (fun k => k ∈ group) (dkeys ins)) in
  let i4 := if bool_decide (base_param = Some target) then dset i3 base df else i3 in
  PNode (pn_name n) (pn_type n) i4 (fun kw =>
    match dget kw linear with
    | None => Err (NKey linear)
    | Some d => pn_call n (dset kw target d)
    end).

(** ** The decorator *)
Inductive mode := Append | Select.
(** h_spark.py 967-984 and recursive.py 766-777 *)
Record spark_wc := SparkWC { sw_columns : option (list name); sw_pass_as : option name; sw_select : option (list name); sw_namespace : option name; sw_mode : mode }.
(** recursive.py 749-764 with [on_input] None (h_spark.py 961-965 refuses another): None is ValueError. *)
Definition spark_with_columns (columns : option (list name)) (pass_as : option name) (select : option (list name)) (namespace : option name) (m : mode) : option spark_wc :=
  match columns, pass_as with
  | Some _, Some _ => None
  | _, _ => Some (SparkWC columns pass_as select namespace m)
  end.

(** h_spark.py 880-905 [_identify_upstream_dataframe_nodes] less the initial schema (1054-1056) *)
Definition upstream_frames (st : spark_wc) (nodes : list snode) : list name :=
  remove_dups (filter (fun k => k ∉ map sn_name nodes /\ k ∉ default [] (sw_columns st))
    (flat_map (fun s => match sn_tag s with Some (_, cols) => cols | None => df_params (sn s) end) nodes)).
(** h_spark.py 1053-1090 [_validate_dataframe_subdag_parameter] *)
Definition validate_frames (st : spark_wc) (nodes : list snode) : bool :=
  match upstream_frames st nodes, sw_pass_as st with
  | [], None => true
  | [k], Some p => bool_decide (k = p)
  | _, _ => false
  end.

Definition by_names (nodes : list snode) (l : list name) : list snode :=
  omap (fun x => find (fun s => bool_decide (sn_name s = x)) nodes) l.
(** graph_functions.topologically_sort_nodes; nodes are found by their names again *)
Definition sort_nodes (nodes : list snode) : list snode :=
  match topologically_sort_nodes (map (fun s => TNode (sn_name s) (dkeys (pn_inputs (sn s)))) nodes) with
  | Some l => by_names nodes (tnames l)
  | None => [] (* not reached: C18 *)
  end.

(** h_spark.py 1141-1184: one node of the chain. *)
Definition sparkify (st : spark_wc) (base : name) (group : list name) (linear : name) (s : snode) : node :=
  let frame := default [] (sw_columns st) in
  match sn_tag s with
  | Some (target, _) => sparkify_df (sn s) target linear base (sw_pass_as st) group frame
  | None => sparkify_udf (sn s) linear base (sw_pass_as st) group frame
  end.
Fixpoint chain (st : spark_wc) (base : name) (group : list name) (linear : name) (sorted : list snode) : list node * name :=
  match sorted with
  | [] => ([], linear)
  | s :: sorted =>
      let n := sparkify st base group linear s in
      let '(out, last) := chain st base group (pn_name n) sorted in
      (n :: out, last)
  end.
(** h_spark.py 1006-1051 *)
Definition selector_node (upstream : name) (cols : list name) : node :=
  PNode "_select" df_type [(upstream, (df_type, REQUIRED))] (fun kw =>
    match dataframe_of kw upstream with
    | Err e => Err e
    | Ok d => match select_columns cols d with Some d' => Ok (SDf d') | None => Err (NUser analysis_error) end
    end).
Definition drop_node (upstream : name) (cols : list name) : node :=
  PNode "_select" df_type [(upstream, (df_type, REQUIRED))] (fun kw =>
    match dataframe_of kw upstream with Err e => Err e | Ok d => Ok (SDf (drop_columns cols d)) end).
(** h_spark.py 1122-1217 [chain_subdag_nodes] *)
Definition chain_subdag_nodes (st : spark_wc) (base : name) (generated : list snode) : list node * name :=
  let sorted := sort_nodes generated in
  let names := map sn_name sorted in
  let '(out, last) := chain st base names base sorted in
  let drops := match sw_select st with Some sel => filter (fun x => x ∉ sel) names | None => [] end in
  match sw_mode st with
  | Select => (out ++ [selector_node last (default names (sw_select st))], "_select")
  | Append => match drops with [] => (out, last) | _ => (out ++ [drop_node last drops], "_select") end
  end.

Inductive spark_err := SparkValueError | SparkInvalidDecorator | SparkStuck.
(** h_spark.py 652-678 [_derive_first_dataframe_parameter_from_fn]: [sig] are the parameters of the
    decorated function with their annotations. *)
Definition first_parameter (sig : dict T) : res spark_err name :=
  match sig with
  | (p, t) :: _ => if is_df t then Ok p else Err SparkValueError
  | [] => Err SparkValueError
  end.
(** recursive.py 819-851 [inject_nodes]; [params] are the injectable parameters, [fns] what [collect_nodes]
    returns. *)
Definition spark_inject (st : spark_wc) (fn : name) (sig : dict T) (params : list name) (fns : list snode)
    : res spark_err (list node * (name * name)) :=
  let N := default fn (sw_namespace st) in
  match first_parameter sig with
  | Err e => Err e
  | Ok p =>
      if decide (p ∈ params) then
        match mapM prep_node fns with
        | None => Err SparkValueError
        | Some nodes =>
            if validate_frames st nodes then
              if decide (NoDup (map sn_name nodes)) then
                match prune_nodes order (map sn nodes) (sw_select st) with
                | PruneValueError => Err SparkValueError
                | PruneStuck => Err SparkStuck
                | Pruned [] => Err SparkValueError
                | Pruned pruned =>
                    let '(out, last) := chain_subdag_nodes st p (by_names nodes (map pn_name pruned)) in
                    Ok (add_namespace captured out N [] [], (p, assign_namespace last N))
                end
              else Err SparkValueError
            else Err SparkValueError
        end
      else Err SparkInvalidDecorator
  end.
(** The free parameters (base.py 239-257) and base.py 259-280 [NodeInjector.transform_dag] *)
Definition injectable (nodes : list node) : list name :=
  filter (fun k => k ∉ map pn_name nodes) (flat_map (fun n => dkeys (pn_inputs n)) nodes).
Definition spark_transform (st : spark_wc) (fn : name) (sig : dict T) (fns : list snode) (nodes : list node) : res spark_err (list node) :=
  match spark_inject st fn sig (injectable nodes) fns with
  | Err e => Err e
  | Ok (new, (p, last)) =>
      Ok (map (fun n => if decide (p ∈ dkeys (pn_inputs n)) then reassign_inputs n [(p, last)] [] else n) nodes ++ new)
  end.
End Spark.
Arguments sval : clear implicits.
Arguments snode : clear implicits.
