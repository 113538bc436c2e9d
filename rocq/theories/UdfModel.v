(** PySparkUDFGraphAdapter: functions run as UDFs on the columns of one dataframe that the
    adapter keeps (hamilton/plugins/h_spark.py 293-309 and 425-523). *)
From Verif Require Import Base Dict NodeModel NodeSpec ExecModel SparkModel.

Section Udf.
(** As in SparkModel. *)
Context {C U E T : Type}.
Notation V := (sval C U E).
Notation node := (pnode V E T).
Variable is_series : T -> bool.
Variable spark_type series_type : T -> bool.
Variable value_error attribute_error analysis_error : E.
Variable sort : list name -> list name.
Variable spark_apply : bool -> (list V -> res (nerr E) V) -> list C -> res (nerr E) C.
(** [lit(v)] of pyspark, of a value or of None; None is an exception. *)
Variable lit : option U -> option C.
(** The graph, and the callables and types of its nodes. *)
Variable g : graph.
Variable fns : name -> node.

(** The attributes [df_object] and [original_schema] (451-454). *)
Record ustate := UState { us_df : option (dict C); us_schema : list name }.
Definition ustart : ustate := UState None [].

(** h_spark.py 293-309 [_inspect_kwargs] *)
Definition first_frame (kw : dict V) : option (dict C) := head (omap (fun kv => match kv.2 with SDf d => Some d | _ => None end) kw).
Definition is_frame (v : V) : bool := match v with SDf _ => true | _ => false end.
Definition others (kw : dict V) : dict V := filter (fun kv => is_frame kv.2 = false) kw.

(** h_spark.py 476-503 [execute_node]. [len(df.schema)] is the number of columns. The assertion 491 always
    holds and is left out, as is the logging. *)
Definition execute_node (s : ustate) (n : node) (kw : dict V) : ustate * res (nerr E) V :=
  match first_frame kw with
  | None => (s, pn_call n (others kw))
  | Some d =>
      let s1 := match us_df s with None => UState (Some d) (dkeys d) | Some _ => s end in
      match lambda_udf is_series spark_type series_type value_error analysis_error sort spark_apply n (default d (us_df s1)) (others kw) with
      | Ok (SDf d') =>
          if decide (length d' = length d) then (s1, Err (NUser value_error)) else (UState (Some d') (us_schema s1), Ok (SDf d'))
      | Ok v => (s1, Ok v) (* not reached *)
      | Err e => (s1, Err e)
      end
  end.

(** The attributes after the calls of a run that started with [s]. *)
Definition after (s : ustate) (tr : list (event V (nerr E))) : ustate :=
  foldl (fun s ev => match ev with Call x kw _ => (execute_node s (fns x) (kwargs (pn_inputs (fns x)) kw)).1 | _ => s end) s tr.
Definition udf_call (s : ustate) (tr : list (event V (nerr E))) (x : name) (kw : gmap name V) : res (nerr E) V :=
  (execute_node (after s tr) (fns x) (kwargs (pn_inputs (fns x)) kw)).2.

(** h_spark.py 512-521: [df.withColumn(x, lit(v))]. A Column is its own [lit]; the exception for a dataframe is
    one of Spark. *)
Definition lit_column (d : dict C) (o : option V) : res (nerr E) C :=
  match o with
  | None => match lit None with Some c => Ok c | None => Err (NUser analysis_error) end
  | Some (SVal u) => match lit (Some u) with Some c => Ok c | None => Err (NUser analysis_error) end
  | Some (SCol h) => match h d with Ok c => Ok c | Err e => Err (NUser e) end
  | Some (SDf _) => Err (NUser analysis_error)
  end.
(** The list [output_schema] is the attribute [original_schema]: it is changed also when there is an exception. *)
Fixpoint add_outputs (d : dict C) (schema : list name) (outs : dict (option V)) : list name * res (nerr E) (dict C) :=
  match outs with
  | [] => (schema, Ok d)
  | (x, o) :: outs =>
      let schema := if decide (x ∈ schema) then schema else schema ++ [x] in
      if decide (x ∈ dkeys d) then add_outputs d schema outs
      else match lit_column d o with
           | Ok c => add_outputs (with_column d x c) schema outs
           | Err e => (schema, Err e)
           end
  end.
(** h_spark.py 505-523 [build_result]. (Spark reads names with dots or backticks otherwise; names are assumed to have none.) *)
Definition build_result (s : ustate) (outs : dict (option V)) : ustate * res (nerr E) (dict C) :=
  match us_df s with
  | None => (UState None (match outs with (x, _) :: _ => if decide (x ∈ us_schema s) then us_schema s else us_schema s ++ [x] | [] => us_schema s end), Err (NUser attribute_error))
  | Some d =>
      match add_outputs d (us_schema s) outs with
      | (schema, Err e) => (UState (Some d) schema, Err e)
      | (schema, Ok d') =>
          match select_columns schema d' with
          | None => (UState (Some d) schema, Err (NUser analysis_error))
          | Some r => (ustart, Ok r)
          end
      end
  end.

(** [Driver.execute] (driver.py 584-652) with this adapter; hooks, the validation of inputs and telemetry are left out. The second
    component is the state of the adapter for the next call. *)
Inductive uexn := UExec (e : exn (nerr E)) | UBuild (e : nerr E) | UClash | UFuel.
Definition udf_execute (s : ustate) (config inputs overrides : gmap name V) (fv : list name) : ustate * res uexn (dict C) :=
  match default_execute (udf_call s) g config inputs overrides fv with
  | Answer out tr =>
      match build_result (after s tr) (dupd [] out) with
      | (s', Ok d) => (s', Ok d)
      | (s', Err e) => (s', Err (UBuild e))
      end
  | Failed e tr => (after s tr, Err (UExec e))
  | Clash => (s, Err UClash)
  | Diverged => (s, Err UFuel)
  end.
End Udf.
Arguments ustate : clear implicits.
Arguments uexn : clear implicits.
