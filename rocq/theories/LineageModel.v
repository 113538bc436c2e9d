(** The adapter that sends OpenLineage events, hamilton/plugins/h_openlineage.py, the metadata it reads,
    hamilton/io/utils.py, and the places of the driver that call it. *)
From Coq Require Import Ascii.
From Verif Require Import Base GraphModel CacheKeyModel.

(** Exceptions: of users' code (with whether Python takes them for true: a class with [__len__] or
    [__bool__] may not be), those that are not of the class Exception (KeyboardInterrupt, SystemExit),
    and those raised by what is modelled here *)
Inductive lerr := EUser (s : string) (truthy : bool) | EInterrupt | EKey | EType | ESource | EClient | EUnbound.
Global Instance lerr_eq_dec : EqDecision lerr.
Proof. solve_decision. Defined.
Definition is_exception (e : lerr) : bool := match e with EInterrupt => false | _ => true end.
Definition truthy (e : lerr) : bool := match e with EUser _ b => b | _ => true end.

(** ** Metadata *)
(** A key of a dictionary: absent, None, or a value *)
Inductive field (A : Type) := Missing | Null | Val (a : A).
Arguments Missing {A}. Arguments Null {A}. Arguments Val {A} a.
(** The keys the adapter looks at: the file's path, the table and the query, the columns and their
    types; [m_more] tells whether there are others. Names of columns are strings. *)
Record meta := Meta {
  m_file : option (option string);
  m_sql : option (field string * field string);
  m_frame : option (field (list string) * field (list string));
  m_more : bool }.
Definition no_meta : meta := Meta None None None false.
(** [not metadata] *)
Definition is_empty (m : meta) : bool := match m with Meta None None None false => true | _ => false end.

(** io/utils.py 16-52 [get_file_metadata], without sizes and times *)
Definition get_file_metadata (path : string) : meta := Meta (Some (Some path)) None None false.
(** What is measured: its columns and its types, None where taking them raises AttributeError or
    TypeError (a series has neither) *)
Record frame := Frame { fr_columns : option (list string); fr_types : option (list string) }.
Definition opt_field {A} (o : option A) : field A := match o with Some a => Val a | None => Null end.
(** 55-87 [get_dataframe_metadata] *)
Definition get_dataframe_metadata (d : frame) : meta := Meta None None (Some (opt_field (fr_columns d), opt_field (fr_types d))) false.
(** 90-107 [get_file_and_dataframe_metadata] *)
Definition get_file_and_dataframe_metadata (path : string) (d : frame) : meta :=
  Meta (m_file (get_file_metadata path)) None (m_frame (get_dataframe_metadata d)) false.
(** 110-138 [get_sql_metadata] *)
Definition get_sql_metadata (q : string) : meta :=
  Meta None (Some (if str_contains "SELECT" q then Null else Val q, if str_contains "SELECT" q then Val q else Null)) None false.

(** ** Events *)
Record dataset := Dataset {
  ds_namespace : string;
  ds_name : option string;
  ds_format : option string;             (* the facet storage *)
  ds_source : option (string * string);  (* the facet dataSource: name and uri *)
  ds_schema : option (list (string * string)) }.
Inductive kind := START | RUNNING | COMPLETE | FAIL.
Global Instance kind_eq_dec : EqDecision kind.
Proof. solve_decision. Defined.
Inductive job_facet := JSource (l : list (string * option string)) | JType | JSql (q : option string).
Inductive run_facet := RHamilton (version : string) (final_vars inputs overrides : list string) | RError (e : lerr).
Record event := Event {
  ev_kind : kind;
  ev_run : string;
  ev_run_facets : list run_facet;
  ev_namespace : string;
  ev_job : string;
  ev_job_facets : list job_facet;
  ev_inputs : list dataset;
  ev_outputs : list dataset }.

(** Nodes as the adapter sees them: which of the three tags is True *)
Record lnode := LNode { ln_name : string; ln_saver : bool; ln_loader : bool; ln_metadata : bool }.
(** What nodes return: dictionaries of metadata, tuples, anything else *)
Inductive value := VDict (m : meta) | VTuple (l : list value) | VOther.

(** h_openlineage.py 36-53 [extract_schema_facet] *)
Definition extract_schema_facet (m : meta) : res lerr (option (list (string * string))) :=
  match m_frame m with
  | None => Ok None
  | Some (Missing, _) => Err EKey
  | Some (_, Missing) => Err EKey
  | Some (Val ns, Val ts) => Ok (Some (zip ns ts))
  | Some _ => Err EType
  end.
(** [s.split(p)[0]] *)
Fixpoint before (p s : string) : string :=
  if String.prefix p s then EmptyString else match s with EmptyString => EmptyString | String a s' => String a (before p s') end.
(** [s.split(".")[-1]] *)
Definition extension (s : string) : string := List.last (split "."%char s) "".

(** 56-93 [create_input_dataset] *)
Definition create_input_dataset (ns : string) (m : meta) (n : lnode) : res lerr (list dataset * list job_facet) :=
  let fin (name : option string) format source sql :=
    match extract_schema_facet m with
    | Err e => Err e
    | Ok s => Ok ([Dataset ns name format source s], sql)
    end in
  match m_file m, m_sql m with
  | Some path, _ =>
      let name := if str_contains ".loader" (ln_name n) then before ".loader" (ln_name n) else ln_name n in
      match path with
      | None => Err EKey
      | Some path =>
          let format := if str_contains "." name then extension path else "unknown" in
          fin (Some name) (Some format) (Some (name, path)) []
      end
  | None, Some (Missing, _) => Err EKey
  | None, Some (_, Missing) => Err EKey
  | None, Some (t, q) =>
      fin (match t with Val t => Some t | _ => None end) None None [JSql (match q with Val q => Some q | _ => None end)]
  | None, None => fin (Some "--UNKNOWN--") None None []
  end.
(** 96-126 [create_output_dataset] *)
Definition create_output_dataset (ns : string) (m : meta) (n : lnode) : res lerr (list dataset) :=
  let fin (name : option string) format source :=
    match extract_schema_facet m with
    | Err e => Err e
    | Ok s => Ok [Dataset ns name format source s]
    end in
  match m_file m, m_sql m with
  | Some None, _ => Err EKey
  | Some (Some name), _ =>
      let format := if str_contains "." name then extension name else "unknown" in
      fin (Some name) (Some format) (Some (ln_name n, name))
  | None, Some (Missing, _) => Err EKey
  | None, Some (t, _) => fin (match t with Val t => Some t | _ => None end) None None
  | None, None => fin (Some "--UNKNOWN--") None None
  end.

(** 284-301: what was saved or loaded, if anything *)
Definition moved (n : lnode) (v : value) : option (meta * bool) :=
  match ln_saver n, v with
  | true, VDict m => Some (m, false)
  | _, VTuple [_; VDict m] => if ln_loader n && ln_metadata n then Some (m, true) else None
  | _, _ => None
  end.

Section Adapter.
(** The constructor's arguments (171-183): where and under which name events are sent. [accepts] tells
    whether the client takes an event or raises. *)
Variable accepts : event -> bool.
Variable namespace job_name : string.
(** The version of the graph, see VersionModel *)
Variable graph_version : list string -> string.

Notation log := (list event).
Definition emit (l : log) (e : event) : res lerr unit * log := if accepts e then (Ok tt, l ++ [e]) else (Err EClient, l).

(** Where the source of a node is: it has no function, it can be read, or [inspect.getsource] raises
    OSError (functions typed at a prompt or made by exec) *)
Inductive source := SNone | SText (s : string) | SUnavailable.
(** graph_types.py 104-128 [as_dict], of the nodes one by one: names and sources *)
Fixpoint sources (g : list (string * source)) : res lerr (list (string * option string)) :=
  match g with
  | [] => Ok []
  | (_, SUnavailable) :: _ => Err ESource
  | (x, s) :: g => match sources g with Ok l => Ok ((x, match s with SText t => Some t | _ => None end) :: l) | Err e => Err e end
  end.
(** 185-240 [pre_graph_execute]; None stands for no inputs or overrides *)
Definition pre_graph_execute (l : log) (run_id : string) (g : list (string * source)) (final_vars : list string)
    (inputs overrides : option (list string)) : res lerr unit * log :=
  match sources g with
  | Err e => (Err e, l)
  | Ok ss =>
      emit l (Event START run_id [RHamilton (graph_version (map fst g)) final_vars (default [] inputs) (default [] overrides)]
                namespace job_name [JSource ss; JType] [] [])
  end.
(** 248-325 [post_node_execute] *)
Definition post_node_execute (l : log) (run_id : string) (n : lnode) (success : bool) (v : value) : res lerr unit * log :=
  if negb success then (Ok tt, l)
  else
    match moved n v with
    | None => (Ok tt, l)
    | Some (m, loaded) =>
        if is_empty m then (Ok tt, l)
        else if loaded then
          match create_input_dataset namespace m n with
          | Err e => (Err e, l)
          | Ok (ins, sql) => emit l (Event RUNNING run_id [] namespace job_name sql ins [])
          end
        else
          match create_output_dataset namespace m n with
          | Err e => (Err e, l)
          | Ok outs => emit l (Event RUNNING run_id [] namespace job_name [] [] outs)
          end
    end.
(** 327-367 [post_graph_execute]: what [success] says is not looked at *)
Definition post_graph_execute (l : log) (run_id : string) (success : bool) (error : option lerr) : res lerr unit * log :=
  match error with
  | Some e =>
      if truthy e then emit l (Event FAIL run_id [RError e] namespace job_name [] [] [])
      else emit l (Event COMPLETE run_id [] namespace job_name [] [] [])
  | None => emit l (Event COMPLETE run_id [] namespace job_name [] [] [])
  end.

(** ** The driver *)
(** What a node does *)
Inductive outcome := Returns (v : value) | Raises (e : lerr).
(** execution/graph_functions.py 255-331 [execute_lifecycle_for_node], for the nodes in the order in
    which they are executed, until one raises. Exceptions that are not of the class Exception are not
    caught, and the hook is told of success and of None. *)
Fixpoint run_nodes (l : log) (run_id : string) (ns : list (lnode * outcome)) : res lerr unit * log :=
  match ns with
  | [] => (Ok tt, l)
  | (n, Returns v) :: ns =>
      match post_node_execute l run_id n true v with
      | (Err e, l) => (Err e, l)
      | (Ok _, l) => run_nodes l run_id ns
      end
  | (n, Raises e) :: _ =>
      match post_node_execute l run_id n (negb (is_exception e)) VOther with
      | (Err e', l) => (Err e', l)
      | (Ok _, l) => (Err e, l)
      end
  end.

Record plan := Plan {
  pl_graph : list (string * source);
  pl_final : list string;
  pl_inputs : option (list string);
  pl_overrides : option (list string);
  pl_check : option lerr; (* what checking the request raises, before any node is executed *)
  pl_nodes : list (lnode * outcome);
  pl_build : res lerr unit }. (* making the result of the values of the nodes *)

Definition pre (l : log) (run_id : string) (p : plan) := pre_graph_execute l run_id (pl_graph p) (pl_final p) (pl_inputs p) (pl_overrides p).
Definition work (l : log) (run_id : string) (p : plan) : res lerr unit * log :=
  match pl_check p with
  | Some e => (Err e, l)
  | None =>
      match run_nodes l run_id (pl_nodes p) with
      | (Err e, l) => (Err e, l)
      | (Ok _, l) => (pl_build p, l)
      end
  end.
(** driver.py 632-647 and 1695-1711: [except Exception] and [finally]; what the hook raises takes the place of what
    was raised *)
Definition finish (run_id : string) (r : res lerr unit * log) : res lerr unit * log :=
  let '(r, l) := r in
  let error := match r with Err e => if is_exception e then Some e else None | Ok _ => None end in
  match post_graph_execute l run_id (match error with None => true | _ => false end) error with
  | (Err e, l) => (Err e, l)
  | (Ok _, l) => (r, l)
  end.
(** driver.py 584-652 [execute] *)
Definition execute (l : log) (run_id : string) (p : plan) : res lerr unit * log :=
  match pre l run_id p with
  | (Err e, l) => (Err e, l)
  | (Ok _, l) => finish run_id (work l run_id p)
  end.
(** driver.py 1635-1720 [materialize]: [early] is what is raised before there is a graph (1647-1654), in
    which case the name [function_graph] that the finally clause reads is unbound; [late] what is raised
    between then and the hook (1655-1668). *)
Definition materialize (l : log) (run_id : string) (early late : option lerr) (p : plan) : res lerr unit * log :=
  match early, late with
  | Some _, _ => (Err EUnbound, l)
  | None, Some e => finish run_id (Err e, l)
  | None, None =>
      finish run_id
        match pre l run_id p with
        | (Err e, l) => (Err e, l)
        | (Ok _, l) => work l run_id p
        end
  end.
End Adapter.
