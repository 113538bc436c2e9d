(** The MLflow tracker, hamilton/plugins/h_mlflow.py, with the calls of its hooks by the driver. *)
From Verif Require Import Base Dict.

(** Exceptions of users' code and of building results, and those raised here: AttributeError, KeyError,
    TypeError, pickling errors, and of MLflow: a run is active, a parameter is changed *)
Inductive merr := MUser (s : string) | MAttr | MKey | MType | MPickle | MActive | MParam.
Global Instance merr_eq_dec : EqDecision merr.
Proof. solve_decision. Defined.

Section Mlflow.
Context {V : Type}.
(** [float(v)], whether [v] can be pickled, Python's None, and which element [set.pop] takes *)
Variable as_float : V -> option V.
Variable pickles : V -> bool.
Variable none : V.
Variable pop : list string -> string.
(** [str(v)]; and, of dictionaries, what is under the keys path, file_metadata (its path) and
    registered_model (name and version); of other values (None, when a saver failed) nothing *)
Variable shown : V -> string.
Variable meta : V -> option (option string * option string * option (string * string)).

(** Types of nodes, as far as they are told apart *)
Inductive ntype := TFloat | TInt | TStr | TDict | TFigure | TOther.
Global Instance ntype_eq_dec : EqDecision ntype.
Proof. solve_decision. Defined.
(** Nodes: for savers the sink (the tag), the names of what they require, what they were given *)
Record mnode := MNode { mn_name : string; mn_type : ntype; mn_saver : option string; mn_required : list string; mn_kwargs : dict V }.
Inductive moutcome := MReturns (v : V) | MRaises (e : merr).

(** ** The MLflow server, and the run that is active in this process *)
Inductive status := RUNNING | FINISHED | FAILED.
Global Instance status_eq_dec : EqDecision status.
Proof. solve_decision. Defined.
Inductive item :=
| IConfig | IGraph
| IMetric (key : string) (v : V)
| IText (file : string) (v : V)
| IDict (file : string) (v : V)
| IFigure (v : V) (file : string)
| IArtifact (path dir : string)
| IModel (model version node : string).
Record mrun := MRun { mr_status : status; mr_hamilton : string; mr_version : string; mr_params : dict string; mr_items : list item }.
(** Runs in the order in which they were created, their identifiers being their numbers; [ms_current] is
    [self.run_id] of the tracker *)
Record mstate := MState { ms_runs : list mrun; ms_active : option nat; ms_current : nat }.
Definition on_current (f : mrun -> mrun) (s : mstate) : mstate := MState (alter f (ms_current s) (ms_runs s)) (ms_active s) (ms_current s).
Definition log (i : item) (s : mstate) : mstate := on_current (fun r => MRun (mr_status r) (mr_hamilton r) (mr_version r) (mr_params r) (mr_items r ++ [i])) s.
(** [client.log_param]: values are logged as strings, and a parameter cannot be given another value *)
Definition log_param (k : string) (v : V) (s : mstate) : res merr unit * mstate :=
  match ms_runs s !! ms_current s with
  | None => (Err MKey, s)
  | Some r =>
      match dget (mr_params r) k with
      | Some w => if decide (w = shown v) then (Ok tt, s) else (Err MParam, s)
      | None => (Ok tt, on_current (fun r => MRun (mr_status r) (mr_hamilton r) (mr_version r) (dset (mr_params r) k (shown v)) (mr_items r)) s)
      end
  end.
Fixpoint log_params (d : list (string * V)) (s : mstate) : res merr unit * mstate :=
  match d with
  | [] => (Ok tt, s)
  | (k, v) :: d => match log_param k v s with (Err e, s) => (Err e, s) | (Ok _, s) => log_params d s end
  end.

(** ** The hooks *)
(** h_mlflow.py 118-168 [run_before_graph_execution]: [existing] is the constructor's run_id (104), at which
    nothing looks; [mlflow.start_run] raises if a run is active *)
Definition before_graph (existing : option nat) (run_id version : string) (config : dict V) (inputs : option (dict V)) (s : mstate) : res merr unit * mstate :=
  let s := MState (ms_runs s ++ [MRun RUNNING run_id version [] []]) (ms_active s) (length (ms_runs s)) in
  match ms_active s with
  | Some _ => (Err MActive, s)
  | None =>
      let s := MState (ms_runs s) (Some (ms_current s)) (ms_current s) in
      let s := log IGraph (log IConfig s) in
      match log_params config s with
      | (Err e, s) => (Err e, s)
      | (Ok _, s) =>
          match inputs with
          | None => (Err MAttr, s)
          | Some d => log_params d s
          end
      end
  end.
(** 37-45 [get_path_from_metadata]; looking for a key in None is a TypeError *)
Definition get_path_from_metadata (v : V) : res merr (option string) :=
  match meta v with
  | None => Err MType
  | Some (Some p, _, _) => Ok (Some p)
  | Some (None, f, _) => Ok f
  end.
(** [if path:] *)
Definition truthy (p : option string) : option string := match p with Some "" => None | _ => p end.
(** [isinstance(node_return_type, str)] and [isinstance(node_return_type, dict)] (267, 274): types of nodes
    are types, not strings nor dictionaries *)
Definition isinstance_str (t : ntype) : bool := false.
Definition isinstance_dict (t : ntype) : bool := false.
(** 171-302 [run_after_node_execution] *)
Definition after_node (final_vars : list string) (n : mnode) (v : V) (s : mstate) : res merr unit * mstate :=
  match mn_saver n with
  | Some sink =>
      if decide (sink = "mlflow") then
        match meta v with
        | None => (Err MAttr, s)
        | Some (_, _, None) => (Ok tt, s)
        | Some (_, _, Some (model, version)) =>
            match mn_required n with [] => (Err MKey, s) | l => (Ok tt, log (IModel model version (pop l)) s) end
        end
      else if decide (sink ∈ ["plt"; "plotly"]) then
        match mn_required n with
        | [] => (Err MKey, s)
        | l =>
            match dget (mn_kwargs n) (pop l) with
            | None => (Err MKey, s)
            | Some figure =>
                match get_path_from_metadata v with
                | Err e => (Err e, s)
                | Ok p => match truthy p with None => (Ok tt, s) | Some p => (Ok tt, log (IFigure figure p) s) end
                end
            end
        end
      else
        match get_path_from_metadata v with
        | Err e => (Err e, s)
        | Ok p => match truthy p with None => (Ok tt, s) | Some p => (Ok tt, log (IArtifact p (mn_name n)) s) end
        end
  | None =>
      if decide (mn_name n ∈ final_vars) then
        if decide (mn_type n ∈ [TFloat; TInt]) then
          match as_float v with
          | None => (Err MType, s)
          | Some w => (Ok tt, log (IMetric (mn_name n) w) s)
          end
        else if isinstance_str (mn_type n) then (Ok tt, log (IText (mn_name n ++ ".txt") v) s)
        else if isinstance_dict (mn_type n) then (Ok tt, log (IDict (mn_name n ++ ".json") v) s)
        else if decide (mn_type n = TFigure) then (Ok tt, log (IFigure v (mn_name n ++ ".png")) s)
        else if pickles v then (Ok tt, log (IDict (mn_name n ++ ".pickle") v) s)
        else (Err MPickle, s)
      else (Ok tt, s)
  end.
(** [client.set_terminated] *)
Definition set_terminated (i : nat) (x : status) (s : mstate) : mstate :=
  MState (alter (fun r => MRun x (mr_hamilton r) (mr_version r) (mr_params r) (mr_items r)) i (ms_runs s)) (ms_active s) (ms_current s).
(** [mlflow.end_run(status="FINISHED")] ends the active run and terminates it with that status; the run is on
    the same server, as [mlflow.start_run] found it there *)
Definition end_run (s : mstate) : mstate :=
  match ms_active s with
  | None => s
  | Some i => let s := set_terminated i FINISHED s in MState (ms_runs s) None (ms_current s)
  end.
(** 304-312 [run_after_graph_execution] *)
Definition after_graph (success : bool) (s : mstate) : mstate :=
  end_run (set_terminated (ms_current s) (if success then FINISHED else FAILED) s).

(** ** The driver, see LineageModel *)
Fixpoint run_nodes (final_vars : list string) (ns : list (mnode * moutcome)) (s : mstate) : res merr unit * mstate :=
  match ns with
  | [] => (Ok tt, s)
  | (n, MReturns v) :: ns => match after_node final_vars n v s with (Err e, s) => (Err e, s) | (Ok _, s) => run_nodes final_vars ns s end
  | (n, MRaises e) :: _ => match after_node final_vars n none s with (Err e', s) => (Err e', s) | (Ok _, s) => (Err e, s) end
  end.
Record mrequest := MRequest {
  mq_run : string; mq_version : string; mq_config : dict V; mq_inputs : option (dict V); mq_final : list string;
  mq_nodes : list (mnode * moutcome); mq_build : res merr unit }.
(** driver.py 584-652 [execute] *)
Definition execute (existing : option nat) (q : mrequest) (s : mstate) : res merr unit * mstate :=
  match before_graph existing (mq_run q) (mq_version q) (mq_config q) (mq_inputs q) s with
  | (Err e, s) => (Err e, s)
  | (Ok _, s) =>
      let '(r, s) := run_nodes (mq_final q) (mq_nodes q) s in
      let r := match r with Err e => Err e | Ok _ => mq_build q end in
      (r, after_graph (match r with Ok _ => true | Err _ => false end) s)
  end.
End Mlflow.
Arguments mnode : clear implicits.
Arguments moutcome : clear implicits.
Arguments item : clear implicits.
Arguments mrun : clear implicits.
Arguments mstate : clear implicits.
Arguments mrequest : clear implicits.
