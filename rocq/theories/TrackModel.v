(** The experiment tracker, hamilton/plugins/h_experiments/hook.py and cache.py, with the calls of its
    hooks by the driver. *)
From Coq Require Import Ascii.
From Verif Require Import Base Dict.

(** Exceptions of users' code, and those raised here: ValueError, AttributeError, KeyError, TypeError,
    UnboundLocalError, dbm.error *)
Inductive terr := TUser (s : string) | TValue | TAttr | TKey | TType | TUnbound | TDbm.
Global Instance terr_eq_dec : EqDecision terr.
Proof. solve_decision. Defined.

(** hook.py 18-23 [validate_string_input] *)
Fixpoint chars (s : string) : list ascii := match s with EmptyString => [] | String c s => c :: chars s end.
Definition allowed : list ascii := chars "abcdefghijklmnopqrstuvwxyzABCDEFGHIJKLMNOPQRSTUVWXYZ0123456789_-".
Fixpoint validate_string_input (s : list ascii) : res terr unit :=
  match s with
  | [] => Ok tt
  | c :: s => if decide (c ∈ allowed) then validate_string_input s else Err TValue
  end.

Section Tracker.
Context {V : Type}.
(** Nodes of the graph as the tracker looks at them: the tag module, if any (an empty one counts as none),
    whether it is an external input that functions ask for, and the default in the signature of the first
    of them: [None] if there is no such parameter (KeyError), [Some None] if it has no default *)
Record gnode := GNode { gn_name : string; gn_module : option string; gn_input : bool; gn_default : option (option V) }.
(** Nodes that are executed: whether they are savers, the names of what they were given, the tags sink and
    classname *)
Record tnode := TNode { tn_name : string; tn_saver : bool; tn_kwargs : list string; tn_sink : string; tn_class : string }.
(** What nodes return: a dictionary, with what is under the keys path and file_metadata (whose own key
    path may be missing), or something in which one cannot look for keys, as None *)
Inductive tvalue := TDict (path : option string) (file : option (option string)) | TNothing.
Inductive toutcome := TReturns (v : tvalue) | TRaises (e : terr).

Record node_input := NodeInput { ni_name : string; ni_value : option V; ni_default : option V }.
Record materializer := Materializer { mt_sources : list string; mt_path : string; mt_sink : string; mt_saver : string }.
Record run_record := RunRecord {
  rr_success : bool; rr_hash : string; rr_modules : list string; rr_config : dict V;
  rr_inputs : list node_input; rr_overrides : dict V; rr_materialized : list materializer }.

(** The tracker's fields that change, the working directory and the cache on disk *)
Record tstate := TState {
  ts_cwd : string; ts_hash : string; ts_modules : list string; ts_config : dict V;
  ts_inputs : list node_input; ts_overrides : dict V; ts_materializers : list materializer;
  ts_cache : dict run_record }.

(** The fields that do not (91-109): the working directory when the tracker was made, the run's directory
    (resolved), the identifier, and whether the base directory is an absolute path *)
Variable init_directory run_directory run_id : string.
Variable absolute : bool.
Definition tracker (cwd : string) (cache : dict run_record) : tstate := TState cwd "" [] [] [] [] [] cache.

Definition in_dir (d : string) (s : tstate) : tstate :=
  TState d (ts_hash s) (ts_modules s) (ts_config s) (ts_inputs s) (ts_overrides s) (ts_materializers s) (ts_cache s).
(** [str(Path(path).resolve())], of paths without dots and links *)
Definition resolve (cwd path : string) : string := if String.prefix "/" path then path else (cwd ++ "/" ++ path)%string.

(** 111-113 [run_after_graph_construction] *)
Definition after_construction (config : dict V) (s : tstate) : tstate :=
  TState (ts_cwd s) (ts_hash s) (ts_modules s) config (ts_inputs s) (ts_overrides s) (ts_materializers s) (ts_cache s).

(** 115-141 [run_before_graph_execution]: nodes in order, until one fails; [inputs] is None where none are
    given. Adding to a set. *)
Definition add_module (m : string) (l : list string) : list string := if decide (m ∈ l) then l else l ++ [m].
Fixpoint look (g : list gnode) (inputs : option (dict V)) (ms : list string) (is : list node_input) : res terr unit * list string * list node_input :=
  match g with
  | [] => (Ok tt, ms, is)
  | n :: g =>
      match gn_module n with
      | Some m => look g inputs (add_module m ms) is
      | None =>
          if gn_input n then
            match inputs, gn_default n with
            | None, _ => (Err TAttr, ms, is)
            | Some _, None => (Err TKey, ms, is)
            | Some given, Some d => look g inputs ms (is ++ [NodeInput (gn_name n) (dget given (gn_name n)) d])
            end
          else look g inputs ms is
      end
  end.
Definition before_graph (version : string) (g : list gnode) (inputs overrides : option (dict V)) (s : tstate) : res terr unit * tstate :=
  let '(r, ms, is) := look g inputs (ts_modules s) (ts_inputs s) in
  match r with
  | Err e => (Err e, TState (ts_cwd s) version ms (ts_config s) is (ts_overrides s) (ts_materializers s) (ts_cache s))
  | Ok _ =>
      let os := match overrides with Some (o :: os) => o :: os | _ => ts_overrides s end in
      (Ok tt, TState (ts_cwd s) version ms (ts_config s) is os (ts_materializers s) (ts_cache s))
  end.
(** 143-146 [run_before_node_execution] *)
Definition before_node (n : tnode) (s : tstate) : tstate := if tn_saver n then in_dir run_directory s else s.
(** 148-173 [run_after_node_execution]; nodes that failed come with None *)
Definition after_node (n : tnode) (v : tvalue) (s : tstate) : res terr unit * tstate :=
  if tn_saver n then
    let path := match v with
                | TNothing => Err TType
                | TDict (Some p) _ => Ok p
                | TDict None (Some (Some p)) => Ok p
                | TDict None (Some None) => Err TKey
                | TDict None None => Err TUnbound
                end in
    match path with
    | Err e => (Err e, s)
    | Ok p =>
        let m := Materializer (tn_kwargs n) (resolve (ts_cwd s) p) (tn_sink n) (tn_class n) in
        (Ok tt, TState init_directory (ts_hash s) (ts_modules s) (ts_config s) (ts_inputs s) (ts_overrides s) (ts_materializers s ++ [m]) (ts_cache s))
    end
  else (Ok tt, s).
(** cache.py 13-15 [write]: a relative path is taken from the directory of the moment, where there is no
    directory for it unless it is the first one *)
Definition write (id : string) (r : run_record) (s : tstate) : res terr unit * tstate :=
  if absolute || bool_decide (ts_cwd s = init_directory) then
    (Ok tt, TState (ts_cwd s) (ts_hash s) (ts_modules s) (ts_config s) (ts_inputs s) (ts_overrides s) (ts_materializers s) (dset (ts_cache s) id r))
  else (Err TDbm, s).
(** cache.py 17-19 [read] *)
Definition read (id : string) (s : tstate) : res terr run_record := match dget (ts_cache s) id with Some r => Ok r | None => Err TKey end.
(** cache.py 21-23 [delete]: the file is opened for reading, and deleting from such a one raises dbm.error *)
Definition delete (id : string) (s : tstate) : res terr unit * tstate := (Err TDbm, s).
(** hook.py 175-202 [run_after_graph_execution] *)
Definition after_graph (success : bool) (s : tstate) : res terr unit * tstate :=
  write run_id (RunRecord success (ts_hash s) (ts_modules s) (ts_config s) (ts_inputs s) (ts_overrides s) (ts_materializers s)) s.

(** The driver: see LineageModel. Each node leaves the directory in which it was executed. *)
Fixpoint run_nodes (ns : list (tnode * toutcome)) (s : tstate) : res terr unit * tstate * list (tnode * string) :=
  match ns with
  | [] => (Ok tt, s, [])
  | (n, o) :: ns =>
      let s := before_node n s in
      let here := (n, ts_cwd s) in
      match o with
      | TReturns v =>
          match after_node n v s with
          | (Err e, s) => (Err e, s, [here])
          | (Ok _, s) => let '(r, s, l) := run_nodes ns s in (r, s, here :: l)
          end
      | TRaises e =>
          match after_node n TNothing s with
          | (Err e', s) => (Err e', s, [here])
          | (Ok _, s) => (Err e, s, [here])
          end
      end
  end.
Record request := Request {
  rq_version : string; rq_graph : list gnode; rq_inputs : option (dict V); rq_overrides : option (dict V);
  rq_nodes : list (tnode * toutcome) }.
(** driver.py 584-652 [execute], where making the result does not fail *)
Definition execute (q : request) (s : tstate) : res terr unit * tstate * list (tnode * string) :=
  match before_graph (rq_version q) (rq_graph q) (rq_inputs q) (rq_overrides q) s with
  | (Err e, s) => (Err e, s, [])
  | (Ok _, s) =>
      let '(r, s, l) := run_nodes (rq_nodes q) s in
      match after_graph (match r with Ok _ => true | Err _ => false end) s with
      | (Err e, s) => (Err e, s, l)
      | (Ok _, s) => (r, s, l)
      end
  end.
End Tracker.
Arguments gnode : clear implicits.
Arguments tstate : clear implicits.
Arguments request : clear implicits.
Arguments node_input : clear implicits.
Arguments run_record : clear implicits.
