(** Telemetry: hamilton/telemetry.py, and where the driver, the dataflows and the command line
    use it. *)
From Coq Require Import Ascii.
From stdpp Require Import pretty.
From Verif Require Import Base Dict.

(** ** Whether it is enabled *)
(** [str.lower], for ASCII *)
Definition lower_ascii (a : ascii) : ascii :=
  let n := nat_of_ascii a in if (Nat.leb 65 n && Nat.leb n 90)%bool then ascii_of_nat (n + 32) else a.
Fixpoint lower (s : string) : string := match s with EmptyString => EmptyString | String a s => String (lower_ascii a) (lower s) end.
(** [ConfigParser.getboolean]; [None]: ValueError. Interpolation of values with percent signs is
    left out. *)
Definition getboolean (s : string) : option bool :=
  if decide (lower s ∈ ["1"; "yes"; "true"; "on"]) then Some true
  else if decide (lower s ∈ ["0"; "no"; "false"; "off"]) then Some false
  else None.
(** telemetry.py 85-111; [cfg]: the value in the file, [env]: that of the environment variable *)
Definition flag (telemetry_default : bool) (cfg env : option string) : bool :=
  let enabled := match cfg with Some s => default telemetry_default (getboolean s) | None => telemetry_default end in
  match env with Some s => default enabled (getboolean s) | None => enabled end.

(** ** What is sent *)
(** An entry of a traceback: path of the file split at separators, line and function *)
Record frame := Frame { f_path : list string; f_line : nat; f_fn : string }.
(** An instance: module and name of its class *)
Record obj := Obj { o_module : string; o_class : string }.
(** The events, as far as they depend on the program. [BASE_PROPERTIES] and the time it took are
    left out. *)
Inductive event :=
| EStart (nodes modules config : nat) (decorators : dict nat) (adapters : list string) (builder run : string) (error : option string) (executor : string)
| EEnd (success : bool) (outputs overrides inputs : nat) (run : string) (error : option string)
| EFunction (fn : string)
| EDataflow (fn : string)
| EDownload (category : string) (user : option string) (dataflow version : string)
| ECommand (command : string).

(** [xs[-n:]] *)
Definition last_n {A} (n : nat) (l : list A) : list A := drop (length l - n) l.
(** [xs[xs.index("hamilton"):]]; [None]: ValueError *)
Fixpoint from_hamilton (p : list string) : option (list string) :=
  match p with [] => None | c :: p' => if decide (c = "hamilton") then Some p else from_hamilton p' end.
Fixpoint join (sep : string) (l : list string) : string :=
  match l with [] => "" | [x] => x | x :: l => (x ++ sep ++ join sep l)%string end.
Definition newline : string := String (ascii_of_nat 10) "".
(** telemetry.py 425-435, an entry *)
Definition sanitize_frame (f : frame) : string :=
  match from_hamilton (last_n 4 (f_path f)) with
  | None => ("...<USER_CODE>..." ++ newline)%string
  | Some p => ("..." ++ join "/" p ++ ", line " ++ pretty (f_line f) ++ ", in " ++ f_fn f ++ newline)%string
  end.
(** 413-441 [sanitize_error]; limit=-5 keeps the last five entries *)
Definition sanitize_error (tb : list frame) : string := foldl (fun s f => (s ++ sanitize_frame f)%string) "" (last_n 5 tb).
(** 458-471 [get_adapter_name] *)
Definition get_adapter_name (a : obj) : string :=
  if String.prefix "hamilton." (o_module a) then (o_module a ++ "." ++ o_class a)%string else "custom_adapter".
(** 474-502 [get_result_builder_name]: of the adapters with [build_result] the first; what its
    [result_builder], if any, or else it itself is an instance of *)
Inductive bkind := BStrict | BPandas | BDict | BNumpy | BOther.
Record adapter := Adapter { a_obj : obj; a_builds : option bkind }.
Definition get_result_builder_name (l : list adapter) : string :=
  match omap a_builds l with
  | [] => "no_result_builder"
  | BStrict :: _ => "hamilton.base.StrictIndexTypePandasDataFrameResult"
  | BPandas :: _ => "hamilton.base.PandasDataFrameResult"
  | BDict :: _ => "hamilton.base.DictResult"
  | BNumpy :: _ => "hamilton.base.NumpyMatrixResult"
  | BOther :: _ => "custom_builder"
  end.
(** function_modifiers/base.py 43-62 [track_decorator_usage]: the decorators used so far *)
Definition count_name (d : obj) : string := if String.prefix "hamilton.function_modifiers" (o_module d) then o_class d else "custom_decorator".
Definition count_decorators (ds : list obj) : dict nat := foldl (fun c d => dset c (count_name d) (S (default 0 (dget c (count_name d))))) [] ds.

(** driver.py 481-520: what is known of the driver; [None] where the constructor did not come to. *)
Section Payloads.
Context {V : Type}.
Record built := Built {
  b_nodes : option (list name);            (* self.graph *)
  b_modules : list string; b_config : dict V; b_decorators : list obj; b_adapters : list adapter;
  b_run : string; b_error : option (list frame);
  b_executor : option obj;                 (* self.graph_executor *)
}.
(** [None]: AttributeError, which is caught *)
Definition start_event (b : built) : option event :=
  match b_executor b with
  | None => None
  | Some e => Some (EStart (match b_nodes b with Some ns => length ns | None => 0 end) (length (b_modules b)) (length (b_config b))
                      (match b_nodes b with Some _ => count_decorators (b_decorators b) | None => [] end)
                      (map (fun a => get_adapter_name (a_obj a)) (b_adapters b)) (get_result_builder_name (b_adapters b))
                      (b_run b) (sanitize_error <$> b_error b) (o_class e))
  end.
(** driver.py 401-469, in order: the graph, [graph_executor], and nothing that fails afterwards. The
    state in which [capture_constructor_telemetry] finds the driver after a failure. *)
Definition after_failure (b : built) : Prop := b_error b <> None -> b_executor b = None.

(** driver.py 664-701; [None]: the TypeError of [len(None)], which is caught *)
Record ran := Ran { r_success : bool; r_finals : list name; r_inputs : option (dict V); r_overrides : option (dict V); r_run : string; r_error : option (list frame) }.
Definition end_event (r : ran) : option event :=
  let ev n := Some (EEnd (r_success r) (length (r_finals r)) (match r_overrides r with Some o => length o | None => 0 end) n (r_run r) (sanitize_error <$> r_error r)) in
  match r_overrides r with
  | Some _ => match r_inputs r with Some i => ev (length i) | None => None end
  | None => ev 0
  end.
End Payloads.
Arguments built : clear implicits.
Arguments ran : clear implicits.

(** telemetry.py 292-322 [create_dataflow_download_event_json] *)
Definition download_event (category : string) (user : option string) (dataflow version : string) : event :=
  if decide (category = "DAGWORKS") then EDownload "DAGWORKS" None dataflow version else EDownload "USER" user dataflow version.

(** ** When it is sent *)
(** [g_telemetry_enabled], [call_counter] and the events for which a thread was started, each with
    whether [is_telemetry_enabled] was asked before *)
Record tstate := TState { t_on : bool; t_count : nat; t_sent : list (bool * event) }.
Definition MAX_COUNT_SESSION : nat := 10.
(** What programs do: something that asks first (and [again] so many times: 0 in [Driver], 1 in
    [AsyncDriver], 379 and 409, which asks before it calls those of [Driver], which ask again; the
    event is [None] if making it fails), something that does not (dataflows, contrib) and [disable_telemetry] *)
Inductive op := OGated (again : nat) (e : option event) | OFree (e : event) | ODisable.
(** Where a thread is in [is_telemetry_enabled] (126-147) and [send_event_json] (397-410); [n]: how
    often it will ask again. *)
Inductive pc :=
| PRead (n : nat) (e : option event)                     (* 131 *)
| PInc (n : nat) (e : option event)                      (* 141 *)
| PStore (n : nat) (e : option event) (counter : nat)    (* 141, if it is two steps *)
| PCompare (n : nat) (e : option event)                  (* 142 *)
| PSend (e : option event).                              (* 402-406 *)
Record thread := Thread { th_pc : option pc; th_ops : list op }.
Definition check_again (n : nat) (e : option event) : pc := match n with 0 => PSend e | S n => PRead n e end.
(** A step of a thread; the third component: a RuntimeError that the caller sees. [atomic]: whether
    [call_counter += 1] is one step (as it is in CPython since 3.10) or a load and a store. *)
Definition tstep (atomic : bool) (st : tstate) (t : thread) : option (tstate * thread * bool) :=
  match th_pc t with
  | Some (PRead n e) => Some (st, Thread (if t_on st then Some (PInc n e) else None) (th_ops t), false)
  | Some (PInc n e) =>
      if atomic then Some (TState (t_on st) (S (t_count st)) (t_sent st), Thread (Some (PCompare n e)) (th_ops t), false)
      else Some (st, Thread (Some (PStore n e (t_count st))) (th_ops t), false)
  | Some (PStore n e c) => Some (TState (t_on st) (S c) (t_sent st), Thread (Some (PCompare n e)) (th_ops t), false)
  | Some (PCompare n e) => Some (st, Thread (if decide (MAX_COUNT_SESSION < t_count st) then None else Some (check_again n e)) (th_ops t), false)
  | Some (PSend e) =>
      Some (match e with
            | Some e => if t_on st then TState (t_on st) (t_count st) (t_sent st ++ [(true, e)]) else st
            | None => st
            end, Thread None (th_ops t), false)
  | None =>
      match th_ops t with
      | [] => None
      | OGated again e :: ops => Some (st, Thread (Some (PRead again e)) ops, false)
      | OFree e :: ops => if t_on st then Some (TState (t_on st) (t_count st) (t_sent st ++ [(false, e)]), Thread None ops, false) else Some (st, Thread None ops, true)
      | ODisable :: ops => Some (TState false (t_count st) (t_sent st), Thread None ops, false)
      end
  end.
(** Any thread may go on. *)
Inductive tsteps (atomic : bool) : tstate * list thread -> tstate * list thread -> Prop :=
| tsteps_refl c : tsteps atomic c c
| tsteps_step st ts i t st' t' raised c :
    ts !! i = Some t -> tstep atomic st t = Some (st', t', raised) -> tsteps atomic (st', <[i := t']> ts) c -> tsteps atomic (st, ts) c.
Definition fresh (on : bool) : tstate := TState on 0 [].
Definition starts (progs : list (list op)) : list thread := map (Thread None) progs.
(** A given schedule; a thread that is to go on but cannot is passed over. *)
Fixpoint play (atomic : bool) (sched : list nat) (st : tstate) (ts : list thread) : tstate * list thread :=
  match sched with
  | [] => (st, ts)
  | i :: sched =>
      match ts !! i with
      | Some t => match tstep atomic st t with
                  | Some (st', t', _) => play atomic sched st' (<[i := t']> ts)
                  | None => play atomic sched st ts
                  end
      | None => play atomic sched st ts
      end
  end.

(** ** What callers get *)
Section Results.
Context {X V : Type}.
Variable runtime_error : X.
(** telemetry.py 126-147 and 397-410 without interruption *)
Definition is_telemetry_enabled (st : tstate) : bool * tstate :=
  if t_on st then (bool_decide (S (t_count st) <= MAX_COUNT_SESSION), TState (t_on st) (S (t_count st)) (t_sent st)) else (false, st).
Definition send_event_json (gated : bool) (e : event) (st : tstate) : res X tstate :=
  if t_on st then Ok (TState (t_on st) (t_count st) (t_sent st ++ [(gated, e)])) else Err runtime_error.
(** driver.py 61-90 [capture_function_usage], 481-520 and 664-701: after the call, whose state and
    outcome are given, in a [finally]; what fails in it is caught. *)
Definition captured (e : option event) (r : res X V * tstate) : res X V * tstate :=
  let '(on, st) := is_telemetry_enabled r.2 in
  (r.1, if on then match e with
                   | Some e => match send_event_json true e st with Ok st' => st' | Err _ => st end
                   | None => st
                   end else st).
(** dataflows/__init__.py 46-59 [_track_function_call]: first sent, then called *)
Definition tracked (fn : string) (call : tstate -> res X V * tstate) (st : tstate) : res X V * tstate :=
  match send_event_json false (EDataflow fn) st with
  | Ok st' => call st'
  | Err x => (Err x, st)
  end.
(** contrib/__init__.py 14-24 with telemetry.py 325-369: after the imports of a dataflow succeeded;
    [event]: [None] if there is none to be sent *)
Definition catch_import_errors (event : option event) (imports : tstate -> res X V * tstate) (st : tstate) : res X V * tstate :=
  match imports st with
  | (Ok v, st') => match event with
                   | None => (Ok v, st')
                   | Some e => match send_event_json false e st' with Ok st'' => (Ok v, st'') | Err x => (Err x, st') end
                   end
  | (Err x, st') => (Err x, st')
  end.
End Results.
