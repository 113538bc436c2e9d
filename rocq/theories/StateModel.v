(** Model of hamilton/execution/state.py (ExecutionState, DictBasedResultCache) and
    hamilton/execution/executors.py (base_execute_task, the pool executors and
    run_graph_to_completion). *)
From stdpp Require Import pretty.
From Verif Require Import Base Dict ExecModel TraverseModel GroupModel.

(** state.py 12-22 [TaskState] / [GraphState] *)
Inductive tstate := UNINITIALIZED | INITIALIZED | QUEUED | RUNNING | SUCCESSFUL | FAILED.
Global Instance tstate_eq_dec : EqDecision tstate.
Proof. solve_decision. Defined.
Definition is_terminal (s : tstate) : bool :=
  match s with SUCCESSFUL | FAILED => true | _ => false end.

Definition opt_list {A} (o : option A) : list A := match o with Some a => [a] | None => [] end.

(** The characters of a string, as Python iterates over it. *)
Fixpoint chars (s : string) : list string :=
  match s with
  | EmptyString => []
  | String a s' => String a EmptyString :: chars s'
  end.

Section State.
Context {V E : Type}.
Variable g : graph.
Variable role_of : name -> role.
(** [Node.collect_dependency], node.py 127-136. *)
Variable carg : name -> name.
(** [list(v)] ([None]: TypeError) and building a list value. *)
Variable as_list : V -> option (list V).
Variable mk_list : list V -> V.
(** The user's functions, and the TypeError of [list(...)]. *)
Variable f : name -> gmap name V -> res E V.
Variable not_iterable : E.

(** Exceptions that leave the run. *)
Inductive texn :=
| XUser (e : exn E)          (* from a task: user function or missing input *)
| XKey (k : string)          (* KeyError: result cache or task pool *)
| XType                      (* TypeError: list(...) of the value of an overridden expander *)
| XAttr                      (* AttributeError on None *)
| XAssert                    (* the assertion of state.py 354-358 *)
| XStuck.                    (* execute_subdag out of fuel: excluded by theorem *)

(** grouping.py 122-158 [TaskImplementation]; [run_id] and adapter left out. *)
Record timpl := TImpl {
  ti_spec : tspec V;
  ti_spawner : option string;     (* spawning_task_id (= spawning_task_base_id) *)
  ti_group : option string;       (* group_id *)
  ti_rdeps : dict (list string);  (* realized_dependencies *)
  ti_dyn : gmap name V }.         (* dynamic_inputs *)

(** grouping.py 147-151 [determine_task_id] *)
Definition mk_task_id (base : string) (spawner group : option string) : string :=
  String.concat "." (opt_list spawner ++ opt_list group ++ [base]).
Definition task_id (t : timpl) : string := mk_task_id (ts_base (ti_spec t)) (ti_spawner t) (ti_group t).

(** grouping.py 143-145 [bind]: values already bound win. *)
Definition bind (t : timpl) (dyn : gmap name V) : timpl :=
  TImpl (ti_spec t) (ti_spawner t) (ti_group t) (ti_rdeps t) (ti_dyn t ∪ dyn).

(** ** The result cache, state.py 66-115 *)
Definition format_key (group spawner : option string) (key : string) : string :=
  String.concat ":" (opt_list spawner ++ opt_list group ++ [key]).

Definition cache_write (c : gmap string V) (results : gmap name V) (group spawner : option string) : gmap string V :=
  (list_to_map (map (fun p => (format_key group spawner p.1, p.2)) (map_to_list results)) : gmap string V) ∪ c.

(** [read(keys)] without namespace; [Err k]: KeyError. *)
Fixpoint cache_read (c : gmap string V) (keys : list name) : res string (gmap name V) :=
  match keys with
  | [] => Ok ∅
  | k :: keys' =>
      match c !! format_key None None k with
      | None => Err k
      | Some v => match cache_read c keys' with
                  | Ok m => Ok (<[k := v]> m)
                  | Err k' => Err k'
                  end
      end
  end.

(** [read(keys, optional=True)] *)
Definition cache_read_opt (c : gmap string V) (keys : list name) : gmap name V :=
  list_to_map (omap (fun k => match c !! format_key None None k with Some v => Some (k, v) | None => None end) keys).

(** ** ExecutionState *)
Record estate := EState {
  es_pool : dict timpl;              (* task_pool: id -> task, in insertion order *)
  es_states : gmap string tstate;    (* task_states: a defaultdict *)
  es_queue : list timpl;             (* task_queue *)
  es_cache : gmap string V }.        (* result_cache.cache *)

(** The specs: [base_task_pool] is [tasks] keyed by base id, in order (a repeated id: last
    one wins, state.py 177-178), [base_reverse_dependencies] is computed from [tasks]. *)
Variable tasks : list (tspec V).

Definition base_pool : list (tspec V) := (foldl (fun d t => dset d (ts_base t) t) [] tasks).*2.

(** state.py 147-159, [base_reverse_dependencies[b]] *)
Definition reverse_deps (b : string) : list (tspec V) :=
  concat (map (fun t => map (fun _ => t) (filter (fun d => d = b) (ts_deps t))) tasks).

Definition state_of (s : estate) (id : string) : tstate :=
  match es_states s !! id with Some x => x | None => UNINITIALIZED end.
Definition set_state (s : estate) (id : string) (x : tstate) : estate :=
  EState (es_pool s) (<[id := x]> (es_states s)) (es_queue s) (es_cache s).

(** state.py 193-236 [realize_task]; the mutation of [realized_dependencies] by the caller
    (286-289, 313) is folded in by passing the final dictionary. *)
Definition realize_task (s : estate) (t : timpl) : estate :=
  EState (dset (es_pool s) (task_id t) t) (<[task_id t := INITIALIZED]> (es_states s)) (es_queue s) (es_cache s).

Definition base_rdeps (t : tspec V) : dict (list string) := map (fun d => (d, [d])) (ts_deps t).

(** state.py 161-172, 183-191: the tasks without dependencies are realized and queued. *)
Definition init_task (s : estate) (t : tspec V) : estate :=
  if bool_decide (ts_deps t = []) then realize_task s (TImpl t None None (base_rdeps t) ∅) else s.
Definition enqueue (s : estate) (t : timpl) : estate :=
  EState (es_pool s) (<[task_id t := QUEUED]> (es_states s)) (es_queue s ++ [t]) (es_cache s).
Definition init_state (cache : gmap string V) : estate :=
  let s := foldl init_task (EState [] ∅ [] cache) tasks in
  foldl (fun s t => if bool_decide (ts_deps (ti_spec t) = []) then enqueue s t else s) s (es_pool s).*2.

(** state.py 238-316 [realize_parameterized_group] *)
Definition is_spawned_by (id : string) (t : tspec V) : bool := bool_decide (ts_spawn t = Some id).
Definition to_repeat (id : string) : list (tspec V) :=
  filter (fun t => is_spawned_by id t = true /\ ts_purpose t <> EXPAND /\ ts_purpose t <> GATHER) base_pool.
Definition to_collect (id : string) : list (tspec V) :=
  filter (fun t => ts_purpose t = GATHER /\ is_spawned_by id t = true) base_pool.

(** 276-290: the tasks of one group. A dependency inside the group is realized as the
    *string* [name_map[dependency]], which is later iterated character by character. *)
Definition branch_task (id grp input : string) (v : V) (t : tspec V) : timpl :=
  TImpl t (Some id) (Some grp)
    (map (fun d => (d, if bool_decide (d ∈ map ts_base (to_repeat id))
                       then chars (mk_task_id d (Some id) (Some grp)) else [d])) (ts_deps t))
    {[input := v]}.
Definition realize_branch (id input : string) (s : estate) (p : nat * V) : estate :=
  foldl (fun s t => realize_task s (branch_task id (pretty p.1) input p.2 t)) s (to_repeat id).

(** 300-315: the collectors, with one dependency per group. *)
Definition collect_task (id : string) (n : nat) (t : tspec V) : timpl :=
  TImpl t None None
    (map (fun d => (d, if bool_decide (d ∈ map ts_base (to_repeat id))
                       then map (fun i => mk_task_id d (Some id) (Some (pretty i))) (seq 0 n) else [d])) (ts_deps t))
    ∅.
Definition realize_group (s : estate) (id input : string) (vs : list V) : estate :=
  let s1 := foldl (realize_branch id input) s (imap pair vs) in
  foldl (fun s t => realize_task s (collect_task id (length vs) t)) s1 (to_collect id).

(** grouping.py 59-66 [get_expander_node], 68-73 [get_collector_node] *)
Definition expander_node (t : tspec V) : option name := head (filter (fun x => role_of x = RExpand) (ts_nodes t)).
Definition collector_node (t : tspec V) : option name := head (filter (fun x => role_of x = RCollect) (ts_nodes t)).

(** state.py 318-326 [write_task_results] *)
Definition write_results (s : estate) (t : timpl) (results : gmap name V) : res texn estate :=
  let put c r := cache_write c r (ti_group t) (ti_spawner t) in
  let with_cache c := EState (es_pool s) (es_states s) (es_queue s) c in
  if bool_decide (ts_purpose (ti_spec t) = EXPAND) then
    match expander_node (ti_spec t) with
    | None => Err XAttr
    | Some x =>
        match results !! x with
        | None => Err (XKey x)
        | Some v =>
            match as_list v with
            | None => Err XType
            | Some l => Ok (with_cache (put (cache_write (es_cache s) {[x := mk_list l]} None None) (delete x results)))
            end
        end
    end
  else Ok (with_cache (put (es_cache s) results)).

(** state.py 383-396: spawn the static tasks that depend on the completed one. *)
Definition spawn_candidate (s : estate) (t : tspec V) : estate :=
  if (bool_decide (ts_spawn t = None) || bool_decide (ts_purpose t = EXPAND))
  then match dget (es_pool s) (ts_base t) with
       | None => realize_task s (TImpl t None None (base_rdeps t) ∅)
       | Some _ => s
       end
  else s.

(** [self.task_states[dep]] on a defaultdict: a missing entry is created. *)
Definition touch (m : gmap string tstate) (id : string) : gmap string tstate :=
  match m !! id with Some _ => m | None => <[id := UNINITIALIZED]> m end.

(** state.py 401-411: the tasks to launch. *)
Fixpoint scan (m : gmap string tstate) (pool : list (string * timpl)) : gmap string tstate * list timpl :=
  match pool with
  | [] => (m, [])
  | (_, t) :: pool' =>
      let m0 := touch m (task_id t) in
      if bool_decide (m0 !! task_id t = Some INITIALIZED) then
        let ids := concat (map snd (ti_rdeps t)) in
        let m1 := foldl touch m0 ids in
        let '(m2, l) := scan m1 pool' in
        (m2, if forallb (fun d => bool_decide (m1 !! d = Some SUCCESSFUL)) ids then t :: l else l)
      else scan m0 pool'
  end.

(** state.py 399-423 *)
Definition enqueue_ready (s : estate) : estate :=
  let '(m, l) := scan (es_states s) (es_pool s) in
  foldl enqueue (EState (es_pool s) m (es_queue s) (es_cache s)) l.

(** state.py 328-423 [update_task_state] *)
Definition update_task_state (s : estate) (id : string) (new : tstate) (results : gmap name V) : res texn estate :=
  let s0 := set_state s id new in
  if is_terminal new then
    if forallb (fun t => bool_decide (es_states s0 !! task_id t = Some QUEUED)) (es_queue s0) then
      match dget (es_pool s0) id with
      | None => Err (XKey id)
      | Some t =>
          if bool_decide (new = SUCCESSFUL) then
            match write_results s0 t results with
            | Err e => Err e
            | Ok s1 =>
                if bool_decide (ts_purpose (ti_spec t) = EXPAND) then
                  match expander_node (ti_spec t) with
                  | None => Err XAttr
                  | Some x =>
                      match es_cache s1 !! format_key None None x with
                      | None => Err (XKey x)
                      | Some v => match as_list v with
                                  | None => Err XType
                                  | Some l => Ok (enqueue_ready (realize_group s1 (task_id t) x l))
                                  end
                      end
                  end
                else Ok (enqueue_ready (foldl spawn_candidate s1 (reverse_deps (ts_base (ti_spec t)))))
            end
          else Ok s0
      end
    else Err XAssert
  else Ok s0.

(** state.py 433-451 [get_graph_state] *)
Definition all_states (s : estate) (x : tstate) : bool :=
  forallb (fun p => bool_decide (p.2 = x)) (map_to_list (es_states s)).
Definition graph_state (s : estate) : tstate :=
  if bool_decide (es_states s = ∅) || all_states s INITIALIZED then INITIALIZED
  else if all_states s SUCCESSFUL then SUCCESSFUL
  else if existsb (fun p => bool_decide (p.2 = FAILED)) (map_to_list (es_states s)) then FAILED
  else RUNNING.

(** state.py 453-490 [bind_task] *)
Fixpoint collect_values (s : estate) (arg : name) (ids : list string) : res texn (list V) :=
  match ids with
  | [] => Ok []
  | id :: ids' =>
      match dget (es_pool s) id with
      | None => Err (XKey id)
      | Some t =>
          match es_cache s !! format_key (ti_group t) (ti_spawner t) arg with
          | None => Err (XKey (format_key (ti_group t) (ti_spawner t) arg))
          | Some v => match collect_values s arg ids' with
                      | Ok vs => Ok (v :: vs)
                      | Err e => Err e
                      end
          end
      end
  end.

(** 461-477: walk over [realized_dependencies]; the accumulated list and what is left of the
    dictionary. The task object in the pool shares this dictionary; it is not read again. *)
Fixpoint collect_deps (s : estate) (arg : name) (acc : list V) (rd : dict (list string))
  : res texn (list V * dict (list string)) :=
  match rd with
  | [] => Ok (acc, [])
  | (b, ids) :: rd' =>
      match ids with
      | [] => match collect_deps s arg acc rd' with
              | Ok (vs, rest) => Ok (vs, (b, ids) :: rest)
              | Err e => Err e
              end
      | id :: _ =>
          match dget (es_pool s) id with
          | None => Err (XKey id)
          | Some t =>
              if bool_decide (arg ∈ ts_nodes (ti_spec t)) then
                match collect_values s arg ids with
                | Err e => Err e
                | Ok vs => collect_deps s arg (acc ++ vs) rd'
                end
              else match collect_deps s arg acc rd' with
                   | Ok (vs, rest) => Ok (vs, (b, ids) :: rest)
                   | Err e => Err e
                   end
          end
      end
  end.

Definition bind_task (s : estate) (t : timpl) : res texn timpl :=
  let '(req, opt) := get_input_vars g (ti_spec t) in
  let start :=
    if bool_decide (ts_purpose (ti_spec t) = GATHER) then
      match collector_node (ti_spec t) with
      | None => Err XAttr
      | Some c =>
          match collect_deps s (carg c) [] (ti_rdeps t) with
          | Err e => Err e
          | Ok (vs, rest) => Ok ({[carg c := mk_list vs]}, rest)
          end
      end
    else Ok (ts_overrides (ti_spec t), ti_rdeps t) in
  match start with
  | Err e => Err e
  | Ok (dyn, rest) =>
      let to_read := filter (fun x => dyn !! x = None /\ ts_overrides (ti_spec t) !! x = None) (elements req) in
      match cache_read (es_cache s) to_read with
      | Err k => Err (XKey k)
      | Ok m =>
          let dyn2 := cache_read_opt (es_cache s) (elements opt) ∪ (m ∪ dyn) in
          Ok (bind (TImpl (ti_spec t) (ti_spawner t) (ti_group t) rest (ti_dyn t)) dyn2)
      end
  end.

(** ** Executing one task: executors.py 67-77 and 80-151 (without the task hooks) *)
Definition modify_callable (x : name) (kw : gmap name V) : res E V :=
  match f x kw with
  | Err e => Err e
  | Ok v => if bool_decide (role_of x = RExpand)
            then match as_list v with Some l => Ok (mk_list l) | None => Err not_iterable end
            else Ok v
  end.

Definition base_execute_task (t : timpl) : list (event V E) * res texn (gmap name V) :=
  match execute_subdag (fun _ => modify_callable) g (ti_dyn t) (ts_overrides (ti_spec t) ∪ ti_dyn t)
                       (ts_nodes (ti_spec t)) with
  | Done s => (trace s, Ok (filter (fun p : name * V =>
                 p.1 ∈ ts_outputs (ti_spec t) \/ is_Some (ts_overrides (ti_spec t) !! p.1)) (computed s)))
  | Raise s e => (trace s, Err (XUser e))
  | Fuel | Stuck => ([], Err XStuck)
  end.

(** ** Executors and the main loop *)
(** [which t]: the executor (by index) the manager picks, executors.py 347-356;
    [limit i]: [None] for the synchronous executor, [Some n] for a pool with [max_tasks = n]. *)
Variable which : timpl -> nat.
Variable limit : nat -> option nat.
(** [fin k id]: the future of task [id] is done at observation [k]. *)
Variable fin : nat -> string -> bool.

Inductive tevent :=
| TRun (t : timpl) (calls : list (event V E)) (r : res texn (gmap name V))   (* submitted; what it does *)
| TReject (t : timpl)                                                        (* put back on the queue *)
| TFinish (id : string).                                                     (* update_task_state(SUCCESSFUL) *)

Record rstate := RState {
  r_es : estate;
  r_futures : dict (option nat * res texn (gmap name V));  (* task_futures: pool of the future, outcome *)
  r_active : list (nat * string);                           (* active_futures of the pools *)
  r_trace : list tevent }.

(** executors.py 223-224, 262-269 *)
Definition prune_active (k : nat) (i : nat) (l : list (nat * string)) : list (nat * string) :=
  filter (fun p => ~ (p.1 = i /\ fin k p.2 = true)) l.
Definition count_active (i : nat) (l : list (nat * string)) : nat := length (filter (fun p => p.1 = i) l).

Inductive step_out :=
| SNext (r : rstate)
| SRaise (e : texn) (tr : list tevent).

(** executors.py 375-393: release, submit or put back. *)
Definition submit_next (k : nat) (r : rstate) : step_out :=
  let s := r_es r in
  match es_queue s with
  | [] => SNext r
  | t0 :: q =>
      match bind_task s t0 with
      | Err e => SRaise e (r_trace r)
      | Ok t =>
          let s' := EState (es_pool s) (es_states s) q (es_cache s) in
          let i := which t in
          match limit i with
          | None =>                                            (* 158-166, synchronous *)
              let '(calls, o) := base_execute_task t in
              let tr := r_trace r ++ [TRun t calls o] in
              match o with
              | Err e => SRaise e tr
              | Ok _ => SNext (RState s' (dset (r_futures r) (task_id t) (None, o)) (r_active r) tr)
              end
          | Some n =>
              let act := prune_active k i (r_active r) in
              if count_active i act <? n then
                let '(calls, o) := base_execute_task t in
                SNext (RState s' (dset (r_futures r) (task_id t) (Some i, o)) (act ++ [(i, task_id t)])
                              (r_trace r ++ [TRun t calls o]))
              else SNext (RState (EState (es_pool s) (es_states s) (t :: q) (es_cache s))
                                 (r_futures r) act (r_trace r ++ [TReject t]))
          end
      end
  end.

(** executors.py 182-209 and 394-401: polling the futures. A done future that failed raises
    in [get_result] (its [get_state] is FAILED). *)
Fixpoint poll (k : nat) (r : rstate) (futures : list (string * (option nat * res texn (gmap name V)))) : step_out :=
  match futures with
  | [] => SNext r
  | (id, (p, o)) :: futures' =>
      let done := match p with None => true | Some _ => fin k id end in
      if done then
        match o with
        | Err e => SRaise e (r_trace r)
        | Ok results =>
            match update_task_state (r_es r) id SUCCESSFUL results with
            | Err e => SRaise e (r_trace r ++ [TFinish id])
            | Ok s' => poll k (RState s' (ddel (r_futures r) id) (r_active r) (r_trace r ++ [TFinish id])) futures'
            end
        end
      else
        match update_task_state (r_es r) id RUNNING ∅ with
        | Err e => SRaise e (r_trace r)
        | Ok s' => poll k (RState s' (r_futures r) (r_active r) (r_trace r)) futures'
        end
  end.

(** One iteration of the while loop. Observation 2k: [can_submit_task]; 2k+1: the polls. *)
Definition iteration (k : nat) (r : rstate) : step_out :=
  match submit_next (2 * k) r with
  | SNext r1 => poll (2 * k + 1) r1 (r_futures r1)
  | o => o
  end.

Inductive loop_out :=
| LDone (r : rstate)                  (* the graph state became terminal *)
| LRaise (e : texn) (tr : list tevent)
| LRunning (r : rstate).              (* still looping after the given number of iterations *)

(** executors.py 359-404 (init/finalize of the executors are modelled separately) *)
Fixpoint run_loop (n k : nat) (r : rstate) : loop_out :=
  if is_terminal (graph_state (r_es r)) then LDone r
  else match n with
       | 0 => LRunning r
       | S n' => match iteration k r with
                 | SNext r' => run_loop n' (S k) r'
                 | SRaise e tr => LRaise e tr
                 end
       end.

Definition run_graph (n : nat) (cache : gmap string V) : loop_out :=
  run_loop n 0 (RState (init_state cache) [] [] []).

End State.
Arguments texn : clear implicits.
Arguments timpl : clear implicits.
Arguments estate : clear implicits.
Arguments tevent : clear implicits.
Arguments rstate : clear implicits.
Arguments step_out : clear implicits.
Arguments loop_out : clear implicits.
