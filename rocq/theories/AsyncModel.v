(** Model of the asynchronous driver, hamilton/async_driver.py: the graph is walked once, which
    creates one asyncio task per function, and the event loop then runs the tasks in some order. *)
From Verif Require Import Base ExecModel TraverseModel.

Section Async.
Context {V E : Type}.
Variable g : graph.
Variable config : gmap name V.
(** What awaiting a function (or calling one that is not a coroutine function, async_driver.py
    120-122) on its arguments gives. *)
Variable f : name -> gmap name V -> res E V.
(** The order in which Python iterates over a set of nodes (graph_functions.py 245). *)
Variable ord : gset name -> list name.

(** A value in [memoized_computation]: one that was given (an input or override; simplification:
    it is not awaitable itself), or the asyncio task of a node. *)
Inductive slot := Plain (v : V) | Task (x : name).

(** async_driver.py 63-154 [do_node_execute]: the node's task is created and returned at once.
    Lifecycle hooks are not modelled. *)
Definition do_node_execute (tr : list (event slot E)) (x : name) (kw : gmap name slot) : res E slot := Ok (Task x).

(** A task: its arguments and how far it is: awaiting the arguments (85-86), running the function,
    or finished. *)
Inductive tstate := Waiting | Running (kw : gmap name V) | Finished (r : res E V).
Inductive aevent :=
| AStart (x : name) (kw : gmap name V)                (* the function is called *)
| AEnd (x : name) (kw : gmap name V) (r : res E V)    (* it returns or raises *)
| ASkip (x : name) (e : E).                           (* awaiting an argument raised *)

(** Exceptions of [AsyncDriver.raw_execute]. *)
Inductive aexn :=
| XUser (e : E)
| XMissing (x : name)             (* NotImplementedError, graph_functions.py 195-197 *)
| XKey (x : name)                 (* KeyError of [memoized_computation[key]], 307 *)
| XUnknown (missing : list name)  (* ValueError, graph.py 1069-1073 *)
| XClash                          (* ValueError, graph_functions.py 84-97 *)
| XFuel.

(** The main coroutine awaits the requested slots (305-309) or is done; what it returns is a
    dictionary. Tasks go on when the main coroutine is done: [asyncio.gather] does not cancel
    the others when one raises, and nothing else cancels the tasks. *)
Inductive main := Awaiting (slots : gmap name slot) | MDone (r : res aexn (gmap name V)).
Record loop := Loop { lp_tasks : gmap name (gmap name slot * tstate); lp_main : main; lp_trace : list aevent }.

(** The value of a slot, if there is one already; the exception of its task. *)
Definition slot_value (tasks : gmap name (gmap name slot * tstate)) (s : slot) : option V :=
  match s with
  | Plain v => Some v
  | Task y => match tasks !! y with Some (_, Finished (Ok v)) => Some v | _ => None end
  end.
Definition slot_error (tasks : gmap name (gmap name slot * tstate)) (s : slot) : option E :=
  match s with
  | Plain _ => None
  | Task y => match tasks !! y with Some (_, Finished (Err e)) => Some e | _ => None end
  end.
(** async_driver.py 19-24 [await_dict_of_tasks] once all are there: the results. *)
Definition all_there (tasks : gmap name (gmap name slot * tstate)) (args : gmap name slot) : bool :=
  forallb (fun p => bool_decide (is_Some (slot_value tasks p.2))) (map_to_list args).
Definition values (tasks : gmap name (gmap name slot * tstate)) (args : gmap name slot) : gmap name V :=
  omap (slot_value tasks) args.

(** What the event loop does next: it continues the task of [x] or the main coroutine; if they
    await several things of which one has raised, [d] says whose exception [asyncio.gather]
    raises. A continuation that cannot go on is skipped. *)
Inductive choice := CTask (x d : name) | CMain (d : name).

Definition step (L : loop) (c : choice) : loop :=
  match c with
  | CTask x d =>
      match lp_tasks L !! x with
      | Some (args, Waiting) =>
          if all_there (lp_tasks L) args then
            let kw := values (lp_tasks L) args in
            Loop (<[x := (args, Running kw)]> (lp_tasks L)) (lp_main L) (lp_trace L ++ [AStart x kw])
          else
            match args !! d with
            | Some s =>
                match slot_error (lp_tasks L) s with
                | Some e => Loop (<[x := (args, Finished (Err e))]> (lp_tasks L)) (lp_main L) (lp_trace L ++ [ASkip x e])
                | None => L
                end
            | None => L
            end
      | Some (args, Running kw) =>
          Loop (<[x := (args, Finished (f x kw))]> (lp_tasks L)) (lp_main L) (lp_trace L ++ [AEnd x kw (f x kw)])
      | _ => L
      end
  | CMain d =>
      match lp_main L with
      | MDone _ => L
      | Awaiting slots =>
          if all_there (lp_tasks L) slots then Loop (lp_tasks L) (MDone (Ok (values (lp_tasks L) slots))) (lp_trace L)
          else
            match slots !! d with
            | Some s =>
                match slot_error (lp_tasks L) s with
                | Some e => Loop (lp_tasks L) (MDone (Err (XUser e))) (lp_trace L)
                | None => L
                end
            | None => L
            end
      end
  end.

(** The tasks created by the walk over the graph. *)
Definition created (tr : list (event slot E)) : gmap name (gmap name slot * tstate) :=
  foldl (fun m ev => match ev with Call x kw _ => <[x := (kw, Waiting)]> m | _ => m end) ∅ tr.

(** 305-308: the slots of the requested variables. *)
Fixpoint final_slots (computed : gmap name slot) (fv : list name) (acc : gmap name slot) : main :=
  match fv with
  | [] => Awaiting acc
  | x :: fv' => match computed !! x with
                | None => MDone (Err (XKey x))
                | Some s => final_slots computed fv' (<[x := s]> acc)
                end
  end.

(** async_driver.py 261-337 [raw_execute] up to the first await of a result (graph hooks left
    out), with hamilton/graph.py 1076-1106 [FunctionGraph.execute]. There is no check of the
    inputs. *)
Definition start (inputs overrides : option (gmap name V)) (fv : list name) : loop :=
  match get_upstream_nodes g config inputs overrides fv with
  | Unknown missing => Loop ∅ (MDone (Err (XUnknown missing))) []
  | QFuel => Loop ∅ (MDone (Err XFuel)) []
  | Found nodes _ =>
      match combine_config_and_inputs config (odefault inputs) with
      | None => Loop ∅ (MDone (Err XClash)) []
      | Some all =>
          match execute_subdag do_node_execute g (Plain <$> all) (Plain <$> odefault overrides) (ord nodes) with
          | Done s => Loop (created (trace s)) (final_slots (computed s) fv ∅) []
          | Raise s (EMissing y) => Loop (created (trace s)) (MDone (Err (XMissing y))) []
          | Raise s (EUser e) => Loop (created (trace s)) (MDone (Err (XUser e))) []
          | Fuel | Stuck => Loop ∅ (MDone (Err XFuel)) []
          end
      end
  end.

(** The event loop after the choices [cs]. *)
Definition run (inputs overrides : option (gmap name V)) (fv : list name) (cs : list choice) : loop :=
  foldl step (start inputs overrides fv) cs.
End Async.
Arguments slot : clear implicits.
Arguments tstate : clear implicits.
Arguments aevent : clear implicits.
Arguments aexn : clear implicits.
Arguments main : clear implicits.
Arguments loop : clear implicits.
