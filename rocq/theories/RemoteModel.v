(** Model of the adapters that run functions on a cluster: hamilton/plugins/h_ray.py
    [RayGraphAdapter], [RayWorkflowGraphAdapter] and hamilton/plugins/h_dask.py
    [DaskGraphAdapter] with the default settings use_delayed and compute_at_end. The driver
    walks the graph as always, but what it stores are references to tasks. *)
From Verif Require Import Base ExecModel AsyncModel.

Section Remote.
Context {V E R : Type}.
Variable g : graph.
(** The functions, and [result_builder.build_result]. Serialization is not modelled: a task sees
    the values that were passed; an exception is the same exception in the driver (ray raises
    an instance of a subclass of it). *)
Variable f : name -> gmap name V -> res E V.
Variable build : list (name * option V) -> res E R.
(** The keyword arguments that the adapter itself passes along with those of the node. *)
Variable reserved : list name.
(** TypeError: got multiple values for keyword argument. *)
Variable type_error : E.
(** Whether tasks run as soon as they are submitted (ray) or once the result is asked for (dask,
    ray workflows). *)
Variable eager : bool.

(** graph_functions.py 213-219 with h_ray.py [do_remote_execute] 136-150 and [execute_node]
    244-252, h_dask.py [execute_node] 129-146: submits a task and returns the reference.
    References are arguments of later tasks. [Task x] is the reference of the task of node [x].
    Options from tags are not modelled, nor hooks (they run on the cluster with the function for
    ray, and in the driver around the submission for the others). *)
Definition do_remote_execute (tr : list (event (slot V) E)) (x : name) (kw : gmap name (slot V)) : res E (slot V) :=
  if bool_decide (Forall (fun k => kw !! k = None) reserved) then Ok (Task x) else Err type_error.

(** The tasks submitted in a walk, in order. *)
Definition submissions (tr : list (event (slot V) E)) : list (name * gmap name (slot V)) :=
  omap (fun ev => match ev with Call x kw (Ok _) => Some (x, kw) | _ => None end) tr.

(** Exceptions of [Driver.execute]. *)
Inductive rexn :=
| RUser (e : E)        (* raised by a task and again by ray.get, compute or workflow.run *)
| RMissing (x : name)  (* NotImplementedError, graph_functions.py 195-197 *)
| RType                (* TypeError of passing a reserved keyword argument twice *)
| RClash               (* ValueError, graph_functions.py 84-97 *)
| RFuel.

Notation outputs := (list (name * option (slot V))).
(** How the walk ends. *)
Inductive ending := EBuild (outs : outputs) | ERaise (e : rexn).
(** The process of the driver: the submissions that it still has to do; waiting for the result;
    done. What the walk submits does not depend on the cluster, as submitting always returns a
    reference at once; so it is computed beforehand. *)
Inductive driver := Walking (todo : list (name * gmap name (slot V))) (en : ending) | Getting | DDone (r : res rexn R).
(** The task of the result builder (h_ray.py 152-165, 254-268; h_dask.py 148-173). *)
Inductive cstate := CWaiting | CRunning (vals : list (name * option V)) | CFinished (r : res E R).
Record cluster := Cluster {
  rc_tasks : gmap name (gmap name (slot V) * tstate V E);
  rc_combine : option (outputs * cstate);
  rc_main : driver;
  rc_trace : list (aevent V E);
}.

Definition outs_there (tasks : gmap name (gmap name (slot V) * tstate V E)) (outs : outputs) : bool :=
  forallb (fun p => match p.2 with Some s => bool_decide (is_Some (slot_value tasks s)) | None => true end) outs.
Definition outs_values (tasks : gmap name (gmap name (slot V) * tstate V E)) (outs : outputs) : list (name * option V) :=
  map (fun p => (p.1, p.2 ≫= slot_value tasks)) outs.
(** The exception of the task of the output [d]. *)
Fixpoint outs_error (tasks : gmap name (gmap name (slot V) * tstate V E)) (outs : outputs) (d : name) : option E :=
  match outs with
  | [] => None
  | (x, o) :: outs' => if decide (x = d) then o ≫= slot_error tasks else outs_error tasks outs' d
  end.

(** What happens next: the driver goes on, or the cluster goes on with the task of [x] or with
    the result builder. A task starts when all its arguments are there; if one of them failed
    (of several, that of [d]) it fails with the same exception without being run. What cannot
    go on is skipped. Retries after crashes of workers are not modelled. *)
Inductive rchoice := RMain | RTask (x d : name) | RCombine (d : name).

Definition rstep (C : cluster) (c : rchoice) : cluster :=
  match c with
  | RMain =>
      match rc_main C with
      | Walking ((x, args) :: todo) en => Cluster (<[x := (args, Waiting)]> (rc_tasks C)) (rc_combine C) (Walking todo en) (rc_trace C)
      | Walking [] (EBuild outs) => Cluster (rc_tasks C) (Some (outs, CWaiting)) Getting (rc_trace C)
      | Walking [] (ERaise e) => Cluster (rc_tasks C) (rc_combine C) (DDone (Err e)) (rc_trace C)
      | Getting =>
          match rc_combine C with
          | Some (_, CFinished (Ok r)) => Cluster (rc_tasks C) (rc_combine C) (DDone (Ok r)) (rc_trace C)
          | Some (_, CFinished (Err e)) => Cluster (rc_tasks C) (rc_combine C) (DDone (Err (RUser e))) (rc_trace C)
          | _ => C
          end
      | DDone _ => C
      end
  | RTask x d =>
      if eager || bool_decide (is_Some (rc_combine C)) then
        match rc_tasks C !! x with
        | Some (args, Waiting) =>
            if all_there (rc_tasks C) args then
              let kw := values (rc_tasks C) args in
              Cluster (<[x := (args, Running kw)]> (rc_tasks C)) (rc_combine C) (rc_main C) (rc_trace C ++ [AStart x kw])
            else
              match args !! d ≫= slot_error (rc_tasks C) with
              | Some e => Cluster (<[x := (args, Finished (Err e))]> (rc_tasks C)) (rc_combine C) (rc_main C) (rc_trace C ++ [ASkip x e])
              | None => C
              end
        | Some (args, Running kw) =>
            Cluster (<[x := (args, Finished (f x kw))]> (rc_tasks C)) (rc_combine C) (rc_main C) (rc_trace C ++ [AEnd x kw (f x kw)])
        | _ => C
        end
      else C
  | RCombine d =>
      match rc_combine C with
      | Some (outs, CWaiting) =>
          if outs_there (rc_tasks C) outs then
            Cluster (rc_tasks C) (Some (outs, CRunning (outs_values (rc_tasks C) outs))) (rc_main C) (rc_trace C)
          else
            match outs_error (rc_tasks C) outs d with
            | Some e => Cluster (rc_tasks C) (Some (outs, CFinished (Err e))) (rc_main C) (rc_trace C)
            | None => C
            end
      | Some (outs, CRunning vals) => Cluster (rc_tasks C) (Some (outs, CFinished (build vals))) (rc_main C) (rc_trace C)
      | _ => C
      end
  end.

(** driver.py 163-183 [DefaultGraphExecutor.execute] and 584-652 [Driver.execute] with these
    adapters; graph hooks, validation of inputs and telemetry are left out. *)
Definition rstart (config inputs overrides : gmap name V) (fv : list name) : cluster :=
  let '(todo, en) :=
    match default_execute do_remote_execute g (Plain <$> config) (Plain <$> inputs) (Plain <$> overrides) fv with
    | Answer outs tr => (submissions tr, EBuild outs)
    | Failed (EMissing y) tr => (submissions tr, ERaise (RMissing y))
    | Failed (EUser _) tr => (submissions tr, ERaise RType)
    | Clash => ([], ERaise RClash)
    | Diverged => ([], ERaise RFuel)
    end in
  Cluster ∅ None (Walking todo en) [].
Definition rrun (config inputs overrides : gmap name V) (fv : list name) (cs : list rchoice) : cluster :=
  foldl rstep (rstart config inputs overrides fv) cs.
End Remote.
Arguments rexn : clear implicits.
Arguments ending : clear implicits.
Arguments driver : clear implicits.
Arguments cstate : clear implicits.
Arguments cluster : clear implicits.

(** The keyword arguments next to which ray gets those of the node: those of
    [call_lifecycle_method_sync] (lifecycle/base.py 937) and of [do_remote_execute]
    (h_ray.py 136-142). *)
Definition ray_reserved : list name := ["self"; "method_name"; "node"; "execute_lifecycle_for_node"].
(** h_dask.py 143-146. *)
Definition dask_reserved : list name := ["dask_key_name"].
