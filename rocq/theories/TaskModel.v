(** Model of the task-based executor: hamilton/driver.py 186-252. *)
From Verif Require Import Base Dict ExecModel TraverseModel TopoModel GroupModel StateModel.

Section TaskExecute.
Context {V E : Type}.
Variable g : graph.
Variable role_of : name -> role.
Variable carg : name -> name.
Variable as_list : V -> option (list V).
Variable mk_list : list V -> V.
Variable f : name -> gmap name V -> res E V.
Variable not_iterable : E.
(** The grouping strategy; [None]: it raises. *)
Variable strategy : list name -> option (list ngroup).
(** [list(s)] of a set. *)
Variable ord : gset name -> list name.
Variable which : timpl V -> nat.
Variable limit : nat -> option nat.
Variable fin : nat -> string -> bool.
Variable config : gmap name V.

Inductive tanswer :=
| TAnswer (out : gmap name V) (tr : list (tevent V E))
| TKeyError (k : string) (tr : list (tevent V E))      (* a requested variable is not in the cache *)
| TRaised (e : texn E) (tr : list (tevent V E))
| TClash                                               (* combine_config_and_inputs *)
| TUnknown (missing : list name)                       (* get_upstream_nodes *)
| TNoGroups                                            (* the strategy raises *)
| TNoPlan                                              (* create_task_plan raises *)
| TRunning (tr : list (tevent V E)).                   (* not over after [n] iterations *)

(** driver.py 211-252 [TaskBasedGraphExecutor.execute]; [n] bounds the number of iterations of
    the main loop. *)
Definition task_execute (n : nat) (inputs overrides : gmap name V) (final_vars : list name) : tanswer :=
  match combine_config_and_inputs config inputs with
  | None => TClash
  | Some all_inputs =>
      match get_upstream_nodes g config (Some all_inputs) (Some overrides) final_vars with
      | Found nodes users =>
          match strategy (ord (nodes ∪ users)) with
          | None => TNoGroups
          | Some groups =>
              match create_task_plan g overrides groups final_vars with
              | None => TNoPlan
              | Some tasks =>
                  match run_graph g role_of carg as_list mk_list f not_iterable tasks which limit fin n (all_inputs ∪ overrides) with
                  | LRunning r => TRunning (r_trace r)
                  | LRaise e tr => TRaised e tr
                  | LDone r => match cache_read (es_cache (r_es r)) final_vars with
                               | Ok out => TAnswer out (r_trace r)
                               | Err k => TKeyError k (r_trace r)
                               end
                  end
              end
          end
      | Unknown missing => TUnknown missing
      | QFuel => TRunning []
      end
  end.

(** What happened during the run. *)
Definition answer_trace (a : tanswer) : list (tevent V E) :=
  match a with TAnswer _ tr | TKeyError _ tr | TRaised _ tr | TRunning tr => tr | _ => [] end.
End TaskExecute.
Arguments tanswer : clear implicits.
