(** Model of the opening and closing of executors around a task-based run:
    hamilton/execution/executors.py, [PoolExecutor.init]/[finalize], [ExecutionManager] and the
    try/finally of [run_graph_to_completion]. *)
From Verif Require Import Base.

Section Pools.
Context {E A : Type}.

(** An executor object: [SynchronousLocalTaskExecutor] (init and finalize do nothing, 176-180) or
    a [PoolExecutor]; [ex_id] is the object identity. *)
Record executor := Executor { ex_id : nat; ex_pool : bool }.

(** [create_pool] (226-231) and [pool.shutdown] (243) may raise. *)
Variable create_fault shutdown_fault : nat -> option E.
(** The RuntimeErrors of 239 and 247. *)
Variable already not_init : E.

(** The pools whose [initialized] flag is set. *)
Definition open_pools := gset nat.

(** 233-239 *)
Definition ex_init (o : open_pools) (x : executor) : res E open_pools :=
  if ex_pool x then
    if bool_decide (ex_id x ∈ o) then Err already
    else match create_fault (ex_id x) with Some e => Err e | None => Ok ({[ex_id x]} ∪ o) end
  else Ok o.

(** 241-247 *)
Definition ex_finalize (o : open_pools) (x : executor) : res E open_pools :=
  if ex_pool x then
    if bool_decide (ex_id x ∈ o) then
      match shutdown_fault (ex_id x) with Some e => Err e | None => Ok (o ∖ {[ex_id x]}) end
    else Err not_init
  else Ok o.

(** 306-314 [ExecutionManager.init]/[finalize]: a for loop, left by the first exception. *)
Fixpoint each (step : open_pools -> executor -> res E open_pools) (o : open_pools) (l : list executor)
  : open_pools * option E :=
  match l with
  | [] => (o, None)
  | x :: l' => match step o x with
               | Ok o' => each step o' l'
               | Err e => (o, Some e)
               end
  end.

(** 359-404 [run_graph_to_completion]: [init] is outside the [try]; [body] is the outcome of the
    loop; an exception in [finalize] replaces it. *)
Definition managed_run (o : open_pools) (l : list executor) (body : res E A) : open_pools * res E A :=
  match each ex_init o l with
  | (o1, Some e) => (o1, Err e)
  | (o1, None) =>
      match each ex_finalize o1 l with
      | (o2, Some e) => (o2, Err e)
      | (o2, None) => (o2, body)
      end
  end.

End Pools.
