(** Model of [GracefulErrorAdapter], hamilton/lifecycle/default.py 579-760: an adapter that
    executes the nodes and replaces the results of failing ones by a sentinel. *)
From Verif Require Import Base ExecModel GroupModel.

Section Graceful.
Context {V E : Type}.
Variable role_of : name -> role.
Variable mk_list : list V -> V.
(** The functions of the nodes.  Calling the function of a Parallelizable node gives an iterator
    (or raises); iterating over it gives some items and then it ends or raises. *)
Variable call : name -> gmap name V -> res E V.
Variable gen : name -> gmap name V -> res E (list V * option E).

(** The constructor's arguments (default.py 585-699).  [catches e]: [e] is an instance of
    [error_to_catch]. *)
Variable catches : E -> bool.
Variable sentinel : V.
Variable try_all allow_injection : bool.
(** [type(sentinel) is type(v) and sentinel == v] (726-727); that the comparison raises or gives
    something that is not a truth value is not modelled. *)
Variable same : V -> bool.
(** The node has the tag [hamilton.error_sentinel] of [accept_error_sentinels] (default.py 535-576). *)
Variable tagged : name -> bool.

(** Executing a node without the adapter; a Parallelizable one is turned into a list
    (executors.py 63-77). *)
Definition plain_fn (x : name) (kw : gmap name V) : res E V :=
  if bool_decide (role_of x = RExpand)
  then match gen x kw with
       | Err e => Err e
       | Ok (items, Some e) => Err e
       | Ok (items, None) => Ok (mk_list items)
       end
  else call x kw.

(** default.py 720-721 *)
Definition can_inject (x : name) : bool := tagged x && allow_injection.
Definition has_sentinel (kw : gmap name V) : bool := existsb (fun p => same p.2) (map_to_list kw).

(** default.py 702-760 [run_to_execute_node]: the invocations of the user's function, and the
    result. *)
Definition run_to_execute_node (x : name) (kw : gmap name V) : list (gmap name V) * res E V :=
  let is_expand := bool_decide (role_of x = RExpand) in
  let default_return := if is_expand then mk_list [sentinel] else sentinel in
  if negb (can_inject x) && has_sentinel kw then ([], Ok default_return)
  else if negb is_expand then
    ([kw], match call x kw with
           | Ok v => Ok v
           | Err e => if catches e then Ok sentinel else Err e
           end)
  else if try_all then                                   (* 741: the generator function itself *)
    ([kw], match gen x kw with
           | Err e => if catches e then Ok (mk_list [sentinel]) else Err e
           | Ok (items, None) => Ok (mk_list items)
           | Ok (items, Some e) => if catches e then Ok (mk_list (items ++ [sentinel])) else Err e
           end)
  else                                                   (* 738: the function that makes a list of it *)
    ([kw], match gen x kw with
           | Err e => if catches e then Ok (mk_list [sentinel]) else Err e
           | Ok (items, Some e) => if catches e then Ok (mk_list [sentinel]) else Err e
           | Ok (items, None) => Ok (mk_list items)
           end).

(** What an executor uses instead of the functions: api.py 507-525. *)
Definition graceful (x : name) (kw : gmap name V) : res E V := (run_to_execute_node x kw).2.
End Graceful.
