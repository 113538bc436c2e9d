(** Nodes with their callables, as the function modifiers manipulate them
    (hamilton/node.py), and [Node.reassign_inputs]. *)
From Verif Require Import Base Dict.

(** [{**a, **b}] / [a.update(b)] *)
Definition dupd {A} (a b : dict A) : dict A := foldl (fun d kv => dset d kv.1 kv.2) a b.
(** [{g(k): v for k, v in a.items()}] *)
Definition dmapk {A} (g : name -> name) (a : dict A) : dict A :=
  foldl (fun d kv => dset d (g kv.1) kv.2) [] a.

Section Nodes.
(** Values, exceptions of user functions, type annotations. *)
Context {V E T : Type}.

(** Exceptions raised when a node's callable runs. *)
Inductive nerr :=
| NUser (e : E)              (* raised by a user function or validator *)
| NKey (k : name)            (* KeyError *)
| NMissing (k : name)        (* TypeError: missing required argument *)
| NUnexpected (k : name)     (* TypeError: unexpected keyword argument *)
| NField (k : name)          (* InvalidDecoratorException: no such column / field *)
| NValidation (ms : list name). (* DataValidationError with the failing validators *)

(** hamilton/node.py 44-125: name, [input_types] (ordered dict of parameter name to type and
    dependency type) and callable; keyword arguments are an ordered dict. Tags,
    documentation, the originating functions and default parameter values are not modelled
    (the last are only read by the caching adapter). *)
Record pnode := PNode {
  pn_name : name;
  pn_type : T;
  pn_inputs : dict (T * deptype);
  pn_call : dict V -> res nerr V;
}.

(** node.py 369: [{v: k for k, v in input_names.items()}] *)
Definition reverse_names (names : dict name) : dict name :=
  foldl (fun d kv => dset d kv.2 kv.1) [] names.
(** [names.get(k, k)] *)
Definition rename (names : dict name) (k : name) : name := default k (dget names k).

(** node.py 368-371 [new_callable]. *)
Definition reassigned_call (names : dict name) (values : dict V) (call : dict V -> res nerr V) (kw : dict V) : res nerr V :=
  call (dmapk (rename (reverse_names names)) (dupd kw values)).

(** node.py 378-380 [new_input_types]. *)
Definition reassigned_inputs (names : dict name) (values : dict V) (ins : dict (T * deptype)) : dict (T * deptype) :=
  foldl (fun d kt => if dget values kt.1 then d else dset d (rename names kt.1) kt.2) [] ins.

(** node.py 347-380 [Node.reassign_inputs]; the async variant awaits the same call. *)
Definition reassign_inputs (n : pnode) (names : dict name) (values : dict V) : pnode :=
  PNode (pn_name n) (pn_type n) (reassigned_inputs names values (pn_inputs n))
        (reassigned_call names values (pn_call n)).

(** A node made from a user function [f] of keyword arguments (node.py 265-305): Python
    binds the keywords to the parameters, so their order does not matter, and raises
    TypeError when a required parameter is missing. *)
Definition from_fn (nm : name) (ty : T) (ins : dict (T * deptype)) (f : gmap name V -> res E V) : pnode :=
  PNode nm ty ins (fun kw =>
    match find (fun kt => bool_decide (kt.2.2 = REQUIRED) && bool_decide (dget kw kt.1 = None)) ins with
    | Some kt => Err (NMissing kt.1)
    | None => match f (list_to_map kw) with Ok v => Ok v | Err e => Err (NUser e) end
    end).
End Nodes.
Arguments nerr : clear implicits.
Arguments pnode : clear implicits.
