(** What the variables of a collection of nodes mean. *)
From Verif Require Import Base Dict NodeModel.

(** Keyword arguments in the order of the parameters. *)
Definition kwargs {V A} (ins : dict A) (m : gmap name V) : dict V :=
  omap (fun kt => (fun v => (kt.1, v)) <$> m !! kt.1) ins.

Section Value.
Context {V E T : Type}.
Variable ns : dict (pnode V E T).
Variable env : gmap name V.

(** [value x v]: variable [x] has the value [v] when the inputs are [env]: a node's value is
    what its callable returns on the values of its parameters; an optional parameter that
    is neither a node nor an input is not passed. *)
Inductive value : name -> V -> Prop :=
| value_input x v : dget ns x = None -> env !! x = Some v -> value x v
| value_node x n m v :
    dget ns x = Some n ->
    (forall k w, m !! k = Some w -> k ∈ dkeys (pn_inputs n)) ->
    (forall k w, m !! k = Some w -> value k w) ->
    (forall k t dt, (k, (t, dt)) ∈ pn_inputs n -> m !! k = None -> dt = OPTIONAL /\ dget ns k = None /\ env !! k = None) ->
    pn_call n (kwargs (pn_inputs n) m) = Ok v ->
    value x v.

(** [m] are the values of the parameters [ins]. *)
Definition args (ins : dict (T * deptype)) (m : gmap name V) : Prop :=
  (forall k w, m !! k = Some w -> k ∈ dkeys ins /\ value k w) /\
  (forall k t dt, (k, (t, dt)) ∈ ins -> m !! k = None -> dt = OPTIONAL /\ dget ns k = None /\ env !! k = None).
End Value.

(** The renamed parameters, the literal parameters and the targets do not clash. *)
Definition clash_free {V T} (names : dict name) (values : dict V) (ins : dict (T * deptype)) : Prop :=
  NoDup (dkeys names) /\ NoDup (dkeys values) /\ NoDup (dkeys ins) /\
  (* literals are not renamed *)
  (forall k, k ∈ dkeys values -> dget names k = None) /\
  (* parameters keep different names, also from those of the literals *)
  (forall k k', k ∈ dkeys ins ++ dkeys values ++ dkeys names -> k' ∈ dkeys ins ++ dkeys values ++ dkeys names ->
     rename names k = rename names k' -> k = k').

