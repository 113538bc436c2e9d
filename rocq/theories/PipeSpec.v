(** What a chain of steps should compute. *)
From Verif Require Import Base Dict NodeModel NodeSpec PipeModel.

(** Python functions do not depend on the order of keyword arguments. *)
Definition keyword_fn {V R} (call : dict V -> R) : Prop :=
  forall kw kw', NoDup (dkeys kw) -> NoDup (dkeys kw') -> (forall k, dget kw k = dget kw' k) -> call kw = call kw'.

Section Spec.
Context {V E T : Type}.
Variable ns : dict (pnode V E T).
Variable env : gmap name V.

(** [o] is the value of variable [s], if it has one; only optional parameters may lack it. *)
Definition given (s : name) (dt : deptype) (o : option V) : Prop :=
  match o with
  | Some u => value ns env s u
  | None => dt = OPTIONAL /\ dget ns s = None /\ env !! s = None
  end.

(** What the [i]-th parameter [p] of a step is bound to (the first is chained): the
    positional arguments come first, then the keyword arguments. *)
Definition role (a : app V E T) (i : nat) (p : name) : option (dep V) :=
  match ap_args a !! (i - 1) with
  | Some d => Some d
  | None => dget (ap_kwargs a) p
  end.

(** [v] is the result of applying step [a] to [w]. *)
Definition step_value (a : app V E T) (w v : V) : Prop :=
  exists kw, ap_call a kw = Ok v /\ NoDup (dkeys kw) /\
    (forall p, p ∈ dkeys kw -> p ∈ dkeys (ap_params a)) /\
    (forall i p t dt, ap_params a !! i = Some (p, (t, dt)) ->
       if decide (i = 0) then dget kw p = Some w
       else match role a i p with
            | Some (DValue u) => dget kw p = Some u
            | Some (DSource s) => given s dt (dget kw p)
            | None => given p dt (dget kw p)
            end).

(** [v] is the result of applying the steps that resolve, in order, to [w]. *)
Inductive steps_value : list (app V E T) -> V -> V -> Prop :=
| sv_nil w : steps_value [] w w
| sv_skip a aps w v : ap_resolves a = false -> steps_value aps w v -> steps_value (a :: aps) w v
| sv_step a aps w u v : ap_resolves a = true -> step_value a w u -> steps_value aps u v -> steps_value (a :: aps) w v.
End Spec.

(** The variable a parameter stands for; a literal parameter stands for itself. *)
Definition stands {V E T} (a : app V E T) (target : name) (i : nat) (p : name) : name :=
  if decide (i = 0) then target
  else match role a i p with Some (DSource s) => s | _ => p end.
(** Distinct parameters of the step stand for distinct names. *)
Definition distinct {V E T} (a : app V E T) (target : name) : Prop :=
  forall i j p q tp tq, ap_params a !! i = Some (p, tp) -> ap_params a !! j = Some (q, tq) ->
    stands a target i p = stands a target j q -> i = j.
(** The resolving steps are ordinary functions whose parameters stand for distinct names
    wherever they may be applied. *)
Definition chain_fits {V E T} (aps : list (app V E T)) (targets : list name) : Prop :=
  forall a, a ∈ aps -> ap_resolves a = true ->
    NoDup (dkeys (ap_params a)) /\ keyword_fn (ap_call a) /\ forall t, t ∈ targets -> distinct a t.

(** [p] is a dependency of the nodes of the function that is none of them. *)
Definition free {V E T} (nodes : list (pnode V E T)) (p : name) : Prop :=
  (exists n, n ∈ nodes /\ p ∈ dkeys (pn_inputs n)) /\ forall n, n ∈ nodes -> pn_name n <> p.
(** The steps are applied to the parameter named in [on_input] if the nodes depend on that, else to the first parameter. *)
Definition pipe_target {V E T} (on_input : option name) (sig : list name) (nodes : list (pnode V E T)) (p : name) : Prop :=
  free nodes p /\ p ∈ sig /\
  (on_input = Some p \/ ((forall q, on_input = Some q -> ~ free nodes q) /\ sig !! 0 = Some p)).
