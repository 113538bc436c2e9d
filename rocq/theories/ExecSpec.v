(** What executing a dataflow means, independently of how the executor works. *)
From Verif Require Import Base ExecModel.

Section Spec.
Context {V E : Type}.
(** History-independent functions. *)
Variable f : name -> gmap name V -> res E V.
Variable g : graph.
Variable inputs overrides : gmap name V.

(** [absent x]: an external variable for which neither an input nor an override exists. *)
Definition absent (x : name) : Prop :=
  overrides !! x = None /\ inputs !! x = None /\
  exists nd, g !! x = Some nd /\ nd_ext nd = true.

(** [eval x v]: variable [x] has value [v]. *)
Inductive eval : name -> V -> Prop :=
| eval_override x v :
    overrides !! x = Some v -> eval x v
| eval_input x nd v :
    overrides !! x = None -> g !! x = Some nd -> nd_ext nd = true ->
    inputs !! x = Some v -> eval x v
| eval_fn x nd kw v :
    overrides !! x = None -> g !! x = Some nd -> nd_ext nd = false ->
    (* every argument passed is the value of a dependency *)
    (forall d w, kw !! d = Some w -> d ∈ dep_names nd) ->
    (forall d w, kw !! d = Some w -> eval d w) ->
    (* every dependency is passed, unless it is an absent optional external variable *)
    (forall d dt, (d, dt) ∈ nd_deps nd -> kw !! d = None -> absent d /\ dt = OPTIONAL) ->
    f x kw = Ok v -> eval x v.

End Spec.

Section Needed.
Context {V : Type}.
Variable g : graph.
Variable overrides : gmap name V.
Variable roots : list name.

(** [needed x]: [x] is on a path of non-overridden nodes starting at a requested one. *)
Inductive needed : name -> Prop :=
| needed_root x : x ∈ roots -> overrides !! x = None -> needed x
| needed_dep x d : needed x -> edge g x d -> overrides !! d = None -> needed d.
End Needed.

(** The functions invoked in a trace. *)
Definition calls_of {V E} (tr : list (event V E)) : list name :=
  omap (fun e => match e with Call x _ _ => Some x | _ => None end) tr.
Definition stores_of {V E} (tr : list (event V E)) : list name :=
  omap (fun e => match e with Store x _ => Some x | _ => None end) tr.

(** [memory_after tr]: which values are held after the events [tr]. *)
Fixpoint memory_after {V E} (tr : list (event V E)) (m : gmap name V) : gmap name V :=
  match tr with
  | [] => m
  | Call _ _ _ :: tr' => memory_after tr' m
  | Store x v :: tr' => memory_after tr' (<[x := v]> m)
  | Drop x :: tr' => memory_after tr' (delete x m)
  end.

(** [available tr d w]: before the events following [tr], variable [d] has the value [w]:
    its override, or its input, or what its function has already returned. *)
Definition available {V E} (g : graph) (inputs overrides : gmap name V)
           (tr : list (event V E)) (d : name) (w : V) : Prop :=
  overrides !! d = Some w \/
  (overrides !! d = None /\ exists nd, g !! d = Some nd /\
     ((nd_ext nd = true /\ inputs !! d = Some w) \/
      (nd_ext nd = false /\ exists kw, Call d kw (Ok w) ∈ tr))).

(** The events of an answer. *)
Definition trace_of {V E} (a : answer V E) : list (event V E) :=
  match a with
  | Answer _ tr | Failed _ tr => tr
  | Clash | Diverged => []
  end.
