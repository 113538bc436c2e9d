(** What a stack of decorators makes of a function: the classes of decorators act one after the other, those of one
    class from the function outwards. *)
From Verif Require Import Base Dict DecorModel.

Section Spec.
Context {F N V E : Type}.
Variable truthy : V -> bool.
Variable vfalse : V.
Variable from_fn : F -> res E N.
Variable add_origin : F -> N -> N.
Notation deco := (deco F N V E).
Notation config := (gmap name V).

(** The classes of decorators. *)
Inductive class := CResolver | CCreator | CInjector | CExpander | CTransformer | CDecorator | CDynamic.
Global Instance class_eq_dec : EqDecision class. Proof. solve_decision. Defined.
Definition class_of (d : deco) : class :=
  match d with
  | Static _ _ _ _ (BResolver _) => CResolver | Static _ _ _ _ (BCreator _) => CCreator | Static _ _ _ _ (BInjector _) => CInjector
  | Static _ _ _ _ (BExpander _) => CExpander | Static _ _ _ _ (BTransformer _) => CTransformer | Static _ _ _ _ (BDecorator _) => CDecorator
  | Dynamic _ _ _ _ => CDynamic
  end.
(** The decorators of one class, from the function outwards; [ds] is written with the outermost first. *)
Definition of (k : class) (ds : list deco) : list deco := filter (fun d => class_of d = k) (rev ds).

(** What a decorator sees of the configuration: what it asks for. *)
Definition sees (c : config) (required : option (list name)) (optional : option (dict V)) (m : config) : Prop :=
  match required with
  | None => m = c
  | Some req =>
      let opt := default [] optional in
      (forall k, k ∈ req -> is_Some (c !! k)) /\
      (forall k, k ∈ req \/ k ∈ dkeys opt -> m !! k = match c !! k with Some v => Some v | None => dget opt k end) /\
      (forall k, k ∉ req -> k ∉ dkeys opt -> m !! k = if decide (k = power_mode) then Some (default vfalse (c !! k)) else None)
  end.

(** Whether the function is in the graph, and as which function. *)
Inductive resolved (c : config) : list deco -> F -> option F -> Prop :=
| resolved_nil f : resolved c [] f (Some f)
| resolved_out req opt v mu r ds f m : sees c req opt m -> r f m = Ok None -> resolved c (Static req opt v mu (BResolver r) :: ds) f None
| resolved_in req opt v mu r ds f m f' o : sees c req opt m -> r f m = Ok (Some f') -> resolved c ds f' o -> resolved c (Static req opt v mu (BResolver r) :: ds) f o.

(** What one decorator makes of nodes. *)
Definition acts (c : config) (f : F) (d : deco) (ns ns' : list N) : Prop :=
  match d with
  | Static req opt _ _ b => exists m, sees c req opt m /\
      match b with
      | BInjector t | BTransformer t | BDecorator t => t ns m f = Ok ns'
      | BExpander t => exists n, ns = [n] /\ t n m f = Ok ns'
      | _ => False
      end
  | Dynamic _ _ _ _ => False
  end.
Inductive chain (c : config) (f : F) : list deco -> list N -> list N -> Prop :=
| chain_nil ns : chain c f [] ns ns
| chain_cons d ds ns ns1 ns2 : acts c f d ns ns1 -> chain c f ds ns1 ns2 -> chain c f (d :: ds) ns ns2.

Definition created (c : config) (ds : list deco) (f : F) (ns : list N) : Prop :=
  match ds with
  | [] => exists n, from_fn f = Ok n /\ ns = [n]
  | [Static req opt _ _ (BCreator t)] => exists m, sees c req opt m /\ t f m = Ok ns
  | _ => False
  end.

(** The nodes of the function [f] with the decorators [ds]. *)
Definition made (c : config) (ds : list deco) (f : F) (ns : list N) : Prop :=
  (resolved c (of CResolver ds) f None /\ ns = []) \/
  exists f' n0 n1 n2 n3 n4, resolved c (of CResolver ds) f (Some f') /\ created c (of CCreator ds) f' n0 /\
    chain c f' (of CInjector ds) n0 n1 /\ length (of CExpander ds) <= 1 /\ chain c f' (of CExpander ds) n1 n2 /\ chain c f' (of CTransformer ds) n2 n3 /\
    chain c f' (of CDecorator ds) n3 n4 /\ ns = map (add_origin f') n4.

Definition static (d : deco) : Prop := match d with Static _ _ _ _ _ => True | Dynamic _ _ _ _ => False end.
Global Instance static_dec d : Decision (static d).
Proof. destruct d; cbn; apply _. Defined.

(** [@resolve] stands for the decorator [r]: in power user mode its function, called with the values that the configuration has for
    its parameters, or with their defaults, returns [r]. *)
Definition stands_for (c : config) (d : deco) (r : deco) : Prop :=
  match d with
  | Static _ _ _ _ _ => False
  | Dynamic _ _ ps fn =>
      (exists v, c !! power_mode = Some v /\ truthy v = true) /\
      exists args, dom args = list_to_set (map p_name ps) /\
        (forall p, p ∈ ps -> args !! p_name p = match c !! p_name p with Some v => Some v | None => p_default p end) /\
        fn args = Ok (Some r)
  end.

(** Dicts have each key once, signatures each parameter; a [resolve] was made by its constructor. *)
Inductive wf_deco : deco -> Prop :=
| wf_static req opt v mu b : NoDup (dkeys (default [] opt)) -> wf_deco (Static req opt v mu b)
| wf_dynamic req opt ps fn : NoDup (map p_name ps) -> new_resolve ps fn = Ok (Dynamic req opt ps fn) ->
    (forall args d, fn args = Ok (Some d) -> wf_deco d) -> wf_deco (Dynamic req opt ps fn).

(** [d], and what it stands for, asks for no other configuration than [K]. *)
Inductive asks (K : name -> Prop) : deco -> Prop :=
| asks_static req opt v mu b : (forall k, k ∈ req \/ k ∈ dkeys (default [] opt) -> K k) -> asks K (Static (Some req) opt v mu b)
| asks_dynamic req opt ps fn : (forall p, p ∈ ps -> K (p_name p)) ->
    (forall args d, fn args = Ok (Some d) -> asks K d) -> asks K (Dynamic req opt ps fn).
End Spec.
