(** What @mutate should do to a function, stated on the text of the module. *)
From Verif Require Import Base Dict NodeModel PipeModel AdapterModel MutateModel.

Section Spec.
Context {V E T : Type}.

(** The Applicables are written where they are used, not shared through a variable. *)
Definition inline (s : stmt V E T) : Prop :=
  match s with SMutate _ args _ => forall v, MVar v ∉ args | _ => True end.
(** The name that a statement binds to a function. *)
Definition binds (s : stmt V E T) : option name :=
  match s with SDef f _ _ _ => Some (pf_name f) | SMutate t _ _ => Some (pf_name t) | SLet _ _ => None end.

(** The step that [@mutate(..., **kws) def t] with the object [p] stands for: [t] with the
    arguments of [p], those of mutate if it has none. *)
Definition step_of (t : pyfn V E T) (kws : dict (dep V)) (p : papp V E T) : app V E T * option (list name) :=
  (App (pf_name t) (pf_params t) (pf_type t) (pf_call t) (pa_args p)
       (match pa_kwargs p with [] => kws | _ => pa_kwargs p end) (pa_resolves p) (pa_name p) (pa_ns p), pa_on p).
(** The steps that a statement adds to the function [x], in the order in which they are written. *)
Definition mutation (x : name) (t : pyfn V E T) (kws : dict (dep V)) (a : marg V E T) : option (app V E T * option (list name)) :=
  match a with
  | MFn y => if decide (y = x) then Some (step_of t kws (apply_to y [])) else None
  | MNew p => if decide (pa_target p = Some x) then Some (step_of t kws p) else None
  | MVar _ => None
  end.
Definition mutations (x : name) (s : stmt V E T) : list (app V E T * option (list name)) :=
  match s with SMutate t args kws => omap (mutation x t kws) args | _ => [] end.

(** The transformers of a definition as written. *)
Definition written (d : sdec V E T) : rdec V E T :=
  match d with SPipe ps nsp t => RPipe (omap app_of ps) nsp t | SOther f => ROther f end.
Definition is_rpipe (d : rdec V E T) : bool := match d with RPipe _ _ _ => true | ROther _ => false end.
(** What the transformers become when the steps [ms] are added: they go to the end of every
    pipe_output, or into a new one. *)
Definition extended (ms : list (app V E T * option (list name))) (ds : list (rdec V E T)) : list (rdec V E T) :=
  if existsb is_rpipe ds
  then map (fun d => match d with RPipe aps nsp t => RPipe (aps ++ ms) nsp t | ROther f => ROther f end) ds
  else match ms with [] => ds | _ => ds ++ [RPipe ms NsDefault TNone] end.
End Spec.

(** The steps meant for the node [n]: those without target and those whose target names it. *)
Definition steps_for {V E T} (n : pnode V E T) (aps : list (app V E T * option (list name))) : list (app V E T) :=
  (filter (fun a => match a.2 with Some xs => bool_decide (pn_name n ∈ xs) | None => true end = true) aps).*1.
(** [n] is an output of the function: no node of the function needs it and it is not marked as internal. *)
Definition output_node {V E T} (non_final : pnode V E T -> bool) (nodes : list (pnode V E T)) (n : pnode V E T) : Prop :=
  n ∈ nodes /\ non_final n = false /\ forall n', n' ∈ nodes -> pn_name n ∉ dkeys (pn_inputs n').
