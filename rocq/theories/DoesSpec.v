(** What [@does] has to compute. *)
From Verif Require Import Base Dict NodeModel DecorModel DoesModel.

Section Spec.
Context {V E : Type}.
Notation param := (param V).
Implicit Types (ps : list param) (mapping : dict src).

(** A call as the driver makes it: of parameters of the function, all those without default. *)
Definition call_of ps (kw : dict V) : Prop :=
  NoDup (dkeys kw) /\ (forall k, k ∈ dkeys kw -> exists p, p ∈ ps /\ p_name p = k) /\ (forall p, p ∈ ps -> p_default p = None -> p_name p ∈ dkeys kw).
(** The values of the function's own parameters. *)
Definition own ps (kw : dict V) (k : name) : option V :=
  match dget kw k with
  | Some v => Some v
  | None => match filter (fun p => p_name p = k) ps with p :: _ => p_default p | [] => None end
  end.
(** What has to be passed on: under the name it is mapped to, or under its own. *)
Definition passed mapping (values : name -> option V) (k : name) : option V :=
  match dget mapping k with
  | Some (One o) => values o
  | Some (Many _) => None
  | None => if decide (One k ∈ map snd mapping) then None else values k
  end.
(** Renamings of separate arguments, and exchanges. *)
Definition regular mapping : Prop :=
  NoDup (dkeys mapping) /\ NoDup (map snd mapping) /\
  forall t s, (t, s) ∈ mapping -> exists o, s = One o /\ (One t ∈ map snd mapping <-> o ∈ dkeys mapping).
(** What a function of these parameters receives. *)
Definition receives ps (given : name -> option V) (nm ex : dict V) : Prop :=
  (forall p, p ∈ ps -> named p = true -> dget nm (p_name p) = match given (p_name p) with Some v => Some v | None => p_default p end) /\
  (forall k, (exists p, p ∈ ps /\ named p = true /\ p_name p = k) -> dget ex k = None) /\
  (forall k, (forall p, p ∈ ps -> named p = true -> p_name p <> k) -> dget ex k = given k).
(** The function ran (it was not the call that was wrong). *)
Definition ran (r : res (xq (E := E)) V) (r' : res E V) : Prop := r = match r' with Ok v => Ok v | Err e => Err (QUser e) end.
End Spec.
