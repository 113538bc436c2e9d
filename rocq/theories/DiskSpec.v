(** What caching has to be: not seen in the results. *)
From Verif Require Import Base Dict NodeModel DecorModel DiskModel.

Section Spec.
Context {V E : Type} `{EqDecision V}.
Variable none : V.
Notation cnode := (cnode (V := V) (E := E)).
Notation event := (event (V := V) (E := E)).

(** The execution without the adapter. *)
Fixpoint plain (ns : list cnode) (env : dict V) : res (xd (E := E)) (dict V) :=
  match ns with
  | [] => Ok env
  | n :: ns =>
    match arguments (cn_deps n) env with
    | None => Err DMissing
    | Some kw => match cn_run n kw with Ok v => plain ns (dset env (cn_name n) v) | Err e => Err (DUser e) end
    end
  end.
(** Nodes whose sources have the same hash compute the same from the same values. *)
Definition faithful (U : cnode -> Prop) : Prop :=
  forall n n' kw kw', U n -> U n' -> cn_hash n = cn_hash n' -> map snd kw = map snd kw' -> cn_run n kw = cn_run n' kw'.
Definition uses (U : cnode -> Prop) (e : event) : Prop := match e with Run ns _ => forall n, n ∈ ns -> U n | _ => True end.
Definition is_evict (e : event) : bool := match e with Evict _ => true | _ => false end.
End Spec.
