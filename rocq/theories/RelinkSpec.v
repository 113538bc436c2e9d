(** What a linked graph is. *)
From Verif Require Import Base Dict GraphModel.

Section Spec.
Context {T : Type}.
Variable types_match adapter_match : T -> T -> bool.
Implicit Types g : dict (gnode T).

(** [P] has a parameter [x]. *)
Definition asks g (P x : name) : Prop := exists n, dget g P = Some n /\ x ∈ (gn_params n).*1.
(** ... annotated with [t]. *)
Definition asks_typed g (P x : name) (t : T) : Prop := exists n dt, dget g P = Some n /\ (x, (t, dt)) ∈ gn_params n.

(** Nodes as they are before they are linked: names and parameter names occur once, inputs have no parameters. *)
Record sensible g : Prop := {
  sn_nodup : NoDup (dkeys g);
  sn_params : forall x n, dget g x = Some n -> NoDup (gn_params n).*1;
  sn_ext : forall x n, dget g x = Some n -> gn_ext n = true -> gn_params n = [];
}.

(** Every node lists its parameters as dependencies, every parameter is a node, and the reverse edges are the same
    relation, each once. *)
Record linked g : Prop := {
  ln_sensible : sensible g;
  ln_deps : forall x n, dget g x = Some n -> gn_deps n = (gn_params n).*1;
  ln_closed : forall P x, asks g P x -> x ∈ dkeys g;
  ln_rdeps : forall x n P, dget g x = Some n -> P ∈ gn_rdeps n <-> asks g P x;
  ln_rdeps_nodup : forall x n, dget g x = Some n -> NoDup (gn_rdeps n);
}.

(** [t] is an acceptable annotation for something of type [u]. *)
Definition accepts (t u : T) : bool := types_match t u || adapter_match t u.
(** Everything is accepted by those that ask for it. *)
Definition accepting g : Prop :=
  forall P x t n, asks_typed g P x t -> dget g x = Some n -> accepts t (gn_type n) = true.
End Spec.
