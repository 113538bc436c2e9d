(** What loaded and saved variables mean. *)
From Verif Require Import Base Dict NodeModel NodeSpec PipeModel PipeSpec AdapterModel.

Section Spec.
Context {V E T : Type}.

(** The class used for a type: the most recently registered one that applies, and if none
    does the most recently registered one for any type. *)
Definition chosen (t : T) (classes : list (acls V E T)) (c : acls V E T) : Prop :=
  (exists pre post, classes = pre ++ c :: post /\ ac_applies c t = true /\ forall c', c' ∈ post -> ac_applies c' t = false) \/
  ((forall c', c' ∈ classes -> ac_applies c' t = false) /\
   exists pre post, classes = pre ++ c :: post /\ ac_any c = true /\ forall c', c' ∈ post -> ac_any c' = false).

(** The arguments are those of the class: all required ones, no unknown ones. *)
Definition accepted (c : acls V E T) (kws : dict (dep V)) : Prop :=
  (forall k, k ∈ dkeys (ac_required c) -> k ∈ dkeys kws) /\
  (forall k, k ∈ dkeys kws -> k ∈ dkeys (ac_required c) \/ k ∈ dkeys (ac_optional c)).

(** Keyword arguments and the fields of a dataclass have distinct names. *)
Definition well_formed (c : acls V E T) (kws : dict (dep V)) : Prop :=
  NoDup (dkeys kws) /\ NoDup (dkeys (ac_required c) ++ dkeys (ac_optional c)).

(** Different arguments come from different variables, and no argument comes from a variable
    that is called like an argument given as a literal. *)
Definition separate (kws : dict (dep V)) : Prop :=
  (forall k k' s, dget kws k = Some (DSource s) -> dget kws k' = Some (DSource s) -> k = k') /\
  (forall k s u, dget kws k = Some (DSource s) -> dget kws s <> Some (DValue u)).

(** [a] are the arguments of the adapter: a literal is itself, a source is the value of that
    variable; an optional field whose source is undefined keeps its default. *)
Definition adapter_args (ns : dict (pnode V E T)) (env : gmap name V) (c : acls V E T) (kws : dict (dep V)) (a : gmap name V) : Prop :=
  forall k, match dget kws k with
            | None => a !! k = None
            | Some (DValue u) => a !! k = Some u
            | Some (DSource s) => given ns env s (if dget (ac_required c) k then REQUIRED else OPTIONAL) (a !! k)
            end.
End Spec.
