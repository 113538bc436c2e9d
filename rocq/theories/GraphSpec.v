(** What a graph built from function definitions should look like. *)
From Verif Require Import Base GraphModel.

Section Spec.
Context {T : Type}.
Implicit Types (config : list name) (defs : list (fdef T)).

(** [d] is the last definition of [x]. *)
Definition last_definition defs (x : name) (d : fdef T) : Prop :=
  exists a b, defs = a ++ d :: b /\ fd_name d = x /\ forall d', d' ∈ b -> fd_name d' <> x.

(** [d] is the definition used for [x]: config keys hide definitions. *)
Definition in_effect config defs (x : name) (d : fdef T) : Prop :=
  x ∉ config /\ last_definition defs x d.

(** [x] is defined at least twice. *)
Definition defined_twice defs (x : name) : Prop :=
  exists a d b d' c, defs = a ++ d :: b ++ d' :: c /\ fd_name d = x /\ fd_name d' = x.

(** [P] has a parameter called [x]. *)
Definition takes config defs (P x : name) : Prop :=
  exists d, in_effect config defs P d /\ x ∈ (fd_params d).*1.
End Spec.
