(** What a parameterized function should compute. *)
From Verif Require Import Base Dict NodeModel NodeSpec PipeModel PipeSpec ParamModel.

Section Spec.
Context {V E T : Type}.
Variable vlist : list V -> V.
Variable vdict : dict V -> V.
Variable ns : dict (pnode V E T).
Variable env : gmap name V.

(** [u] is what source(..) or value(..) stands for. *)
Definition dep_value (d : dep V) (u : V) : Prop :=
  match d with DSource s => value ns env s u | DValue v => u = v end.

(** The argument [r] for parameter [p], given its entry [o] in the parameterization. *)
Definition bound (o : option (spec V)) (p : name) (dt : deptype) (r : option V) : Prop :=
  match o with
  | None => given ns env p dt r
  | Some (POne d) => exists u, r = Some u /\ dep_value d u
  | Some (PList ds) => exists us, r = Some (vlist us) /\ Forall2 dep_value ds us
  | Some (PDict ds) => exists us, r = Some (vdict us) /\ Forall2 (fun kd ku => kd.1 = ku.1 /\ dep_value kd.2 ku.2) ds us
  end.

(** Variable [x] exists. *)
Definition defined (x : name) : Prop := dget ns x <> None \/ env !! x <> None.
End Spec.

(** Variable [x] is referenced for parameter [p]. *)
Definition refers {V} (o : option (spec V)) (p x : name) : Prop :=
  match o with
  | None => x = p
  | Some (POne d) => d = DSource x
  | Some (PList ds) => DSource x ∈ ds
  | Some (PDict ds) => exists k, (k, DSource x) ∈ ds
  end.
