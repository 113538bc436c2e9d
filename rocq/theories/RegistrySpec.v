(** What users of extensions expect *)
From Verif Require Import Base Dict RegistryModel.

Section Spec.
Context {T : Type}.
(** An extension that loads, and one that merely is not installed *)
Definition loadable (e : ext T) : Prop := e_raises e = None /\ (e_friendly e = true -> e_register e = true /\ e_get e = true /\ e_fill e = true).
Definition not_installed (e : ext T) : Prop := e_raises e = Some XNotImplemented \/ e_raises e = Some XImport.
(** It says what it is before it registers anything. *)
Definition registers_late (e : ext T) : Prop := e_raises e <> None -> e_regs e = [].
(** The types that are registered for a name by a sequence of registrations: the last *)
Inductive last_for (n : string) : list (string * (T * option T)) -> T * option T -> Prop :=
| last_here v regs : (forall w, (n, w) ∉ regs) -> last_for n ((n, v) :: regs) v
| last_later r v regs : last_for n regs v -> last_for n (r :: regs) v.
(** The first of the names, in the order they came to be, with such dataframes *)
Definition first_with (df : T) (types : dict (T * option T)) (n : string) (c : option T) : Prop :=
  exists before after, types = before ++ (n, (df, c)) :: after /\ forall m d c', (m, (d, c')) ∈ before -> d <> df.
End Spec.
