(** What the dataframe given to a function under @with_columns should be. *)
From Verif Require Import Base Dict NodeModel NodeSpec SubdagModel SubdagSpec ExtractModel.

(** The elements of a list in the order of their first occurrences. *)
Fixpoint firsts (l : list name) : list name :=
  match l with [] => [] | c :: l => c :: filter (fun k => k <> c) (firsts l) end.

Section Spec.
Context {V E T : Type}.
(** The enclosing graph and its inputs. *)
Variable ns : dict (pnode V E T).
Variable env : gmap name V.
(** The given functions, the columns passed to them, the dataframe parameter and its value. *)
Variable fns : list (pnode V E T).
Variable cols : list name.
Variable p : name.
Variable vget : V -> key -> option V.
Variable df : V.

(** The names that the functions read when the columns [sel] are computed. *)
Inductive wanted (sel : list name) : name -> Prop :=
| wanted_sel c : c ∈ sel -> wanted sel c
| wanted_dep n k : n ∈ fns -> wanted sel (pn_name n) -> k ∈ dkeys (pn_inputs n) -> wanted sel k.

(** [o] is what the input [k] of the functions is: a column of the dataframe if it is passed, the
    dataframe itself, or else the variable of that name in the enclosing graph, if there is any. *)
Definition reads (k : name) (o : option V) : Prop :=
  if decide (k ∈ cols) then exists u, vget df (KName k) = Some u /\ o = Some u
  else if decide (k = p) then o = Some df
  else (exists w, value ns env k w /\ o = Some w) \/ (dget ns k = None /\ env !! k = None /\ o = None).

(** [new] are the columns [sel], each once and in order, as the functions compute them from
    the inputs [env'] on their own. *)
Definition new_columns (env' : gmap name V) (sel : list name) (new : dict V) : Prop :=
  dkeys new = firsts sel /\ forall c w, dget new c = Some w -> value (standalone fns) env' c w.
End Spec.

(** The names fit together: nothing is named "_append" or (of functions and columns) like
    the dataframe parameter, parameters are distinct, and what the functions read from outside is neither
    reserved nor looks like a name of the namespace [N]. *)
Record fits {V E T} (fns : list (pnode V E T)) (cols : list name) (p N : name) : Prop := {
  fits_p_fn : p ∉ map pn_name fns;
  fits_p_col : p ∉ cols;
  fits_p_name : p <> "_append" /\ p ∉ sub_reserved /\ p <> "column_to_extract" /\ forall k, p <> assign_namespace k N;
  fits_fn : forall n, n ∈ fns -> pn_name n <> "_append" /\ NoDup (dkeys (pn_inputs n)) /\ "_append" ∉ dkeys (pn_inputs n);
  fits_col : "_append" ∉ cols;
  fits_outer : forall n k, n ∈ fns -> k ∈ dkeys (pn_inputs n) -> k ∉ map pn_name fns -> k ∉ cols ->
    k ∉ sub_reserved /\ forall k', k' ∈ dkeys (pn_inputs n) -> k <> assign_namespace k' N;
}.
