(** What the variables of a subdag mean. *)
From Verif Require Import Base Dict NodeModel NodeSpec PipeModel SubdagModel.

Section Spec.
Context {V E T : Type}.
(** The enclosing graph and its inputs. *)
Variable ns : dict (pnode V E T).
Variable env : gmap name V.
(** The nodes of the subdag and the declared bindings. *)
Variable nodes : list (pnode V E T).
Variable inputs : dict (dep V).
Variable config : dict V.

(** The functions of the subdag as a dataflow of its own. *)
Definition standalone : dict (pnode V E T) := map (fun n => (pn_name n, n)) nodes.

(** [o] is what the input [k] of the stand-alone dataflow is bound to: the literal, the
    value of the source in the enclosing graph, the configuration value, or (undeclared)
    the variable of the same name in the enclosing graph, if there is any. *)
Definition binding (k : name) (o : option V) : Prop :=
  match dget inputs k with
  | Some (DValue u) => o = Some u
  | Some (DSource s) => exists w, value ns env s w /\ o = Some w
  | None =>
      match dget config k with
      | Some u => o = Some u
      | None => (exists w, value ns env k w /\ o = Some w) \/ (dget ns k = None /\ env !! k = None /\ o = None)
      end
  end.

(** Some node of the subdag has the parameter [k]. *)
Definition used (k : name) : Prop := exists n, n ∈ nodes /\ k ∈ dkeys (pn_inputs n).
(** Names that the subdag defines. *)
Definition declared (k : name) : Prop := k ∈ map pn_name nodes \/ k ∈ dkeys inputs \/ k ∈ dkeys config.

(** Nodes have distinct names and parameters, declared inputs and configuration are
    distinct and no nodes of the subdag. *)
Definition well_declared : Prop :=
  NoDup (map pn_name nodes) /\ (forall n, n ∈ nodes -> NoDup (dkeys (pn_inputs n))) /\
  NoDup (dkeys inputs) /\ NoDup (dkeys config) /\
  (forall k, k ∈ dkeys inputs -> k ∉ dkeys config /\ k ∉ map pn_name nodes) /\
  (forall k, k ∈ dkeys config -> k ∉ map pn_name nodes).
End Spec.
