(** What versions have to tell apart, and what a diff has to say. *)
From Verif Require Import Base Dict VersionModel.

(** The body without documentation. *)
Definition undocumented (b : list tree) : list tree := match b with Text _ :: b => b | _ => b end.
(** Sources that do the same, line by line: they differ in documentation (of functions, also inner ones) only. *)
Inductive same_code : tree -> tree -> Prop :=
| same_text s : same_code (Text s) (Text s)
| same_other h b b' : same_list b b' -> same_code (Other h b) (Other h b')
| same_def n h b b' : same_list (undocumented b) (undocumented b') -> same_code (Def n h b) (Def n h b')
with same_list : list tree -> list tree -> Prop :=
| same_nil : same_list [] []
| same_cons t t' b b' : same_code t t' -> same_list b b' -> same_list (t :: b) (t' :: b').

Section Spec.
Variable hash : tree -> string.
Variable sha : list (option string) -> string.
Variable params : string -> list name.
Notation params_of := (params_of params).
Implicit Types (config : list name) (fns : list fn).

(** The functions that become nodes; the variables of a dataflow. *)
Definition live config fns (f : fn) : Prop := f ∈ fns /\ f_name f ∉ config.
Definition computed config fns (x : name) : Prop := exists f, live config fns f /\ f_name f = x.
Definition variable config fns (x : name) : Prop := computed config fns x \/ (exists f, live config fns f /\ x ∈ params_of f) \/ x ∈ config.

(** A module: functions of different names that can be read. *)
Definition program fns : Prop := NoDup (map f_name fns) /\ forall f, f ∈ fns -> f_readable f = true.
(** The hash tells the codes of these functions from each other and from names. *)
Definition tells (fs : list fn) : Prop :=
  (forall f f', f ∈ fs -> f' ∈ fs -> hash (drop_docs (tree_of f)) = hash (drop_docs (tree_of f')) -> drop_docs (tree_of f) = drop_docs (tree_of f')).
Definition no_name (fs : list fn) (config : list name) : Prop := forall f x, f ∈ fs -> x ∈ config -> hash (drop_docs (tree_of f)) <> x.
(** sha256 without collisions *)
Definition sha_tells : Prop := forall l l', sha l = sha l' -> l = l'.
End Spec.
