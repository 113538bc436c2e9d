(** Specification of the caching behaviours: what the documentation of [with_cache] and
    [@cache] promises. *)
From Verif Require Import Base Dict CacheModel BehaviorModel.

Definition names (ns : list bnode) : list name := map bn_name ns.

(** The argument of [with_cache] for a behaviour. *)
Definition category (c : bconfig) (b : behavior) : bset :=
  match b with DEFAULT => bc_default c | RECOMPUTE => bc_recompute c | DISABLE => bc_disable c | IGNORE => bc_ignore c end.
(** [with_cache] asks for this behaviour: by name, or True for all nodes of the dataflow. *)
Definition forced (c : bconfig) (ns : list bnode) (x : name) (b : behavior) : Prop :=
  match category c b with BNone => False | BTrue => x ∈ names ns | BNames l => x ∈ l end.

Definition spelling (b : behavior) : string :=
  match b with DEFAULT => "DEFAULT" | RECOMPUTE => "RECOMPUTE" | DISABLE => "DISABLE" | IGNORE => "IGNORE" end.
Definition spells (s : string) (b : behavior) : Prop := upper s = spelling b.

(** The default for a node: that of data loaders or data savers if given, else the general one. *)
Definition fallback (c : bconfig) (n : bnode) : string :=
  let general := default "default"%string (bc_default_behavior c) in
  match bn_loader n with
  | Some _ => default general (bc_default_loader c)
  | None => if bn_saver n then default general (bc_default_saver c) else general
  end.

(** The behaviour a node should have. *)
Definition has_behavior (c : bconfig) (ns : list bnode) (n : bnode) (b : behavior) : Prop :=
  if bn_expand n then b = RECOMPUTE
  else
    (forced c ns (bn_name n) b /\ forall b', forced c ns (bn_name n) b' -> b' = b) \/
    ((forall b', ~ forced c ns (bn_name n) b') /\
     match bn_tag n with Some t => spells t b | None => spells (fallback c n) b end).

(** A node that is not an auxiliary node of a data loader. *)
Definition primary (n : bnode) : Prop := bn_loader n = None \/ bn_loader n = Some (bn_name n).
