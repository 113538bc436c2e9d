(** What a user may expect of the tags of the nodes of a decorated function: written without the
    functions of the model that compute it. *)
From Coq Require Import Ascii.
From Verif Require Import Base Dict Strings CacheKeyModel AdapterModel TaggingModel.

Section TaggingSpec.
Context {T R J : Type}.
Variable ident : string -> bool.
Variable dumps : J -> string.
Variable dataset : T -> bool.
Notation tnode := (tnode T R).
Notation dec := (dec J).

(** ** Which nodes a decorator is about *)
(** A node is final if no node of the function depends on it and it is not marked. *)
Definition marked (n : tnode) : Prop :=
  exists v, dget (tn_tags n) "hamilton.non_final_node" = Some v /\ v <> VStr "" /\ v <> VList [] /\ forall h, v <> VOther h false.
Definition targeted (t : target) (nodes : list tnode) (n : tnode) : Prop :=
  match t with
  | TNone => ~ marked n /\ forall n', n' ∈ nodes -> tn_name n ∉ tn_deps n'
  | TAll => True
  | TName x => tn_name n = x
  | TNames xs => tn_name n ∈ xs
  end.
Definition found (t : target) (nodes : list tnode) : Prop :=
  match t with
  | TName x => x ∈ map tn_name nodes
  | TNames xs => forall x, x ∈ xs -> x ∈ map tn_name nodes
  | _ => True
  end.

(** ** What a decorator says *)
(** The text of the fields of a schema *)
Inductive rendered : list (string * string) -> string -> Prop :=
| R_nil : rendered [] ""
| R_one k t : rendered [(k, t)] (k +:+ "=" +:+ t)
| R_cons k t f fs s : rendered (f :: fs) s -> rendered ((k, t) :: f :: fs) (k +:+ "=" +:+ t +:+ "," +:+ s).

Inductive gives (nodes : list tnode) : dec -> tnode -> string -> tv -> Prop :=
| G_tag t b tags n k v : targeted t nodes n -> dget tags k = Some v -> gives nodes (DTag t b tags) n k v
| G_outputs m n tags k v : dget m (tn_name n) = Some tags -> dget tags k = Some v -> gives nodes (DTagOutputs m) n k v
| G_behavior t b f n : targeted t nodes n -> b <> "" -> gives nodes (DCache t (Some b) f) n "cache.behavior" (VStr b)
| G_format t b f n : targeted t nodes n -> f <> "" -> gives nodes (DCache t b (Some f)) n "cache.format" (VStr f)
| G_schema fs s n : targeted TNone nodes n -> rendered fs s -> gives nodes (DSchema None fs) n "hamilton.internal.schema_output" (VStr s)
| G_schema_of x fs s n : tn_name n = x -> rendered fs s -> gives nodes (DSchema (Some x) fs) n "hamilton.internal.schema_output" (VStr s)
| G_ray options n o j : targeted TNone nodes n -> dget options o = Some j -> gives nodes (DRay options) n ("ray_remote." +:+ o) (VStr (dumps j)).

(** The tag [k] of [n]: the outermost decorator that says something about it decides; if none
    does, the node keeps what it had. [decs] is from the function outwards. *)
Definition last_word (decs : list dec) (nodes : list tnode) (n : tnode) (k : string) (v : tv) : Prop :=
  (exists pre d post, decs = pre ++ d :: post /\ gives nodes d n k v /\ forall d' v', d' ∈ post -> ~ gives nodes d' n k v') \/
  ((forall d' v', d' ∈ decs -> ~ gives nodes d' n k v') /\ dget (tn_tags n) k = Some v).

(** Everything but the tags is the same. *)
Definition same (n m : tnode) : Prop :=
  tn_name m = tn_name n /\ tn_type m = tn_type n /\ tn_deps m = tn_deps n /\ tn_rest m = tn_rest n.

(** A decorator fits the nodes if its target is there and, for @schema.output, if the nodes it is
    about are dataframes. *)
Definition fits (nodes : list tnode) (d : dec) : Prop :=
  match d with
  | DTag t _ _ | DCache t _ _ => found t nodes
  | DTagOutputs _ | DRay _ => True
  | DSchema None _ => forall n, n ∈ nodes -> targeted TNone nodes n -> dataset (tn_type n) = true
  | DSchema (Some x) _ => found (TName x) nodes /\ forall n, n ∈ nodes -> tn_name n = x -> dataset (tn_type n) = true
  end.

(** ** Which programs *)
(** Facts about Python: the keys of a dictionary are distinct, the tags of @tag do not contain
    the names of the arguments of its constructor. A list of targets names each node once (see
    C58 for what happens otherwise). *)
Definition own_names : list string := ["self"; "target_"; "bypass_reserved_namespaces_"].
Definition tags_ok (tags : dict tv) : Prop := NoDup (dkeys tags) /\ forall k, k ∈ own_names -> k ∉ dkeys tags.
Definition target_ok (t : target) : Prop := match t with TNames xs => NoDup xs | _ => True end.
Definition dec_ok (d : dec) : Prop :=
  match d with
  | DTag t _ tags => target_ok t /\ tags_ok tags
  | DTagOutputs m => forall x tags, dget m x = Some tags -> tags_ok tags
  | DCache t _ _ => target_ok t
  | DSchema _ _ => True
  | DRay options => NoDup (dkeys options)
  end.
(** The decorator leaves the mark of the nodes that are not final alone. *)
Definition mark_free (d : dec) : Prop :=
  match d with
  | DTag _ _ tags => "hamilton.non_final_node" ∉ dkeys tags
  | DTagOutputs m => forall x tags, dget m x = Some tags -> "hamilton.non_final_node" ∉ dkeys tags
  | _ => True
  end.
Definition nodes_ok (nodes : list tnode) : Prop :=
  NoDup (map tn_name nodes) /\ forall n, n ∈ nodes -> tags_ok (tn_tags n).

(** ** Which tags are accepted *)
Definition reserved : list string := ["hamilton"; "data_quality"; "gdpr"; "ccpa"; "dag"; "module"; "ray_remote"].
(** Identifiers with dots between them *)
Definition good_key (bypass : bool) (k : string) : Prop :=
  exists c cs, k = join "."%char (c :: cs) /\ Forall (fun c => ident c = true /\ lacks "."%char c) (c :: cs) /\
    (bypass = false -> c ∉ reserved).
Definition good_value (v : tv) : Prop :=
  match v with
  | VStr _ => True
  | VList l => exists s ss, l = map Some (s :: ss) /\ NoDup (s :: ss)
  | VOther _ _ => False
  end.
(** Values that cannot be hashed: some of those that are neither strings nor lists (which are turned into strings). *)
Definition unhashable (v : tv) : Prop := exists b, v = VOther false b.
Definition good (bypass : bool) (tags : dict tv) : Prop := forall k v, (k, v) ∈ tags -> good_key bypass k /\ good_value v.

(** The options of ray of a node: for every option the outermost @ray_remote_options that has it. *)
Definition last_option (decs : list dec) (o : string) (j : J) : Prop :=
  exists pre options post, decs = pre ++ DRay options :: post /\ dget options o = Some j /\
    forall options', DRay options' ∈ post -> dget options' o = None.
End TaggingSpec.
