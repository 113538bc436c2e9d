(** Decorators that attach tags to nodes: @tag, @tag_outputs, @schema.output, @ray_remote_options
    and @cache (hamilton/function_modifiers/metadata.py), how they are attached to a function and
    applied to its nodes (hamilton/function_modifiers/base.py), and how the options of ray are
    read back from the tags (hamilton/plugins/h_ray.py). *)
From Coq Require Import Ascii.
From Verif Require Import Base Dict CacheKeyModel DecorModel AdapterModel.

(** A value given as a tag. Of an element of a list only matters whether it is a string and
    which; of other values whether they can be hashed and whether they count as true. *)
Inductive tv :=
| VStr (s : string)
| VList (l : list (option string))
| VOther (hashable truthy : bool).
#[global] Instance tv_eq_dec : EqDecision tv. Proof. solve_decision. Defined.

Inductive terr :=
| TInvalid            (* InvalidDecoratorException *)
| TUnhashable         (* TypeError: unhashable type *)
| TMultiple           (* ValueError of base.py 105 *)
| TBadCall            (* TypeError: multiple values for argument 'self' *)
| TBadJson            (* ValueError of json.loads, or TypeError if the tag is not a string *).

(** [bool(value)] *)
Definition truthy (v : tv) : bool :=
  match v with
  | VStr s => bool_decide (s <> "")
  | VList l => bool_decide (l <> [])
  | VOther _ b => b
  end.
(** [hash(value)] succeeds; lists are turned into strings before (metadata.py 145-146). *)
Definition hashable (v : tv) : bool := match v with VOther b _ => b | _ => true end.

(** [d.update(e)] *)
Definition dupdate {A} (d e : dict A) : dict A := foldl (fun d kv => dset d kv.1 kv.2) d e.

(** base.py 363 *)
Definition NON_FINAL : string := "hamilton.non_final_node".
(** metadata.py 254 *)
Definition SCHEMA_KEY : string := "hamilton.internal.schema_output".
(** metadata.py 54-62 *)
Definition RESERVED : list string := ["hamilton"; "data_quality"; "gdpr"; "ccpa"; "dag"; "module"; "ray_remote"].
(** metadata.py 339-340 *)
Definition BEHAVIOR_KEY : string := "cache.behavior".
Definition FORMAT_KEY : string := "cache.format".

Section Tagging.
(** [T]: types of nodes; [R]: everything else of a node, which no decorator here looks at;
    [J]: values that json can write. *)
Context {T R J : Type}.
(** [str.isidentifier] *)
Variable ident : string -> bool.
(** [json.dumps] and [json.loads] ([None]: ValueError) *)
Variable dumps : J -> string.
Variable loads : string -> option J.
(** metadata.py 229-232: the type is a registered type of dataframes. *)
Variable dataset : T -> bool.

(** node.py 44-110: the name, the type, the names of the inputs, the tags and the rest. *)
Record tnode := TNode { tn_name : name; tn_type : T; tn_deps : list name; tn_tags : dict tv; tn_rest : R }.
(** node.py 307-331 [copy_with(tags=...)] *)
Definition with_tags (n : tnode) (tags : dict tv) : tnode := TNode (tn_name n) (tn_type n) (tn_deps n) tags (tn_rest n).

Inductive dec :=
| DTag (t : target) (bypass : bool) (tags : dict tv)
| DTagOutputs (mapping : dict (dict tv))
| DCache (t : target) (behavior format : option string)
| DSchema (t : option name) (fields : list (string * string))
| DRay (options : dict J).

(** ** Validation *)
(** metadata.py 98-119 [_key_allowed]; the list of components is never empty. *)
Definition key_allowed (bypass : bool) (key : string) : bool :=
  let components := split "."%char key in
  match components with
  | [] => false
  | c :: _ =>
      if negb bypass && bool_decide (c ∈ RESERVED) then false
      else forallb ident components
  end.
(** metadata.py 121-137 [_value_allowed] *)
Definition value_allowed (v : tv) : bool :=
  match v with
  | VStr _ => true
  | VList l =>
      if bool_decide (l = []) then false
      else if negb (forallb (fun x => bool_decide (is_Some x)) l) then false
      else if negb (bool_decide (length (remove_dups l) = length l)) then false
      else true
  | VOther _ _ => false
  end.
(** metadata.py 139-160 [validate]: the set of the bad tags is built first; adding a pair with an
    unhashable value is a TypeError. [bad] tells whether the set is not empty so far. *)
Fixpoint validate (bypass : bool) (bad : bool) (tags : dict tv) : res terr () :=
  match tags with
  | [] => if bad then Err TInvalid else Ok ()
  | (k, v) :: tags' =>
      if negb (key_allowed bypass k) || negb (value_allowed v)
      then if hashable v then validate bypass true tags' else Err TUnhashable
      else validate bypass bad tags'
  end.

(** metadata.py 279: the tags of @ray_remote_options *)
Definition ray_tags (options : dict J) : dict tv :=
  map (fun o => (("ray_remote." ++ o.1)%string, VStr (dumps o.2))) options.
(** metadata.py 216: the tag of @schema.output *)
Definition schema_tag (fields : list (string * string)) : string :=
  join ","%char (map (fun f => f.1 +:+ "=" +:+ f.2) fields).
(** metadata.py 397-403: empty strings are dropped like [None] *)
Definition cache_tags (behavior format : option string) : dict tv :=
  let put k o (d : dict tv) := match o with Some s => if decide (s = "") then d else dset d k (VStr s) | None => d end in
  put FORMAT_KEY format (put BEHAVIOR_KEY behavior []).

(** base.py 93-114 [__call__]: [decs] are the node decorators that the function has already.
    metadata.py 239-248 for @schema.output; @tag_outputs and @cache inherit base.py 612-613. *)
Definition attach (decs : list dec) (d : dec) : res terr (list dec) :=
  bindr match d with
        | DTag _ bypass tags => validate bypass false tags
        | DRay options => validate true false (ray_tags options)
        | _ => Ok ()
        end (fun _ =>
  match decs, d with
  | _ :: _, DSchema _ _ => Err TMultiple
  | _, _ => Ok (decs ++ [d])
  end).
Definition attach_all (decs : list dec) : res terr (list dec) := foldr_ (fun d s => attach s d) decs [].

(** ** Application *)
(** The target of the decorator: metadata.py 80, 180 ([...]), 279 (none), 404 *)
Definition dec_target (d : dec) : target :=
  match d with
  | DTag t _ _ => t
  | DTagOutputs _ => TAll
  | DCache t _ _ => t
  | DSchema (Some x) _ => TName x
  | DSchema None _ => TNone
  | DRay _ => TNone
  end.

(** metadata.py 182-189: [tag( **new_tags)] takes the arguments of its constructor out of the
    tags, and cannot be called with [self] among them. *)
Definition tag_call (tags : dict tv) : res terr (dict tv) :=
  if decide ("self" ∈ dkeys tags) then Err TBadCall
  else Ok (List.filter (fun kv => negb (bool_decide (kv.1 ∈ ["target_"; "bypass_reserved_namespaces_"]))) tags).

(** base.py 591-602 [transform_node]; metadata.py 86-94, 182-189, 221-237, 405-413 *)
Definition decorate_node (d : dec) (n : tnode) : res terr tnode :=
  match d with
  | DTag _ _ tags => Ok (with_tags n (dupdate (tn_tags n) tags))
  | DTagOutputs mapping =>
      match dget mapping (tn_name n) with
      | None => Ok n
      | Some tags => bindr (tag_call (dupdate (tn_tags n) tags)) (fun ts => Ok (with_tags n (dupdate (tn_tags n) ts)))
      end
  | DCache _ behavior format => Ok (with_tags n (dupdate (tn_tags n) (cache_tags behavior format)))
  | DSchema _ fields =>
      if dataset (tn_type n) then Ok (with_tags n (dupdate (tn_tags n) [(SCHEMA_KEY, VStr (schema_tag fields))]))
      else Err TInvalid
  | DRay options => Ok (with_tags n (dupdate (tn_tags n) (ray_tags options)))
  end.

(** base.py 419-437 [_extract_final_nodes] *)
Definition finals (nodes : list tnode) : list tnode :=
  filter (fun n => tn_name n ∉ concat (map tn_deps nodes) /\ match dget (tn_tags n) NON_FINAL with Some v => truthy v | None => false end = false) nodes.
(** base.py 439-466 [select_nodes]; the names of a collection are a list *)
Definition select (t : target) (nodes : list tnode) : res terr (list tnode) :=
  match t with
  | TNone => Ok (finals nodes)
  | TAll => Ok nodes
  | TName x =>
      match filter (fun n => tn_name n = x) nodes with
      | [] => Err TInvalid
      | out => Ok out
      end
  | TNames xs =>
      let out := filter (fun n => tn_name n ∈ xs) nodes in
      if decide (length out = length xs) then Ok out else Err TInvalid
  end.
(** base.py 468-516 [compliment], [transform_targets], [transform_dag]; nodes are compared by name
    ([Node.__eq__] compares names, among others, and the nodes of one function differ in name). *)
Definition apply_dec (nodes : list tnode) (d : dec) : res terr (list tnode) :=
  bindr (select (dec_target d) nodes) (fun sel =>
  let keep := filter (fun n => tn_name n ∉ map tn_name sel) nodes in
  bindr (mapr (decorate_node d) sel) (fun out => Ok (keep ++ out))).
(** base.py 829-831 of [resolve_nodes]: the node decorators in the order in which they were
    attached. *)
Definition apply_decs (decs : list dec) (nodes : list tnode) : res terr (list tnode) :=
  foldr_ (fun d s => apply_dec s d) decs nodes.

(** ** Reading the options of ray (h_ray.py 36-52) *)
Definition is_ray (k : string) : bool := String.prefix "ray_remote." k.
Fixpoint parse_ray (tags : dict tv) : res terr (dict J) :=
  match tags with
  | [] => Ok []
  | (k, v) :: tags' =>
      if is_ray k
      then match v with
           | VStr s => match loads s with
                       | Some j => bindr (parse_ray tags') (fun d => Ok ((snd (partition "."%char k), j) :: d))
                       | None => Err TBadJson
                       end
           | _ => Err TBadJson
           end
      else parse_ray tags'
  end.
End Tagging.
Arguments tnode : clear implicits.
Arguments dec : clear implicits.
