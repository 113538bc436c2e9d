(** Model of @config decorators and of collecting the functions of modules:
    hamilton/function_modifiers/configuration.py, function_modifiers/base.py, graph_utils.py and
    graph.py. *)
From Coq Require Import Ascii.
From Verif Require Import Base Dict.

(** str.rfind("__"): the last position of a double underscore. *)
Definition under (c : ascii) : bool := Ascii.eqb c "_"%char.
Fixpoint rfind2 (s : string) : option nat :=
  match s with
  | String a t =>
      match rfind2 t with
      | Some i => Some (S i)
      | None => match t with String b _ => if under a && under b then Some 0 else None | EmptyString => None end
      end
  | EmptyString => None
  end.
(** function_modifiers/base.py 26-37 *)
Definition sanitize (s : string) : string :=
  match rfind2 s with Some i => String.substring 0 i s | None => s end.

(** graph_utils.py 20: fn.__name__.startswith("_") *)
Definition hidden (s : string) : bool := match s with String a _ => under a | EmptyString => false end.

Section Config.
Context {V P : Type}.
(** Python's [==] and [in] on configuration values; [!=] and [not in] are taken to be their
    negations (so values like numpy arrays, whose comparisons are not booleans, are left out). *)
Variable eqv : V -> V -> bool.
Variable inv : V -> list V -> bool.
(** None *)
Variable none : V.
Variable pfalse : V.
Notation config := (gmap name V).

(** configuration.py 24-80 and 135-150: the resolvers; [Custom] is a user's function of the
    whole configuration. *)
Inductive resolver :=
| When (kv : list (name * V))
| WhenNot (kv : list (name * V))
| WhenIn (kv : list (name * list V))
| WhenNotIn (kv : list (name * list V))
| Custom (f : config -> bool).

(** configuration.get(key) *)
Definition cget (c : config) (k : name) : V := default none (c !! k).

Definition resolves (r : resolver) (c : config) : bool :=
  match r with
  | When kv => forallb (fun p => eqv p.2 (cget c p.1)) kv             (* 33-34 *)
  | WhenNot kv => forallb (fun p => negb (eqv p.2 (cget c p.1))) kv   (* 46-47 *)
  | WhenIn kv => forallb (fun p => inv (cget c p.1) p.2) kv           (* 60-63 *)
  | WhenNotIn kv => forallb (fun p => negb (inv (cget c p.1) p.2)) kv (* 75-78 *)
  | Custom f => f c
  end.

(** configuration.py 152-168: [None] for custom resolvers, else all keys are optional. *)
Definition config_used (r : resolver) : option (list name) :=
  match r with
  | When kv | WhenNot kv => Some (map fst kv)
  | WhenIn kv | WhenNotIn kv => Some (map fst kv)
  | Custom _ => None
  end.

(** base.py 649-686, 702-711: the part of the configuration a resolver sees. *)
Definition power : name := "hamilton.enable_power_user_mode".
Definition filter_config (c : config) (used : option (list name)) : config :=
  match used with
  | None => c
  | Some ks =>
      let opt : gmap name V := list_to_map (map (fun k => (k, none)) ks) in
      let opt := <[power := default pfalse (opt !! power)]> opt in
      map_imap (fun k d => Some (default d (c !! k))) opt
  end.

(** A @config decorator: its resolver and optional [name=] (configuration.py 135-150). *)
Record cdec := CDec { cd_res : resolver; cd_target : option name }.

(** configuration.py 170-184: the name after a successful resolution. *)
Definition renamed (d : cdec) (nm : name) : name :=
  match cd_target d with Some t => t | None => sanitize nm end.

(** base.py 811-814: the loop over the resolvers; [fn.__name__] is changed on the way. The
    result is the final name of the function object, and whether it is included. *)
Fixpoint resolve_fn (c : config) (ds : list cdec) (nm : name) : name * bool :=
  match ds with
  | [] => (nm, true)
  | d :: ds' =>
      if resolves (cd_res d) (filter_config c (config_used (cd_res d))) then resolve_fn c ds' (renamed d nm)
      else (nm, false)
  end.

(** A function of a module: its @config decorators and the nodes the rest of its decorators
    make of it, given its [__name__] (base.py 815-830; the default creator makes one node of
    that name). The current [__name__] of function objects is kept separately, as building
    changes it. *)
Record func := Func { f_id : nat; f_decs : list cdec; f_gen : name -> config -> list (name * P) }.
Notation names := (gmap nat name).

Inductive builderr := EDuplicate (x : name).

(** graph.py 171-180 for one function *)
Fixpoint add_nodes (c : config) (ns : list (name * P)) (acc : dict P) : builderr + dict P :=
  match ns with
  | [] => inr acc
  | (x, p) :: ns' =>
      match c !! x with
      | Some _ => add_nodes c ns' acc
      | None => match dget acc x with Some _ => inl (EDuplicate x) | None => add_nodes c ns' (dset acc x p) end
      end
  end.

(** graph.py 170-180; a second definition of a node raises (no [allow_module_overrides]). *)
Fixpoint add_functions (c : config) (fs : list func) (st : names) (acc : dict P) : names * (builderr + dict P) :=
  match fs with
  | [] => (st, inr acc)
  | f :: fs' =>
      let nm := default ""%string (st !! f_id f) in
      let '(nm', included) := resolve_fn c (f_decs f) nm in
      let st' := <[f_id f := nm']> st in
      if included then
        match add_nodes c (f_gen f nm' c) acc with
        | inl e => (st', inl e)
        | inr acc' => add_functions c fs' st' acc'
        end
      else add_functions c fs' st' acc
  end.

(** graph_utils.py 10-24 (all given functions are of the module), graph.py 167-180. *)
Definition build (c : config) (fs : list func) (st : names) : names * (builderr + dict P) :=
  add_functions c (filter (fun f => negb (hidden (default ""%string (st !! f_id f)))) fs) st [].

(** Earlier builds, each with its configuration: what they leave of the names. *)
Definition built (cs : list config) (fs : list func) (st : names) : names :=
  foldl (fun st c => (build c fs st).1) st cs.
End Config.
