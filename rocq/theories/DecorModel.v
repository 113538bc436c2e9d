(** The decorators of a function and the nodes they make of it: hamilton/function_modifiers/base.py
    62-140 (NodeTransformLifecycle), 649-843 (resolve_config, get_node_decorators, resolve_nodes) and
    hamilton/function_modifiers/delayed.py (resolve). *)
From Verif Require Import Base Dict NodeModel.

Definition bindr {X A B} (r : res X A) (f : A -> res X B) : res X B := match r with Ok a => f a | Err e => Err e end.
(** A list comprehension, or a loop that appends. *)
Fixpoint mapr {X A B} (f : A -> res X B) (l : list A) : res X (list B) :=
  match l with [] => Ok [] | a :: l => bindr (f a) (fun b => bindr (mapr f l) (fun bs => Ok (b :: bs))) end.
(** A loop that changes one variable. *)
Fixpoint foldr_ {X A S} (f : A -> S -> res X S) (l : list A) (s : S) : res X S :=
  match l with [] => Ok s | a :: l => bindr (f a s) (foldr_ f l) end.

(** settings.py 1 *)
Definition power_mode : name := "hamilton.enable_power_user_mode".

(** inspect.Parameter: name, kind and default. *)
Inductive pkind := POSITIONAL_ONLY | POSITIONAL_OR_KEYWORD | VAR_POSITIONAL | KEYWORD_ONLY | VAR_KEYWORD.
Global Instance pkind_eq_dec : EqDecision pkind. Proof. solve_decision. Defined.

Section Decor.
(** Functions, nodes, configuration values, exceptions that decorators raise. *)
Context {F N V E : Type}.
Variable truthy : V -> bool.
Variable vfalse : V.
(** [node.Node.from_fn] (node.py 242-260) *)
Variable from_fn : F -> res E N.
(** base.py 743-766: the function is added to the node's originating functions. *)
Variable add_origin : F -> N -> N.

(** Exceptions: of a decorator or function; MissingConfigParametersException; InvalidDecoratorException;
    KeyError; ValueError; TypeError; AttributeError. *)
Inductive xn := XUser (e : E) | XMissing | XInvalid | XKey | XValue | XType | XAttr.
Definition lift {A} (r : res E A) : res xn A := match r with Ok a => Ok a | Err e => Err (XUser e) end.

Notation config := (gmap name V).
Record param := Param { p_name : name; p_kind : pkind; p_default : option V }.

(** What a decorator of each class does (the methods that subclasses define): [resolve], [generate_nodes],
    [transform_dag] of injectors, [expand_node], [transform_dag] of transformers and of node decorators. *)
Inductive body :=
| BResolver (f : F -> config -> res E (option F))
| BCreator (f : F -> config -> res E (list N))
| BInjector (f : list N -> config -> F -> res E (list N))
| BExpander (f : N -> config -> F -> res E (list N))
| BTransformer (f : list N -> config -> F -> res E (list N))
| BDecorator (f : list N -> config -> F -> res E (list N)).

(** A decorator object. [Static]: [required_config], [optional_config], [validate], [allows_multiple] and the
    methods. [Dynamic]: a [resolve] with the parameters and the body of [decorate_with]; the body gets the values of
    its parameters and returns a decorator or something else (None). [validate] does not change the function:
    of the decorators of the project this leaves out @mutate; it is assumed not to look at attributes that other decorators set. *)
Inductive deco :=
| Static (required : option (list name)) (optional : option (dict V)) (validate : F -> res E unit) (multiple : bool) (b : body)
| Dynamic (required : list name) (optional : dict V) (ps : list param) (fn : config -> res E (option deco)).

(** base.py 170-172, 201-203, 301-303, 350-352, 528-530, 604-606, 690-692 *)
Definition lifecycle (d : deco) : name :=
  match d with
  | Static _ _ _ _ b =>
      match b with
      | BResolver _ => "resolve" | BCreator _ => "generate" | BInjector _ => "inject" | BExpander _ => "expand"
      | BTransformer _ => "transform" | BDecorator _ => "decorate_nodes"
      end
  | Dynamic _ _ _ _ => "dynamic"
  end.
(** base.py 174-176 and so on; metadata.py 239-242 *)
Definition allows_multiple (d : deco) : bool := match d with Static _ _ _ m _ => m | Dynamic _ _ _ _ => true end.
Definition validates (d : deco) (f : F) : res xn unit := match d with Static _ _ v _ _ => lift (v f) | Dynamic _ _ _ _ => Ok () end.

(** A function object with the attributes that decorators set. *)
Record fobj := FObj { fo_fn : F; fo_attrs : dict (list deco) }.

(** base.py 94-113 [__call__] *)
Definition call (d : deco) (o : fobj) : res xn fobj :=
  bindr (validates d (fo_fn o)) (fun _ =>
  match dget (fo_attrs o) (lifecycle d) with
  | Some cur => if allows_multiple d then Ok (FObj (fo_fn o) (dset (fo_attrs o) (lifecycle d) (cur ++ [d]))) else Err XValue
  | None => Ok (FObj (fo_fn o) (dset (fo_attrs o) (lifecycle d) [d]))
  end).
(** [@d1 @d2 ... def f]: the last one is applied first. *)
Fixpoint decorate (ds : list deco) (f : F) : res xn fobj :=
  match ds with [] => Ok (FObj f []) | d :: ds => bindr (decorate ds f) (call d) end.

(** delayed.py 19-45 [extract_and_validate_params] *)
Definition keyword_friendly (p : param) : bool := bool_decide (p_kind p ∈ [POSITIONAL_OR_KEYWORD; KEYWORD_ONLY]).
Definition extract_params (ps : list param) : res xn (list name * dict V) :=
  if forallb keyword_friendly ps then
    Ok (map p_name (filter (fun p => p_default p = None) ps), omap (fun p => (fun v => (p_name p, v)) <$> p_default p) ps)
  else Err XInvalid.
(** delayed.py 109-121; [when] has one value only. *)
Definition new_resolve (ps : list param) (fn : config -> res E (option deco)) : res xn deco :=
  bindr (extract_params ps) (fun ro => Ok (Dynamic ro.1 ro.2 ps fn)).

(** Calling [decorate_with( **kwargs)]: TypeError for a missing or an unexpected argument, defaults for others. *)
Definition bind_params (ps : list param) (kw : config) : res xn config :=
  if bool_decide (map_Forall (fun k _ => k ∈ map p_name ps) kw) then
    bindr (mapr (fun p => match kw !! p_name p with
                          | Some v => Ok (p_name p, v)
                          | None => match p_default p with Some v => Ok (p_name p, v) | None => Err XType end
                          end) ps)
      (fun l => Ok (list_to_map l))
  else Err XType.

(** delayed.py 129-152 [resolve]. For other decorators this is not reached. *)
Definition resolve (d : deco) (c : config) : res xn (option deco) :=
  match d with
  | Static _ _ _ _ _ => Err XAttr
  | Dynamic required optional ps fn =>
      match c !! power_mode with
      | None => Err XKey
      | Some v =>
          if truthy v then
            match filter (fun k => c !! k = None) required with
            | _ :: _ => Err XInvalid
            | [] =>
                bindr (mapr (fun k => match c !! k with Some v => Ok (k, v) | None => Err XKey end) required) (fun l =>
                let kw := foldl (fun kw k => match c !! k with Some v => <[k := v]> kw | None => kw end) (list_to_map l : config) (dkeys optional) in
                bindr (bind_params ps kw) (fun args => lift (fn args)))
            end
          else Err XInvalid
      end
  end.

(** base.py 649-686 [resolve_config] and 702-711 [filter_config] *)
Definition resolve_config (c : config) (required : option (list name)) (optional : option (dict V)) : res xn config :=
  match required with
  | None => Ok c
  | Some req =>
      let opt := default [] optional in
      let opt := dset opt power_mode (default vfalse (dget opt power_mode)) in
      match filter (fun k => c !! k = None /\ k ∉ dkeys opt) req with
      | _ :: _ => Err XMissing
      | [] =>
          bindr (mapr (fun k => match c !! k with Some v => Ok (k, v) | None => Err XKey end) req) (fun l =>
          Ok (foldl (fun out kv => <[kv.1 := default kv.2 (c !! kv.1)]> out) (list_to_map l : config) opt))
      end
  end.
Definition filter_config (c : config) (d : deco) : res xn config :=
  match d with
  | Static required optional _ _ _ => resolve_config c required optional
  | Dynamic required optional _ _ => resolve_config c (Some required) (Some optional)
  end.

(** base.py 617-646: the defaults, which ask for no configuration. (The class of [DefaultNodeDecorator] passes each node on.) *)
Definition plain (b : body) : deco := Static (Some []) (Some []) (fun _ => Ok ()) true b.
Definition default_resolver : deco := plain (BResolver (fun f _ => Ok (Some f))).
Definition default_creator : deco := Static (Some []) (Some []) (fun _ => Ok ()) false (BCreator (fun f _ => match from_fn f with Ok n => Ok [n] | Err e => Err e end)).
Definition default_decorator : deco := plain (BDecorator (fun ns _ _ => Ok ns)).

(** base.py 714-740 [get_node_decorators] *)
Definition getattr (o : fobj) (k : name) : list deco := default [] (dget (fo_attrs o) k).
Definition defaults : dict (list deco) :=
  [("resolve", [default_resolver]); ("generate", [default_creator]); ("expand", []); ("transform", []); ("inject", []);
   ("decorate_nodes", [default_decorator])].
Definition group (ds : list deco) : dict (list deco) :=
  foldl (fun g d => dset g (lifecycle d) (default [] (dget g (lifecycle d)) ++ [d])) [] ds.
Definition node_decorators (o : fobj) (c : config) : res xn (dict (list deco)) :=
  bindr (mapr (fun d => resolve d c) (getattr o "dynamic")) (fun dyn =>
  bindr (mapr (fun r => match r with Some d => Ok d | None => Err XAttr end) dyn) (fun dyn =>
  Ok (dupd defaults (group (concat (map (getattr o) (dkeys defaults)) ++ dyn))))).

(** base.py 810-813: the loop over the resolvers *)
Fixpoint run_resolvers (ds : list deco) (c : config) (f : F) : res xn (option F) :=
  match ds with
  | [] => Ok (Some f)
  | d :: ds =>
      bindr (filter_config c d) (fun c' =>
      match d with
      | Static _ _ _ _ (BResolver r) =>
          match r f c' with Ok (Some f') => run_resolvers ds c f' | Ok None => Ok None | Err e => Err (XUser e) end
      | _ => Err XAttr (* not reached *)
      end)
  end.
(** [transform_dag(nodes, filter_config(config, d), fn)]; base.py 320-329 for expanders *)
Definition transform_dag (c : config) (f : F) (d : deco) (ns : list N) : res xn (list N) :=
  bindr (filter_config c d) (fun c' =>
  match d with
  | Static _ _ _ _ (BInjector t) | Static _ _ _ _ (BTransformer t) | Static _ _ _ _ (BDecorator t) => lift (t ns c' f)
  | Static _ _ _ _ (BExpander t) => match ns with [n] => lift (t n c' f) | _ => Err XValue end
  | _ => Err XAttr (* not reached *)
  end).

(** base.py 773-843 [resolve_nodes], without the logging. *)
Definition resolve_nodes (o : fobj) (c : config) : res xn (list N) :=
  bindr (node_decorators o c) (fun g =>
  let step k := default [] (dget g k) in
  bindr (run_resolvers (step "resolve") c (fo_fn o)) (fun r =>
  match r with
  | None => Ok []
  | Some f =>
      bindr (match step "generate" with
             | [d] => bindr (filter_config c d) (fun c' => match d with Static _ _ _ _ (BCreator t) => lift (t f c') | _ => Err XAttr (* not reached *) end)
             | _ => Err XValue
             end) (fun ns =>
      bindr (foldr_ (transform_dag c f) (step "inject") ns) (fun ns =>
      bindr (match step "expand" with
             | [] => Ok ns
             | [d] => transform_dag c f d ns
             | _ => Err XValue
             end) (fun ns =>
      bindr (foldr_ (transform_dag c f) (step "transform") ns) (fun ns =>
      bindr (foldr_ (transform_dag c f) (step "decorate_nodes") ns) (fun ns =>
      Ok (map (add_origin f) ns))))))
  end)).
End Decor.
Arguments xn : clear implicits.
Arguments body : clear implicits.
Arguments deco : clear implicits.
Arguments fobj : clear implicits.
Arguments param : clear implicits.
