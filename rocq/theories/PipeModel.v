(** @pipe_input and @pipe_output (hamilton/function_modifiers/macros.py 320-1410). *)
From stdpp Require Import pretty.
From Verif Require Import Base Dict NodeModel.

Section Pipe.
Context {V E T : Type}.
Notation node := (pnode V E T).

(** hamilton/function_modifiers/dependencies.py 27-41: [source(s)] and [value(v)]; other
    objects given to step() are literals (macros.py 630-634). *)
Inductive dep := DSource (s : name) | DValue (v : V).

(** [namespace=]: ..., None or a string (macros.py 317). *)
Inductive nspec := NsDefault | NsNone | NsName (s : name).

(** macros.py 324-362 [Applicable]: a function (its name, parameters, type and callable),
    the arguments given to step(), whether its when-resolvers accept the configuration
    (437-446, the resolvers themselves are in ConfigModel), [named] and [namespaced]. *)
Record app := App {
  ap_fn : name;
  ap_params : dict (T * deptype);
  ap_type : T;
  ap_call : dict V -> res (nerr E) V;
  ap_args : list dep;
  ap_kwargs : dict dep;
  ap_resolves : bool;
  ap_name : option name;
  ap_ns : nspec;
}.

(** [Signature.bind] for functions whose parameters are positional-or-keyword (579-592
    rejects others; keyword-only ones are not distinguished here). None is TypeError: too many
    positional arguments, a keyword that is unknown or already bound, or a required
    parameter without argument. *)
Fixpoint bind_pos (ps : dict (T * deptype)) (args : list dep) : option (dict dep * dict (T * deptype)) :=
  match args, ps with
  | [], _ => Some ([], ps)
  | _ :: _, [] => None
  | a :: args', (p, _) :: ps' =>
      match bind_pos ps' args' with
      | Some (d, rest) => Some ((p, a) :: d, rest)
      | None => None
      end
  end.
Definition bind (ps : dict (T * deptype)) (args : list dep) (kws : dict dep) : option (dict dep) :=
  match bind_pos ps args with
  | None => None
  | Some (d, rest) =>
      if forallb (fun ka => bool_decide (ka.1 ∈ dkeys rest)) kws &&
         forallb (fun pt => bool_decide (pt.2.2 = OPTIONAL) || bool_decide (is_Some (dget kws pt.1))) rest
      then Some (d ++ omap (fun pt => (fun a => (pt.1, a)) <$> dget kws pt.1) rest)
      else None
  end.

(** macros.py 608-635 [bind_function_args]: upstream and literal inputs. *)
Definition upstream_of (d : dict dep) : dict name :=
  omap (fun pa => match pa.2 with DSource s => Some (pa.1, s) | DValue _ => None end) d.
Definition literal_of (d : dict dep) : dict V :=
  omap (fun pa => match pa.2 with DSource _ => None | DValue v => Some (pa.1, v) end) d.
Definition bind_function_args (a : app) (target : name) : option (dict name * dict V) :=
  match bind (ap_params a) (DSource target :: ap_args a) (ap_kwargs a) with
  | Some d => Some (upstream_of d, literal_of d)
  | None => None
  end.

(** macros.py 1382-1390: the name of the node of a step. *)
Definition with_name (fn : name) (count : nat) : name :=
  ("with" ++ (if String.prefix "_" fn then "" else "_") ++ fn ++
   (if decide (count = 0) then "" else "_" ++ pretty count))%string.
(** macros.py 594-606 [resolve_namespace] and node.py 170-172 [Node.name]. *)
Definition in_namespace (ns : nspec) (default_ns nm : name) : name :=
  match ns with
  | NsDefault => (default_ns ++ "." ++ nm)%string
  | NsName s => (s ++ "." ++ nm)%string
  | NsNone => nm
  end.

(** macros.py 1392-1408: node of one step. *)
Definition step_node (a : app) (fn : name) (nsp : nspec) (count : nat) (target : name) : option node :=
  let nsp := match nsp with NsDefault => ap_ns a | _ => nsp end in
  let nm := in_namespace nsp fn (default (with_name (ap_fn a) count) (ap_name a)) in
  match bind_function_args a target with
  | Some (ups, lits) => Some (reassign_inputs (PNode nm (ap_type a) (ap_params a) (ap_call a)) ups lits)
  | None => None
  end.

(** macros.py 1359-1409 [chain_transforms]; [cnt] is fn_count. *)
Fixpoint chain (cnt : dict nat) (target : name) (aps : list app) (nsp : nspec) (fn : name) : option (list node * name) :=
  match aps with
  | [] => Some ([], target)
  | a :: aps' =>
      if ap_resolves a then
        let c := default 0 (dget cnt (ap_fn a)) in
        match step_node a fn nsp c target with
        | Some n =>
            match chain (dset cnt (ap_fn a) (S c)) (pn_name n) aps' nsp fn with
            | Some (ns, last) => Some (n :: ns, last)
            | None => None
            end
        | None => None
        end
      else chain cnt target aps' nsp fn
  end.
Definition chain_transforms (target : name) (aps : list app) (nsp : nspec) (fn : name) := chain [] target aps nsp fn.

(** hamilton/function_modifiers/base.py 239-257 [find_injectable_params] (names only). *)
Definition injectable (nodes : list node) : list name :=
  filter (fun p => p ∉ map pn_name nodes) (concat (map (fun n => dkeys (pn_inputs n)) nodes)).

(** macros.py 914-996: the parameter the steps are applied to: [on_input] if it is
    injectable, else the first parameter [sig] of the function. None: InvalidDecoratorException
    (IndexError when the function has no parameters). *)
Definition pipe_param (params : list name) (on_input : option name) (sig : list name) : option name :=
  match on_input with
  | Some p => if decide (p ∈ params) then (if decide (p ∈ sig) then Some p else None)
              else match sig with q :: _ => if decide (q ∈ params) then Some q else None | [] => None end
  | None => match sig with q :: _ => if decide (q ∈ params) then Some q else None | [] => None end
  end.

(** base.py 259-280 [NodeInjector.transform_dag] with macros.py 1011-1044
    [pipe_input.inject_nodes] for its single target parameter. *)
Definition pipe_input (on_input : option name) (aps : list app) (nsp : nspec) (fn : name) (sig : list name)
    (nodes : list node) : option (list node) :=
  match pipe_param (injectable nodes) on_input sig with
  | None => None
  | Some p =>
      match chain_transforms p aps nsp fn with
      | Some (steps, last) =>
          Some (map (fun n => if decide (p ∈ dkeys (pn_inputs n)) then reassign_inputs n [(p, last)] [] else n) nodes ++ steps)
      | None => None
      end
  end.

(** macros.py 1307-1308 [__identity] and 1316: the step that closes a pipe_output. *)
Variable any_type : T.
Definition identity_step (fn : name) : app :=
  App "__identity" [("foo", (any_type, REQUIRED))] any_type
      (fun kw => match dget kw "foo" with Some v => Ok v | None => Err (NMissing "foo") end)
      [] [] true (Some fn) NsDefault.

(** [copy_with(name=...)] *)
Definition renamed_node (n : node) (nm : name) : node := PNode nm (pn_type n) (pn_inputs n) (pn_call n).
Definition retyped_node (n : node) (t : T) : node := PNode (pn_name n) t (pn_inputs n) (pn_call n).

(** macros.py 1280-1333 [pipe_output.transform_node] for the steps that target the node
    (1259-1278). The async variant is not modelled. *)
Definition pipe_output (aps : list app) (nsp : nspec) (fn : name) (n : node) : option (list node) :=
  match aps with
  | [] => Some [n]
  | _ =>
      let raw := renamed_node n (pn_name n ++ ".raw")%string in
      let nsp := match nsp with NsNone => NsNone | NsDefault => NsName (pn_name n) | NsName s => NsName s end in
      match chain_transforms (pn_name raw) (aps ++ [identity_step fn]) nsp fn with
      | None => None
      | Some (nodes, _) =>
          match rev nodes with
          | [_] => Some [n]                                            (* 1326-1327 *)
          | last :: prev :: _ =>
              Some (raw :: removelast nodes ++ [retyped_node (renamed_node last (pn_name n)) (pn_type prev)])
          | [] => Some [n]   (* not reachable: the identity step always resolves *)
          end
      end
  end.
End Pipe.
Arguments dep : clear implicits.
Arguments app : clear implicits.
