(** @mutate and apply_to (hamilton/function_modifiers/macros.py 1411-1619) on top of pipe_output. *)
From Verif Require Import Base Dict NodeModel PipeModel AdapterModel.

Global Instance nspec_eq_dec : EqDecision nspec.
Proof. solve_decision. Defined.

Section Mutate.
Context {V E T : Type}.
Notation node := (pnode V E T).
Variable any_type : T.
(** Tag [hamilton.non_final_node] (base.py 362). *)
Variable non_final : node -> bool.

(** A Python function: name, module, parameters, return type, callable. *)
Record pyfn := PyFn {
  pf_name : name;
  pf_module : name;
  pf_params : dict (T * deptype);
  pf_type : T;
  pf_call : dict V -> res (nerr E) V;
}.

(** macros.py 320-362: an [Applicable] object. [pa_fn] is None for apply_to (1411-1422) until
    [mutate] fills it in; [pa_target] is [target_fn], by name: the functions of a module are
    looked up when the statement is executed; [pa_on] is the target given with [on_output]
    (500-518; a string is a list of one name). *)
Record papp := PApp {
  pa_fn : option pyfn;
  pa_target : option name;
  pa_args : list (dep V);
  pa_kwargs : dict (dep V);
  pa_resolves : bool;
  pa_name : option name;
  pa_ns : nspec;
  pa_on : option (list name);
}.
(** 1411-1422 [apply_to(fn)]. *)
Definition apply_to (x : name) (kws : dict (dep V)) : papp := PApp None (Some x) [] kws true None NsDefault None.

(** The attribute [transform] of a function (base.py 96-119): its [pipe_output]s, which hold
    references to their steps, and other transformers. *)
Inductive merr :=
| MName                      (* NameError *)
| MAttribute                 (* AttributeError: the object is not made by apply_to *)
| MModule                    (* NotSameModuleError *)
| MInvalid                   (* InvalidDecoratorException, SingleTargetError *)
| MBind                      (* TypeError of Signature.bind when the nodes are made *)
| MSelect (e : aerr).        (* target node not found *)
Inductive tdec := TPipe (ids : list nat) (nsp : nspec) (t : target) | TOther (f : list node -> res merr (list node)).
(** A function object: the nodes that creation and expansion give (base.py 822-833), the
    transformers, and whether it is excluded from the graph (configuration.py 260-292). *)
Record fobj := FObj { fo_fn : pyfn; fo_nodes : list node; fo_decs : list tdec; fo_hidden : bool }.

(** What importing a module has done so far: the functions, the variables that hold an
    Applicable, and the Applicable objects. *)
Record mstate := MState { ms_fns : dict fobj; ms_vars : dict nat; ms_heap : list papp }.

(** Arguments of [mutate(...)] (1523-1559): a function, an apply_to expression, or a variable
    that holds an Applicable. *)
Inductive marg := MFn (x : name) | MNew (p : papp) | MVar (v : name).
(** Transformers of a definition as written. *)
Inductive sdec := SPipe (ps : list papp) (nsp : nspec) (t : target) | SOther (f : list node -> res merr (list node)).
(** Statements of a module: a decorated function, [v = apply_to(...)], a function decorated
    with @mutate (nearest to the function; its other decorators do not matter, as it is
    excluded from the graph). *)
Inductive stmt :=
| SDef (f : pyfn) (nodes : list node) (decs : list sdec) (hidden : bool)
| SLet (v : name) (p : papp)
| SMutate (t : pyfn) (args : list marg) (kws : dict (dep V)).

(** 527-592 [Applicable.validate]: the arguments can be bound, with the chained one first. *)
Definition valid_step (p : papp) : bool :=
  match pa_fn p with
  | Some f => bool_decide (is_Some (bind (pf_params f) (DSource "" :: pa_args p) (pa_kwargs p)))
  | None => false
  end.
(** 1207-1216 [_validate_single_target_level] and 1335-1341 [validate]: namespaces of steps only
    with the default namespace of the pipe. *)
Definition valid_pipe (ps : list papp) (nsp : nspec) (t : target) : bool :=
  forallb valid_step ps &&
  match t with TNone => true | TAll => false | _ => forallb (fun p => bool_decide (pa_on p = None)) ps end &&
  match nsp with NsDefault => true | _ => forallb (fun p => bool_decide (pa_ns p = NsDefault)) ps end.

(** The decorators of a definition, applied to the function: the step objects are created. *)
Fixpoint load_decs (heap : list papp) (ds : list sdec) : res merr (list papp * list tdec) :=
  match ds with
  | [] => Ok (heap, [])
  | SOther f :: ds' => bindr (load_decs heap ds') (fun r => Ok (r.1, TOther f :: r.2))
  | SPipe ps nsp t :: ds' =>
      if valid_pipe ps nsp t then
        bindr (load_decs (heap ++ ps) ds') (fun r => Ok (r.1, TPipe (seq (length heap) (length ps)) nsp t :: r.2))
      else Err MInvalid
  end.

(** 1553-1555: a function becomes an apply_to object; names must be defined. *)
Fixpoint alloc (fns : dict fobj) (vars : dict nat) (heap : list papp) (args : list marg) : res merr (list papp * list nat) :=
  match args with
  | [] => Ok (heap, [])
  | a :: args' =>
      let r :=
        match a with
        | MFn x => if dget fns x then Ok (heap ++ [apply_to x []], length heap) else Err MName
        | MNew p => match pa_target p with
                    | Some x => if dget fns x then Ok (heap ++ [p], length heap) else Err MName
                    | None => Ok (heap ++ [p], length heap)
                    end
        | MVar v => match dget vars v with Some id => Ok (heap, id) | None => Err MName end
        end in
      bindr r (fun r => bindr (alloc fns vars r.1 args') (fun s => Ok (s.1, r.2 :: s.2)))
  end.

(** 1561-1570 [validate_same_module]. *)
Fixpoint same_module (m : name) (fns : dict fobj) (heap : list papp) (ids : list nat) : res merr unit :=
  match ids with
  | [] => Ok tt
  | id :: ids' =>
      match heap !! id ≫= pa_target with
      | None => Err MAttribute
      | Some x => match dget fns x with
                  | Some fo => if decide (pf_module (fo_fn fo) = m) then same_module m fns heap ids' else Err MModule
                  | None => Err MName
                  end
      end
  end.

(** 1572-1580 [_create_step]: the object is changed in place. *)
Definition create_step (t : pyfn) (kws : dict (dep V)) (p : papp) : papp :=
  PApp (Some t) (pa_target p) (pa_args p) (match pa_kwargs p with [] => kws | _ => pa_kwargs p end)
       (pa_resolves p) (pa_name p) (pa_ns p) (pa_on p).
Definition is_pipe (d : tdec) : bool := match d with TPipe _ _ _ => true | TOther _ => false end.
Definition add_step (id : nat) (d : tdec) : tdec :=
  match d with TPipe ids nsp t => TPipe (ids ++ [id]) nsp t | TOther f => TOther f end.

(** 1603-1618: one iteration. Every pipe_output that the function has gets the step; if it has
    none it is decorated with a new one (which validates the step). *)
Definition mutate_one (t : pyfn) (kws : dict (dep V)) (fns : dict fobj) (heap : list papp) (id : nat) : res merr (dict fobj * list papp) :=
  match heap !! id with
  | None => Err MAttribute
  | Some p =>
      let p' := create_step t kws p in
      let heap' := <[id := p']> heap in
      match pa_target p' with
      | None => Err MAttribute
      | Some x =>
          match dget fns x with
          | None => Err MName
          | Some fo =>
              if existsb is_pipe (fo_decs fo) then
                Ok (dset fns x (FObj (fo_fn fo) (fo_nodes fo) (map (add_step id) (fo_decs fo)) (fo_hidden fo)), heap')
              else if valid_step p' then
                Ok (dset fns x (FObj (fo_fn fo) (fo_nodes fo) (fo_decs fo ++ [TPipe [id] NsDefault TNone]) (fo_hidden fo)), heap')
              else Err MInvalid
          end
      end
  end.
Fixpoint mutate_all (t : pyfn) (kws : dict (dep V)) (fns : dict fobj) (heap : list papp) (ids : list nat) : res merr (dict fobj * list papp) :=
  match ids with
  | [] => Ok (fns, heap)
  | id :: ids' => bindr (mutate_one t kws fns heap id) (fun r => mutate_all t kws r.1 r.2 ids')
  end.

(** Executing one statement of a module; 1582-1619 [mutate.__call__]. *)
Definition exec (st : mstate) (s : stmt) : res merr mstate :=
  match s with
  | SDef f nodes decs hidden =>
      bindr (load_decs (ms_heap st) decs) (fun r =>
      Ok (MState (dset (ms_fns st) (pf_name f) (FObj f nodes r.2 hidden)) (ms_vars st) r.1))
  | SLet v p =>
      match pa_target p with
      | Some x => if dget (ms_fns st) x then Ok (MState (ms_fns st) (dset (ms_vars st) v (length (ms_heap st))) (ms_heap st ++ [p])) else Err MName
      | None => Ok (MState (ms_fns st) (dset (ms_vars st) v (length (ms_heap st))) (ms_heap st ++ [p]))
      end
  | SMutate t args kws =>
      bindr (alloc (ms_fns st) (ms_vars st) (ms_heap st) args) (fun r =>
      bindr (same_module (pf_module t) (ms_fns st) r.1 r.2) (fun _ =>
      bindr (mutate_all t kws (ms_fns st) r.1 r.2) (fun q =>
      Ok (MState (dset q.1 (pf_name t) (FObj t [] [] true)) (ms_vars st) q.2))))
  end.
Fixpoint load (st : mstate) (prog : list stmt) : res merr mstate :=
  match prog with
  | [] => Ok st
  | s :: prog' => bindr (exec st s) (fun st' => load st' prog')
  end.
Definition import (prog : list stmt) : res merr mstate := load (MState [] [] []) prog.

(** The step objects as they are when the graph is built, with their own targets. *)
Definition app_of (p : papp) : option (app V E T * option (list name)) :=
  match pa_fn p with
  | Some f => Some (App (pf_name f) (pf_params f) (pf_type f) (pf_call f) (pa_args p) (pa_kwargs p) (pa_resolves p) (pa_name p) (pa_ns p), pa_on p)
  | None => None
  end.
Inductive rdec := RPipe (aps : list (app V E T * option (list name))) (nsp : nspec) (t : target) | ROther (f : list node -> res merr (list node)).
Definition current (heap : list papp) (d : tdec) : rdec :=
  match d with
  | TPipe ids nsp t => RPipe (omap (fun id => heap !! id ≫= app_of) ids) nsp t
  | TOther f => ROther f
  end.

(** 1259-1278 [_filter_individual_target]. *)
Definition filter_target (n : node) (aps : list (app V E T * option (list name))) : list (app V E T) :=
  omap (fun a => match a.2 with
                 | Some xs => if decide (pn_name n ∈ xs) then Some a.1 else None
                 | None => Some a.1
                 end) aps.
(** base.py 472-508 with 1280-1333. *)
Definition run_dec (fn : name) (d : rdec) (nodes : list node) : res merr (list node) :=
  match d with
  | ROther f => f nodes
  | RPipe aps nsp t =>
      match select_nodes non_final t nodes with
      | Err e => Err (MSelect e)
      | Ok sel =>
          bindr (transform_targets (fun n => match pipe_output any_type (filter_target n aps) nsp fn n with
                                             | Some ms => Ok ms
                                             | None => Err MBind
                                             end) sel) (fun out => Ok (compliment nodes sel ++ out))
      end
  end.
Fixpoint run_decs (fn : name) (ds : list rdec) (nodes : list node) : res merr (list node) :=
  match ds with
  | [] => Ok nodes
  | d :: ds' => bindr (run_dec fn d nodes) (run_decs fn ds')
  end.
(** base.py 765-843 [resolve_nodes]: the nodes of the function [x] of the module. *)
Definition nodes_of (st : mstate) (x : name) : option (res merr (list node)) :=
  match dget (ms_fns st) x with
  | None => None
  | Some fo => Some (if fo_hidden fo then Ok [] else run_decs (pf_name (fo_fn fo)) (map (current (ms_heap st)) (fo_decs fo)) (fo_nodes fo))
  end.
End Mutate.
Arguments pyfn : clear implicits.
Arguments papp : clear implicits.
Arguments stmt : clear implicits.
Arguments marg : clear implicits.
Arguments sdec : clear implicits.
Arguments tdec : clear implicits.
Arguments rdec : clear implicits.
Arguments fobj : clear implicits.
Arguments mstate : clear implicits.
