(** @parameterize and @inject (hamilton/function_modifiers/expanders.py 97-281, 954-990). *)
From Verif Require Import Base Dict NodeModel PipeModel.

Section Param.
Context {V E T : Type}.
Notation node := (pnode V E T).
Notation dep := (dep V).
(** [list] and [dict] of values. *)
Variable vlist : list V -> V.
Variable vdict : dict V -> V.
(** dependencies.py 60-80 and 88-118 [resolve_dependency_type] of group(...) arguments and of
    group(key=...) arguments; None is InvalidDecoratorException. *)
Variable list_elem : T -> option T.
Variable dict_elem : T -> option T.
(** What [replacement_function] does when one of its own keyword parameters (expanders.py
    170-178) is passed by the executor, as a variable of that name. *)
Variable captured : dict V -> res (nerr E) V.

(** dependencies.py 27-118, 169-208: source(..)/value(..), group(a, b), group(k=a). The
    members of a group are single dependencies (142-166). *)
Inductive spec := POne (d : dep) | PList (ds : list dep) | PDict (ds : dict dep).

(** expanders.py 170-178 *)
Definition reserved : list name :=
  ["upstream_dependencies"; "literal_dependencies"; "grouped_list_dependencies";
   "grouped_dict_dependencies"; "former_inputs"].

(** expanders.py 132-141, 166: literal dependencies. *)
Definition literals (sp : dict spec) : dict V :=
  omap (fun ps => match ps.2 with POne (DValue v) => Some (ps.1, v) | _ => None end) sp.

(** [kwargs[replacement.source]] or [replacement.value] *)
Definition resolve (kw : dict V) (d : dep) : res (nerr E) V :=
  match d with
  | DSource s => match dget kw s with Some v => Ok v | None => Err (NKey s) end
  | DValue v => Ok v
  end.
Fixpoint resolve_list (kw : dict V) (ds : list dep) : res (nerr E) (list V) :=
  match ds with
  | [] => Ok []
  | d :: ds' =>
      match resolve kw d with
      | Err e => Err e
      | Ok v => match resolve_list kw ds' with Err e => Err e | Ok vs => Ok (v :: vs) end
      end
  end.
Fixpoint resolve_dict (kw : dict V) (ds : dict dep) : res (nerr E) (dict V) :=
  match ds with
  | [] => Ok []
  | (k, d) :: ds' =>
      match resolve kw d with
      | Err e => Err e
      | Ok v => match resolve_dict kw ds' with Err e => Err e | Ok vs => Ok ((k, v) :: vs) end
      end
  end.

(** expanders.py 193-229: the new value of one former input; [Ok None]: left out. *)
Definition new_kwarg (sp : dict spec) (kw : dict V) (p : name) : res (nerr E) (option V) :=
  match dget sp p with
  | Some (POne d) => match resolve kw d with Ok v => Ok (Some v) | Err e => Err e end
  | Some (PList ds) => match resolve_list kw ds with Ok vs => Ok (Some (vlist vs)) | Err e => Err e end
  | Some (PDict ds) => match resolve_dict kw ds with Ok vs => Ok (Some (vdict vs)) | Err e => Err e end
  | None => Ok (dget kw p)
  end.
(** expanders.py 192-229: [new_kwargs]. *)
Fixpoint new_kwargs (sp : dict spec) (kw : dict V) (acc : dict V) (former : list name) : res (nerr E) (dict V) :=
  match former with
  | [] => Ok acc
  | p :: former' =>
      match new_kwarg sp kw p with
      | Err e => Err e
      | Ok None => new_kwargs sp kw acc former'
      | Ok (Some v) => new_kwargs sp kw (dset acc p v) former'
      end
  end.

(** expanders.py 170-230 [replacement_function], and 267-270: partial application to the
    literals, so that the executor's arguments win over them. *)
Definition replacement (n : node) (sp : dict spec) (kw : dict V) : res (nerr E) V :=
  let kw := dupd (literals sp) kw in
  if existsb (fun k => bool_decide (k ∈ dkeys kw)) reserved then captured kw
  else match new_kwargs sp kw [] (dkeys (pn_inputs n)) with
       | Err e => Err e
       | Ok nk => pn_call n nk
       end.

(** expanders.py 232-264 [new_input_types]; None: InvalidDecoratorException. *)
Definition group_inputs (t : T) (dt : deptype) (acc : dict (T * deptype)) (ds : list dep) : dict (T * deptype) :=
  foldl (fun d x => match x with DSource s => dset d s (t, dt) | DValue _ => d end) acc ds.
Fixpoint new_inputs (sp : dict spec) (acc : dict (T * deptype)) (ins : dict (T * deptype)) : option (dict (T * deptype)) :=
  match ins with
  | [] => Some acc
  | (p, (t, dt)) :: ins' =>
      match dget sp p with
      | Some (POne (DSource s)) => new_inputs sp (dset acc s (t, dt)) ins'
      | Some (PList ds) =>
          match list_elem t with
          | Some t' => new_inputs sp (group_inputs t' dt acc ds) ins'
          | None => None
          end
      | Some (PDict ds) =>
          match dict_elem t with
          | Some t' => new_inputs sp (group_inputs t' dt acc (map snd ds)) ins'
          | None => None
          end
      | Some (POne (DValue _)) => new_inputs sp acc ins'
      | None => new_inputs sp (dset acc p (t, dt)) ins'
      end
  end.

(** expanders.py 147-281 [expand_node] for one output. *)
Definition param_node (n : node) (out : name) (sp : dict spec) : option node :=
  match new_inputs sp [] (pn_inputs n) with
  | Some ins => Some (PNode out (pn_type n) ins (replacement n sp))
  | None => None
  end.
(** expanders.py 95: the name that stands for the function's own. *)
Definition placeholder : name := "__<function_name>".
(** expanders.py 147-281 [parameterize.expand_node]; docstrings are not modelled. *)
Fixpoint expand (n : node) (outs : list (name * dict spec)) : option (list node) :=
  match outs with
  | [] => Some []
  | (out, sp) :: outs' =>
      match param_node n (if decide (out = placeholder) then pn_name n else out) sp with
      | None => None
      | Some n' => match expand n outs' with Some ns => Some (n' :: ns) | None => None end
      end
  end.
(** expanders.py 983-990 [inject]. *)
Definition inject (n : node) (sp : dict spec) : option (list node) := expand n [(placeholder, sp)].
(** expanders.py 424-442 [parameterize_values] and 489-514 [parameterize_sources]. *)
Definition parameterize_values (n : node) (p : name) (outs : dict V) : option (list node) :=
  expand n (map (fun ov => (ov.1, [(p, POne (DValue ov.2))])) outs).
Definition parameterize_sources (n : node) (outs : dict (dict name)) : option (list node) :=
  expand n (map (fun om => (om.1, map (fun ps => (ps.1, POne (DSource ps.2))) om.2)) outs).
End Param.
Arguments spec : clear implicits.
