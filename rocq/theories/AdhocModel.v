(** Modules made of functions and of source code, hamilton/ad_hoc_utils.py. *)
From Verif Require Import Base Dict GraphModel.

(** ValueErrors of the names, SyntaxErrors, what code raises, and TypeErrors of calls *)
Inductive aerr := AExists | ADuplicate | AUnderscore | ASyntax | ACode (s : string) | AType.
Global Instance aerr_eq_dec : EqDecision aerr.
Proof. solve_decision. Defined.

Section Adhoc.
Context {V : Type}.

(** Function objects: [__name__], [__code__] (what is done with the values of all parameters, and the names of
    parameters that may be given by position and of those that may not), [__defaults__] (of the last of the former),
    [__kwdefaults__], [__annotations__] (a dictionary, by its address), [__dict__], [__module__].
    [__globals__] and [__closure__] belong to what the code does. *)
Record code := Code { co_params : list string; co_kwonly : list string; co_run : list V -> res aerr V }.
Record func := Func { fn_name : string; fn_code : code; fn_defaults : list V; fn_kwdefaults : dict V; fn_annotations : nat; fn_dict : dict V; fn_module : string }.
(** Defaults of the parameters that may be given by position *)
Definition with_defaults (ps : list string) (ds : list V) : list (string * option V) :=
  zip ps (replicate (length ps - length ds) None ++ map Some ds).
Definition parameters (f : func) : list (string * option V) :=
  with_defaults (co_params (fn_code f)) (fn_defaults f) ++ map (fun p => (p, dget (fn_kwdefaults f) p)) (co_kwonly (fn_code f)).
(** Calls with keywords, as Hamilton's *)
Fixpoint bind_args (ps : list (string * option V)) (kw : dict V) : res aerr (list V) :=
  match ps with
  | [] => Ok []
  | (p, d) :: ps =>
      match dget kw p, d with
      | Some v, _ | None, Some v => match bind_args ps kw with Ok vs => Ok (v :: vs) | Err e => Err e end
      | None, None => Err AType
      end
  end.
Definition call (f : func) (kw : dict V) : res aerr V :=
  match bind_args (parameters f) kw with Ok vs => co_run (fn_code f) vs | Err e => Err e end.

(** ad_hoc_utils.py 14-20 [_copy_func]: [types.FunctionType] is given code, globals, name, defaults and closure;
    [fn.__module__] is set at 66 *)
Definition copy_func (module : string) (f : func) : func :=
  Func (fn_name f) (fn_code f) (fn_defaults f) [] (fn_annotations f) (fn_dict f) module.

(** Modules: their functions by attribute; the attributes any module has begin with underscores *)
Definition module := dict func.
Definition reserved : list string :=
  ["__name__"; "__doc__"; "__package__"; "__loader__"; "__spec__"; "__class__"; "__dict__"; "__dir__"; "__init__"; "__new__"; "__repr__"; "__str__"; "__hash__"; "__eq__"; "__ne__";
   "__lt__"; "__le__"; "__gt__"; "__ge__"; "__getattribute__"; "__setattr__"; "__delattr__"; "__format__"; "__reduce__"; "__reduce_ex__"; "__sizeof__"; "__subclasshook__"; "__init_subclass__"; "__annotations__"].
Definition hasattr (m : module) (k : string) : bool := bool_decide (k ∈ reserved) || match dget m k with Some _ => true | None => false end.
(** What is registered ([sys.modules]), temporary files, and those removed at exit *)
Record pstate := PState { ps_modules : dict module; ps_files : list string; ps_at_exit : list string }.

(** 53-67 *)
Fixpoint fill (name : string) (fs : list func) (m : module) : res aerr module :=
  match fs with
  | [] => Ok m
  | f :: fs =>
      let fn := copy_func name f in
      if hasattr m (fn_name fn) then Err ADuplicate
      else if String.prefix "_" (fn_name fn) then Err AUnderscore
      else fill name fs (dset m (fn_name fn) fn)
  end.
(** 28-69 [create_temporary_module]; [fresh] is the name generated at 23-25 *)
Definition create_temporary_module (fs : list func) (module_name : option string) (fresh : string) (s : pstate) : res aerr module * pstate :=
  let name := default fresh module_name in
  match dget (ps_modules s) name with
  | Some _ => (Err AExists, s)
  | None =>
      match fill name fs [] with
      | Err e => (Err e, s)
      | Ok m => (Ok m, PState (dset (ps_modules s) name m) (ps_files s) (ps_at_exit s))
      end
  end.

(** Whether source compiles, and executing it in the module of a name: what is defined, and the exception if any *)
Variable compiles : string -> bool.
Variable exec : string -> string -> module * option aerr.
(** 72-87 [module_from_source] *)
Definition module_from_source (source : string) (module_name : option string) (fresh : string) (s : pstate) : res aerr module * pstate :=
  let name := match module_name with Some "" | None => fresh | Some n => n end in
  if negb (compiles source) then (Err ASyntax, s)
  else
    let '(m, e) := exec source name in
    (match e with Some e => Err e | None => Ok m end, PState (dset (ps_modules s) name m) (ps_files s) (ps_at_exit s)).
(** 90-122 [create_module]; [file] is the name of the temporary file without directory and extension *)
Definition create_module (source : string) (module_name : option string) (file : string) (s : pstate) : res aerr module * pstate :=
  let name := default file module_name in
  let files := ps_files s ++ [file] in
  if negb (compiles source) then (Err ASyntax, PState (dset (ps_modules s) name []) files (ps_at_exit s))
  else
    let '(m, e) := exec source name in
    match e with
    | Some e => (Err e, PState (dset (ps_modules s) name m) files (ps_at_exit s))
    | None => (Ok m, PState (dset (ps_modules s) name m) files (ps_at_exit s ++ [file]))
    end.
(** When the interpreter ends: [os.remove] of each file *)
Definition at_exit (s : pstate) : list string := filter (fun f => f ∉ ps_at_exit s) (ps_files s).
End Adhoc.
Arguments code : clear implicits.
Arguments func : clear implicits.
Arguments module : clear implicits.
Arguments pstate : clear implicits.
