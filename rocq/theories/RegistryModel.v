(** Extensions and their types: hamilton/registry.py. *)
From Verif Require Import Base Dict.

(** Exceptions; ModuleNotFoundError is an ImportError. *)
Inductive xerr := XNotImplemented | XImport | XAssertion | XKey | XOther.

Section Registry.
Context {T : Type} `{EqDecision T}.

(** What importing [hamilton.plugins.<name>_extensions] does: the calls of [register_types] it makes,
    whether it then raises, and which of the attributes that [load_extension] asks for it has. That
    extensions import each other is left out. *)
Record ext := Ext { e_regs : list (string * (T * option T)); e_raises : option xerr; e_friendly : bool; e_register : bool; e_get : bool; e_fill : bool }.
(** A process: the environment variable, the options in section DEFAULT of the configuration file,
    the extensions in [sys.modules], DF_TYPE_AND_COLUMN_TYPES and INITIALIZED. *)
Record proc := Proc { p_env : option string; p_file : dict string; p_loaded : list string; p_types : dict (T * option T); p_init : bool }.
Definition set_env (e : option string) (p : proc) : proc := Proc e (p_file p) (p_loaded p) (p_types p) (p_init p).
Definition set_file (f : dict string) (p : proc) : proc := Proc (p_env p) f (p_loaded p) (p_types p) (p_init p).
Definition set_loaded (l : list string) (p : proc) : proc := Proc (p_env p) (p_file p) l (p_types p) (p_init p).
Definition set_types (t : dict (T * option T)) (p : proc) : proc := Proc (p_env p) (p_file p) (p_loaded p) t (p_init p).
Definition set_init (p : proc) : proc := Proc (p_env p) (p_file p) (p_loaded p) (p_types p) true.

(** 35; configparser writes names of options in lower case *)
Definition OPTION : string := "hamilton_autoload_extensions".
(** 48-56 [load_autoload_config]; interpolation of values with percent signs is left out *)
Definition load_autoload_config (p : proc) : proc :=
  match dget (p_file p) OPTION with Some v => set_env (Some v) p | None => p end.
(** A process that imports the module: 59 *)
Definition start (env : option string) (file : dict string) : proc := load_autoload_config (Proc env file [] [] false).

(** 154-167 [register_types] *)
Definition register_types (name : string) (df : T) (col : option T) (p : proc) : proc := set_types (dset (p_types p) name (df, col)) p.
Definition register_all (regs : list (string * (T * option T))) (p : proc) : proc := foldl (fun p r => register_types r.1 r.2.1 r.2.2 p) p regs.

Variable exts : string -> ext.
(** [importlib.import_module] *)
Definition import_module (name : string) (p : proc) : res xerr unit * proc :=
  if decide (name ∈ p_loaded p) then (Ok tt, p)
  else let p' := register_all (e_regs (exts name)) p in
       match e_raises (exts name) with Some x => (Err x, p') | None => (Ok tt, set_loaded (p_loaded p' ++ [name]) p') end.
(** 62-82 [load_extension] *)
Definition load_extension (name : string) (p : proc) : res xerr unit * proc :=
  match import_module name p with
  | (Err x, p') => (Err x, p')
  | (Ok _, p') =>
      if e_friendly (exts name) then
        if negb (e_register (exts name)) then (Err XAssertion, p')
        else if negb (e_get (exts name)) then (Err XAssertion, p')
        else if negb (e_fill (exts name)) then (Err XAssertion, p')
        else (Ok tt, p')
      else (Ok tt, p')
  end.
(** 85-103 [initialize] *)
Definition disabled (p : proc) : bool := bool_decide (p_env p = Some "0").
Fixpoint init_loop (names : list string) (p : proc) : res xerr unit * proc :=
  match names with
  | [] => (Ok tt, p)
  | n :: names =>
      if disabled p then init_loop names p
      else match load_extension n p with
           | (Ok _, p') | (Err XNotImplemented, p') | (Err XImport, p') => init_loop names p'
           | (Err x, p') => (Err x, p')
           end
  end.
(** 14-36 *)
Definition HAMILTON_EXTENSIONS : list string :=
  ["yaml"; "matplotlib"; "numpy"; "pandas"; "plotly"; "polars"; "polars_lazyframe"; "pyspark_pandas"; "spark"; "dask"; "geopandas"; "xgboost"; "lightgbm";
   "sklearn_plot"; "vaex"; "ibis"; "dlt"; "kedro"; "huggingface"; "mlflow"; "pydantic"].
Definition initialize (p : proc) : res xerr unit * proc :=
  match init_loop HAMILTON_EXTENSIONS p with (Ok _, p') => (Ok tt, set_init p') | (Err x, p') => (Err x, p') end.
(** function_modifiers/base.py 19-23: importing the decorators, and with them the driver *)
Definition import_hamilton (p : proc) : res xerr unit * proc := if p_init p then (Ok tt, p) else initialize p.

(** 106-117 *)
Definition disable_autoload (p : proc) : proc := set_env (Some "0") p.
Definition enable_autoload (p : proc) : res xerr unit * proc := match p_env p with Some _ => (Ok tt, set_env None p) | None => (Err XKey, p) end.
(** 120-151; DEFAULT always is in a ConfigParser. What else is in the file is left out, but for the
    options in that section. *)
Definition config_enable_autoload (p : proc) : proc := let p := load_autoload_config p in set_file (filter (fun kv => kv.1 <> OPTION) (p_file p)) p.
Definition config_disable_autoload (p : proc) : proc := let p := load_autoload_config p in set_file (dset (p_file p) OPTION "0") p.

(** 193-208 [get_column_type_from_df_type] *)
Fixpoint column_type_in (types : dict (T * option T)) (df : T) : res xerr T :=
  match types with
  | [] => Err XNotImplemented
  | (_, (d, c)) :: types => if decide (df = d) then match c with Some c => Ok c | None => Err XKey end else column_type_in types df
  end.
Definition get_column_type_from_df_type (df : T) (p : proc) : res xerr T := column_type_in (p_types p) df.
(** 225-244 *)
Definition get_registered_dataframe_types (p : proc) : dict T := map (fun e => (e.1, e.2.1)) (p_types p).
Fixpoint column_types (types : dict (T * option T)) : res xerr (dict T) :=
  match types with
  | [] => Ok []
  | (n, (_, Some c)) :: types => match column_types types with Ok r => Ok ((n, c) :: r) | Err x => Err x end
  | (_, (_, None)) :: _ => Err XKey
  end.
Definition get_registered_column_types (p : proc) : res xerr (dict T) := column_types (p_types p).
End Registry.
Arguments ext : clear implicits.
Arguments proc : clear implicits.
