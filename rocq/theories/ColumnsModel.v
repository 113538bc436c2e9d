(** @with_columns for pandas and polars (hamilton/function_modifiers/recursive.py 639-851,
    hamilton/plugins/h_pandas.py 106-239; h_polars.py and h_polars_lazyframe.py differ in the
    method that appends, which is [assign] here). *)
From Verif Require Import Base Dict NodeModel PipeModel SubdagModel ExtractModel.

Section Columns.
Context {V E T : Type}.
Context `{EqDecision T}.
Notation node := (pnode V E T).

(** [column in df] with registry.get_column *)
Variable vget : V -> key -> option V.
Variable vfill : V -> key -> V -> V.
(** [df.assign], the columns being its keyword arguments *)
Variable assign : V -> dict V -> res E V.
(** registry.get_column_type_from_df_type (hamilton/registry.py 193-206): None is NotImplementedError. *)
Variable column_type : T -> option T.
(** DATAFRAME_TYPE (h_pandas.py) *)
Variable df_type : T.
(** What the callables of [add_namespace] do with reserved names, and the order of sets
    (SubdagModel). *)
Variable captured : dict V -> res (nerr E) V.
Variable order : list name -> list name.

(** The attributes of the decorator (recursive.py 724-776): columns_to_pass, on_input,
    select and namespace. [select] is assigned to when nodes are built. *)
Record wc := WC { wc_columns : option (list name); wc_on_input : option name; wc_select : option (list name); wc_namespace : option name }.
(** recursive.py 738-743 and h_pandas.py 140-144 with [pass_dataframe_as] None: None is ValueError. *)
Definition with_columns (columns : option (list name)) (on_input : option name) (select : option (list name)) (namespace : option name) : option wc :=
  match columns, on_input with
  | Some _, Some _ => None
  | _, _ => Some (WC columns on_input select namespace)
  end.

Inductive wc_err := WValueError | WInvalidDecorator | WTypeError | WNotImplemented | WStuck.

(** recursive.py 639-652 [_default_inject_parameter]; [sig] are the parameters of the function. *)
Definition inject_parameter (st : wc) (sig : list name) : res wc_err name :=
  match wc_on_input st with
  | Some p => Ok p
  | None => match sig with p :: _ => Ok p | [] => Err WValueError end
  end.
(** base.py 239-257 [find_injectable_params] *)
Definition injectable_types (nodes : list node) : dict T :=
  foldl (fun d n => foldl (fun d kt => if decide (kt.1 ∈ map pn_name nodes) then d else dset d kt.1 kt.2.1) d (pn_inputs n)) [] nodes.
(** recursive.py 687-701 [validate_dataframe]: the type of the parameter. The second check
    asks whether the annotation is an *instance* of the dataframe type (697), which no
    annotation is. *)
Definition validate_dataframe (params : dict T) (p : name) : res wc_err T :=
  match dget params p with Some t => Ok t | None => Err WInvalidDecorator end.
(** h_pandas.py 230-239 [validate], when the function is decorated; [hints] are its type hints. *)
Definition validate (st : wc) (sig : list name) (hints : dict T) : res wc_err T :=
  match inject_parameter st sig with Ok p => validate_dataframe hints p | Err e => Err e end.

(** h_pandas.py 156-176 [_create_column_nodes]: expanding None is TypeError, no column at all
    InvalidDecoratorException (expanders.py 580-583). *)
Definition column_nodes (st : wc) (p : name) (t : T) : res wc_err (list node) :=
  match wc_columns st with
  | None => Err WTypeError
  | Some [] => Err WInvalidDecorator
  | Some cols =>
      match column_type t with
      | None => Err WNotImplemented
      | Some ct =>
          let temp := PNode p t [(p, (t, REQUIRED))] (fun kw => match dget kw p with Some v => Ok v | None => Err (NKey p) end) in
          Ok (tail (extract_columns vget vfill (fun _ => ct) (map KName cols) None temp))
      end
  end.
(** h_pandas.py 178-196 [get_initial_nodes] *)
Definition initial_nodes (st : wc) (p : name) (t : T) : res wc_err (list node) :=
  match wc_on_input st with Some _ => Ok [] | None => column_nodes st p t end.

(** h_pandas.py 213-219: the selected columns of the arguments. *)
Fixpoint selected (sel : list name) (acc kw : dict V) : res (nerr E) (dict V) :=
  match sel with
  | [] => Ok acc
  | c :: sel => match dget kw c with None => Err (NKey c) | Some v => selected sel (dset acc c v) kw end
  end.
Definition append_call (p : name) (sel : list name) (kw : dict V) : res (nerr E) V :=
  match dget kw p with
  | None => Err (NKey p)
  | Some df =>
      match selected sel [] kw with
      | Err e => Err e
      | Ok cols => match assign df cols with Ok df' => Ok df' | Err e => Err (NUser e) end
      end
  end.
(** h_pandas.py 221-230: the node that appends. *)
Definition append_node (p : name) (sel : list name) (ct : T) : node :=
  PNode "_append" df_type (dset (foldl (fun d c => dset d c (ct, REQUIRED)) [] sel) p (df_type, REQUIRED)) (append_call p sel).
(** h_pandas.py 207-212: what is selected when nothing is. *)
Definition selection (st : wc) (ct : T) (nodes : list node) : list name :=
  match wc_select st with Some sel => sel | None => map pn_name (filter (fun n => pn_type n = ct) nodes) end.

(** recursive.py 820-851 [inject_nodes]: the nodes, the parameter and its new name, and the
    decorator with the selection stored. [fns] is what [collect_nodes] returns for the configuration. *)
Definition inject_nodes (st : wc) (fn : name) (sig : list name) (params : dict T) (fns : list node)
    : res wc_err (list node * (name * name) * wc) :=
  let N := default fn (wc_namespace st) in
  match inject_parameter st sig with
  | Err e => Err e
  | Ok p =>
  match validate_dataframe params p with
  | Err e => Err e
  | Ok t =>
  match initial_nodes st p t with
  | Err e => Err e
  | Ok initial =>
      let generated := initial ++ fns in
      if decide (NoDup (map pn_name generated)) then
        match prune_nodes order generated (wc_select st) with
        | PruneValueError => Err WValueError
        | PruneStuck => Err WStuck
        | Pruned [] => Err WValueError
        | Pruned pruned =>
            match column_type df_type with
            | None => Err WNotImplemented
            | Some ct =>
                let sel := selection st ct pruned in
                Ok (add_namespace captured (pruned ++ [append_node p sel ct]) N [] [],
                    (p, assign_namespace "_append" N),
                    WC (wc_columns st) (wc_on_input st) (Some sel) (wc_namespace st))
            end
        end
      else Err WValueError
  end end end.

(** base.py 259-280 [NodeInjector.transform_dag] *)
Definition transform_dag (st : wc) (fn : name) (sig : list name) (fns nodes : list node) : res wc_err (list node * wc) :=
  match inject_nodes st fn sig (injectable_types nodes) fns with
  | Err e => Err e
  | Ok (new, (p, last), st') =>
      Ok (map (fun n => if decide (p ∈ dkeys (pn_inputs n)) then reassign_inputs n [(p, last)] [] else n) nodes ++ new, st')
  end.
End Columns.
