(** @extract_fields, @extract_columns and @parameterize_extract_columns
    (hamilton/function_modifiers/expanders.py 567-693, 733-850, 867-951). *)
From stdpp Require Import pretty.
From Verif Require Import Base Dict NodeModel PipeModel ParamModel.

(** A key of a dict or column of a dataframe: a name, or the tuple (name, documentation) that
    @extract_columns accepts. *)
Inductive key := KName (c : name) | KTuple (c doc : name).
Definition key_name (k : key) : name := match k with KName c => c | KTuple c _ => c end.
Global Instance key_eq_dec : EqDecision key.
Proof. solve_decision. Defined.

Section Extract.
Context {V E T : Type}.
Notation node := (pnode V E T).

(** [k in d] with [d[k]] / registry.get_column, and [d[k] = w] / registry.fill_with_scalar.
    Values are immutable here; the code updates the object the function returned. *)
Variable vget : V -> key -> option V.
Variable vfill : V -> key -> V -> V.
(** dict, and registry.get_column_type_from_df_type *)
Variable dict_type : T.
Variable column_type : T -> T.

(** expanders.py 648-655 and 801-807: the missing ones are filled, when [fill_with] is given. *)
Definition filled (fill : option V) (ks : list key) (d : V) : V :=
  match fill with
  | None => d
  | Some w => foldl (fun d k => match vget d k with None => vfill d k w | Some _ => d end) d ks
  end.
Definition generator (n : node) (fill : option V) (ks : list key) : node :=
  PNode (pn_name n) (pn_type n) (pn_inputs n)
    (fun kw => match pn_call n kw with Ok d => Ok (filled fill ks d) | Err e => Err e end).

(** expanders.py 671-681 and 828-837 [extractor_fn]; [param] is its own keyword parameter,
    which takes the argument of that name. *)
Definition extractor_call (param fname c : name) (kw : dict V) : res (nerr E) V :=
  if decide (fname = param) then Err (NKey fname) else
  match dget kw fname with
  | None => Err (NKey fname)
  | Some d => match vget d (KName c) with Some v => Ok v | None => Err (NField c) end
  end.
Definition extractor (param : name) (n : node) (t intype : T) (c : name) : node :=
  PNode c t [(pn_name n, (intype, REQUIRED))] (extractor_call param (pn_name n) c).

(** expanders.py 781-850 [extract_fields.transform_node] *)
Definition extract_fields (fields : dict T) (fill : option V) (n : node) : list node :=
  generator n fill (map (fun ft => KName ft.1) fields)
    :: map (fun ft => extractor "field_to_extract" n ft.2 dict_type ft.1) fields.
(** expanders.py 613-693 [extract_columns.transform_node] *)
Definition extract_columns (columns : list key) (fill : option V) (n : node) : list node :=
  generator n fill columns
    :: map (fun k => extractor "column_to_extract" n (column_type (pn_type n)) (pn_type n) (key_name k)) columns.

(** [df.columns = names]: None is ValueError (another number of columns). *)
Variable set_columns : V -> list name -> option V.
Variable value_error : E.
(** expanders.py 930-935 [wrapper_fn]; [fn] is the decorated function itself. *)
Definition wrapper (fn : dict V -> res (nerr E) V) (outputs : list name) (kw : dict V) : res (nerr E) V :=
  match fn kw with
  | Err e => Err e
  | Ok d => match set_columns d outputs with Some d' => Ok d' | None => Err (NUser value_error) end
  end.
(** expanders.py 909-948 [parameterize_extract_columns.expand_node]. [fn_to_call] (936), the
    only use of [reassign_columns], is passed to expand_node, where only its documentation
    is read (147-281). *)
Variable vlist : list V -> V.
Variable vdict : dict V -> V.
Variable list_elem dict_elem : T -> option T.
Variable captured : dict V -> res (nerr E) V.
Fixpoint param_extract (reassign_columns : bool) (fn : dict V -> res (nerr E) V) (n : node) (i : nat)
    (configs : list (list name * dict (spec V))) : option (list node) :=
  match configs with
  | [] => Some []
  | (outputs, sp) :: configs' =>
      let new_node := PNode (pn_name n) (pn_type n) (pn_inputs n) (wrapper fn outputs) in
      match param_node vlist vdict list_elem dict_elem captured new_node (pn_name n ++ "__" ++ pretty i)%string sp with
      | None => None
      | Some pn =>
          match param_extract reassign_columns fn n (S i) configs' with
          | Some ns => Some (extract_columns (map KName outputs) None pn ++ ns)
          | None => None
          end
      end
  end.
End Extract.
