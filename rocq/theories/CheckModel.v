(** @check_output and @check_output_custom (hamilton/function_modifiers/validation.py 26-111,
    hamilton/data_quality/base.py 64-106). *)
From stdpp Require Import pretty.
From Verif Require Import Base Dict NodeModel.

Section Check.
Context {V E T : Type}.
Notation node := (pnode V E T).
(** dq_base.ValidationResult, and its field [passes]. *)
Variable result_type : T.
Variable passes : V -> bool.

(** dq_base.DataValidator: name(), importance is FAIL, validate(). *)
Record validator := Validator {
  vd_name : name;
  vd_fail : bool;
  vd_validate : V -> res E V;
}.

(** validation.py 29-39 *)
Definition raw_name (n : node) : name := (pn_name n ++ "_raw")%string.
Definition raw_node (n : node) : node := PNode (raw_name n) (pn_type n) (pn_inputs n) (pn_call n).

(** validation.py 50-57; [cnt] is validator_name_count. *)
Fixpoint validator_names (base : name) (cnt : dict nat) (vs : list validator) : list name :=
  match vs with
  | [] => []
  | vd :: vs' =>
      let nm := (base ++ "_" ++ vd_name vd)%string in
      let c := S (default 0 (dget cnt nm)) in
      (if decide (1 < c) then nm ++ "_" ++ pretty (c - 1) else nm)%string
        :: validator_names base (dset cnt nm c) vs'
  end.

(** validation.py 46-48 [validation_function]: its only keyword argument. *)
Definition validate_call (vd : validator) (kw : dict V) : res (nerr E) V :=
  match kw with
  | (_, v) :: _ => match vd_validate vd v with Ok r => Ok r | Err e => Err (NUser e) end
  | [] => Err (NKey "0")   (* IndexError *)
  end.
(** validation.py 58-71 *)
Definition validator_node (n : node) (nm : name) (vd : validator) : node :=
  PNode nm result_type [(raw_name n, (pn_type n, REQUIRED))] (validate_call vd).

(** validation.py 84-92: results of the validators of importance FAIL. *)
Fixpoint collect_failures (names : list name) (vmap : dict validator) (kw : dict V) : res (nerr E) (list (V * validator)) :=
  match names with
  | [] => Ok []
  | nm :: names' =>
      match dget vmap nm, dget kw nm with
      | Some vd, Some r =>
          match collect_failures names' vmap kw with
          | Ok fs => Ok (if vd_fail vd then (r, vd) :: fs else fs)   (* act_warn only logs *)
          | Err e => Err e
          end
      | _, _ => Err (NKey nm)
      end
  end.
(** validation.py 75-94 [final_node_callable] with data_quality/base.py 91-106
    [act_fail_bulk]; messages are reduced to the names of the validators. Functions called
    "validator" with a validator called "nodes" or "name_map" (whose names are those of
    the callable's own keyword parameters) are not modelled. *)
Definition final_call (raw : name) (names : list name) (vmap : dict validator) (kw : dict V) : res (nerr E) V :=
  match collect_failures names vmap kw with
  | Err e => Err e
  | Ok fs =>
      match filter (fun f => passes f.1 = false) fs with
      | [] => match dget kw raw with Some v => Ok v | None => Err (NKey raw) end
      | bad => Err (NValidation (map (fun f => vd_name f.2) bad))
      end
  end.
(** validation.py 96-109 *)
Definition final_node (n : node) (names : list name) (vmap : dict validator) : node :=
  PNode (pn_name n) (pn_type n)
    (dupd [(raw_name n, (pn_type n, REQUIRED))] (map (fun nm => (nm, (result_type, REQUIRED))) names))
    (final_call (raw_name n) names vmap).

(** validation.py 26-111 [transform_node]. *)
Definition check_output (vs : list validator) (n : node) : list node :=
  let names := validator_names (pn_name n) [] vs in
  zip_with (validator_node n) names vs ++ [final_node n names (dupd [] (zip names vs)); raw_node n].
End Check.
Arguments validator : clear implicits.
