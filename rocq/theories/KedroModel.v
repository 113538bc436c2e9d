(** Making a driver of Kedro pipelines, hamilton/plugins/h_kedro.py, with what it uses of
    hamilton/node.py [reassign_inputs] and hamilton/function_modifiers/expanders.py [extract_fields]. *)
From Verif Require Import Base Dict.

(** Exceptions: of users' functions; TypeErrors of calls; a missing field or key; what is missing in the inputs;
    functions without a return annotation; annotations that are no class; annotations @extract_fields refuses *)
Inductive kerr := KUser (s : string) | KType | KField | KKey | KMissing | KNoType | KNoClass | KInvalid | KFuel.

(** Return annotations: none; Tuple or tuple; Tuple[...]; Dict or dict; another class *)
Inductive ann := ANone | ATuple | ATupleOf | ADict | AOther.

Section Kedro.
Context {V : Type}.
(** The members of a tuple, a dictionary, and looking up a field in one *)
Variable members : V -> option (list V).
Variable mkdict : list (string * V) -> V.
Variable field : V -> string -> option V.

(** Functions: name, parameters with defaults, annotation, and what they return for all their arguments *)
Record kfun := KFun { kf_name : string; kf_params : list (string * option V); kf_ann : ann; kf_run : list V -> res kerr V }.
(** Kedro's nodes: inputs by position or by parameter; outputs none, one, a list, or by key of the dictionary returned *)
Inductive kin := KList (l : list string) | KMap (m : list (string * string)).
Inductive kout := ONone | OStr (d : string) | OList (l : list string) | ODict (m : list (string * string)).
Record knode := KNode { kn_fun : kfun; kn_inputs : kin; kn_outputs : kout }.
(** Kedro's [node.inputs] and [node.outputs] are lists, whatever was given: inputs in the order of the
    parameters they are bound to, and the names of the datasets *)
Definition inputs_of (n : knode) : list string :=
  match kn_inputs n with
  | KList l => l
  | KMap m => omap (fun p => dget m p.1) (kf_params (kn_fun n))
  end.
Definition outputs_of (n : knode) : list string :=
  match kn_outputs n with ONone => [] | OStr d => [d] | OList l => l | ODict m => map snd m end.

(** ** Hamilton's nodes: what is called, the parameters it asks for and which are optional, and the names given to them *)
Inductive hbody := HFun (f : kfun) (unpack : option (list string)) | HField (base name : string).
Record hnode := HNode { hn_name : string; hn_body : hbody; hn_rename : dict string }.
Definition params_of (b : hbody) : list (string * bool) :=
  match b with
  | HFun f _ => map (fun p => (p.1, match p.2 with Some _ => true | None => false end)) (kf_params f)
  | HField base _ => [(base, false)]
  end.
(** node.py 375-378: the inputs of the renamed node (as they are looked up by name, names that come twice do no
    harm here) *)
Definition renamed (r : dict string) (p : string) : string := default p (dget r p).
Definition needs (n : hnode) : list (string * bool) := map (fun p => (renamed (hn_rename n) p.1, p.2)) (params_of (hn_body n)).
(** node.py 365-368 [new_callable] *)
Definition reverse (r : dict string) : dict string := fold_left (fun d p => dset d p.2 p.1) r [].
Definition back (r : dict string) (kw : list (string * V)) : dict V := fold_left (fun d p => dset d (renamed (reverse r) p.1) p.2) kw [].
(** Calling a Python function with keywords *)
Fixpoint arguments (ps : list (string * option V)) (kw : dict V) : res kerr (list V) :=
  match ps with
  | [] => Ok []
  | (p, d) :: ps =>
      match dget kw p, d with
      | Some v, _ | None, Some v => match arguments ps kw with Ok vs => Ok (v :: vs) | Err e => Err e end
      | None, None => Err KType
      end
  end.
(** h_kedro.py 20-21 [_convert_output_from_tuple_to_dict]; expanders.py 829-838 [extractor_fn] *)
Definition call_body (b : hbody) (kw : dict V) : res kerr V :=
  match b with
  | HFun f unpack =>
      match arguments (kf_params f) kw with
      | Err e => Err e
      | Ok vs =>
          match kf_run f vs, unpack with
          | Err e, _ => Err e
          | Ok r, None => Ok r
          | Ok r, Some outs => match members r with Some l => Ok (mkdict (zip outs l)) | None => Err KType end
          end
      end
  | HField base name =>
      match dget kw base with
      | None => Err KKey
      | Some d => match field d name with Some v => Ok v | None => Err KField end
      end
  end.
Definition call (n : hnode) (kw : list (string * V)) : res kerr V := call_body (hn_body n) (back (hn_rename n) kw).

(** ** The conversion *)
(** h_kedro.py 78-79: [k_input.partition("params:")[-1]] *)
Definition clean (s : string) : string := if String.prefix "params:" s then String.substring 7 (String.length s - 7) s else s.
(** 76-81 *)
Definition new_params (n : knode) : dict string := zip (map fst (kf_params (kn_fun n))) (map clean (inputs_of n)).
(** 41-54: [node.outputs] being a list *)
Definition base_name (n : knode) : string := match outputs_of n with [d] => d | _ => kf_name (kn_fun n) end.
(** The annotation of a function, which conversions change (28); functions are told apart by their names *)
Definition annotation (anns : dict ann) (f : kfun) : ann := default (kf_ann f) (dget anns (kf_name f)).
(** 13-32 [expand_k_node]: what is unpacked, and the annotations afterwards *)
Definition expand_k_node (anns : dict ann) (f : kfun) (outs : list string) : res kerr (option (list string)) * dict ann :=
  match annotation anns f with
  | ANone => (Err KKey, anns)
  | ATupleOf => (Err KNoClass, anns)
  | AOther => (Err KInvalid, anns)
  | ATuple => (Ok (Some outs), dset anns (kf_name f) ADict)
  | ADict => (Ok None, anns)
  end.
(** 35-85 [k_node_to_h_nodes]; nodes cannot be made of functions without annotations (node.py 75-76) *)
Definition k_node_to_h_nodes (anns : dict ann) (n : knode) : res kerr (list hnode) * dict ann :=
  let f := kn_fun n in
  let r := new_params n in
  match annotation anns f with
  | ANone => (Err KNoType, anns)
  | _ =>
      match outputs_of n with
      | [] | [_] => (Ok [HNode (base_name n) (HFun f None) r], anns)
      | outs =>
          match expand_k_node anns f outs with
          | (Err e, anns) => (Err e, anns)
          | (Ok unpack, anns) => (Ok (HNode (base_name n) (HFun f unpack) r :: map (fun o => HNode o (HField (base_name n) o) r) outs), anns)
          end
      end
  end.
(** 109-118 [kedro_pipeline_to_driver]: the nodes by name. Checks of types of edges are not modelled (C49). *)
Fixpoint convert (anns : dict ann) (p : list knode) : res kerr (list hnode) * dict ann :=
  match p with
  | [] => (Ok [], anns)
  | n :: p =>
      match k_node_to_h_nodes anns n with
      | (Err e, anns) => (Err e, anns)
      | (Ok l, anns) => match convert anns p with (Err e, anns) => (Err e, anns) | (Ok l', anns) => (Ok (l ++ l'), anns) end
      end
  end.
Definition by_name (l : list hnode) : dict hnode := fold_left (fun d n => dset d (hn_name n) n) l [].

(** ** What the driver computes, by depth (that executing does it is C01) *)
Section Gather.
Variable value : string -> res kerr V.
Variable there : string -> bool.
Fixpoint gather (l : list (string * bool)) : res kerr (list (string * V)) :=
  match l with
  | [] => Ok []
  | (k, optional) :: l =>
      if optional && negb (there k) then gather l
      else match value k with
           | Err e => Err e
           | Ok v => match gather l with Ok kw => Ok ((k, v) :: kw) | Err e => Err e end
           end
  end.
End Gather.
Definition is_there (g : dict hnode) (given : dict V) (k : string) : bool :=
  match dget g k, dget given k with None, None => false | _, _ => true end.
Fixpoint hrun (fuel : nat) (g : dict hnode) (given : dict V) (k : string) : res kerr V :=
  match fuel with
  | 0 => Err KFuel
  | S fuel =>
      match dget g k with
      | None => match dget given k with Some v => Ok v | None => Err KMissing end
      | Some n => match gather (hrun fuel g given) (is_there g given) (needs n) with Err e => Err e | Ok kw => call n kw end
      end
  end.
End Kedro.
Arguments kfun : clear implicits.
Arguments knode : clear implicits.
Arguments hbody : clear implicits.
Arguments hnode : clear implicits.
