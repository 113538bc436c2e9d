(** Comparing schemas of dataframes: hamilton/plugins/h_schema.py. *)
From Coq Require Import Ascii.
From Verif Require Import Base Dict NodeModel DecorModel.

(** 19-30: [Diff]; the values that schema and diff dictionaries are made of: text, booleans, dictionaries, and
    [DiffResult]s. *)
Inductive diffk := ADDED | REMOVED | EQUAL | UNEQUAL.
Inductive py := PStr (s : string) | PBool (b : bool) | PDict (l : list (name * py)) | PDiff (d : diffk) (v : py).
(** [==]. The dictionaries compared here are made from maps in one order of the keys ([field_json], [meta_json]), so it does
    not matter that this looks at the order. *)
Fixpoint py_eqb (a b : py) {struct a} : bool :=
  match a, b with
  | PStr s, PStr t => bool_decide (s = t)
  | PBool x, PBool y => Bool.eqb x y
  | PDict l, PDict m =>
    (fix go (l m : list (name * py)) : bool :=
       match l, m with
       | [], [] => true
       | (k, x) :: l, (k', y) :: m => bool_decide (k = k') && py_eqb x y && go l m
       | _, _ => false
       end) l m
  | PDiff ADDED x, PDiff ADDED y | PDiff REMOVED x, PDiff REMOVED y | PDiff EQUAL x, PDiff EQUAL y | PDiff UNEQUAL x, PDiff UNEQUAL y => py_eqb x y
  | _, _ => false
  end.
Definition truthy (p : py) : bool :=
  match p with PStr s => negb (bool_decide (s = "")) | PBool b => b | PDict l => match l with [] => false | _ => true end | PDiff _ _ => true end.

(** pyarrow schemas: columns in order, each with its type (by its text), nullability and metadata; metadata of the schema.
    Simplification: the texts are not encoded as bytes. *)
Notation meta := (gmap name string).
Record field := Field { f_name : name; f_type : string; f_null : bool; f_meta : meta }.
Record schema := Schema { s_fields : list field; s_meta : meta }.
(** [Schema.equals(other, check_metadata)] *)
Definition field_equals (md : bool) (f g : field) : bool :=
  bool_decide (f_name f = f_name g) && bool_decide (f_type f = f_type g) && Bool.eqb (f_null f) (f_null g) &&
  (negb md || bool_decide (f_meta f = f_meta g)).
Fixpoint fields_equal (md : bool) (l m : list field) : bool :=
  match l, m with [], [] => true | f :: l, g :: m => field_equals md f g && fields_equal md l m | _, _ => false end.
Definition schema_equals (md : bool) (s t : schema) : bool :=
  fields_equal md (s_fields s) (s_fields t) && (negb md || bool_decide (s_meta s = s_meta t)).

(** AttributeError, KeyError, TypeError (of json.dumps), FileNotFoundError, RuntimeError (with the readable diff). *)
Inductive xc := XAttribute | XKeyError | XJson | XFile | XRuntime (d : list (name * py)).

(** 33-67 [_diff_mappings]. Simplification: the order of the keys, which is that of sets. *)
Definition cur_ref (c r : py) : py := PDict [("cur", c); ("ref", r)].
Definition diff_mappings (cur ref : dict py) : dict py :=
  omap (fun kv => match dget ref kv.1 with None => Some (kv.1, PDiff ADDED kv.2) | _ => None end) cur ++
  omap (fun kv => match dget cur kv.1 with None => Some (kv.1, PDiff REMOVED kv.2) | _ => None end) ref ++
  omap (fun kv => match dget ref kv.1 with
                  | Some r => Some (kv.1, if py_eqb kv.2 r then PDiff EQUAL kv.2 else PDiff UNEQUAL (cur_ref kv.2 r))
                  | None => None
                  end) cur.
(** 70 *)
Definition metadata_field : name := "__metadata".
(** 203-228 [pyarrow_schema_to_json]. *)
Definition meta_json (m : meta) : dict py := map (fun kv => (kv.1, PStr kv.2)) (map_to_list m).
Definition field_json (f : field) : py :=
  PDict [("name", PStr (f_name f)); ("type", PStr (f_type f)); ("nullable", PBool (f_null f)); ("metadata", PDict (meta_json (f_meta f)))].
Definition schema_json (s : schema) : dict py :=
  foldl (fun d f => dset d (f_name f) (field_json f))
    (if decide (s_meta s = ∅) then [] else [(metadata_field, PDict (meta_json (s_meta s)))]) (s_fields s).

(** [d.get(k, {})], and that it is used as a mapping *)
Definition get_map (d : dict py) (k : name) : res xc (dict py) :=
  match dget d k with Some (PDict l) => Ok l | None => Ok [] | Some _ => Err XAttribute end.
(** 116-141: the loop over the diff. *)
Definition refine (cf : bool) (c r : dict py) (kd : name * py) : res xc (name * py) :=
  match kd.2 with
  | PDiff UNEQUAL _ =>
    bindr (get_map c kd.1) (fun cl => bindr (get_map r kd.1) (fun rl =>
    let fd := diff_mappings cl rl in
    bindr (if cf then
             match dget fd "metadata" with
             | None => Err XKeyError
             | Some (PDiff EQUAL _) => Ok fd
             | Some _ => bindr (get_map cl "metadata") (fun cm => bindr (get_map rl "metadata") (fun rm =>
                         Ok (dset fd "metadata" (PDiff UNEQUAL (PDict (diff_mappings cm rm))))))
             end
           else Ok fd) (fun fd => Ok (kd.1, PDiff UNEQUAL (PDict fd)))))
  | _ => Ok kd
  end.
(** 74-153 [diff_schemas] *)
Definition diff_schemas (cs cf : bool) (cur ref : schema) : res xc (dict py) :=
  if schema_equals (cs || cf) cur ref then Ok []
  else
    let c := schema_json cur in
    let r := schema_json ref in
    bindr (mapr (refine cf c r) (diff_mappings c r)) (fun d =>
    if cs then bindr (get_map c metadata_field) (fun cm => bindr (get_map r metadata_field) (fun rm =>
               Ok (dset d metadata_field (PDiff UNEQUAL (PDict (diff_mappings cm rm))))))
    else Ok d).

(** 156-200 [human_readable_diff]. Simplification: the result is not sorted by key. *)
Fixpoint readable (p : py) {struct p} : res xc (dict py) :=
  match p with
  | PDict l =>
    (fix go (l : list (name * py)) (acc : dict py) {struct l} : res xc (dict py) :=
       match l with
       | [] => Ok acc
       | (k, r) :: l =>
         match r with
         | PDiff d v =>
           if decide (k = metadata_field) then
             match readable v with Ok m => go l (match m with [] => acc | _ => dset acc k (PDict m) end) | Err e => Err e end
           else match d with
                | EQUAL => go l acc
                | ADDED => go l (dset acc k (PStr "+"))
                | REMOVED => go l (dset acc k (PStr "-"))
                | UNEQUAL =>
                  match v with
                  | PDict vl =>
                    if (match dget vl "cur" with Some c => truthy c | None => false end) then go l (dset acc k v)
                    else match readable v with Ok m => go l (dset acc k (PDict m)) | Err e => Err e end
                  | _ => Err XAttribute
                  end
                end
         | _ => Err XAttribute
         end
       end) l []
  | _ => Err XAttribute
  end.
(** [json.dumps]: a [Diff] is not JSON. *)
Fixpoint is_json (p : py) : bool :=
  match p with
  | PStr _ | PBool _ => true
  | PDict l => (fix go (l : list (name * py)) : bool := match l with [] => true | (_, x) :: l => is_json x && go l end) l
  | PDiff _ _ => false
  end.

(** ** SchemaValidator, 366-477 *)
Record settings := Settings { st_check : bool; st_must_exist : bool; st_fail : bool; st_cs : bool; st_cf : bool }.
(** 412-419: [Path(dir, name).with_suffix(".schema")]: what follows the last dot of a name is replaced (unless the dot is
    the first or last character). *)
Fixpoint last_dot (s : string) (i : nat) : option nat :=
  match s with
  | EmptyString => None
  | String a s' => match last_dot s' (S i) with Some j => Some j | None => if Ascii.eqb a "."%char then Some i else None end
  end.
Definition stem (s : string) : string :=
  match last_dot s 0 with
  | Some i => if (0 <? i) && (i <? String.length s - 1) then substring 0 i s else s
  | None => s
  end.
Definition schema_path (n : name) : string := stem n +:+ ".schema".
(** What is kept: the files of the directory; the attributes [schemas] and [schema_diffs]; the warnings. *)
Record vstate := VState { v_files : gmap string schema; v_schemas : dict schema; v_diffs : dict (dict py); v_warned : list (name * dict py) }.
(** 435-473 [run_after_node_execution] for a result that is a dataframe; [s] is [get_dataframe_schema]'s (342-353), with the
    node's name, documentation and version as metadata. Simplification: the attributes after an exception. *)
Definition after_node (st : settings) (n : name) (s : schema) (v : vstate) : res xc vstate :=
  let v := VState (v_files v) (dset (v_schemas v) n s) (v_diffs v) (v_warned v) in
  let save := VState (<[schema_path n := s]> (v_files v)) (v_schemas v) (v_diffs v) (v_warned v) in
  if negb (st_check st) then Ok save
  else match v_files v !! schema_path n with
       | None => if st_must_exist st then Err XFile else Ok save
       | Some ref =>
         bindr (diff_schemas (st_cs st) (st_cf st) s ref) (fun d =>
         match d with
         | [] => Ok v
         | _ => bindr (readable (PDict d)) (fun m =>
                if is_json (PDict m) then
                  if st_fail st then Err (XRuntime m)
                  else Ok (VState (v_files v) (v_schemas v) (dset (v_diffs v) n d) (v_warned v ++ [(n, m)]))
                else Err XJson)
         end)
       end.
(** The nodes of an execution, in order. *)
Definition run_nodes (st : settings) (ns : list (name * schema)) (v : vstate) : res xc vstate :=
  foldr_ (fun ns => after_node st ns.1 ns.2) ns v.
