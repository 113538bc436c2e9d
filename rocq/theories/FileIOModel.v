(** Loaders and savers of values in files, hamilton/io/default_data_loaders.py. *)
From Coq Require Import Ascii.
From Verif Require Import Base Dict.

(** What lines 14-152 raise: FileNotFoundError, TypeErrors of what cannot be saved, KeyErrors of the environment, files of another format *)
Inductive ioerr := IONone | IOType | IOKey | IOFormat.

(** Python's values as far as JSON tells them apart: keys of dictionaries are strings, numbers, booleans, None or
    others; [POther] are values JSON has no form for. Floats are left out. *)
Inductive pkey := PKStr (s : string) | PKNum (n : Z) | PKBool (b : bool) | PKNone | PKOther.
Inductive pv := PNone | PBool (b : bool) | PNum (n : Z) | PStr (s : string) | PList (l : list pv) | PTuple (l : list pv) | PDict (l : list (pkey * pv)) | POther.
(** JSON texts *)
Inductive jv := JNull | JBool (b : bool) | JNum (n : Z) | JStr (s : string) | JArr (l : list jv) | JObj (l : list (string * jv)).

Section FileIO.
(** Numbers as strings. [json] itself is not in /repo: what of it JSONDataSaver and JSONDataLoader (lines 14-49) use is
    modelled from here on, on trees in place of texts. *)
Variable show : Z -> string.
Definition json_key (k : pkey) : option string :=
  match k with
  | PKStr s => Some s
  | PKNum n => Some (show n)
  | PKBool b => Some (if b then "true" else "false")
  | PKNone => Some "null"
  | PKOther => None
  end.
(** [json.dump]: lists and tuples are arrays; None for a TypeError *)
Fixpoint json_dump (v : pv) : option jv :=
  match v with
  | PNone => Some JNull
  | PBool b => Some (JBool b)
  | PNum n => Some (JNum n)
  | PStr s => Some (JStr s)
  | PList l | PTuple l =>
      (fix go l := match l with [] => Some (JArr []) | v :: l => match json_dump v, go l with Some j, Some (JArr js) => Some (JArr (j :: js)) | _, _ => None end end) l
  | PDict l =>
      (fix go l := match l with
                   | [] => Some (JObj [])
                   | (k, v) :: l => match json_key k, json_dump v, go l with Some k, Some j, Some (JObj js) => Some (JObj ((k, j) :: js)) | _, _, _ => None end
                   end) l
  | POther => None
  end.
(** A key that is there is replaced in its place *)
Fixpoint pset (l : list (pkey * pv)) (k : string) (v : pv) : list (pkey * pv) :=
  match l with
  | [] => [(PKStr k, v)]
  | (PKStr k', v') :: l => if decide (k' = k) then (PKStr k', v) :: l else (PKStr k', v') :: pset l k v
  | kv :: l => kv :: pset l k v
  end.
(** [json.load] *)
Fixpoint json_load (j : jv) : pv :=
  match j with
  | JNull => PNone
  | JBool b => PBool b
  | JNum n => PNum n
  | JStr s => PStr s
  | JArr l => PList (map json_load l)
  | JObj l => PDict ((fix go l acc := match l with [] => acc | (k, j) :: l => go l (pset acc k (json_load j)) end) l [])
  end.

(** Reading text, with any ends of lines: "\r\n" and "\r" are read as "\n"; they are written as they are
    (on systems where lines end with "\n") *)
Definition cr : ascii := "013". Definition lf : ascii := "010".
Fixpoint read_text (s : string) : string :=
  match s with
  | EmptyString => EmptyString
  | String c s => if decide (c = cr) then String lf (match s with String c' s' => if decide (c' = lf) then read_text s' else read_text s | EmptyString => EmptyString end) else String c (read_text s)
  end.

(** ** Files, as lines 14-144 leave them: JSON, text, pickled values, and what is there when saving fails on the way.
    A file in one format is taken to be in none of the others, and the metadata that go with all of these are left out. *)
Inductive content := CJson (j : jv) | CText (s : string) | CPickle (v : pv) | CPiece.
Definition files := dict content.
(** default_data_loaders.py 33-49: the file is opened, and with that emptied, before data are dumped *)
Definition save_json (path : string) (v : pv) (fs : files) : res ioerr unit * files :=
  match json_dump v with Some j => (Ok tt, dset fs path (CJson j)) | None => (Err IOType, dset fs path CPiece) end.
(** 14-30 *)
Definition load_json (path : string) (fs : files) : res ioerr pv :=
  match dget fs path with None => Err IONone | Some (CJson j) => Ok (json_load j) | Some _ => Err IOFormat end.
(** 68-83: text that the encoding has. Lines 86-108, for bytes, are left out: there is no loader for them. *)
Definition save_text (path : string) (s : string) (fs : files) : files := dset fs path (CText s).
(** 52-65 *)
Definition load_text (path : string) (fs : files) : res ioerr string :=
  match dget fs path with None => Err IONone | Some (CText s) => Ok (read_text s) | Some _ => Err IOFormat end.
(** 111-144: what can be pickled comes back *)
Variable pickles : pv -> bool.
Definition save_pickle (path : string) (v : pv) (fs : files) : res ioerr unit * files :=
  if pickles v then (Ok tt, dset fs path (CPickle v)) else (Err IOType, dset fs path CPiece).
Definition load_pickle (path : string) (fs : files) : res ioerr pv :=
  match dget fs path with None => Err IONone | Some (CPickle v) => Ok v | Some _ => Err IOFormat end.
(** 147-152 [EnvVarDataLoader.load_data]: a comprehension, entering names from first to last *)
Fixpoint load_env_from (acc : dict string) (names : list string) (env : dict string) : res ioerr (dict string) :=
  match names with
  | [] => Ok acc
  | n :: names => match dget env n with None => Err IOKey | Some v => load_env_from (dset acc n v) names env end
  end.
Definition load_env := load_env_from [].
End FileIO.
