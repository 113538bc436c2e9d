(** Results stored in files, with savers and loaders: hamilton/caching/stores/file.py and StoredResult of base.py. *)
From Coq Require Import Ascii.
From Verif Require Import Base.

(** ValueErrors of [set] (file.py 63-87), errors of savers, files that cannot be loaded *)
Inductive rerr := RValue | RSave | RLoad.

(** [Path.with_suffix], used by file.py 47: what comes before the last dot, unless that is nothing or nothing comes after it *)
Fixpoint before_dot (s : string) : option string :=
  match s with
  | EmptyString => None
  | String c s => match before_dot s with Some p => Some (String c p) | None => if decide (c = "."%char) then Some EmptyString else None end
  end.
Definition stem (s : string) : string :=
  match before_dot s with Some p => if decide (p = "") then s else if decide (s = (p ++ ".")%string) then s else p | None => s end.

Section Results.
(** Values; those that are data loaders, with the data they load; formats are names of savers and loaders: saving a
    value and loading the file gives a value (C94 for JSON, text and pickles), or saving fails. Pickling is trusted to
    give values back. *)
Variables (V : Type) (loads : V -> option V) (format : string -> V -> option V).
(** Files, as base.py 203-211 makes them: pickled values, pickled loaders with their paths, files of savers with what loaders of that format read in
    them, files of savers that failed *)
Inductive content := CVal (v : V) | CLoader (fmt path : string) | CData (fmt : string) (v : V) | CPiece.
(** A saver's or loader's class, as file.py 72-87 looks at it: its name, and whether it takes `file` or `path` *)
Record adapter := Adapter { ad_name : string; ad_takes : bool }.

(** file.py 42-47 *)
Definition materialized_path (data_version : string) (saver : adapter) : string := (stem data_version ++ "." ++ ad_name saver)%string.
(** 54-97 with base.py 167-190, 203-211: the saver runs first, then the loader is pickled in its place *)
Definition set (data_version : string) (v : V) (saver loader : option adapter) (s : gmap string content) : res rerr unit * gmap string content :=
  match saver, loader with
  | None, None => (Ok tt, <[data_version := CVal v]> s)
  | Some sv, Some ld =>
      if ad_takes sv && ad_takes ld then
        let path := materialized_path data_version sv in
        match format (ad_name sv) v with
        | Some w => (Ok tt, <[data_version := CLoader (ad_name ld) path]> (<[path := CData (ad_name sv) w]> s))
        | None => (Err RSave, <[path := CPiece]> s)
        end
      else (Err RValue, s)
  | _, _ => (Err RValue, s)
  end.
(** base.py 192-194: when a stored result expires, if ever *)
Definition expired (now : nat) (expires_at : option nat) : bool := match expires_at with Some t => bool_decide (t <= now) | None => false end.
(** 34-40 with base.py 213-224: None for files that are not there, also where a loader's file is not. What is loaded is
    a new StoredResult, without a time it expires at. *)
Definition load_file (path : string) (s : gmap string content) : res rerr (option (V * option nat)) :=
  match s !! path with
  | None => Ok None
  | Some (CVal v) => match loads v with Some w => Ok (Some (w, None)) | None => Ok (Some (v, None)) end
  | Some (CLoader fmt p) =>
      match s !! p with
      | None => Ok None
      | Some (CData fmt' w) => if decide (fmt = fmt') then Ok (Some (w, None)) else Err RLoad
      | Some _ => Err RLoad
      end
  | Some _ => Err RLoad
  end.
(** 99-107; None is Python's None *)
Definition get (data_version : string) (s : gmap string content) : res rerr (option V) :=
  match load_file data_version s with Ok None => Ok None | Ok (Some (v, _)) => Ok (Some v) | Err e => Err e end.
(** 49-52 *)
Definition exists_ (data_version : string) (s : gmap string content) : bool := bool_decide (is_Some (s !! data_version)).
(** 109-112 *)
Definition delete_one (data_version : string) (s : gmap string content) : gmap string content := delete data_version s.
(** 114-117 *)
Definition delete_all (s : gmap string content) : gmap string content := ∅.
(** 119-123: loads one file of the directory after the other; False for an exception *)
Fixpoint expire (now : nat) (paths : list string) (s : gmap string content) : bool * gmap string content :=
  match paths with
  | [] => (true, s)
  | p :: paths =>
      match load_file p s with
      | Err _ => (false, s)
      | Ok None => expire now paths s
      | Ok (Some (_, e)) => expire now paths (if expired now e then delete p s else s)
      end
  end.
Definition delete_expired (now : nat) (s : gmap string content) : bool * gmap string content := expire now (map fst (map_to_list s)) s.

(** What may happen to a store *)
Inductive op := OSet (dv : string) (v : V) (saver loader : option adapter) | ODelete (dv : string) | ODeleteAll | OExpire (now : nat).
Definition step (o : op) (s : gmap string content) : gmap string content :=
  match o with OSet dv v sv ld => (set dv v sv ld s).2 | ODelete dv => delete_one dv s | ODeleteAll => delete_all s | OExpire now => (delete_expired now s).2 end.
Definition steps (ops : list op) (s : gmap string content) : gmap string content := foldl (fun s o => step o s) s ops.
End Results.
Arguments CVal {V}. Arguments CLoader {V}. Arguments CData {V}. Arguments CPiece {V}.
Arguments OSet {V}. Arguments ODelete {V}. Arguments ODeleteAll {V}. Arguments OExpire {V}.
