(** Dataflows from the hub: hamilton/dataflows/__init__.py. That each function sends an event first
    is in [TelemModel]. Versions, users and dataflows are taken to be plain names (no separators,
    not "." or ".."). *)
From Coq Require Import Ascii ZArith.
From stdpp Require Import pretty gmap.
From Verif Require Import Base Dict GraphModel.

(** ** The file system *)
Notation path := (list string).
Inductive entry := EDir | EFile (content : string).
Notation fsys := (gmap path entry).
Inductive err := EExists | ENotFound (file : string) | EStatus (code : nat) | ENoCommit | EOs | EAttribute | ENotLocal.
(** [os.path.exists], [os.path.isfile], [os.listdir] (in no particular order; [None]: an OSError) *)
Definition fexists (fs : fsys) (p : path) : bool := bool_decide (is_Some (fs !! p)).
Definition isfile (fs : fsys) (p : path) : bool := match fs !! p with Some (EFile _) => true | _ => false end.
Definition under (p q : path) : option path := if decide (take (length p) q = p) then Some (drop (length p) q) else None.
Definition children (fs : fsys) (p : path) : list string := omap (fun e : path * entry => match under p e.1 with Some [n] => Some n | _ => None end) (map_to_list fs).
Definition listdir (fs : fsys) (p : path) : option (list string) := match fs !! p with Some EDir => Some (children fs p) | _ => None end.
(** [os.makedirs(..., exist_ok=True)] *)
Definition mkdir (fs : fsys) (q : path) : res err unit * fsys :=
  match fs !! q with Some EDir => (Ok tt, fs) | Some (EFile _) => (Err EOs, fs) | None => (Ok tt, <[q := EDir]> fs) end.
Fixpoint mkdirs (fs : fsys) (qs : list path) : res err unit * fsys :=
  match qs with
  | [] => (Ok tt, fs)
  | q :: qs => match mkdir fs q with (Ok _, fs') => mkdirs fs' qs | (Err e, fs') => (Err e, fs') end
  end.
Definition prefixes (p : path) : list path := map (fun k => take k p) (seq 1 (length p)).
Definition makedirs (fs : fsys) (p : path) : res err unit * fsys := mkdirs fs (prefixes p).
(** [open(..., "w")] and [write], in a directory that exists *)
Definition write (fs : fsys) (p : path) (c : string) : res err unit * fsys :=
  match fs !! p with Some EDir => (Err EOs, fs) | _ => (Ok tt, <[p := EFile c]> fs) end.
(** [shutil.rmtree] *)
Definition rmtree (fs : fsys) (p : path) : fsys := filter (fun e => under p e.1 = None) fs.

(** ** Text *)
(** [text[text.find(pat) + len(pat):]]; [None]: not found *)
Fixpoint sdrop (n : nat) (s : string) : string := match n, s with S n, String _ s => sdrop n s | _, _ => s end.
Fixpoint after (pat s : string) : option string :=
  if String.prefix pat s then Some (sdrop (String.length pat) s)
  else match s with EmptyString => None | String _ s' => after pat s' end.
(** [s.find(c)] *)
Fixpoint find_char (c : ascii) (s : string) : option nat :=
  match s with EmptyString => None | String a s => if decide (a = c) then Some 0 else S <$> find_char c s end.
Fixpoint stake (n : nat) (s : string) : string := match n, s with S n, String a s => String a (stake n s) | _, _ => EmptyString end.
(** [s[: s.find(c)]]; [find] returns -1 if there is none, which stands for the last. *)
Definition until (c : ascii) (s : string) : string := match find_char c s with Some n => stake n s | None => stake (String.length s - 1) s end.
Definition endswith (suffix s : string) : bool :=
  bool_decide (String.length suffix <= String.length s) && bool_decide (sdrop (String.length s - String.length suffix) s = suffix).

(** ** What is on the hub *)
(** [commits user dataflow]: answer to the request of 145-149; [files version user dataflow file]: to
    that of 206-211. A status and a text each; [_get_request] 80-92. *)
Record hub := Hub { commits : option string -> string -> nat * string; files : string -> option string -> string -> string -> nat * string }.
(** [if user:] *)
Definition user_of (user : option string) : option string := match user with Some "" => None | u => u end.
(** 136-160 [latest_commit] *)
Definition latest_commit (h : hub) (dataflow : string) (user : option string) : res err string :=
  let '(status, text) := commits h (user_of user) dataflow in
  if decide (status <> 200) then Err (EStatus status)
  else match after "[commit::" text with None => Err ENoCommit | Some commit => Ok (until "]"%char commit) end.
Definition resolve (h : hub) (dataflow : string) (user : option string) (version : string) : res err string :=
  if decide (version = "latest") then latest_commit h dataflow user else Ok version.

Section Hub.
(** DATAFLOW_FOLDER *)
Variable folder : path.
(** 39-43 [USER_PATH], [OFFICIAL_PATH] *)
Definition local_path (version : string) (user : option string) (dataflow : string) : path :=
  folder ++ [version; "contrib"; "hamilton"; "contrib"] ++ match user with Some u => ["user"; u; dataflow] | None => ["dagworks"; dataflow] end.
Definition h_files : list string := ["__init__.py"; "requirements.txt"; "README.md"; "valid_configs.jsonl"; "tags.json"].

(** 205-223 *)
Fixpoint fetch (h : hub) (version : string) (user : option string) (dataflow : string) (hs : list string) (fs : fsys) : res err unit * fsys :=
  match hs with
  | [] => (Ok tt, fs)
  | f :: hs =>
      let '(status, text) := files h version user dataflow f in
      if decide (status = 404) then (Err (ENotFound f), fs)
      else if decide (status <> 200) then (Err (EStatus status), fs)
      else match write fs (local_path version user dataflow ++ [f]) text with
           | (Ok _, fs') => fetch h version user dataflow hs fs'
           | (Err e, fs') => (Err e, fs')
           end
  end.
(** 164-223 [pull_module] with the version resolved *)
Definition pull (h : hub) (version : string) (user : option string) (dataflow : string) (overwrite : bool) (fs : fsys) : res err unit * fsys :=
  if fexists fs (local_path version user dataflow) && negb overwrite then (Err EExists, fs)
  else match makedirs fs (local_path version user dataflow) with
       | (Ok _, fs') => fetch h version user dataflow h_files fs'
       | (Err e, fs') => (Err e, fs')
       end.
Definition pull_module (h : hub) (dataflow : string) (user : option string) (version : string) (overwrite : bool) (fs : fsys) : res err unit * fsys :=
  match resolve h dataflow user version with Ok v => pull h v (user_of user) dataflow overwrite fs | Err e => (Err e, fs) end.

(** 227-281 [import_module]; [loaded]: [sys.modules], with the [__version__] of each if it has one.
    A module: its source and version. Executing it is left out. *)
Definition import_module (h : hub) (dataflow : string) (user : option string) (version : string) (overwrite : bool) (fs : fsys) (loaded : dict (option string)) :
  res err (string * string) * fsys * dict (option string) :=
  match resolve h dataflow user version with
  | Err e => (Err e, fs, loaded)
  | Ok v =>
      let file := local_path v (user_of user) dataflow ++ ["__init__.py"] in
      let '(r, fs') := if negb (fexists fs file) || overwrite then pull h v (user_of user) dataflow overwrite fs else (Ok tt, fs) in
      match r with
      | Err e => (Err e, fs', loaded)
      | Ok _ =>
          match dget loaded dataflow with
          | Some None => (Err EAttribute, fs', loaded)
          | _ => match fs' !! file with
                 | Some (EFile src) => (Ok (src, v), fs', dset loaded dataflow (Some v))
                 | _ => (Err EOs, fs', dset loaded dataflow (Some v))
                 end
          end
      end
  end.

(** 96-102 [clear_storage] *)
Definition clear_storage (fs : fsys) : fsys := if fexists fs folder then rmtree fs folder else fs.

(** 520-561 [list] and 565-610 [find]: the directories of users that are looked into; [None]: an
    OSError *)
Definition hidden (n : string) : bool := String.prefix "." n.
Definition wanted (want : option string) (n : string) : bool := match user_of want with Some w => bool_decide (n = w) | None => true end.
Definition dirs (fs : fsys) (p : path) (want : option string) (ns : list string) : list string :=
  filter (fun n => wanted want n && negb (isfile fs (p ++ [n])) && negb (hidden n) = true) ns.
Fixpoint traverse {A B} (f : A -> option (list B)) (l : list A) : option (list B) :=
  match l with
  | [] => Some []
  | x :: l => match f x with Some r => match traverse f l with Some rs => Some (r ++ rs) | None => None end | None => None end
  end.
Definition user_dir (ci : string) : path := folder ++ [ci; "contrib"; "hamilton"; "contrib"; "user"].
(** the candidates, before those that are files or hidden are left out *)
Definition candidates (fs : fsys) (version user : option string) : option (list (string * string * string)) :=
  match listdir fs folder with
  | None => None
  | Some cis =>
      traverse (fun ci =>
        match listdir fs (user_dir ci) with
        | None => None
        | Some usrs =>
            traverse (fun usr =>
              match listdir fs (user_dir ci ++ [usr]) with
              | None => None
              | Some dfs => Some (map (fun df => (ci, usr, df)) dfs)
              end) (dirs fs (user_dir ci) user usrs)
        end) (dirs fs folder version cis)
  end.
Definition listed (fs : fsys) (version user : option string) : option (list (string * string * string)) :=
  let version := match version with Some "latest" => Some "main" | v => v end in
  if fexists fs folder then
    match candidates fs version user with
    | None => None
    | Some l => Some (filter (fun x => negb (isfile fs (user_dir x.1.1 ++ [x.1.2; x.2])) && negb (hidden x.2) = true) l)
    end
  else Some [].
(** 595-608: some file below, at any depth *)
Definition searched (file : string) : bool := String.prefix "." file || endswith ".py" file || endswith ".md" file.
Definition matches (fs : fsys) (query : string) (x : string * string * string) : bool :=
  existsb (fun e : path * entry =>
    match under (user_dir x.1.1 ++ [x.1.2; x.2]) e.1, e.2 with
    | Some (n :: ns), EFile c => searched (List.last (n :: ns) "") && str_contains query c
    | _, _ => false
    end) (map_to_list fs).
Definition find (fs : fsys) (query : string) (version user : option string) : option (list (string * string * string)) :=
  if fexists fs folder then filter (fun x => matches fs query x = true) <$> candidates fs version user else Some [].

(** 456-516 [are_py_dependencies_satisfied]; [lines]: those of the requirements, stripped;
    [installed]: whether there is a distribution of that name *)
Definition version_marker (line : string) : option nat :=
  match find_char "="%char line, find_char "<"%char line, find_char ">"%char line with
  | Some e, Some l, Some g => let m := Nat.min e (Nat.min l g) in if decide (0 < m) then Some m else None
  | _, _, _ => None
  end.
Definition package_name (line : string) : string := match version_marker line with Some m => stake m line | None => line end.
Definition satisfied (installed : string -> bool) (lines : list string) : bool := forallb (fun l => installed (package_name l)) lines.

(** 614-664 [copy]; [src]: the file of the module, [name]: the last component of its name *)
Definition copy (fs : fsys) (src : path) (name : string) (dest : path) (overwrite : bool) (renamed : option string) : res err unit * fsys :=
  match fs !! src with
  | None => (Err ENotLocal, fs)
  | Some e =>
      let dest := dest ++ [default name (user_of renamed)] in
      let '(r, fs') := if fexists fs dest then (Ok tt, fs) else makedirs fs dest in
      match r with
      | Err e => (Err e, fs')
      | Ok _ =>
          if fexists fs' (dest ++ ["__init__.py"]) && negb overwrite then (Err EExists, fs')
          else if decide (src = dest ++ ["__init__.py"]) then (Err EOs, fs')
          else match e with EFile c => write fs' (dest ++ ["__init__.py"]) c | EDir => (Err EOs, fs') end
      end
  end.
End Hub.

(** ** The commit of a branch *)
(** 106-132 [resolve_latest_branch_commit] with [last_time_called] and [last_resolve_value]. Times are
    whole nanoseconds; a call: the branch, the time at 119, the answer of the server (the status or
    the commit) and the time at 130. *)
Record rcall := RCall { rc_branch : string; rc_before : Z; rc_answer : res nat string; rc_after : Z }.
Definition minute : Z := 60 * 1000000000.
Definition resolve_call (cache : option (Z * string)) (c : rcall) : res nat string * option (Z * string) :=
  match cache with
  | Some (t, v) => if decide (rc_before c < t + minute)%Z then (Ok v, cache)
                   else match rc_answer c with Ok v => (Ok v, Some (rc_after c, v)) | Err e => (Err e, cache) end
  | None => match rc_answer c with Ok v => (Ok v, Some (rc_after c, v)) | Err e => (Err e, cache) end
  end.
Fixpoint resolve_calls (cache : option (Z * string)) (cs : list rcall) : list (res nat string) :=
  match cs with [] => [] | c :: cs => let '(r, cache) := resolve_call cache c in r :: resolve_calls cache cs end.
