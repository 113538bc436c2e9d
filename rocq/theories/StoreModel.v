(** Model of the metadata and result stores: hamilton/caching/stores/memory.py, sqlite.py
    and file.py. *)
From Verif Require Import Base Dict.

Notation ckey := string (only parsing).
Notation dver := string (only parsing).
Notation runid := string (only parsing).

(** Operations of a MetadataStore, stores/base.py 81-131. [decoded] of [OpSet]: node name and
    code version are given (as by the caching adapter); otherwise they are decoded from the
    key. *)
Inductive op :=
| OpInit (r : runid)
| OpSet (k : ckey) (d : dver) (r : runid) (decoded : bool)
| OpGet (k : ckey)
| OpExists (k : ckey)
| OpDelete (k : ckey)
| OpDeleteAll
| OpLen
| OpRunIds
| OpRun (r : runid).

Inductive storeerr := EKey | EIndex | ENoTable | EDecode.
(** What an operation returns. For [get_run]: the pairs of cache key and data version. *)
Inductive out :=
| OUnit
| OVer (o : option dver)
| OBool (b : bool)
| ONat (n : nat)
| OIds (l : list runid)
| ORun (l : list (ckey * dver))
| OErr (e : storeerr).

Section Stores.
(** [cache_key.decode_key] does not raise on this key. *)
Variable decodable : ckey -> bool.

(** memory.py 16-19 *)
Record mstore := MStore {
  ms_dv : gmap ckey dver;             (* _data_versions *)
  ms_runs : dict (list ckey);         (* _cache_keys_by_run *)
  ms_ids : list runid;                (* _run_ids *)
}.
Definition mem_empty : mstore := MStore ∅ [] [].

(** memory.py 151-162: the loop of [get_run]. *)
Fixpoint mem_rows (dv : gmap ckey dver) (ks : list ckey) : storeerr + list (ckey * dver) :=
  match ks with
  | [] => inr []
  | k :: ks' =>
      if decodable k then
        match dv !! k with
        | None => inl EKey
        | Some d => match mem_rows dv ks' with inl e => inl e | inr l => inr ((k, d) :: l) end
        end
      else inl EDecode
  end.

Definition mem_step (s : mstore) (o : op) : mstore * out :=
  match o with
  | OpInit r => (MStore (ms_dv s) (dset (ms_runs s) r []) (ms_ids s ++ [r]), OUnit)       (* 32-35 *)
  | OpSet k d r _ =>                                                                       (* 38-41 *)
      let dv := <[k := d]> (ms_dv s) in
      match dget (ms_runs s) r with
      | None => (MStore dv (ms_runs s) (ms_ids s), OErr EKey)
      | Some ks => (MStore dv (dset (ms_runs s) r (ks ++ [k])) (ms_ids s), OUnit)
      end
  | OpGet k => (s, OVer (ms_dv s !! k))                                                    (* 44-46 *)
  | OpExists k => (s, OBool (bool_decide (is_Some (ms_dv s !! k))))                        (* 27-29 *)
  | OpDelete k =>                                                                          (* 49-51 *)
      match ms_dv s !! k with
      | None => (s, OErr EKey)
      | Some _ => (MStore (delete k (ms_dv s)) (ms_runs s) (ms_ids s), OUnit)
      end
  | OpDeleteAll => (MStore ∅ (ms_runs s) (ms_ids s), OUnit)                                (* 54-56 *)
  | OpLen => (s, ONat (size (ms_dv s)))                                                    (* 22-24 *)
  | OpRunIds => (s, OIds (ms_ids s))                                                       (* 141-143 *)
  | OpRun r =>                                                                             (* 146-164 *)
      (s, match dget (ms_runs s) r with
          | None => OErr EIndex
          | Some ks => match mem_rows (ms_dv s) ks with inl e => OErr e | inr l => ORun l end
          end)
  end.

(** sqlite.py 58-104: the three tables; [sq_ok] is false after they have been dropped. The
    columns node_name and code_version of cache_metadata, which are functions of the key, and
    the timestamps are left out. *)
Record sqstore := SqStore {
  sq_ok : bool;
  sq_meta : gmap ckey dver;           (* cache_metadata *)
  sq_hist : list (ckey * runid);      (* history *)
  sq_ids : list runid;                (* run_ids *)
}.
Definition sq_empty : sqstore := SqStore true ∅ [] [].

(** sqlite.py 244-256: the join of history and cache_metadata. Simplification: rows come in
    the order of the history (there is no ORDER BY). *)
Definition sq_rows (s : sqstore) (r : runid) : list (ckey * dver) :=
  omap (fun p : ckey * runid => if decide (p.2 = r) then option_map (pair p.1) (sq_meta s !! p.1) else None) (sq_hist s).

Definition sq_step (s : sqstore) (o : op) : sqstore * out :=
  match o with
  | OpDeleteAll => (SqStore false ∅ [] [], OUnit)                                          (* 184-191 *)
  | OpSet k d r decoded =>                                                                 (* 120-157 *)
      if decoded || decodable k then
        if sq_ok s then
          (SqStore true (match sq_meta s !! k with Some _ => sq_meta s | None => <[k := d]> (sq_meta s) end)
             (sq_hist s ++ [(k, r)]) (sq_ids s), OUnit)
        else (s, OErr ENoTable)
      else (s, OErr EDecode)
  | _ =>
      if sq_ok s then
        match o with
        | OpInit r => (SqStore true (sq_meta s) (sq_hist s) (sq_ids s ++ [r]), OUnit)      (* 106-112 *)
        | OpGet k => (s, OVer (sq_meta s !! k))                                            (* 159-176 *)
        | OpDelete k => (SqStore true (delete k (sq_meta s)) (sq_hist s) (sq_ids s), OUnit)  (* 178-182 *)
        | OpExists k => (s, OBool (bool_decide (is_Some (sq_meta s !! k))))                (* 193-201 *)
        | OpLen => (s, ONat (size (sq_meta s)))                                            (* 114-118 *)
        | OpRunIds => (s, OIds (sq_ids s))                                                 (* 203-209 *)
        | OpRun r =>                                                                       (* 230-266 *)
            (s, if decide (r ∈ sq_ids s) then ORun (sq_rows s r) else OErr EIndex)
        | _ => (s, OUnit)
        end
      else (s, OErr ENoTable)
  end.

(** A sequence of operations: final state and outputs. *)
Fixpoint exec {S} (step : S -> op -> S * out) (s : S) (ops : list op) : S * list out :=
  match ops with
  | [] => (s, [])
  | o :: ops' => let '(s', r) := step s o in let '(s'', l) := exec step s' ops' in (s'', r :: l)
  end.

(** memory.py 58-98, [persist_to]: the operations performed on the target, until a data
    version is missing (KeyError, [false]). *)
Fixpoint persist_keys (dv : gmap ckey dver) (r : runid) (ks : list ckey) : list op * bool :=
  match ks with
  | [] => ([], true)
  | k :: ks' =>
      match dv !! k with
      | None => ([], false)
      | Some d => let '(l, b) := persist_keys dv r ks' in (OpSet k d r false :: l, b)
      end
  end.
Fixpoint persist_runs (dv : gmap ckey dver) (runs : dict (list ckey)) : list op * bool :=
  match runs with
  | [] => ([], true)
  | (r, ks) :: runs' =>
      match persist_keys dv r ks with
      | (l, false) => (l, false)
      | (l, true) => let '(l', b) := persist_runs dv runs' in (l ++ l', b)
      end
  end.
Definition persist_ops (s : mstore) : list op * bool :=
  let '(l, b) := persist_runs (ms_dv s) (ms_runs s) in (map OpInit (ms_ids s) ++ l, b).

(** memory.py 100-138, [load_from] a SQLite store: the operations on the new in-memory store.
    [get_run] does not raise, because the run ids come from the table. *)
Definition load_ops (s : sqstore) : list op :=
  concat (map (fun r => OpInit r :: map (fun p => OpSet p.1 p.2 r false) (sq_rows s r)) (sq_ids s)).
End Stores.

(** ** Result stores *)
Section Results.
Context {V : Type}.
(** Python's None *)
Variable none : V.

(** [_results] of InMemoryResultStore (memory.py 167-169; the adapter never sets an expiration), or the
    pickled files of FileResultStore (file.py 16-123) without savers: a map from data versions
    to values. *)
Notation rstore := (gmap dver V).

Definition r_exists (s : rstore) (d : dver) : bool := bool_decide (is_Some (s !! d)).    (* memory.py 172-173, file.py 50-52 *)
Definition r_set (s : rstore) (d : dver) (v : V) : rstore := <[d := v]> s.                (* memory.py 177-178, file.py 55-97 *)
Definition r_get (s : rstore) (d : dver) : V := default none (s !! d).                    (* memory.py 181-186, file.py 100-107 *)
(** memory.py 189-190: KeyError for an unknown version; file.py 110-112: nothing happens. *)
Definition r_delete_mem (s : rstore) (d : dver) : option rstore :=
  match s !! d with None => None | Some _ => Some (delete d s) end.
Definition r_delete_file (s : rstore) (d : dver) : rstore := delete d s.

(** memory.py 208-218, [persist_to] *)
Definition r_persist (s target : rstore) : rstore :=
  foldl (fun t p => r_set t p.1 p.2) target (map_to_list s).
(** memory.py 220-279, [load_from]: [vs] are the given data versions and those of the runs of
    the metadata store (a Python set; its order does not matter, every version is set once). *)
Definition r_load (s : rstore) (vs : list dver) : rstore :=
  foldl (fun t d => r_set t d (r_get s d)) ∅ vs.
End Results.
