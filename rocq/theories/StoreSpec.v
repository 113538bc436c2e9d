(** Specification of metadata stores: what the answers of a store should be, read off the list
    of operations performed so far. *)
From Verif Require Import Base StoreModel.

(** The data version last set for a key, unless deleted since. *)
Definition latest (ops : list op) (k : ckey) : option dver :=
  foldl (fun acc o => match o with
    | OpSet k' d _ _ => if decide (k' = k) then Some d else acc
    | OpDelete k' => if decide (k' = k) then None else acc
    | OpDeleteAll => None
    | _ => acc end) None ops.

(** The data version first set for a key since it was last deleted. *)
Definition first_set (ops : list op) (k : ckey) : option dver :=
  foldl (fun acc o => match o with
    | OpSet k' d _ _ => if decide (k' = k) then Some (default d acc) else acc
    | OpDelete k' => if decide (k' = k) then None else acc
    | OpDeleteAll => None
    | _ => acc end) None ops.

(** The runs started, oldest first. *)
Definition started (ops : list op) : list runid :=
  omap (fun o => match o with OpInit r => Some r | _ => None end) ops.

(** The keys set for a run, in order. *)
Definition set_in (ops : list op) (r : runid) : list ckey :=
  omap (fun o => match o with OpSet k _ r' _ => if decide (r' = r) then Some k else None | _ => None end) ops.

(** Operations that only ask. *)
Definition asks (o : op) : bool :=
  match o with OpGet _ | OpExists _ | OpLen | OpRunIds | OpRun _ => true | _ => false end.

(** The right answer to a question, for a map [m] of the data versions, after operations. *)
Definition answers (m : ckey -> option dver) (ops : list op) (o : op) (a : out) : Prop :=
  match o with
  | OpGet k => a = OVer (m k)
  | OpExists k => a = OBool (match m k with Some _ => true | None => false end)
  | OpLen => exists ks, NoDup ks /\ (forall k, k ∈ ks <-> m k <> None) /\ a = ONat (length ks)
  | OpRunIds => a = OIds (started ops)
  | OpRun r =>
      if decide (r ∈ started ops)
      then exists ds, Forall2 (fun k d => m k = Some d) (set_in ops r) ds /\ a = ORun (zip (set_in ops r) ds)
      else a = OErr EIndex
  | _ => a = OUnit
  end.

(** Operations as the caching adapter performs them: every run is started once, before
    anything is set for it; keys can be decoded. *)
Definition orderly (decodable : ckey -> bool) (ops : list op) : Prop :=
  forall pre o post, ops = pre ++ o :: post ->
  match o with
  | OpInit r => r ∉ started pre
  | OpSet k _ r _ => r ∈ started pre /\ decodable k = true
  | OpDeleteAll => False
  | _ => True
  end.

(** No key is set to another data version than the one it has, only existing keys are
    deleted, and runs are only asked for while all their keys exist. *)
Definition consistent (ops : list op) : Prop :=
  forall pre o post, ops = pre ++ o :: post ->
  match o with
  | OpSet k d _ _ => latest pre k = None \/ latest pre k = Some d
  | OpDelete k => latest pre k <> None
  | OpRun r => forall k, k ∈ set_in pre r -> latest pre k <> None
  | _ => True
  end.
