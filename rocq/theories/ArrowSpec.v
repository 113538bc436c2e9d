(** What a comparison of schemas has to say. *)
From Verif Require Import Base Dict ArrowModel.

(** The same columns in the same order; with metadata if asked. *)
Definition same_schema (md : bool) (s t : schema) : Prop :=
  Forall2 (fun f g => f_name f = f_name g /\ f_type f = f_type g /\ f_null f = f_null g /\ (md = true -> f_meta f = f_meta g)) (s_fields s) (s_fields t) /\
  (md = true -> s_meta s = s_meta t).
(** Columns have different names, none "__metadata"; the text of a type is not empty. *)
Definition wf_schema (s : schema) : Prop :=
  NoDup (map f_name (s_fields s)) /\ metadata_field ∉ map f_name (s_fields s) /\ Forall (fun f => f_type f <> "") (s_fields s).
(** The column of a name. *)
Definition column_of (s : schema) (k : name) (f : field) : Prop := f ∈ s_fields s /\ f_name f = k.

(** A report: by keys, down to what is said there. *)
Inductive shown := Atom (p : py) | Keys (h : name -> option shown).
Fixpoint shows (s : shown) (p : py) : Prop :=
  match s with
  | Atom q => p = q
  | Keys h => exists l, p = PDict l /\ NoDup (dkeys l) /\
              forall k, match h k with Some s' => exists p', dget l k = Some p' /\ shows s' p' | None => dget l k = None end
  end.

Definition changed (c r : py) : shown := Atom (PDict [("cur", c); ("ref", r)]).
Definition added : shown := Atom (PStr "+").
Definition removed : shown := Atom (PStr "-").
(** What is to be said about two mappings of texts; about two columns of one name; about two schemas. *)
Definition text_report (c r : meta) (k : name) : option shown :=
  match c !! k, r !! k with
  | Some v, Some w => if decide (v = w) then None else Some (changed (PStr v) (PStr w))
  | Some _, None => Some added
  | None, Some _ => Some removed
  | None, None => None
  end.
Definition field_report (cf : bool) (f g : field) (a : name) : option shown :=
  if decide (a = "type") then if decide (f_type f = f_type g) then None else Some (changed (PStr (f_type f)) (PStr (f_type g)))
  else if decide (a = "nullable") then if decide (f_null f = f_null g) then None else Some (changed (PBool (f_null f)) (PBool (f_null g)))
  else if decide (a = "metadata") then
    if decide (f_meta f = f_meta g) then None
    else if cf then Some (Keys (text_report (f_meta f) (f_meta g)))
    else Some (changed (PDict (meta_json (f_meta f))) (PDict (meta_json (f_meta g))))
  else None.
Definition find_column (s : schema) (k : name) : option field := head (filter (fun f => f_name f = k) (s_fields s)).
Definition schema_report (cf : bool) (s t : schema) (k : name) : option shown :=
  if decide (k = metadata_field) then if decide (s_meta s = s_meta t) then None else Some (Keys (text_report (s_meta s) (s_meta t)))
  else match find_column s k, find_column t k with
       | Some f, Some g =>
         if decide (f_type f = f_type g /\ f_null f = f_null g /\ f_meta f = f_meta g) then None else Some (Keys (field_report cf f g))
       | Some _, None => Some added
       | None, Some _ => Some removed
       | None, None => None
       end.

(** What the report cannot show (see the refutations): a text that changed from "", metadata under the key "__metadata". *)
Definition showable (c r : meta) : Prop :=
  c !! metadata_field = None /\ r !! metadata_field = None /\ forall k v w, c !! k = Some v -> r !! k = Some w -> v <> w -> v <> "".
(** When the metadata of columns are compared, those of the schema do not stand in the way. *)
Definition apart (cf : bool) (s t : schema) : Prop := cf = true -> s_meta s = s_meta t \/ s_meta s = ∅ \/ s_meta t = ∅.
(** Nor can it show a column that is no longer nullable; metadata of a column that were nothing, or have the key "cur"; metadata of
    the schema that are not to be compared, unless they changed or there are none. *)
Definition tame (cs cf : bool) (s t : schema) : Prop :=
  showable (s_meta s) (s_meta t) /\ apart cf s t /\
  (cs = false -> (s_meta s = ∅ /\ s_meta t = ∅) \/ (s_meta s <> ∅ /\ s_meta t <> ∅ /\ s_meta s <> s_meta t)) /\
  forall k f g, column_of s k f -> column_of t k g ->
    (f_null f = false -> f_null g = false) /\
    (f_meta f <> f_meta g -> if cf then showable (f_meta f) (f_meta g) /\ f_meta f !! "cur" = None /\ f_meta g !! "cur" = None else f_meta f <> ∅).
(** The attributes in which two columns differ. *)
Definition differs (a : name) (f g : field) : Prop :=
  (a = "type" /\ f_type f <> f_type g) \/ (a = "nullable" /\ f_null f <> f_null g) \/ (a = "metadata" /\ f_meta f <> f_meta g).
