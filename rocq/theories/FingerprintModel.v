(** Model of data versions: hamilton/caching/fingerprinting.py. *)
From Coq Require Import Ascii.
From stdpp Require Import sorting pretty.
From Verif Require Import Base Dict CacheKeyModel.

(** Python values, as far as [hash_value] distinguishes them.
    - [VFloat r]: a float, given by [r = str(f)];
    - [VSeq is_tuple l]: a list or a tuple;
    - [VDict l]: a dictionary in iteration order;
    - [VSet l]: a set in iteration order;
    - [VObj cls attrs]: an instance of class [cls] with non-empty [__dict__] [attrs];
    - [VStd id r]: an object without [__dict__] from a built-in module or [datetime], with
      representation [r];
    - [VOpaque id]: any other object;
    - [VArray meta b]: a numpy array with shape/dtype [meta] and raw data [b].
    Not modelled: pandas and polars objects, subclasses of the registered types. *)
Inductive val :=
| VNone
| VStr (s : string)
| VInt (z : Z)
| VBool (b : bool)
| VFloat (r : string)
| VBytes (s : string)
| VSeq (is_tuple : bool) (l : list val)
| VDict (l : list (val * val))
| VSet (l : list val)
| VObj (cls : string) (attrs : list (val * val))
| VStd (id r : string)
| VOpaque (id : string)
| VArray (meta b : string).

(** [str(obj)] of the primitive types of fingerprinting.py 120-130. *)
Definition text_int (z : Z) : string := pretty z.
Definition text_bool (b : bool) : string := if b then "True" else "False".

(** [a <= b] on strings as a relation, for [sorted]. *)
Definition str_le (a b : string) : Prop := Is_true (str_leb a b).
Global Instance str_le_dec : RelDecision str_le.
Proof. intros a b. unfold str_le. apply _. Defined.

(** fingerprinting.py 40-41 *)
Definition UNHASHABLE : string := "<unhashable>".
Definition NONE_HASH : string := "<none>".

(** successive [update] calls of a hash object: the concatenation of the pieces. *)
Fixpoint concat_s (l : list string) : string :=
  match l with [] => EmptyString | s :: l' => s +:+ concat_s l' end.

Section Hash.
(** The compacted digests ([_compact_hash], fingerprinting.py 54-60) of the md5 and sha224
    hash functions. *)
Variable md5 sha224 : string -> string.
(** fingerprinting.py 39, 44-50 *)
Variable max_depth : nat.

(** fingerprinting.py 156-178, after the keys and values have been hashed: [items] are the
    pairs of hashes in iteration order. *)
Definition hash_items (items : list (string * string)) : string :=
  let hashed_mapping := foldl (fun d p => dset d p.1 p.2) [] items in
  sha224 (concat_s (interleave (merge_sort pair_le hashed_mapping))).

(** fingerprinting.py 63-94 (default), 97-103, 106-115, 118-130, 133-140, 143-153,
    181-203 (with [ignore_order = True]), 212-227, 258-271. *)
Fixpoint hash_value (depth : nat) (v : val) {struct v} : string :=
  match v with
  | VNone => NONE_HASH
  | VStr s => md5 s
  | VInt z => md5 (text_int z)
  | VBool b => md5 (text_bool b)
  | VFloat r => md5 r
  | VBytes s => md5 s
  | VSeq _ l => sha224 (concat_s (map (hash_value (S depth)) l))
  | VDict l => hash_items (map (fun '(k, w) => (hash_value (S depth) k, hash_value (S depth) w)) l)
  | VSet l => sha224 (concat_s (merge_sort str_le (map (hash_value (S depth)) l)))
  | VObj _ attrs =>
      if (max_depth <? depth)%nat then UNHASHABLE
      else (* hash_value(obj.__dict__, depth=depth + 1) *)
        hash_items (map (fun '(k, w) => (hash_value (S (S depth)) k, hash_value (S (S depth)) w)) attrs)
  | VStd _ r => if (max_depth <? depth)%nat then UNHASHABLE else md5 r
  | VOpaque _ => UNHASHABLE
  | VArray _ b => md5 b
  end.
End Hash.
