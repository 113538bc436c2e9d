(** Model of cache keys: hamilton/caching/cache_key.py.

    Python strings are modelled by Coq strings, i.e. sequences of characters with codes below
    256; [sorted] compares code points. Compression (zlib followed by base64) is outside the
    model: two functions [compress] and [decompress]. *)
From Coq Require Import Ascii.
From stdpp Require Import sorting.
From Verif Require Import Base Dict.

(** [a <= b] on Python strings: lexicographic by code point. *)
Fixpoint str_leb (a b : string) : bool :=
  match a, b with
  | EmptyString, _ => true
  | String _ _, EmptyString => false
  | String x a', String y b' =>
      if decide (x = y) then str_leb a' b' else (N_of_ascii x <? N_of_ascii y)%N
  end.
(** [p <= q] on Python tuples of two strings. *)
Definition pair_le (p q : string * string) : Prop :=
  if decide (p.1 = q.1) then Is_true (str_leb p.2 q.2) else Is_true (str_leb p.1 q.1).
Global Instance pair_le_dec : RelDecision pair_le.
Proof. intros p q. unfold pair_le. destruct (decide (p.1 = q.1)); apply _. Defined.

(** [str.isalnum] on one character, restricted to ASCII. Simplification: characters above 127
    (some of which are alphanumeric for Python) count as not alphanumeric. *)
Definition isalnum (c : ascii) : bool :=
  let n := N_of_ascii c in
  ((48 <=? n)%N && (n <=? 57)%N) || ((65 <=? n)%N && (n <=? 90)%N) || ((97 <=? n)%N && (n <=? 122)%N).

(** cache_key.py 51, the generator: keep alphanumeric characters and "_". *)
Fixpoint keep_safe (s : string) : string :=
  match s with
  | EmptyString => EmptyString
  | String c s' => if isalnum c || bool_decide (c = "_"%char) then String c (keep_safe s') else keep_safe s'
  end.
(** [str.isspace] on one ASCII character. *)
Definition isspace (c : ascii) : bool :=
  let n := N_of_ascii c in ((9 <=? n)%N && (n <=? 13)%N) || ((28 <=? n)%N && (n <=? 32)%N).
(** [s.rstrip()] *)
Fixpoint rstrip (s : string) : string :=
  match s with
  | EmptyString => EmptyString
  | String c s' =>
      match rstrip s' with
      | EmptyString => if isspace c then EmptyString else String c EmptyString
      | r => String c r
      end
  end.
(** cache_key.py 51 *)
Definition safe_name (s : string) : string := rstrip (keep_safe s).

(** [",".join(l)] *)
Fixpoint join (c : ascii) (l : list string) : string :=
  match l with
  | [] => EmptyString
  | [s] => s
  | s :: l' => s +:+ String c (join c l')
  end.
(** [s.split(c)]: never empty. *)
Fixpoint split (c : ascii) (s : string) : list string :=
  match s with
  | EmptyString => [EmptyString]
  | String x s' =>
      if decide (x = c) then EmptyString :: split c s'
      else match split c s' with
           | h :: t => String x h :: t
           | [] => [String x EmptyString]
           end
  end.
(** [s.partition(c)]: the parts before and after the first separator; if there is none,
    the whole string and the empty string. *)
Fixpoint partition (c : ascii) (s : string) : string * string :=
  match s with
  | EmptyString => (EmptyString, EmptyString)
  | String x s' =>
      if decide (x = c) then (EmptyString, s')
      else let '(a, b) := partition c s' in (String x a, b)
  end.

(** cache_key.py 15: the interleaved tuple of the items. *)
Fixpoint interleave (l : list (string * string)) : list string :=
  match l with
  | [] => []
  | (k, v) :: l' => k :: v :: interleave l'
  end.
(** cache_key.py 14-16 *)
Definition encode_str_dict (d : dict string) : string :=
  join ","%char (interleave (merge_sort pair_le d)).

(** cache_key.py 21-24: the loop; an odd number of parts raises IndexError ([None]). *)
Fixpoint decode_pairs (d : dict string) (l : list string) : option (dict string) :=
  match l with
  | [] => Some d
  | [_] => None
  | k :: v :: l' => decode_pairs (dset d k v) l'
  end.
(** cache_key.py 19-24 *)
Definition decode_str_dict (s : string) : option (dict string) :=
  decode_pairs [] (split ","%char s).

Section Key.
(** cache_key.py 6-7, 10-11. [decompress] raises ([None]) on strings that are not the
    compression of anything. *)
Variable compress : string -> string.
Variable decompress : string -> option string.

(** cache_key.py 43-53 *)
Definition create_cache_key (node_name code_version : string) (deps : dict string) : string :=
  let stringified := match deps with [] => "<none>" | _ => encode_str_dict deps end in
  safe_name node_name +:+ String "-" (code_version +:+ String "-" (compress stringified)).

(** cache_key.py 27-40; [None]: an exception. *)
Definition decode_key (cache_key : string) : option (string * string * dict string) :=
  let '(node_name, rest) := partition "-"%char cache_key in
  let '(code_version, dep_encoded) := partition "-"%char rest in
  match decompress dep_encoded with
  | None => None
  | Some s =>
      if decide (s = "<none>") then Some (node_name, code_version, [])
      else match decode_str_dict s with
           | None => None
           | Some d => Some (node_name, code_version, d)
           end
  end.
End Key.
