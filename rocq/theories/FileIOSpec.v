(** Values that JSON has as they are, independently of how it is written. *)
From Coq Require Import Ascii.
From Verif Require Import Base Dict FileIOModel.

Inductive as_is : pv -> Prop :=
| as_is_none : as_is PNone
| as_is_bool b : as_is (PBool b)
| as_is_num n : as_is (PNum n)
| as_is_str s : as_is (PStr s)
| as_is_list l : (forall v, v ∈ l -> as_is v) -> as_is (PList l)
| as_is_dict l : (forall k v, (k, v) ∈ l -> exists s, k = PKStr s) -> (forall k v, (k, v) ∈ l -> as_is v) -> as_is (PDict l).
(** Values of which JSON has a form *)
Inductive savable : pv -> Prop :=
| savable_none : savable PNone
| savable_bool b : savable (PBool b)
| savable_num n : savable (PNum n)
| savable_str s : savable (PStr s)
| savable_list l : (forall v, v ∈ l -> savable v) -> savable (PList l)
| savable_tuple l : (forall v, v ∈ l -> savable v) -> savable (PTuple l)
| savable_dict l : (forall k v, (k, v) ∈ l -> k <> PKOther) -> (forall k v, (k, v) ∈ l -> savable v) -> savable (PDict l).
(** Dictionaries have each key once *)
Inductive proper : pv -> Prop :=
| proper_none : proper PNone
| proper_bool b : proper (PBool b)
| proper_num n : proper (PNum n)
| proper_str s : proper (PStr s)
| proper_other : proper POther
| proper_list l : (forall v, v ∈ l -> proper v) -> proper (PList l)
| proper_tuple l : (forall v, v ∈ l -> proper v) -> proper (PTuple l)
| proper_dict l : NoDup (map fst l) -> (forall k v, (k, v) ∈ l -> proper v) -> proper (PDict l).
(** Texts without carriage returns *)
Definition no_returns (s : string) : Prop := forall a b, s <> (a ++ String "013" b)%string.
