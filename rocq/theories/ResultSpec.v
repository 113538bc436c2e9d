(** What the result builders promise, by labels and positions rather than by how pandas gets there. *)
From Verif Require Import Base Dict ResultModel.

Section Spec.
Context {L C : Type}.
Variable nan : C.
Notation index := (index L).
Notation col := (col L C).
Notation value := (value L C).
Notation frame := (frame L C).

(** What is asked of pandas' union of indexes: it has the labels of all of them and no others, is the same if they are the
    same, and repeats no label if none of them does. *)
Record joins (union : list index -> index) : Prop := {
  joins_in : forall ixs l, l ∈ ix_labels (union ixs) <-> exists ix, ix ∈ ixs /\ l ∈ ix_labels ix;
  joins_same : forall ixs ls, ixs <> [] -> (forall ix, ix ∈ ixs -> ix_labels ix = ls) -> ix_labels (union ixs) = ls;
  joins_once : forall ixs, (forall ix, ix ∈ ixs -> NoDup (ix_labels ix)) -> NoDup (ix_labels (union ixs));
}.

(** Every cell has a label. *)
Definition wf_value (v : value) : Prop :=
  match v with
  | DataFrame ix cs => forall k c, (k, c) ∈ cs -> length c = length (ix_labels ix)
  | Col (Series ix cs) => length cs = length (ix_labels ix)
  | _ => True
  end.

(** The columns to expect: one for each output, and for a DataFrame one for each of its columns, named "output.column". *)
Definition columns_of (outputs : list (name * value)) : list (name * col) :=
  concat (map (fun kv => match kv.2 with
                         | DataFrame ix cs => map (fun kc => (kv.1 +:+ "." +:+ kc.1, Series ix kc.2)) cs
                         | Col c => [(kv.1, c)]
                         end) outputs).

(** The cells of a column, in rows with the labels [ls]: of a Series those with the labels, or nothing; of other
    list-likes those in the same position; of a scalar the same everywhere. *)
Inductive column (ls : list L) : col -> list C -> Prop :=
| column_series ix cs ds : length ds = length ls -> (ix_labels ix = ls -> ds = cs) ->
    (forall i l d, ls !! i = Some l -> ds !! i = Some d ->
       (exists j, ix_labels ix !! j = Some l /\ cs !! j = Some d) \/ (l ∉ ix_labels ix /\ d = nan)) ->
    column ls (Series ix cs) ds
| column_pindex cs : length cs = length ls -> column ls (PIndex cs) cs
| column_arr cs : length cs = length ls -> column ls (Arr cs) cs
| column_scalar c ds : length ds = length ls -> (forall d, d ∈ ds -> d = c) -> column ls (Scalar c) ds.

Definition has_series (d : list (name * col)) : Prop := exists k ix cs, (k, Series ix cs) ∈ d.
Definition has_array (d : list (name * col)) : Prop := exists k cs, (k, Arr cs) ∈ d \/ (k, PIndex cs) ∈ d.
Definition labelled (d : list (name * col)) (l : L) : Prop := exists k ix cs, (k, Series ix cs) ∈ d /\ l ∈ ix_labels ix.
Definition once (d : list (name * col)) : Prop := forall k ix cs, (k, Series ix cs) ∈ d -> NoDup (ix_labels ix).

(** All list-likes but Series have [n] cells. *)
Definition arrays_fit (d : list (name * col)) (n : nat) : Prop := forall k cs, (k, Arr cs) ∈ d \/ (k, PIndex cs) ∈ d -> length cs = n.

(** The outer join of the columns [d]. *)
Record joined (d : list (name * col)) (fr : frame) : Prop := {
  joined_cols : Forall2 (fun kc kd => kd.1 = kc.1 /\ column (ix_labels (fr_index fr)) kc.2 kd.2) d (fr_cols fr);
  joined_rows : has_series d -> forall l, l ∈ ix_labels (fr_index fr) <-> labelled d l;
  joined_once : has_series d -> once d -> NoDup (ix_labels (fr_index fr));
}.

(** The number of rows of the outer join: that of all Series if they have the same labels, that of all their labels
    if none repeats one. *)
Inductive rows (d : list (name * col)) : nat -> Prop :=
| rows_same ls : (forall k ix cs, (k, Series ix cs) ∈ d -> ix_labels ix = ls) -> rows d (length ls)
| rows_once ls : once d -> NoDup ls -> (forall l, l ∈ ls <-> labelled d l) -> rows d (length ls).

(** The index type of an output. *)
Definition index_type (int_key : name) (v : value) : option name :=
  match v with
  | DataFrame ix _ | Col (Series ix _) => Some (ix_key ix)
  | Col (PIndex _) => Some int_key
  | _ => None
  end.
End Spec.

Section Numpy.
Context {C : Type}.
(** All vectors have [n] cells, and there are only vectors and numbers; there is a vector; a column of the matrix. *)
Definition fits_rows (outs : list (name * nvalue C)) (n : nat) : Prop :=
  forall k v, (k, v) ∈ outs -> match v with Sized cs => length cs = n | Number _ => True | Unsized => False end.
Definition has_vector (outs : list (name * nvalue C)) : Prop := exists k cs, (k, Sized cs) ∈ outs.
Definition matrix_column (n : nat) (v : nvalue C) (ds : list (nvalue C)) : Prop :=
  match v with
  | Sized cs => ds = map Number cs
  | Number c => length ds = n /\ forall d, d ∈ ds -> d = Number c
  | Unsized => False
  end.
End Numpy.
