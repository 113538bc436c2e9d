(** The result builders of hamilton/base.py: PandasDataFrameResult (73-285), StrictIndexTypePandasDataFrameResult
    (288-325), NumpyMatrixResult (328-384). *)
From Verif Require Import Base Dict NodeModel DecorModel.

Section Result.
(** Labels of indexes; cells. *)
Context {L C : Type} `{EqDecision L}.
Variable nan : C.

(** A pandas index: [f"{index.__class__.__name__}:::{index.dtype}"], whether it is an [NDArrayBackedExtensionIndex]
    (of times or categories), its labels. Simplification: the names of indexes are left out. *)
Record index := Index { ix_key : name; ix_time : bool; ix_labels : list L }.
(** Outputs that can be a column: a Series, a [pd.Index] (by its cells), another one-dimensional list-like (list, tuple,
    array), anything else (a string, too, is not list-like). Simplification: dictionaries, sets and arrays of
    several dimensions are left out. *)
Inductive col := Series (ix : index) (cs : list C) | PIndex (cs : list C) | Arr (cs : list C) | Scalar (c : C).
(** The columns of a DataFrame, in order; pandas allows that a name is there twice. *)
Inductive value := DataFrame (ix : index) (cs : list (name * list C)) | Col (c : col).
Record frame := Frame { fr_index : index; fr_cols : list (name * list C) }.

(** The ValueErrors of pandas: of constructing a DataFrame of scalars only, of arrays of different lengths, of arrays that
    do not fit the index, of reindexing by labels that are there twice; those of base.py 263-275 and 319-323; TypeError. *)
Inductive exc := EScalars | ELengths | EArray | EReindex | EExists | EMismatch | EType.

(** ** What pandas does *)
(** [pandas.core.indexes.api.union_indexes] and [default_index(n)] *)
Variable union : list index -> index.
Variable range : nat -> index.
(** [Series.reindex(index)]: nothing to do for the same labels, or by label. *)
Fixpoint at_label (ls : list L) (cs : list C) (l : L) : C :=
  match ls, cs with l' :: ls, c :: cs => if decide (l = l') then c else at_label ls cs l | _, _ => nan end.
Definition reindex (ix : index) (cs : list C) (to : index) : res exc (list C) :=
  if decide (ix_labels ix = ix_labels to) then Ok cs
  else if decide (NoDup (ix_labels ix)) then Ok (map (at_label (ix_labels ix) cs) (ix_labels to))
  else Err EReindex.
(** pandas.core.internals.construction [_extract_index]: the union of the indexes of the Series; the other list-likes
    must have one length, that of the index. *)
Definition indexes (cols : list col) : list index := omap (fun c => match c with Series ix _ => Some ix | _ => None end) cols.
Definition raw_lengths (cols : list col) : list nat :=
  omap (fun c => match c with PIndex cs | Arr cs => Some (length cs) | _ => None end) cols.
Definition extract_index (cols : list col) : res exc index :=
  match cols with
  | [] => Ok (range 0)
  | _ =>
    match indexes cols, raw_lengths cols with
    | [], [] => Err EScalars
    | ixs, [] => Ok (union ixs)
    | ixs, n :: ns =>
      if forallb (Nat.eqb n) ns then
        match ixs with
        | [] => Ok (range n)
        | _ => let ix := union ixs in if n =? length (ix_labels ix) then Ok ix else Err EArray
        end
      else Err ELengths
    end
  end.
(** [_homogenize] *)
Definition homogenize (ix : index) (c : col) : res exc (list C) :=
  match c with
  | Series ix' cs => reindex ix' cs ix
  | PIndex cs | Arr cs => Ok cs
  | Scalar c => Ok (repeat c (length (ix_labels ix)))
  end.
(** [pd.DataFrame(d)] for a dictionary [d] *)
Definition pd_frame (d : dict col) : res exc frame :=
  bindr (extract_index (map snd d)) (fun ix =>
  bindr (mapr (fun kc => bindr (homogenize ix kc.2) (fun cs => Ok (kc.1, cs))) d) (fun cols =>
  Ok (Frame ix cols))).
(** [DataFrame.to_dict(orient="series")]: a dictionary, so of columns of one name the last. *)
Definition to_dict (ix : index) (cs : list (name * list C)) : dict col :=
  foldl (fun d kc => dset d kc.1 (Series ix kc.2)) [] cs.
(** [pd.api.types.is_list_like] *)
Definition is_list_like (v : value) : bool := match v with Col (Scalar _) => false | _ => true end.

(** ** base.py *)
(** [hasattr(pd_extension, "NDArrayBackedExtensionIndex")] of the installed pandas (114-120); the key of a Series with the
    index [0, 1, 2] (131-134). *)
Variable has_ext : bool.
Variable int_key : name.
Definition dappend {A} (d : dict (list A)) (k : name) (a : A) : dict (list A) := dset d k (default [] (dget d k) ++ [a]).
(** 92-139 [pandas_index_types]: all index types, those of times or categories, those without index. *)
Definition types3 : Type := dict (list name) * dict (list name) * dict (list name).
Definition index_step (kv : name * value) (t : types3) : res exc types3 :=
  let '(alls, times, nos) := t in
  let indexed ix :=
    if has_ext then
      Ok (dappend alls (ix_key ix) kv.1, if ix_time ix then dappend times (ix_key ix) kv.1 else times, nos)
    else Err EType in
  match kv.2 with
  | DataFrame ix _ | Col (Series ix _) => indexed ix
  | Col (PIndex _) => Ok (dappend alls int_key kv.1, times, nos)
  | Col _ => Ok (dappend alls "no-index" kv.1, times, dappend nos "no-index" kv.1)
  end.
Definition pandas_index_types (outputs : dict value) : res exc types3 := foldr_ index_step outputs ([], [], []).
(** 141-191 [check_pandas_index_types_match]. The warnings are left out. *)
Definition check_match (t : types3) : bool :=
  let '(alls, times, nos) := t in
  let n_no := length nos in
  let n_time := length times in
  let n_all := length alls in
  let n_with := n_all - n_no in
  let m := if 1 <? n_time then false else true in
  if (1 <? n_with) && (n_time <? n_all) then false
  else if (n_with =? 1) && (0 <? n_no) then true
  else if n_no =? n_all then false
  else m.
(** 251-253 *)
Definition output_name (o c : name) : name := o +:+ "." +:+ c.
(** 255-278: the columns of DataFrames go in whatever is there, other outputs only if their name is not there. *)
Definition flatten_step (kv : name * value) (flat : dict col) : res exc (dict col) :=
  match kv.2 with
  | DataFrame ix cs => Ok (foldl (fun d kc => dset d kc.1 kc.2) flat (map (fun kc => (output_name kv.1 kc.1, kc.2)) (to_dict ix cs)))
  | Col c => if decide (kv.1 ∈ dkeys flat) then Err EExists else Ok (dset flat kv.1 c)
  end.
(** 227-280 [build_dataframe_with_dataframes] *)
Definition build_with_dataframes (outputs : dict value) : res exc frame :=
  bindr (foldr_ flatten_step outputs []) pd_frame.
(** 193-225 [build_result]. Its last line has no DataFrame among the outputs. *)
Definition is_frame (v : value) : bool := match v with DataFrame _ _ => true | _ => false end.
Definition cols_of (outputs : dict value) : dict col := omap (fun kv => match kv.2 with Col c => Some (kv.1, c) | _ => None end) outputs.
Definition scalars_of (outputs : dict value) : list (name * list C) :=
  omap (fun kv => match kv.2 with Col (Scalar c) => Some (kv.1, [c]) | _ => None end) outputs.
Definition build_result (outputs : dict value) : res exc frame :=
  bindr (pandas_index_types outputs) (fun _ =>
  match outputs with
  | [(_, DataFrame ix cs)] => Ok (Frame ix cs)
  | _ =>
    if negb (existsb is_list_like (map snd outputs)) then Ok (Frame (range 1) (scalars_of outputs))
    else if existsb is_frame (map snd outputs) then build_with_dataframes outputs
    else pd_frame (cols_of outputs)
  end).
(** 308-325 [StrictIndexTypePandasDataFrameResult.build_result] *)
Definition build_strict (outputs : dict value) : res exc frame :=
  bindr (pandas_index_types outputs) (fun t =>
  if check_match t then build_result outputs else Err EMismatch).
End Result.
Arguments index : clear implicits.
Arguments col : clear implicits.
Arguments value : clear implicits.
Arguments frame : clear implicits.

(** ** NumpyMatrixResult *)
Section Numpy.
Context {C : Type}.
(** An int or float; a one-dimensional thing with a length, by its cells; something without length. *)
Inductive nvalue := Number (c : C) | Sized (cs : list C) | Unsized.
(** 351-368: the number of rows (-1 when there is no vector yet), and the columns with their lengths. The
    dictionary is keyed by name and length, so by name as the outputs' names are different. *)
Definition measure (kv : name * nvalue) (s : Z * list (name * Z * nvalue)) : res exc (Z * list (name * Z * nvalue)) :=
  let '(rows, cols) := s in
  match kv.2 with
  | Number _ => Ok (rows, cols ++ [(kv.1, 1%Z, kv.2)])
  | Sized cs =>
    let n := Z.of_nat (length cs) in
    if decide (rows = (-1)%Z) then Ok (n, cols ++ [(kv.1, n, kv.2)])
    else if decide (n = rows) then Ok (rows, cols ++ [(kv.1, rows, kv.2)])
    else Err ELengths
  | Unsized => Err EType
  end.
(** 370-380; [[val] * n] is empty for a negative [n]; [list(val)] of a number is a TypeError. *)
Definition expand (rows : Z) (c : name * Z * nvalue) : res exc (list nvalue) :=
  let '(_, n, v) := c in
  if decide (n <> rows /\ n = 1%Z) then Ok (repeat v (Z.to_nat rows))
  else if decide (n = rows) then match v with Sized cs => Ok (map Number cs) | _ => Err EType end
  else Err ELengths.
(** 343-382. The matrix is given by its columns ([np.asmatrix(list_of_columns).T]). *)
Definition build_matrix (outputs : dict nvalue) : res exc (list (list nvalue)) :=
  bindr (foldr_ measure outputs ((-1)%Z, [])) (fun s => mapr (expand s.1) s.2).
End Numpy.
Arguments nvalue : clear implicits.
