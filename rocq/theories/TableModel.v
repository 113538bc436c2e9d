(** @parameterize_frame: parameterizations given as a table, hamilton/experimental/decorators/parameterize_frame.py. *)
From Verif Require Import Base Dict.

(** InvalidDecoratorException, ValueError, IndexError *)
Inductive terr := TInvalid | TValue | TIndex.
Section Table.
(** Cells *)
Variable C : Type.
(** Dependencies; ParameterizedExtract, function_modifiers/expanders.py: names of outputs and what parameters are bound to *)
Inductive dep := Source (c : C) | Value (c : C).
Record extract := Extract { ex_outputs : list C; ex_params : dict dep }.

(** parameterize_frame.py 29-31: the keys of one column's index are added to the levels; a key too many is an IndexError *)
Fixpoint add_keys (out : list (list string)) (keys : list string) : option (list (list string)) :=
  match keys, out with
  | [], _ => Some out
  | k :: keys, l :: out => match add_keys out keys with Some out => Some ((l ++ [k]) :: out) | None => None end
  | _ :: _, [] => None
  end.
(** 26-32. The index of columns is a list of tuples; for columns without levels the tuples are the letters of their names. *)
Definition get_index_levels (index : list (list string)) : res terr (list (list string)) :=
  match index with
  | [] => Err TIndex
  | t :: _ => match fold_left (fun out t => match out with Some out => add_keys out t | None => None end) index (Some (map (fun _ => []) t)) with Some out => Ok out | None => Err TIndex end
  end.
(** 15-23: None for outputs *)
Inductive kind := KOut | KValue | KSource.
Definition get_dep_type (t : string) : option kind :=
  if decide (t = "out") then Some KOut else if decide (t = "value") then Some KValue else if decide (t = "source") then Some KSource else None.
Fixpoint dep_types (ts : list string) : res terr (list kind) :=
  match ts with [] => Ok [] | t :: ts => match get_dep_type t with None => Err TValue | Some k => match dep_types ts with Ok ks => Ok (k :: ks) | Err e => Err e end end end.
(** 51-55: a comprehension; the last column of a parameter stays *)
Fixpoint params (args : list string) (row : list C) (ks : list kind) (acc : dict dep) : dict dep :=
  match args, row, ks with
  | a :: args, c :: row, k :: ks => params args row ks (match k with KOut => acc | KValue => dset acc a (Value c) | KSource => dset acc a (Source c) end)
  | _, _, _ => acc
  end.
(** 56-58 *)
Fixpoint outputs (row : list C) (ts : list string) : list C :=
  match row, ts with c :: row, t :: ts => if decide (t = "out") then c :: outputs row ts else outputs row ts | _, _ => [] end.
(** 35-60. Rows are what [iterrows] gives: as outputs are names, the rows are of objects and cells stay as they are. *)
Definition convert (index : list (list string)) (rows : list (list C)) : res terr (list extract) :=
  match get_index_levels index with
  | Err e => Err e
  | Ok [args; types] =>
      if decide ("out" ∈ types) then
        match dep_types types with
        | Err e => Err e
        | Ok ks => Ok (map (fun row => Extract (outputs row types) (params args row ks [])) rows)
        end
      else Err TInvalid
  | Ok _ => Err TInvalid
  end.
End Table.
Arguments Source {C}. Arguments Value {C}. Arguments Extract {C}. Arguments ex_outputs {C}. Arguments ex_params {C}.
