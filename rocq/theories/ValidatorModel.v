(** The default validators of @check_output (hamilton/data_quality/default_validators.py,
    hamilton/data_quality/base.py 13-35 and 107-146, hamilton/function_modifiers/validation.py
    184-199). *)
From Coq Require Import QArith Ascii.
From Verif Require Import Base Dict NodeModel CheckModel GraphModel.
Local Open Scope Q_scope.

(** ** Python values *)
(** Numbers. Arithmetic on them is exact here (except for one division, see [fdiv]); NaN objects have
    an identity. *)
Inductive num := Fin (q : Q) | PInf | NInf | NaN (i : nat).
Inductive kind := KBool | KInt | KFloat.
Inductive atom := ANum (k : kind) (x : num) | AStr (s : string).
(** [a <= b] of numbers *)
Definition num_le (a b : num) : bool :=
  match a, b with
  | NaN _, _ | _, NaN _ => false
  | NInf, _ | _, PInf => true
  | PInf, _ | _, NInf => false
  | Fin x, Fin y => Qle_bool x y
  end.
(** [a == b] of numbers *)
Definition num_eq (a b : num) : bool :=
  match a, b with
  | Fin x, Fin y => Qeq_bool x y
  | PInf, PInf | NInf, NInf => true
  | _, _ => false
  end.
Definition atom_eq (a b : atom) : bool :=
  match a, b with
  | ANum _ x, ANum _ y => num_eq x y
  | AStr s, AStr t => bool_decide (s = t)
  | _, _ => false
  end.
(** [a in s] for a set: the same object or an equal one *)
Definition atom_same (a b : atom) : bool :=
  match a, b with
  | ANum _ (NaN i), ANum _ (NaN j) => bool_decide (i = j)
  | _, _ => atom_eq a b
  end.

(** Cells of a pandas series: None and NaN are missing, and so is pandas.NA of the nullable types. *)
Inductive cell := CVal (a : atom) | CNone | CNA.
Inductive perr := TypeError | ValueError | AttributeError.

Section Validators.
(** dtypes of series, types that can be given for [data_type], other objects. *)
Context {D Ty O : Type}.
(** [ValidationResult]s are reduced to their field [passes]. *)
Inductive pyval := VNone | VAtom (a : atom) | VSeries (d : D) (cs : list cell) | VOther (o : O) | VResult (passes : bool).
(** What is given for an argument of @check_output. *)
Inductive arg := GNone | GAtom (a : atom) | GSeq (l : list atom) | GType (t : Ty).

(** Order of strings; [np.issubdtype(series.dtype, t)]; [isinstance(v, t)]; the quotient of two ints as a float. *)
Variable str_le : string -> string -> bool.
Variable issubdtype : D -> Ty -> bool.
Variable isinstance : pyval -> Ty -> bool.
Variable fdiv : nat -> nat -> Q.

Definition atom_le (a b : atom) : res perr bool :=
  match a, b with
  | ANum _ x, ANum _ y => Ok (num_le x y)
  | AStr s, AStr t => Ok (str_le s t)
  | _, _ => Err TypeError
  end.
Definition truthy (a : arg) : bool :=
  match a with
  | GNone => false
  | GAtom (ANum _ x) => negb (num_eq x (Fin 0))
  | GAtom (AStr s) => bool_decide (s <> "")
  | GSeq l => bool_decide (l <> [])
  | GType _ => true
  end.
Fixpoint chars (s : string) : list atom :=
  match s with EmptyString => [] | String c s' => AStr (String c EmptyString) :: chars s' end.
(** Iteration; None is TypeError. *)
Definition iter (a : arg) : option (list atom) :=
  match a with
  | GSeq l => Some l
  | GAtom (AStr s) => Some (chars s)
  | _ => None
  end.
(** [x, y = a] *)
Definition unpack (a : arg) : res perr (atom * atom) :=
  match iter a with
  | None => Err TypeError
  | Some [x; y] => Ok (x, y)
  | Some _ => Err ValueError
  end.
(** [lo <= x <= hi] *)
Definition chained (lo x hi : atom) : res perr bool :=
  match atom_le lo x with
  | Ok true => atom_le x hi
  | r => r
  end.

(** ** pandas *)
Definition isna (c : cell) : bool := match c with CVal (ANum _ (NaN _)) | CNone | CNA => true | _ => false end.
(** One cell of [data.between(lo, hi, inclusive="both")]: Ok None is NA. *)
Definition between (lo hi : atom) (c : cell) : res perr (option bool) :=
  match c with
  | CNA => Ok None
  | CNone => Err TypeError
  | CVal a =>
      match atom_le lo a, atom_le a hi with
      | Ok b1, Ok b2 => Ok (Some (b1 && b2))
      | _, _ => Err TypeError
      end
  end.
(** [data.isin(values)]; for missing cells the answer does not matter below. *)
Definition isin (values : list atom) (c : cell) : bool :=
  match c with CVal a => existsb (atom_eq a) values | _ => false end.
(** Elementwise application *)
Fixpoint emap {A B} (f : A -> res perr B) (l : list A) : res perr (list B) :=
  match l with
  | [] => Ok []
  | x :: l => match f x, emap f l with Ok y, Ok l' => Ok (y :: l') | Err e, _ => Err e | _, Err e => Err e end
  end.
(** [value_counts().to_dict().get(b, 0)]; NA is not counted. *)
Definition count (b : bool) (l : list (option bool)) : nat := length (filter (fun x => x = Some b) l).

(** The numbers that [mean] and [std] are of: missing cells are skipped, strings raise. *)
Fixpoint numbers (cs : list cell) : res perr (list num) :=
  match cs with
  | [] => Ok []
  | c :: cs =>
      match c with
      | CVal (AStr _) => Err TypeError
      | CVal (ANum _ x) => if isna c then numbers cs else match numbers cs with Ok l => Ok (x :: l) | Err e => Err e end
      | _ => numbers cs
      end
  end.
Definition finite (l : list num) : list Q := omap (fun x => match x with Fin q => Some q | _ => None end) l.
Definition is_pinf (x : num) : bool := match x with PInf => true | _ => false end.
Definition is_ninf (x : num) : bool := match x with NInf => true | _ => false end.
Definition qsum (l : list Q) : Q := foldr Qplus 0 l.
Definition qlen (l : list Q) : Q := inject_Z (Z.of_nat (length l)).
Definition average (l : list Q) : Q := qsum l / qlen l.
(** [data.mean()] *)
Definition mean (l : list num) : num :=
  match l with
  | [] => NaN 0
  | _ => match existsb is_pinf l, existsb is_ninf l with
         | true, true => NaN 0
         | true, false => PInf
         | false, true => NInf
         | false, false => Fin (average (finite l))
         end
  end.
(** The square of [data.std()], which divides by n-1; None is NaN. *)
Definition variance (l : list num) : option Q :=
  if existsb is_pinf l || existsb is_ninf l then None
  else let qs := finite l in
       match qs with
       | [] | [_] => None
       | _ => Some (qsum (map (fun q => (q - average qs) * (q - average qs)) qs) / (qlen qs - 1))
       end.
(** [data.std() <= m] *)
Definition std_le (l : list num) (m : num) : bool :=
  match variance l, m with
  | Some v, Fin s => Qle_bool 0 s && Qle_bool v (s * s)
  | Some _, PInf => true
  | _, _ => false
  end.

(** ** The classes *)
(** default_validators.py 474-488 without pandera *)
Inductive vclass :=
  AllowNaNs | RangeSeries | RangePrimitives | ValuesSeries | ValuesPrimitives | TypeSeries | TypePrimitives
  | MaxFractionNans | MaxStandardDev | MeanInRange | AllowNone | StrContains | StrDoesNotContain.
Definition available : list vclass :=
  [AllowNaNs; RangeSeries; RangePrimitives; ValuesSeries; ValuesPrimitives; TypeSeries; TypePrimitives;
   MaxFractionNans; MaxStandardDev; MeanInRange; AllowNone; StrContains; StrDoesNotContain].
(** [arg()] *)
Definition vc_arg (c : vclass) : name :=
  match c with
  | AllowNaNs => "allow_nans"
  | RangeSeries | RangePrimitives => "range"
  | ValuesSeries | ValuesPrimitives => "values_in"
  | TypeSeries | TypePrimitives => "data_type"
  | MaxFractionNans => "max_fraction_nans"
  | MaxStandardDev => "max_standard_dev"
  | MeanInRange => "mean_in_range"
  | AllowNone => "allow_none"
  | StrContains => "contains"
  | StrDoesNotContain => "does_not_contain"
  end.
(** base.py 145-146 *)
Definition vc_name (c : vclass) : name := (vc_arg c ++ "_validator")%string.

(** The type of the node's output: whether it is a class, a subclass of pd.Series, numbers.Real, str,
    and whether it is [str]. ([bool] is a class of real numbers.) *)
Record otype := OType { ot_class : bool; ot_series : bool; ot_real : bool; ot_substr : bool; ot_str : bool }.
Definition issubclass (t : otype) (b : bool) : res perr bool := if ot_class t then Ok b else Err TypeError.
(** [applies_to] *)
Definition applies_to (c : vclass) (t : otype) : res perr bool :=
  match c with
  | AllowNaNs | RangeSeries | ValuesSeries | TypeSeries | MaxFractionNans | MaxStandardDev | MeanInRange => issubclass t (ot_series t)
  | RangePrimitives => issubclass t (ot_real t)
  | ValuesPrimitives => issubclass t (ot_real t || ot_substr t)
  | TypePrimitives => issubclass t (ot_real t || ot_str t)
  | AllowNone => Ok true
  | StrContains | StrDoesNotContain => Ok (ot_str t)
  end.

(** An instance: its importance is FAIL, and what its constructor has kept. *)
Record vobj := VObj { vo_class : vclass; vo_fail : bool; vo_arg : arg }.
(** base.py 13-15, 33-34: the enum raises ValueError *)
Definition level (importance : string) : res perr bool :=
  if decide (importance = "warn") then Ok false else if decide (importance = "fail") then Ok true else Err ValueError.
(** The constructors: 62 and 145 [frozenset], 185-187 and 223-226, 233-240, 412-415 and 447-450. *)
Definition new (c : vclass) (importance : string) (a : arg) : res perr vobj :=
  let made a := match level importance with Ok f => Ok (VObj c f a) | Err e => Err e end in
  let zero := ANum KInt (Fin 0) in
  match c with
  | AllowNaNs => if truthy a then Err ValueError else made (GAtom zero)
  | ValuesSeries | ValuesPrimitives =>
      match level importance, iter a with
      | Err e, _ => Err e
      | Ok _, None => Err TypeError
      | Ok _, Some l => made (GSeq l)
      end
  | MaxFractionNans =>
      match level importance with
      | Err e => Err e
      | Ok f =>
          match a with
          | GAtom x =>
              match chained zero x (ANum KInt (Fin 1)) with
              | Ok true => made a
              | Ok false => Err ValueError
              | Err e => Err e
              end
          | _ => Err TypeError
          end
      end
  | StrContains | StrDoesNotContain => made (match a with GAtom (AStr s) => GSeq [AStr s] | _ => a end)
  | _ => made a
  end.

(** ** validate *)
(** [c in data] for a string *)
Definition in_string (data : string) (c : atom) : res perr bool :=
  match c with AStr s => Ok (str_contains s data) | _ => Err TypeError end.
(** [passes] of the result; objects with an attribute [dask] are not modelled, and the diagnostics
    neither. *)
Definition passing (v : vobj) (data : pyval) : res perr bool :=
  match vo_class v with
  | RangeSeries => (* 32-36 *)
      match unpack (vo_arg v) with
      | Err e => Err e
      | Ok (lo, hi) =>
          match data with
          | VSeries _ cs => match emap (between lo hi) cs with Ok l => Ok (bool_decide (count false l = 0%nat)) | Err e => Err e end
          | _ => Err AttributeError
          end
      end
  | ValuesSeries => (* 76-84 *)
      match data, vo_arg v with
      | VSeries _ cs, GSeq values => Ok (bool_decide (count false (map (fun c => Some (isin values c || isna c)) cs) = 0%nat))
      | _, _ => Err AttributeError
      end
  | RangePrimitives => (* 119-122 *)
      match unpack (vo_arg v) with
      | Err e => Err e
      | Ok (lo, hi) => match data with VAtom x => chained lo x hi | _ => Err TypeError end
      end
  | ValuesPrimitives => (* 161-164; other objects equal no atom *)
      match data, vo_arg v with
      | VAtom x, GSeq values => Ok (existsb (atom_same x) values)
      | VSeries _ _, _ => Err TypeError
      | _, _ => Ok false
      end
  | AllowNaNs | MaxFractionNans => (* 200-204 *)
      match data, vo_arg v with
      | VSeries _ cs, GAtom (ANum _ m) =>
          let total := length cs in
          let na := length (filter (fun c => isna c = true) cs) in
          Ok (num_le (Fin (if bool_decide (0 < total)%nat then fdiv na total else 0)) m)
      | _, _ => Err TypeError
      end
  | TypeSeries => (* 262-266 *)
      match data, vo_arg v with
      | VSeries d _, GType t => Ok (issubdtype d t)
      | _, _ => Err AttributeError
      end
  | TypePrimitives => (* 295-297 *)
      match vo_arg v with GType t => Ok (isinstance data t) | _ => Err TypeError end
  | MaxStandardDev => (* 325-327 *)
      match data, vo_arg v with
      | VSeries _ cs, GAtom (ANum _ m) => match numbers cs with Ok l => Ok (std_le l m) | Err e => Err e end
      | _, _ => Err TypeError
      end
  | MeanInRange => (* 355-358 *)
      match data with
      | VSeries _ cs =>
          match numbers cs, unpack (vo_arg v) with
          | Ok l, Ok (lo, hi) => chained lo (ANum KFloat (mean l)) hi
          | Err e, _ => Err e
          | _, Err e => Err e
          end
      | _ => Err AttributeError
      end
  | AllowNone => (* 386-390 *)
      Ok (truthy (vo_arg v) || match data with VNone => false | _ => true end)
  | StrContains => (* 424-425 *)
      match data, iter (vo_arg v) with
      | VAtom (AStr s), Some l => match emap (in_string s) l with Ok bs => Ok (forallb id bs) | Err e => Err e end
      | _, _ => Err TypeError
      end
  | StrDoesNotContain => (* 459-460 *)
      match data, iter (vo_arg v) with
      | VAtom (AStr s), Some l => match emap (in_string s) l with Ok bs => Ok (forallb negb bs) | Err e => Err e end
      | _, _ => Err TypeError
      end
  end.

(** ** Resolution *)
(** default_validators.py 526-531 *)
Fixpoint first_class (classes : list vclass) (t : otype) (key : name) : res perr vclass :=
  match classes with
  | [] => Err ValueError
  | c :: classes =>
      if decide (key = vc_arg c) then
        match applies_to c t with
        | Ok true => Ok c
        | Ok false => first_class classes t key
        | Err e => Err e
        end
      else first_class classes t key
  end.
(** default_validators.py 508-539 [resolve_default_validators] *)
Fixpoint resolve_default_validators (t : otype) (importance : string) (classes : list vclass) (kw : dict arg) : res perr (list vobj) :=
  match kw with
  | [] => Ok []
  | (key, a) :: kw =>
      match first_class classes t key with
      | Err e => Err e
      | Ok c =>
          match new c importance a with
          | Err e => Err e
          | Ok v => match resolve_default_validators t importance classes kw with Ok vs => Ok (v :: vs) | Err e => Err e end
          end
      end
  end.

(** The validator as @check_output (CheckModel) uses it *)
Definition as_validator (v : vobj) : validator pyval perr :=
  Validator (vc_name (vo_class v)) (vo_fail v) (fun data => match passing v data with Ok b => Ok (VResult b) | Err e => Err e end).
Definition result_passes (r : pyval) : bool := match r with VResult b => b | _ => false end.

Section Decorator.
Context {T : Type}.
Variable result_type : T.
Variable ot : T -> otype.
(** validation.py 201-217 [check_output] (importance is "warn" if it is not given), 184-199 [get_validators] (a
    ValueError is raised again as one), 26-111 [transform_node] *)
Definition check_output_default (importance : option string) (kw : dict arg) (n : pnode pyval perr T) : res perr (list (pnode pyval perr T)) :=
  match resolve_default_validators (ot (pn_type n)) (default "warn" importance) available kw with
  | Err e => Err e
  | Ok vs => Ok (check_output result_type result_passes (map as_validator vs) n)
  end.
End Decorator.
End Validators.
Arguments pyval : clear implicits.
Arguments arg : clear implicits.
Arguments vobj : clear implicits.
