(** What the arguments of @check_output ask of a value, after their documentation
    (docs/reference/decorators/check_output.rst and the docstrings of the validators). *)
From Coq Require Import QArith.
From Verif Require Import Base Dict ValidatorModel.
Local Open Scope Q_scope.

(** The order of numbers; NaN is not comparable. *)
Definition le (a b : num) : Prop :=
  match a, b with
  | NaN _, _ | _, NaN _ => False
  | Fin x, Fin y => x <= y
  | PInf, b => b = PInf
  | NInf, _ => True
  | Fin _, b => b = PInf
  end.
Definition nan (x : num) : Prop := exists i, x = NaN i.
(** Equality of Python numbers and strings *)
Definition equal (a b : atom) : Prop :=
  match a, b with
  | ANum _ x, ANum _ y => le x y /\ le y x
  | AStr s, AStr t => s = t
  | _, _ => False
  end.
Definition missing (c : cell) : Prop :=
  match c with CVal (ANum _ x) => nan x | CVal (AStr _) => False | CNone | CNA => True end.
Global Instance nan_dec x : Decision (nan x).
Proof. destruct x as [| | |i]; [right|right|right|left; by exists i]; by intros [i Hi]. Defined.
Global Instance missing_dec c : Decision (missing c).
Proof. destruct c as [[k x|s]| |]; cbn; [apply nan_dec|right; by intros []|by left|by left]. Defined.
Definition infix (p s : string) : Prop := exists a b, s = (a ++ p ++ b)%string.

Section Spec.
Context {D Ty O : Type}.
Notation pyval := (pyval D O).
Variable subdtype : D -> Ty -> Prop.
Variable instance : pyval -> Ty -> Prop.

(** The entries of a value: it itself or the cells of the series. *)
Inductive entry : pyval -> cell -> Prop :=
  | entry_atom a : entry (VAtom a) (CVal a)
  | entry_cell d cs c : c ∈ cs -> entry (VSeries d cs) c.
Definition is_value (v : pyval) : Prop := (exists a, v = VAtom a) \/ exists d cs, v = VSeries d cs.
(** Every entry is a number (which may be NaN). *)
Definition numeric (v : pyval) : Prop := is_value v /\ forall c, entry v c -> exists k x, c = CVal (ANum k x).
Definition series_of (P : list cell -> Prop) (v : pyval) : Prop := exists d cs, v = VSeries d cs /\ P cs.
Definition text (v : pyval) (s : string) : Prop := v = VAtom (AStr s).
Definition nat_q (n : nat) : Q := inject_Z (Z.of_nat n).
(** [qs] are the numbers of a series of finite numbers and missing cells. *)
Inductive finite_cells : list cell -> list Q -> Prop :=
  | finite_nil : finite_cells [] []
  | finite_missing c cs qs : missing c -> finite_cells cs qs -> finite_cells (c :: cs) qs
  | finite_number k q cs qs : finite_cells cs qs -> finite_cells (CVal (ANum k (Fin q)) :: cs) (q :: qs).
Definition sum (qs : list Q) : Q := foldr Qplus 0 qs.
Definition is_mean (qs : list Q) (m : Q) : Prop := qs <> [] /\ m * nat_q (length qs) == sum qs.
(** The square of the standard deviation of a sample of at least two *)
Definition is_variance (qs : list Q) (v : Q) : Prop :=
  (2 <= length qs)%nat /\ exists m, is_mean qs m /\ v * nat_q (length qs - 1) == sum (map (fun q => (q - m) * (q - m)) qs).

(** [asks key a applies holds]: the argument [key=a] asks [holds v] of a value for which [applies v]. *)
Inductive asks : name -> arg Ty -> (pyval -> Prop) -> (pyval -> Prop) -> Prop :=
  | asks_range k1 lo k2 hi : asks "range" (GSeq [ANum k1 lo; ANum k2 hi]) numeric
      (fun v => forall k x, entry v (CVal (ANum k x)) -> le lo x /\ le x hi)
  | asks_values l : (forall k x, ANum k x ∈ l -> ~ nan x) -> asks "values_in" (GSeq l) is_value
      (fun v => match v with
        | VAtom a => exists w, w ∈ l /\ equal a w
        | _ => forall c, entry v c -> missing c \/ exists a w, c = CVal a /\ w ∈ l /\ equal a w
        end)
  | asks_fraction k q : asks "max_fraction_nans" (GAtom (ANum k (Fin q))) (series_of (fun _ => True))
      (series_of (fun cs => nat_q (length (filter missing cs)) <= q * nat_q (length cs)))
  | asks_nans : asks "allow_nans" (GAtom (ANum KBool (Fin 0))) (series_of (fun _ => True)) (series_of (Forall (fun c => ~ missing c)))
  | asks_mean k1 lo k2 hi : asks "mean_in_range" (GSeq [ANum k1 lo; ANum k2 hi]) (series_of (fun cs => exists qs, finite_cells cs qs))
      (series_of (fun cs => exists qs m, finite_cells cs qs /\ is_mean qs m /\ le lo (Fin m) /\ le (Fin m) hi))
  | asks_std k s : asks "max_standard_dev" (GAtom (ANum k (Fin s))) (series_of (fun cs => exists qs, finite_cells cs qs /\ (2 <= length qs)%nat))
      (series_of (fun cs => exists qs var, finite_cells cs qs /\ is_variance qs var /\ 0 <= s /\ var <= s * s))
  | asks_none b : asks "allow_none" (GAtom (ANum KBool (Fin (if b : bool then 1 else 0)))) (fun _ => True) (fun v => b = true \/ v <> VNone)
  | asks_contains s : asks "contains" (GAtom (AStr s)) (fun v => exists t, text v t) (fun v => exists t, text v t /\ infix s t)
  | asks_contains_all l : asks "contains" (GSeq (map AStr l)) (fun v => exists t, text v t) (fun v => exists t, text v t /\ forall s, s ∈ l -> infix s t)
  | asks_lacks s : asks "does_not_contain" (GAtom (AStr s)) (fun v => exists t, text v t) (fun v => exists t, text v t /\ ~ infix s t)
  | asks_lacks_all l : asks "does_not_contain" (GSeq (map AStr l)) (fun v => exists t, text v t) (fun v => exists t, text v t /\ forall s, s ∈ l -> ~ infix s t)
  | asks_type t : asks "data_type" (GType t) (fun v => v <> VNone)
      (fun v => match v with VSeries d _ => subdtype d t | _ => instance v t end).

(** Values that a function annotated with the type returns: None or one of the type. *)
Definition of_type (t : otype) (v : pyval) : Prop :=
  v = VNone \/
  ((ot_series t = true -> exists d cs, v = VSeries d cs) /\
   (ot_series t = false -> forall d cs, v <> VSeries d cs)).

(** Which arguments can be given for a type *)
Definition supported (t : otype) (key : name) : Prop :=
  key = "allow_none" \/
  (key ∈ ["contains"; "does_not_contain"] /\ ot_str t = true) \/
  (key ∈ ["allow_nans"; "max_fraction_nans"; "max_standard_dev"; "mean_in_range"] /\ ot_series t = true) \/
  (key = "range" /\ (ot_series t = true \/ ot_real t = true)) \/
  (key = "values_in" /\ (ot_series t = true \/ ot_real t = true \/ ot_substr t = true)) \/
  (key = "data_type" /\ (ot_series t = true \/ ot_real t = true \/ ot_str t = true)).
End Spec.
