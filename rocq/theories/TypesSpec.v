(** What annotations mean, and which of them the checks are about. *)
From Verif Require Import Base Dict GraphModel GraphSpec RelinkSpec TypesModel.

Section Spec.
Context {V : Type} `{!EqDecision V}.
Variable class_of : V -> cls.
Variable sub : cls -> cls -> bool.
Variable items : V -> list V.
Variable entries : V -> list (V * V).
Notation ann := (ann V).

(** The values whose parts are as [o[args]] says: [tuple[a, ...]] any number of [a], [tuple[a, b, c]] three elements, other
    generics with one argument: all elements; with two arguments: all keys and all values. *)
Definition shaped (o : cls) (ps : list (bool * (V -> Prop))) (v : V) : Prop :=
  if decide (o = "tuple")
  then match ps with
       | [(_, P); (true, _)] => forall x, x ∈ items v -> P x
       | _ => Forall2 (fun p x => p.2 x) ps (items v)
       end
  else match ps with
       | [(_, P)] => forall x, x ∈ items v -> P x
       | [(_, P); (_, Q)] => forall k w, (k, w) ∈ entries v -> P k /\ Q w
       | _ => True
       end.
Definition is_ellipsis (t : ann) : bool := match t with AEllipsis => true | _ => false end.

(** [means t v]: [v] is a value of type [t]. *)
Fixpoint means (t : ann) (v : V) {struct t} : Prop :=
  match t with
  | AAny => True
  | AClass c => sub (class_of v) c = true
  | AGen o args => sub (class_of v) o = true /\ shaped o (map (fun a => (is_ellipsis a, means a)) args) v
  | AUnion ts => (fix some ts := match ts with [] => False | t' :: ts' => means t' v \/ some ts' end) ts
  | ALiteral vs => v ∈ vs
  | AEllipsis => False
  end.

(** Annotations whose meaning the checking adapter can decide: [list[a]], [set[a]], [tuple[a, ...]], [dict[k, w]], and
    unions, literals, classes and Any. *)
Fixpoint checkable (t : ann) : Prop :=
  match t with
  | AAny | AClass _ | ALiteral _ => True
  | AEllipsis => False
  | AUnion ts => (fix every ts := match ts with [] => True | t' :: ts' => checkable t' /\ every ts' end) ts
  | AGen o [a] => (o = "list" \/ o = "set") /\ checkable a
  | AGen o [a; b] => (o = "tuple" /\ b = AEllipsis /\ checkable a) \/ (o = "dict" /\ checkable a /\ checkable b)
  | AGen _ _ => False
  end.

(** Classes whose instances are never those of a subclass, as far as inputs are concerned. *)
Variable final : cls -> Prop.
(** Annotations of inputs whose values are never rejected. *)
Fixpoint lenient (t : ann) : Prop :=
  match t with
  | AAny | AClass _ | ALiteral _ => True
  | AEllipsis => False
  | AUnion ts => (fix every ts := match ts with [] => True | t' :: ts' => lenient t' /\ every ts' end) ts
  | AGen o args =>
      o <> "tuple" /\
      (final o \/ ((o = "list" \/ o = "Sequence" \/ o = "set" \/ o = "Iterable") /\
                   match args with a :: _ => lenient a | [] => True end /\ length args = 1))
  end.
(** Annotations without generics. *)
Fixpoint flat (t : ann) : Prop :=
  match t with
  | AAny | AClass _ | ALiteral _ => True
  | AEllipsis | AGen _ _ => False
  | AUnion ts => (fix every ts := match ts with [] => True | t' :: ts' => flat t' /\ every ts' end) ts
  end.

(** Python's built-in classes: [issubclass] is a preorder and nothing is both a dict and a list, a set or a tuple. *)
Record hierarchy : Prop := {
  hi_refl : forall c, sub c c = true;
  hi_trans : forall a b c, sub a b = true -> sub b c = true -> sub a c = true;
  hi_apart : forall c, sub c "dict" = true -> sub c "list" = false /\ sub c "set" = false /\ sub c "tuple" = false;
}.

(** ** Producers and consumers *)
(** The generics of the typing module: all have arguments, only [tuple] itself has the meaning of tuples, and a tuple is
    no instance of a generic with two parameters. *)
Fixpoint proper (t : ann) : Prop :=
  match t with
  | AGen o args => args <> [] /\ (sub o "tuple" = true -> o = "tuple") /\
                   (o <> "tuple" -> length args = 2 -> sub "tuple" o = false)
  | AUnion ts => (fix every ts := match ts with [] => True | t' :: ts' => proper t' /\ every ts' end) ts
  | _ => True
  end.
(** A generic of [t] has the class [c] as a subclass. *)
Fixpoint generic_over (c : cls) (t : ann) : Prop :=
  match t with
  | AGen o _ => sub c o = true
  | AUnion ts => (fix some ts := match ts with [] => False | t' :: ts' => generic_over c t' \/ some ts' end) ts
  | _ => False
  end.
(** The consumer's [t] says no more than what [u] tells: [u] is not Any (unless [t] is), and not a bare class where [t]
    speaks about elements. *)
Definition tells (t u : ann) : Prop :=
  match u with
  | AAny => t = AAny
  | AClass c => ~ generic_over c t
  | _ => True
  end.

(** [u] is at least as narrow as [t]. *)
Definition narrower (t u : ann) : Prop := forall v, means u v -> means t v.
End Spec.

(** The types involved with a variable [x] of a dataflow made of the functions [defs]. *)
Section Involved.
Context {T : Type}.
Variable config : list name.
Variable defs : list (fdef T).
(** Some function in effect asks for [x] with annotation [t]. *)
Definition asked (x : name) (t : T) : Prop :=
  exists y d dt, in_effect config defs y d /\ (x, (t, dt)) ∈ fd_params d.
(** What [x] may turn out to be: what its function returns or, for inputs, what somebody asks for. *)
Definition offered (x : name) (u : T) : Prop :=
  (exists d, in_effect config defs x d /\ u = fd_type d) \/ ((forall d, ~ in_effect config defs x d) /\ asked x u).
End Involved.
