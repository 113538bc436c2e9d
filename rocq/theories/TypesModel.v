(** Model of type annotations and of the checks made on them: hamilton/htypes.py 18-135 and 312-434,
    hamilton/lifecycle/default.py 471-530. *)
From Verif Require Import Base Dict.

(** Classes, by name. *)
Notation cls := string (only parsing).

(** Annotations: Any, classes, parameterised generics [o[args]], unions, literals, and the [...] of [Tuple[a, ...]].
    Not modelled: TypeVar, Annotated, Callable, Parallelizable and Collect, unparameterised aliases such as [typing.List],
    [tuple[()]], generic classes defined by users, and [X | Y] (types.UnionType). *)
Inductive ann (V : Type) :=
| AAny
| AClass (c : cls)
| AGen (o : cls) (args : list (ann V))
| AUnion (ts : list (ann V))
| ALiteral (vs : list V)
| AEllipsis.
Arguments AAny {V}.
Arguments AClass {V}.
Arguments AGen {V}.
Arguments AUnion {V}.
Arguments ALiteral {V}.
Arguments AEllipsis {V}.

Section Types.
Context {V : Type} `{!EqDecision V}.
(** Python's world: the class of a value, [issubclass], what iterating over a value yields, [dict.items], and whether a
    value can be iterated once only. Values are compared with [==]; it is taken to be equality of the model's values. *)
Variable class_of : V -> cls.
Variable sub : cls -> cls -> bool.
Variable items : V -> list V.
Variable entries : V -> list (V * V).
Variable one_shot : V -> bool.

Notation ann := (ann V).

(** [isinstance(v, c)] *)
Definition inst (v : V) (c : cls) : bool := sub (class_of v) c.

(** [all(f(x) for x in l)] and [any(...)] when [f] may raise (None). *)
Fixpoint all_lazy {A} (f : A -> option bool) (l : list A) : option bool :=
  match l with
  | [] => Some true
  | x :: l' => match f x with Some true => all_lazy f l' | r => r end
  end.
Definition any_lazy {A} (f : A -> option bool) : list A -> option bool :=
  fix go l := match l with
              | [] => Some false
              | x :: l' => match f x with Some false => go l' | r => r end
              end.

(** htypes.py 380-434 [check_instance]. None: an exception is raised (TypeError of isinstance with a parameterised generic,
    IndexError of a missing type argument). *)
Fixpoint check_instance (t : ann) (v : V) {struct t} : option bool :=
  match t with
  | AAny => Some true
  | AClass c => Some (inst v c)
  | AEllipsis => None
  | AUnion ts => any_lazy (fun t' => check_instance t' v) ts
  | ALiteral vs => Some (bool_decide (v ∈ vs))
  | AGen o args =>
      if negb (inst v o) then Some false
      else if inst v "dict" then
        match args with
        | k :: w :: _ =>
            all_lazy (fun kv => match check_instance k kv.1, check_instance w kv.2 with
                                | Some a, Some b => Some (a && b)
                                | _, _ => None
                                end) (entries v)
        | _ => match entries v with [] => Some true | _ :: _ => None end
        end
      else if inst v "list" || inst v "set" || inst v "tuple" then
        match args with
        | a :: _ => all_lazy (check_instance a) (items v)
        | [] => None
        end
      else None
  end.

(** What iterating over [v] yields after [off] elements were drawn from it. *)
Definition remaining (v : V) (off : nat) : list V := if one_shot v then drop off (items v) else items v.

Definition sequence_like (c : cls) : bool := bool_decide (c ∈ ["list"; "tuple"; "Sequence"]).
Definition iterable_like (c : cls) : bool := bool_decide (c ∈ ["set"; "Iterable"]).

(** htypes.py 312-374 [check_input_type], with the number of elements that were drawn from the value before and
    afterwards. [typing_inspect.is_generic_type] is false for tuples. What is drawn from elements of the value is not
    tracked. *)
Fixpoint check_input_type (t : ann) (v : V) (off : nat) {struct t} : bool * nat :=
  match t with
  | AAny => (true, off)
  | AClass c => (inst v c || String.eqb c (class_of v), off)
  | AEllipsis => (false, off)
  | AUnion ts =>
      (fix go ts off := match ts with
                        | [] => (false, off)
                        | t' :: ts' => let '(b, off1) := check_input_type t' v off in
                                       let '(b', off2) := go ts' off1 in (b || b', off2)
                        end) ts off
  | ALiteral vs => (bool_decide (v ∈ vs), off)
  | AGen o args =>
      let first := match args with
                   | a :: _ => match remaining v off with
                               | i :: _ => ((check_input_type a i 0).1, S off)
                               | [] => (true, off)
                               end
                   | [] => (true, off)
                   end in
      if String.eqb o "tuple" then (false, off)
      else if String.eqb o (class_of v) then (true, off)
      else if sequence_like o && (inst v "list" || inst v "tuple" || inst v "Sequence") then first
      else if iterable_like o && (inst v "set" || inst v "Iterable") then first
      else (false, off)
  end.

(** driver.py 562-575: None is valid for every type. *)
Variable none : V.
Definition valid_input (t : ann) (v : V) : bool := bool_decide (v = none) || (check_input_type t v 0).1.

(** [==] of annotations: the order of the members of unions and literals does not matter. *)
Fixpoint ann_eqb (a b : ann) {struct a} : bool :=
  match a, b with
  | AAny, AAny => true
  | AClass c, AClass d => String.eqb c d
  | AGen o xs, AGen p ys =>
      String.eqb o p &&
      (fix go xs ys := match xs, ys with
                       | [], [] => true
                       | x :: xs', y :: ys' => ann_eqb x y && go xs' ys'
                       | _, _ => false
                       end) xs ys
  | AUnion xs, AUnion ys =>
      forallb (fun x => existsb (fun y => ann_eqb x y) ys) xs && forallb (fun y => existsb (fun x => ann_eqb x y) xs) ys
  | ALiteral vs, ALiteral ws => bool_decide (Forall (fun v => v ∈ ws) vs) && bool_decide (Forall (fun w => w ∈ vs) ws)
  | AEllipsis, AEllipsis => true
  | _, _ => false
  end.
Fixpoint args_eqb (xs ys : list ann) : bool :=
  match xs, ys with
  | [], [] => true
  | x :: xs', y :: ys' => ann_eqb x y && args_eqb xs' ys'
  | _, _ => false
  end.

(** htypes.py 18-35 [_safe_subclass] *)
Definition safe_subclass (r p : ann) : bool :=
  match r, p with AClass c, AClass d => sub c d | _, _ => false end.
(** The origin of a class or a parameterised generic. *)
Definition origin (t : ann) : option cls :=
  match t with AClass c => Some c | AGen o _ => Some o | _ => None end.

(** htypes.py 38-91 [custom_subclass_check requested param]; the last case is what is left when one of the two has no
    class as its origin. *)
Fixpoint custom_subclass_check (r p : ann) {struct p} : bool :=
  match p with
  | AAny => true
  | _ =>
      safe_subclass r p ||
      (match p with AUnion ts => existsb (fun t => custom_subclass_check r t) ts | _ => false end) ||
      match origin r, origin p with
      | Some o1, Some o2 =>
          (String.eqb o1 o2 || sub o1 o2) &&
          match r, p with
          | AGen _ ((_ :: _) as a1), AGen _ ((_ :: _) as a2) => args_eqb a1 a2
          | _, _ => true
          end
      | None, None =>
          match r, p with
          | ALiteral vs, ALiteral ws => bool_decide (vs = ws)
          | AUnion _, AUnion _ => ann_eqb r p
          | AEllipsis, AEllipsis => true
          | _, _ => false
          end
      | _, _ => false
      end
  end.

(** htypes.py 115-135 [types_match param_type required_node_type] *)
Definition ann_match (p r : ann) : bool :=
  match r with
  | AAny => true
  | _ => ann_eqb r p || custom_subclass_check r p
  end.

(** ** The adapter that checks arguments and results *)
Section Checker.
Context {E : Type}.
(** The exceptions raised by the checks for the node [x]. *)
Variable bad_input bad_output : name -> E.
(** default.py 477-486: [check_input] and [check_output]. *)
Variable check_in check_out : bool.
(** The declared types of the nodes: of their parameters ([node_input_types]) and of their result. *)
Variable params : name -> list (name * ann).
Variable returns : name -> ann.

Definition passes (t : ann) (v : V) : bool :=
  match check_instance t v with Some b => b | None => false end.

(** default.py 488-505; a missing type is a KeyError. *)
Definition inputs_pass (x : name) (kw : gmap name V) : bool :=
  forallb (fun pv => match dget (params x) pv.1 with Some t => passes t pv.2 | None => false end) (map_to_list kw).

(** One node under the adapter: default.py 488-530 around graph_functions.py 255-331. The second component tells whether the
    function was invoked. The hook after the node runs in a [finally] with the result None when the function raised; an
    exception it raises replaces that of the function. *)
Definition checked (f : gmap name V -> res E V) (x : name) (kw : gmap name V) : res E V * bool :=
  if check_in && negb (inputs_pass x kw) then (Err (bad_input x), false)
  else let r := f kw in
       let result := match r with Ok v => v | Err _ => none end in
       (if check_out && negb (passes (returns x) result) then Err (bad_output x) else r, true).
End Checker.
End Types.
