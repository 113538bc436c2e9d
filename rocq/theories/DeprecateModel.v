(** Deprecated functions and classes. hamilton/dev_utils/deprecation.py. *)
From Coq Require Import ZArith.
From stdpp Require Import pretty.
From Verif Require Import Base Dict.

(** 12-16 [Version]; its parts are numbers (strings are left out) *)
Record version := Version { major : Z; minor : Z; patch : Z }.
Inductive derr := DType | DValue (message : string) | DDeprecation (message : string) | DAttribute | DRecursion.
(** [Version( *parts)] *)
Definition version_of (parts : list Z) : res derr version :=
  match parts with [a; b; c] => Ok (Version a b c) | _ => Err DType end.
(** 18-19 [__gt__]: of tuples *)
Fixpoint tuple_gt (a b : list Z) : bool :=
  match a, b with
  | [], _ => false
  | _ :: _, [] => true
  | x :: a, y :: b => if decide (x = y) then tuple_gt a b else bool_decide (y < x)%Z
  end.
Definition version_gt (a b : version) : bool := tuple_gt [major a; minor a; patch a] [major b; minor b; patch b].
(** 21-26 [from_version_tuple] *)
Definition from_version_tuple (parts : list Z) : res derr version :=
  version_of (if decide (3 < length parts) then take 3 parts else parts).
(** 33-34 [__repr__] *)
Definition shown (v : version) : string := (pretty (major v) ++ "." ++ pretty (minor v) ++ "." ++ pretty (patch v))%string.

(** What users give: a tuple or a version *)
Inductive spec := STuple (parts : list Z) | SVersion (v : version).
(** 89-92 [_ensure_version_type] *)
Definition ensure_version_type (s : spec) : res derr version := match s with STuple l => version_of l | SVersion v => Ok v end.

(** 60-77 [deprecated], as given and after [__post_init__]; the replacement is its [__qualname__] *)
Record given := Given { g_warn : spec; g_fail : spec; g_use : option string; g_explanation : string; g_guide : option string; g_current : spec }.
Record deprecated := Deprecated { d_warn : version; d_fail : version; d_use : option string; d_explanation : string; d_guide : option string; d_current : version }.
(** 106-117 [_validate_fail_starting] *)
Definition validate_fail_starting (warn fail : version) : res derr unit :=
  if bool_decide (0 < major fail)%Z && (negb (bool_decide (minor fail = 0)) || negb (bool_decide (patch fail = 0)))%Z
  then Err (DValue ("Can only deprecate starting on major version releases. " ++ shown fail ++ " is not valid."))
  else if version_gt warn fail then Err (DValue ("warn_starting must come before fail_starting. " ++ shown fail ++ " < " ++ shown warn))
  else Ok tt.
(** 94-104 [__post_init__] *)
Definition post_init (g : given) : res derr deprecated :=
  if bool_decide (g_use g = None) && bool_decide (g_guide g = None) then Err (DValue "@deprecate must include a migration guide if there is no replacement.")
  else match ensure_version_type (g_warn g) with
       | Err x => Err x
       | Ok w =>
           match ensure_version_type (g_fail g) with
           | Err x => Err x
           | Ok f =>
               match ensure_version_type (g_current g) with
               | Err x => Err x
               | Ok c => match validate_fail_starting w f with Err x => Err x | Ok _ => Ok (Deprecated w f (g_use g) (g_explanation g) (g_guide g) c) end
               end
           end
       end.

(** 160-164 *)
Definition should_warn (d : deprecated) : bool := version_gt (d_current d) (d_warn d).
Definition should_fail (d : deprecated) : bool := version_gt (d_current d) (d_fail d).
Fixpoint spaced (l : list string) : string := match l with [] => "" | [x] => x | x :: l => (x ++ " " ++ spaced l)%string end.
(** 123-136, 141-154 *)
Definition advice (d : deprecated) : list string :=
  match d_use d with Some u => ["Instead, you should be using: " ++ u ++ "."] | None => [] end%string ++
  match d_guide d with Some u => ["For migration, see: " ++ u ++ "."] | None => ["This is a drop-in replacement."] end%string.
Definition failure_message (d : deprecated) (fn : string) : string :=
  spaced ([fn ++ " has been deprecated, as of hamilton version: " ++ shown (d_fail d) ++ "."; d_explanation d]%string ++ advice d).
Definition warn_message (d : deprecated) (fn : string) : string :=
  spaced ([fn ++ " will be deprecated by hamilton version: " ++ shown (d_fail d) ++ "."; d_explanation d]%string ++ advice d).

Section Run.
(** The state of the world, what functions take and return, and the two actions: by default a warning
    is logged and a DeprecationError raised *)
Context {S A R : Type}.
Variables warn_action fail_action : string -> S -> res derr unit * S.
(** 119-158 [_do_deprecation_action] *)
Definition action (d : deprecated) (fn : string) (s : S) : res derr unit * S :=
  if should_fail d then fail_action (failure_message d fn) s
  else if should_warn d then warn_action (warn_message d fn) s
  else (Ok tt, s).

(** ** Functions: 178-185. [functools.wraps] keeps the [__qualname__] *)
Record fn := Fn { f_qual : string; f_run : A -> S -> res derr R * S }.
Definition decorate (d : deprecated) (f : fn) : fn :=
  Fn (f_qual f) (fun a s => match action d (f_qual f) s with (Ok _, s') => f_run f a s' | (Err x, s') => (Err x, s') end).
(** Decorators are given as they are written: the first is outermost *)
Definition decorated (ds : list deprecated) (f : fn) : fn := foldr decorate f ds.

(** ** Classes: 187-199 *)
(** What [__call__] is: the method defined in a class, or [new__call__] of the class with that many
    classes in its method resolution order *)
Inductive impl := Orig (body : A -> S -> res derr R * S) | New (k : nat) (d : deprecated).
(** A class: its [__qualname__] and its own [__call__] and [__old_call__], if any *)
Record cls := Cls { c_qual : string; c_call : option impl; c_old : option impl }.
(** Classes with their bases, the most derived first; one base each, and none that calls [super] *)
Notation mro := (list cls).
Fixpoint get_call (m : mro) : option impl := match m with [] => None | c :: m => match c_call c with Some i => Some i | None => get_call m end end.
Fixpoint get_old (m : mro) : option impl := match m with [] => None | c :: m => match c_old c with Some i => Some i | None => get_old m end end.
(** Decorating the most derived class. [fn.__call__] of a class without one is its constructor: left
    out. *)
Definition decorate_class (d : deprecated) (m : mro) : res derr mro :=
  match m, get_call m with
  | c :: bases, Some i => Ok (Cls (c_qual c) (Some (New (length m) d)) (Some i) :: bases)
  | _, _ => Err DAttribute
  end.
Fixpoint decorate_classes (ds : list deprecated) (m : mro) : res derr mro :=
  match ds with
  | [] => Ok m
  | d :: ds => match decorate_classes ds m with Ok m' => decorate_class d m' | Err x => Err x end
  end.
(** A class statement: its name, its [__call__] if it defines one, and its decorators as written *)
Record stmt := Stmt { s_qual : string; s_call : option (A -> S -> res derr R * S); s_decs : list deprecated }.
Fixpoint define (l : list stmt) : res derr mro :=
  match l with
  | [] => Ok []
  | c :: bases => match define bases with Ok m => decorate_classes (s_decs c) (Cls (s_qual c) (Orig <$> s_call c) None :: m) | Err x => Err x end
  end.
(** The class with that many classes in its method resolution order *)
Definition class_at (k : nat) (m : mro) : mro := drop (length m - k) m.
(** Calling an instance; [limit] is Python's recursion limit *)
Fixpoint invoke (limit : nat) (m : mro) (i : impl) (a : A) (s : S) : res derr R * S :=
  match limit with
  | 0 => (Err DRecursion, s)
  | Datatypes.S limit =>
      match i with
      | Orig body => body a s
      | New k d =>
          match action d (from_option c_qual "" (head (class_at k m))) s with
          | (Err x, s') => (Err x, s')
          | (Ok _, s') => match get_old (class_at k m) with Some i' => invoke limit m i' a s' | None => (Err DAttribute, s') end
          end
      end
  end.
Definition call (limit : nat) (m : mro) (a : A) (s : S) : res derr R * S :=
  match get_call m with Some i => invoke limit m i a s | None => (Err DType, s) end.
End Run.
