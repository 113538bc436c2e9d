(** What is asked for: names, functions and variables as outputs of a driver or dependencies of a
    materializer. hamilton/common/__init__.py, driver.py 654-662, io/materialization.py 186-203. *)
From Coq Require Import Ascii.
From stdpp Require Import pretty sorting.
From Verif Require Import Base Dict ConfigModel.

(** What users pass. A variable, or anything else with an attribute [name]: its value, a string or
    None (other values are left out). A function: its identity, under which its [__name__] is kept as
    in [ConfigModel], and its [__module__]. Other callables have no [__name__] (instances with
    [__call__], partial functions). *)
Inductive obj :=
| OStr (s : string)
| ONamed (n : option string)
| OFunc (id : nat) (module : string)
| OCallable (module : string)
| OOther (shown : string).
Inductive rerr := RAttribute | RValue (message : string).

(** The order of [list.sort] on ASCII strings *)
Definition le (a b : string) : Prop := String.leb a b = true.
Global Instance le_dec a b : Decision (le a b) := decide (String.leb a b = true).

Section Request.
(** The [__name__] of functions at the time, the names of the modules of the driver, and how they are
    printed as a set *)
Variable names : gmap nat name.
Variable modules : list string.
Variable shown_modules : string.

Definition foreign (module fn : string) : string :=
  ("Function " ++ module ++ "." ++ fn ++ " is a function not in a module given to the materializer. Valid choices are " ++ shown_modules ++ ".")%string.
Definition unusable (shown : string) : string :=
  ("Materializer dependency " ++ shown ++ " is not a string, a function, or a driver.Variable.")%string.
Definition fn_name (id : nat) : string := default ""%string (names !! id).

(** common/__init__.py 5-33: the value and the error *)
Definition convert_output_value (o : obj) : res rerr (option string * option string) :=
  match o with
  | OStr s => Ok (Some s, None)
  | ONamed n => Ok (n, None)
  | OFunc id m => if decide (m ∈ modules) then Ok (Some (fn_name id), None) else Ok (None, Some (foreign m (fn_name id)))
  | OCallable _ => Err RAttribute
  | OOther shown => Ok (None, Some (unusable shown))
  end.

(** [if _val:] *)
Definition truthy (s : option string) : list string := match s with None => [] | Some s => if decide (s = ""%string) then [] else [s] end.
(** 47-53 *)
Fixpoint collect (os : list obj) (final_values errors : list string) : res rerr (list string * list string) :=
  match os with
  | [] => Ok (final_values, errors)
  | o :: os =>
      match convert_output_value o with
      | Ok (v, e) => collect os (final_values ++ truthy v) (errors ++ truthy e)
      | Err x => Err x
      end
  end.
Fixpoint joined (sep : string) (l : list string) : string :=
  match l with [] => "" | [x] => x | x :: l => (x ++ sep ++ joined sep l)%string end.
Definition separator : string := String (ascii_of_nat 10) "  ".
Definition message (errors : list string) : string := (pretty (length errors) ++ " errors encountered:" ++ separator ++ joined separator errors)%string.
(** 36-58 *)
Definition convert_output_values (os : list obj) : res rerr (list string) :=
  match collect os [] [] with
  | Err x => Err x
  | Ok (vs, es) => if decide (es = []) then Ok vs else Err (RValue (message (merge_sort le es)))
  end.
End Request.

(** Drivers built afterwards: each with its configuration and functions *)
Section Later.
Context {V P : Type}.
Variable eqv : V -> V -> bool.
Variable inv : V -> list V -> bool.
Variables none pfalse : V.
Definition later (bs : list (gmap name V * list (func (V := V) (P := P)))) (st : gmap nat name) : gmap nat name :=
  foldl (fun st b => (build eqv inv none pfalse b.1 b.2 st).1) st bs.
End Later.
