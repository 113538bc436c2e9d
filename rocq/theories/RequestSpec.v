(** What users who ask for names, functions and variables expect *)
From Coq Require Import Ascii.
From stdpp Require Import pretty sorting.
From Verif Require Import Base Dict ConfigModel RequestModel.

(** What an object stands for: a name for itself, a variable for its name, and a function of the
    modules of the driver for what it is called *)
Inductive asks (names : gmap nat name) (modules : list string) : obj -> string -> Prop :=
| asks_name s : asks names modules (OStr s) s
| asks_variable s : asks names modules (ONamed (Some s)) s
| asks_function i m s : m ∈ modules -> names !! i = Some s -> asks names modules (OFunc i m) s.
(** Why an object stands for nothing *)
Inductive refused (names : gmap nat name) (modules : list string) (shown_modules : string) : obj -> string -> Prop :=
| refused_function i m s : m ∉ modules -> names !! i = Some s ->
    refused names modules shown_modules (OFunc i m)
      ("Function " ++ m ++ "." ++ s ++ " is a function not in a module given to the materializer. Valid choices are " ++ shown_modules ++ ".")
| refused_other s : refused names modules shown_modules (OOther s)
      ("Materializer dependency " ++ s ++ " is not a string, a function, or a driver.Variable.").
(** All functions have names. *)
Definition named (names : gmap nat name) (o : obj) : Prop := forall i m, o = OFunc i m -> is_Some (names !! i).

(** What a function [n] is called in a dataflow if it is part of it: by its name, by the part of it
    before the suffix if it has decorators, or as they say. *)
Inductive called {V P : Type} (f : func (V := V) (P := P)) (n : name) : name -> Prop :=
| called_plain : f_decs f = [] -> called f n n
| called_variant x suffix : f_decs f <> [] -> (forall d, d ∈ f_decs f -> cd_target d = None) -> n = (x ++ "__" ++ suffix)%string ->
    (forall p q, x <> (p ++ "__" ++ q)%string) -> (forall p q, ("_" ++ suffix)%string <> (p ++ "__" ++ q)%string) -> called f n x
| called_target x : f_decs f <> [] -> (forall d, d ∈ f_decs f -> cd_target d = Some x) -> called f n x.
