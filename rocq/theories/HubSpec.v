(** What users of downloaded dataflows expect *)
From Coq Require Import Ascii ZArith.
From stdpp Require Import pretty gmap.
From Verif Require Import Base Dict Strings GraphModel HubModel.

(** Every entry is in a directory. *)
Definition closed (fs : fsys) : Prop := forall p n, is_Some (fs !! (p ++ [n])) -> p = [] \/ fs !! p = Some EDir.
Definition visible (n : string) : Prop := forall s, n <> String "."%char s.
Definition want_ok (want : option string) (n : string) : Prop := forall w, want = Some w -> w <> "" -> n = w.

(** The first commit that a text names *)
Definition names_commit (text sha : string) : Prop :=
  exists pre post, text = (pre +:+ "[commit::" +:+ sha +:+ String "]"%char post) /\ lacks "]"%char sha /\
    forall a b, text = (a +:+ "[commit::" +:+ b) -> String.length pre <= String.length a.

Section Spec.
Variable folder : path.
(** A dataflow of a user in the folder *)
Definition in_folder (fs : fsys) (x : string * string * string) : Prop :=
  let '(ci, usr, df) := x in
  visible ci /\ visible usr /\ visible df /\
  fs !! (folder ++ [ci]) = Some EDir /\
  fs !! (folder ++ [ci; "contrib"; "hamilton"; "contrib"; "user"; usr]) = Some EDir /\
  fs !! (folder ++ [ci; "contrib"; "hamilton"; "contrib"; "user"; usr; df]) = Some EDir.
(** Every version has a directory of users. *)
Definition all_users (fs : fsys) (version : option string) : Prop :=
  forall ci, visible ci -> want_ok version ci -> fs !! (folder ++ [ci]) = Some EDir -> fs !! (folder ++ [ci; "contrib"; "hamilton"; "contrib"; "user"]) = Some EDir.
End Spec.

(** A line of requirements: the name and what is said of its version *)
Definition marker (a : ascii) : Prop := a = "="%char \/ a = "<"%char \/ a = ">"%char.
Definition no_marker (s : string) : Prop := lacks "="%char s /\ lacks "<"%char s /\ lacks ">"%char s.
Definition requires (line name : string) : Prop :=
  name <> "" /\ no_marker name /\ (line = name \/ exists a rest, line = name +:+ String a rest /\ marker a).
