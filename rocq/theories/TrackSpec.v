(** What the experiment tracker is to record, independently of TrackModel's functions. *)
From Coq Require Import Ascii.
From Verif Require Import Base Dict TrackModel.

(** Letters, digits, underscores and dashes *)
Definition plain_char (c : ascii) : Prop :=
  let n := nat_of_ascii c in 97 <= n <= 122 \/ 65 <= n <= 90 \/ 48 <= n <= 57 \/ n = 95 \/ n = 45.

Section Spec.
Context {V : Type}.
(** The inputs of a graph, with what was given and the default *)
Definition asked (n : gnode V) : Prop := gn_module n = None /\ gn_input n = true.
Inductive inputs_of (given : dict V) : list (gnode V) -> list (node_input V) -> Prop :=
| inputs_nil : inputs_of given [] []
| inputs_other n g l : ~ asked n -> inputs_of given g l -> inputs_of given (n :: g) l
| inputs_asked n g l d : asked n -> gn_default n = Some d -> inputs_of given g l -> inputs_of given (n :: g) (NodeInput (gn_name n) (dget given (gn_name n)) d :: l).

(** Where a saver says it saved *)
Definition says (v : tvalue) (p : string) : Prop := (exists f, v = TDict (Some p) f) \/ v = TDict None (Some (Some p)).
Definition place (d p r : string) : Prop := (exists q, p = String "/"%char q /\ r = p) \/ ((forall q, p <> String "/"%char q) /\ r = (d ++ "/" ++ p)%string).

(** What the nodes come to without the tracker: those that returned, those that began, and the outcome *)
Inductive ran : list (tnode * toutcome) -> list (tnode * tvalue) -> list tnode -> res terr unit -> Prop :=
| ran_nil : ran [] [] [] (Ok tt)
| ran_returns n v l vs bs r : ran l vs bs r -> ran ((n, TReturns v) :: l) ((n, v) :: vs) (n :: bs) r
| ran_raises n e l : ran ((n, TRaises e) :: l) [] [n] (Err e).

(** Savers do not fail and say where they saved *)
Definition recordable (l : list (tnode * toutcome)) : Prop := forall n o, (n, o) ∈ l -> tn_saver n = true -> exists v p, o = TReturns v /\ says v p.

(** What was saved, in order *)
Inductive saved (dir : string) : list (tnode * tvalue) -> list materializer -> Prop :=
| saved_nil : saved dir [] []
| saved_other n v l ms : tn_saver n = false -> saved dir l ms -> saved dir ((n, v) :: l) ms
| saved_saver n v p r l ms : tn_saver n = true -> says v p -> place dir p r -> saved dir l ms ->
    saved dir ((n, v) :: l) (Materializer (tn_kwargs n) r (tn_sink n) (tn_class n) :: ms).
End Spec.
