(** What a run is expected to show. *)
From Coq Require Import ZArith.
From Verif Require Import Base WatchModel.

Section Spec.
Context {tags : Type}.
Variable tags_of : string -> tags.
Variable format_time_delta : Z -> string.
(** Which nodes a filter means *)
Definition chosen (f : nfilter tags) (x : string) : Prop :=
  match f with FNone => True | FName s => x = s | FList l => x ∈ l | FFun f => f x (tags_of x) = true | FOther => False end.
(** When a node that is being executed began, outside of tasks: [None] if it is not *)
Fixpoint began (past : list pevent) (x : string) : option Z :=
  (* the past is given backwards *)
  match past with
  | [] => None
  | PBefore y _ t _ :: past => if decide (x = y) then Some t else began past x
  | PAfter y _ _ _ _ _ :: past => if decide (x = y) then None else began past x
  end.
(** Nodes end after they began; none of them in tasks *)
Fixpoint sensible (past es : list pevent) : Prop :=
  match es with
  | [] => True
  | PBefore x t now i :: es => t = None /\ sensible (PBefore x t now i :: past) es
  | PAfter x t now s r e :: es => t = None /\ is_Some (began past x) /\ sensible (PAfter x t now s r e :: past) es
  end.
(** One line for each hook of a chosen node, in order *)
Inductive lines (v : Z) (f : nfilter tags) : list pevent -> list pevent -> list string -> Prop :=
| lines_nil past : lines v f past [] []
| lines_before past x now i es l : chosen f x -> lines v f (PBefore x None now i :: past) es l -> lines v f past (PBefore x None now i :: es) (before_message v x i :: l)
| lines_after past x now s r e es l t0 : chosen f x -> began past x = Some t0 -> lines v f (PAfter x None now s r e :: past) es l ->
    lines v f past (PAfter x None now s r e :: es) (after_message v x (format_time_delta (now - t0)%Z) s r e :: l)
| lines_skip past ev es l : match ev with PBefore x _ _ _ | PAfter x _ _ _ _ _ => ~ chosen f x end -> lines v f (ev :: past) es l -> lines v f past (ev :: es) l.
End Spec.

(** The hooks of one run *)
Definition within_run (es : list gevent) : Prop := Forall (fun e => match e with GBefore _ | GAfter => True | _ => False end) es.
Definition ended (es : list gevent) : nat := length (List.filter (fun e => match e with GAfter => true | _ => false end) es).
