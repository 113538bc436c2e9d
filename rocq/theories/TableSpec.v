(** What a table says, column by column. *)
From Verif Require Import Base Dict TableModel.

Definition known (t : string) : Prop := t = "out" \/ t = "source" \/ t = "value".
Section Spec.
Context {C : Type}.
(** A column of the header with a parameter and what it is, and a cell below it *)
Definition column (index : list (list string)) (row : list C) (i : nat) (a t : string) (c : C) : Prop := index !! i = Some [a; t] /\ row !! i = Some c.
Definition says (t : string) (c : C) (d : dep C) : Prop := (t = "source" /\ d = Source c) \/ (t = "value" /\ d = Value c).
(** The last column that binds a parameter *)
Definition binds (index : list (list string)) (row : list C) (a : string) (d : dep C) : Prop :=
  exists i t c, column index row i a t c /\ says t c d /\ forall j t' c' d', i < j -> column index row j a t' c' -> ~ says t' c' d'.
(** Cells below "out", from left to right *)
Inductive below_out : list (list string) -> list C -> list C -> Prop :=
| bo_nil : below_out [] [] []
| bo_out a c index row cs : below_out index row cs -> below_out ([a; "out"] :: index) (c :: row) (c :: cs)
| bo_other a t c index row cs : t <> "out" -> below_out index row cs -> below_out ([a; t] :: index) (c :: row) cs.
End Spec.
