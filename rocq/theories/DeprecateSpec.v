(** What deprecation means. *)
From Coq Require Import ZArith.
From Verif Require Import Base DeprecateModel.

(** One version is before another *)
Inductive before : version -> version -> Prop :=
| before_major a b c a' b' c' : (a < a')%Z -> before (Version a b c) (Version a' b' c')
| before_minor a b c b' c' : (b < b')%Z -> before (Version a b c) (Version a b' c')
| before_patch a b c c' : (c < c')%Z -> before (Version a b c) (Version a b c').

(** Text within text *)
Definition within (x m : string) : Prop := exists a b, m = (a ++ x ++ b)%string.

Section Spec.
Context {S A R : Type}.
Variable act : deprecated -> string -> S -> res derr unit * S.
(** Some actions, one after the other, and then a body; the first that fails ends it *)
Fixpoint then_ (acts : list (deprecated * string)) (body : A -> S -> res derr R * S) (a : A) (s : S) : res derr R * S :=
  match acts with
  | [] => body a s
  | (d, q) :: acts => match act d q s with (Ok _, s') => then_ acts body a s' | (Err x, s') => (Err x, s') end
  end.
(** What is called on an instance of the first class: the nearest [__call__]; on the way those
    classes that are deprecated *)
Inductive resolves : list (stmt (S := S) (A := A) (R := R)) -> list (deprecated * string) -> (A -> S -> res derr R * S) -> Prop :=
| resolves_own q body ds bases : resolves (Stmt q (Some body) ds :: bases) (map (fun d => (d, q)) ds) body
| resolves_base q ds bases acts body : resolves bases acts body -> resolves (Stmt q None ds :: bases) (map (fun d => (d, q)) ds ++ acts) body.
End Spec.
