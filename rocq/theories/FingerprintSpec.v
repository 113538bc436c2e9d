(** What data versions should mean, independently of how they are computed. *)
From stdpp Require Import sorting pretty.
From Coq Require Import Ascii.
From Verif Require Import Base Strings FingerprintModel.

(** ** The same value enumerated in another order *)
Section Reorder.
(** [separate keys]: the keys are told apart (parameter of the relation). *)
Variable separate : list val -> Prop.

(** [reorder v w]: [w] is [v] with the entries of some dictionaries, sets and attribute
    dictionaries, at any nesting level, enumerated in another order. *)
Inductive reorder : val -> val -> Prop :=
| ro_refl v : reorder v v
| ro_trans u v w : reorder u v -> reorder v w -> reorder u w
| ro_dict l l' : separate l.*1 -> l ≡ₚ l' -> reorder (VDict l) (VDict l')
| ro_set l l' : l ≡ₚ l' -> reorder (VSet l) (VSet l')
| ro_obj c l l' : separate l.*1 -> l ≡ₚ l' -> reorder (VObj c l) (VObj c l')
| ro_in_seq b l1 v w l2 : reorder v w -> reorder (VSeq b (l1 ++ v :: l2)) (VSeq b (l1 ++ w :: l2))
| ro_in_set l1 v w l2 : reorder v w -> reorder (VSet (l1 ++ v :: l2)) (VSet (l1 ++ w :: l2))
| ro_in_key l1 k k' v l2 : reorder k k' ->
    reorder (VDict (l1 ++ (k, v) :: l2)) (VDict (l1 ++ (k', v) :: l2))
| ro_in_value l1 k v w l2 : reorder v w ->
    reorder (VDict (l1 ++ (k, v) :: l2)) (VDict (l1 ++ (k, w) :: l2))
| ro_in_attr c l1 k v w l2 : reorder v w ->
    reorder (VObj c (l1 ++ (k, v) :: l2)) (VObj c (l1 ++ (k, w) :: l2)).
End Reorder.

(** ** Types of plain data *)
Inductive ty :=
| TyNone | TyStr | TyInt | TyBool | TyFloat | TyBytes
| TyOpt (t : ty)
| TyList (t : ty)
| TyPair (t u : ty)
| TyDict (k t : ty)
| TySet (t : ty).

(** [equal t v w]: the values [v] and [w] of type [t] are equal in Python ([==]): dictionaries
    and sets are compared without regard to order. *)
Fixpoint equal (t : ty) (v w : val) : Prop :=
  match t with
  | TyNone => v = VNone /\ w = VNone
  | TyStr => exists s, v = VStr s /\ w = VStr s
  | TyInt => exists z, v = VInt z /\ w = VInt z
  | TyBool => exists b, v = VBool b /\ w = VBool b
  | TyFloat => exists r, v = VFloat r /\ w = VFloat r
  | TyBytes => exists s, v = VBytes s /\ w = VBytes s
  | TyOpt t => (v = VNone /\ w = VNone) \/ (v <> VNone /\ w <> VNone /\ equal t v w)
  | TyList t => exists l l', v = VSeq false l /\ w = VSeq false l' /\ Forall2 (equal t) l l'
  | TyPair t u => exists a b a' b', v = VSeq true [a; b] /\ w = VSeq true [a'; b'] /\
                    equal t a a' /\ equal u b b'
  | TyDict k t => exists l l' l'', v = VDict l /\ w = VDict l' /\ l' ≡ₚ l'' /\
                    Forall2 (fun p q => equal k p.1 q.1 /\ equal t p.2 q.2) l l''
  | TySet t => exists l l' l'', v = VSet l /\ w = VSet l' /\ l' ≡ₚ l'' /\ Forall2 (equal t) l l''
  end.

(** [R] holds between any two different positions of [l]. *)
Definition pairwise {A} (R : A -> A -> Prop) (l : list A) : Prop :=
  forall i j x y, i <> j -> l !! i = Some x -> l !! j = Some y -> R x y.

(** [typed t v]: [v] is a value of type [t]; the keys of a dictionary are pairwise
    different. *)
Fixpoint typed (t : ty) (v : val) : Prop :=
  match t with
  | TyNone => v = VNone
  | TyStr => exists s, v = VStr s
  | TyInt => exists z, v = VInt z
  | TyBool => exists b, v = VBool b
  | TyFloat => exists r, v = VFloat r
  | TyBytes => exists s, v = VBytes s
  | TyOpt t => v = VNone \/ typed t v
  | TyList t => exists l, v = VSeq false l /\ Forall (typed t) l
  | TyPair t u => exists a b, v = VSeq true [a; b] /\ typed t a /\ typed u b
  | TyDict k t => exists l, v = VDict l /\ Forall (fun p => typed k p.1 /\ typed t p.2) l /\
                    pairwise (fun p q => ~ equal k p.1 q.1) l
  | TySet t => exists l, v = VSet l /\ Forall (typed t) l
  end.

(** ** Collision-free digests *)
(** Digests are base64 texts ending in "==" (16 and 28 bytes) and contain no "<" and no other
    "=". *)
Definition digest_format (s : string) : Prop :=
  exists body, lacks "="%char body /\ lacks "<"%char body /\ s = body +:+ "==".
Record ideal (md5 sha224 : string -> string) : Prop := {
  ideal_md5 : forall a b, md5 a = md5 b -> a = b;
  ideal_sha : forall a b, sha224 a = sha224 b -> a = b;
  ideal_sep : forall a b, md5 a <> sha224 b;      (* they have different lengths *)
  ideal_md5_format : forall a, digest_format (md5 a);
  ideal_sha_format : forall a, digest_format (sha224 a);
}.
