(** What a store of results has to give, independently of its files. *)
From Coq Require Import Ascii.
From Verif Require Import Base MaterializedModel.

Definition no_dots (s : string) : Prop := forall a b, s <> (a ++ String "." b)%string.
Section Spec.
Context {V : Type} (loads : V -> option V) (format : string -> V -> option V).
(** What comes back of a value: itself, or what the format makes of it *)
Definition comes_back (v : V) (saver : option adapter) (w : V) : Prop := match saver with None => w = v | Some a => format (ad_name a) v = Some w end.
(** Operations as the caching adapter performs them: data versions without dots; values that are no loaders, or a saver
    that can save them and the loader of the same name *)
Definition fine (o : op V) : Prop :=
  match o with
  | OSet dv v None None => no_dots dv /\ loads v = None
  | OSet dv v (Some sv) (Some ld) => no_dots dv /\ ad_takes sv = true /\ ad_takes ld = true /\ ad_name sv = ad_name ld /\ is_Some (format (ad_name sv) v)
  | OSet _ _ _ _ => False
  | ODelete dv => no_dots dv
  | _ => True
  end.
(** The last operations decide; the list has the last one at its end *)
Inductive gives (dv : string) : list (op V) -> option V -> Prop :=
| g_nothing : gives dv [] None
| g_set ops v sv ld w : comes_back v sv w -> gives dv (ops ++ [OSet dv v sv ld]) (Some w)
| g_delete ops : gives dv (ops ++ [ODelete dv]) None
| g_delete_all ops : gives dv (ops ++ [ODeleteAll]) None
| g_expire ops r now : gives dv ops r -> gives dv (ops ++ [OExpire now]) r
| g_other_set ops r dv' v sv ld : dv' <> dv -> gives dv ops r -> gives dv (ops ++ [OSet dv' v sv ld]) r
| g_other_delete ops r dv' : dv' <> dv -> gives dv ops r -> gives dv (ops ++ [ODelete dv']) r.
End Spec.
