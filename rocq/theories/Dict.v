(** Insertion-ordered Python dictionaries with string keys, as association lists. *)
From Verif Require Import Base.

Definition dict (A : Type) := list (name * A).

(** [d.get(k)] *)
Fixpoint dget {A} (d : dict A) (k : name) : option A :=
  match d with
  | [] => None
  | (k', a) :: d' => if decide (k = k') then Some a else dget d' k
  end.

(** [d[k] = a]: an existing key keeps its position. *)
Fixpoint dset {A} (d : dict A) (k : name) (a : A) : dict A :=
  match d with
  | [] => [(k, a)]
  | (k', a') :: d' => if decide (k = k') then (k', a) :: d' else (k', a') :: dset d' k a
  end.

(** [del d[k]] *)
Fixpoint ddel {A} (d : dict A) (k : name) : dict A :=
  match d with
  | [] => []
  | (k', a') :: d' => if decide (k = k') then d' else (k', a') :: ddel d' k
  end.

Definition dkeys {A} (d : dict A) : list name := d.*1.

Section Facts.
Context {A : Type}.
Implicit Types d : dict A.

Lemma dget_dset d k k' a :
  dget (dset d k a) k' = if decide (k' = k) then Some a else dget d k'.
Proof.
  induction d as [|[k0 a0] d IH]; cbn.
  - by destruct (decide (k' = k)).
  - destruct (decide (k = k0)) as [->|Hne]; cbn.
    + by destruct (decide (k' = k0)).
    + destruct (decide (k' = k0)) as [->|Hne'].
      * by rewrite decide_False by congruence.
      * apply IH.
Qed.

Lemma dget_dset_eq d k a : dget (dset d k a) k = Some a.
Proof. rewrite dget_dset. by rewrite decide_True. Qed.
Lemma dget_dset_ne d k k' a : k' <> k -> dget (dset d k a) k' = dget d k'.
Proof. intros. rewrite dget_dset. by rewrite decide_False. Qed.

Lemma dget_elem d k a : dget d k = Some a -> (k, a) ∈ d.
Proof.
  induction d as [|[k0 a0] d IH]; cbn; [done|].
  destruct (decide (k = k0)) as [->|]; [intros [= ->]; by left|right; auto].
Qed.

Lemma dget_Some_key d k : is_Some (dget d k) <-> k ∈ dkeys d.
Proof.
  induction d as [|[k0 a0] d IH]; cbn.
  - rewrite elem_of_nil. split; [by intros [? ?]|done].
  - rewrite elem_of_cons. destruct (decide (k = k0)) as [->|].
    + split; [by left|by eexists].
    + rewrite IH. naive_solver.
Qed.

Lemma dget_None_key d k : dget d k = None <-> k ∉ dkeys d.
Proof. rewrite <-dget_Some_key. by rewrite eq_None_not_Some. Qed.

Lemma elem_dget d k a : NoDup (dkeys d) -> (k, a) ∈ d -> dget d k = Some a.
Proof.
  induction d as [|[k0 a0] d IH]; cbn; intros Hnd Hin; [by apply elem_of_nil in Hin|].
  apply NoDup_cons in Hnd as [Hk Hnd].
  apply elem_of_cons in Hin as [Heq|Hin].
  - injection Heq as -> ->. by rewrite decide_True.
  - rewrite decide_False; [by apply IH|]. intros ->. apply Hk.
    apply elem_of_list_fmap. by exists (k0, a).
Qed.

Lemma dkeys_dset_in d k a : k ∈ dkeys d -> dkeys (dset d k a) = dkeys d.
Proof.
  induction d as [|[k0 a0] d IH]; cbn; intros Hin; [by apply elem_of_nil in Hin|].
  destruct (decide (k = k0)) as [->|]; cbn; [done|].
  apply elem_of_cons in Hin as [?|?]; [done|]. f_equal. by apply IH.
Qed.

Lemma dkeys_dset_notin d k a : k ∉ dkeys d -> dkeys (dset d k a) = dkeys d ++ [k].
Proof.
  induction d as [|[k0 a0] d IH]; cbn; intros Hin; [done|].
  rewrite not_elem_of_cons in Hin. destruct Hin as [Hne Hin].
  rewrite decide_False by done. cbn. f_equal. by apply IH.
Qed.

Lemma dkeys_dset_elem d k a k' : k' ∈ dkeys (dset d k a) <-> k' = k \/ k' ∈ dkeys d.
Proof.
  destruct (decide (k ∈ dkeys d)).
  - rewrite dkeys_dset_in by done. naive_solver.
  - rewrite dkeys_dset_notin by done. rewrite elem_of_app, elem_of_list_singleton. naive_solver.
Qed.

Lemma NoDup_dkeys_dset d k a : NoDup (dkeys d) -> NoDup (dkeys (dset d k a)).
Proof.
  intros Hnd. destruct (decide (k ∈ dkeys d)).
  - by rewrite dkeys_dset_in.
  - rewrite dkeys_dset_notin by done. apply NoDup_app. split_and!; [done| |apply NoDup_singleton].
    intros x Hx Hx'. apply elem_of_list_singleton in Hx' as ->. done.
Qed.

Lemma list_to_map_dget d k : NoDup (dkeys d) -> (list_to_map d : gmap name A) !! k = dget d k.
Proof.
  intros Hnd. destruct (dget d k) as [a|] eqn:Hd.
  - apply elem_of_list_to_map; [done|]. by apply dget_elem.
  - apply not_elem_of_list_to_map. by apply dget_None_key.
Qed.

Lemma dget_ddel d k k' : NoDup (dkeys d) ->
  dget (ddel d k) k' = if decide (k' = k) then None else dget d k'.
Proof.
  induction d as [|[k0 a0] d IH]; cbn; intros Hnd.
  - by destruct (decide (k' = k)).
  - apply NoDup_cons in Hnd as [Hk Hnd].
    destruct (decide (k = k0)) as [->|Hne]; cbn.
    + destruct (decide (k' = k0)) as [->|]; [|done]. by apply dget_None_key.
    + destruct (decide (k' = k0)) as [->|Hne'].
      * by rewrite decide_False by congruence.
      * by apply IH.
Qed.

Lemma dkeys_ddel_sub d k x : x ∈ dkeys (ddel d k) -> x ∈ dkeys d.
Proof.
  induction d as [|[k0 a0] d IH]; cbn; [done|].
  destruct (decide (k = k0)); cbn; rewrite ?elem_of_cons; naive_solver.
Qed.

Lemma NoDup_dkeys_ddel d k : NoDup (dkeys d) -> NoDup (dkeys (ddel d k)).
Proof.
  induction d as [|[k0 a0] d IH]; cbn; intros Hnd; [done|].
  apply NoDup_cons in Hnd as [Hk Hnd].
  destruct (decide (k = k0)); cbn; [done|]. constructor; [|by apply IH].
  intros Hx. by apply dkeys_ddel_sub in Hx.
Qed.
End Facts.
