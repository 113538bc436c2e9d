(** Theorems about caching behaviours (C34). *)
From Verif Require Import Base Dict CacheModel BehaviorModel BehaviorSpec BehaviorProofs.

(** Every node other than the auxiliary nodes of data loaders gets the behaviour asked for in
    [with_cache], else that of [@cache], else the default; an EXPAND node gets RECOMPUTE. *)
Theorem C34_precedence_partial c ns beh l s n : behaviors_of c ns = inr (beh, l, s) -> NoDup (names ns) ->
  n ∈ ns -> primary n -> exists b, dget beh (bn_name n) = Some b /\ has_behavior c ns n b.
Proof. intros H N. by apply (precedence c ns beh l s). Qed.

(** The loader node of a data loader has the behaviour of the node carrying its data. *)
Theorem C34_loader_follows c ns beh l s n m : behaviors_of c ns = inr (beh, l, s) -> NoDup (names ns) ->
  n ∈ ns -> m ∈ ns -> bn_loader n = Some (bn_name m) -> primary m -> dget beh (bn_name n) = dget beh (bn_name m).
Proof.
  intros H N Hn Hm L P. destruct (decide (bn_name m = bn_name n)) as [->|E]; [done|].
  by apply (precedence c ns beh l s H N).
Qed.

(** The two nodes of a [@load_from], whose injected parameter is not a node: what [with_cache]
    says of the parameter's name, else the tag, else DEFAULT. *)
Theorem C34_load_from c ns beh l s n main : behaviors_of c ns = inr (beh, l, s) -> NoDup (names ns) ->
  n ∈ ns -> bn_loader n = Some main -> main ∉ names ns ->
  exists b, dget beh (bn_name n) = Some b /\
    ((forced c ns main b /\ forall b', forced c ns main b' -> b' = b) \/
     (forall b', ~ forced c ns main b') /\ match bn_tag n with Some t => spells t b | None => b = DEFAULT end).
Proof.
  intros H N Hn L P. apply (precedence c ns beh l s H N); [done| |done]. split; [done|].
  intros ->. apply P. apply elem_of_list_fmap. by exists n.
Qed.

(** A node listed for two behaviours is rejected. *)
Theorem C34_rejected c ns n b b' : n ∈ ns -> bn_expand n = false -> b <> b' ->
  forced c ns (bn_name n) b -> forced c ns (bn_name n) b' -> exists e, behaviors_of c ns = inl e.
Proof. apply rejected. Qed.
(** True for two behaviours is rejected at construction. *)
Theorem C34_two_true_rejected c ns b b' : b <> b' -> category c b = BTrue -> category c b' = BTrue ->
  behaviors_of c ns = inl BValueError.
Proof.
  intros N E E'. unfold behaviors_of, init_check. destruct c as [d r i s db dl ds].
  destruct b, b'; try done; cbn in E, E'; subst; cbn; by destruct d || destruct r || destruct i || destruct s; 
  repeat match goal with |- context [is_true ?x] => destruct x; cbn end.
Qed.
(** Nothing else is rejected: if no node (nor injected parameter) is listed twice, at most one
    argument is True and all behaviours are spelled correctly, behaviours are resolved. *)
Theorem C34_accepted c ns : init_check c = true ->
  (forall n, n ∈ ns -> bn_expand n = false -> forall b b', forced c ns (bn_name n) b -> forced c ns (bn_name n) b' -> b = b') ->
  (forall n main, n ∈ ns -> bn_loader n = Some main -> forall b b', forced c ns main b -> forced c ns main b' -> b = b') ->
  (forall n t, n ∈ ns -> bn_tag n = Some t -> exists b, spells t b) ->
  (forall t, t ∈ [bc_default_behavior c; bc_default_loader c; bc_default_saver c] -> forall u, t = Some u -> exists b, spells u b) ->
  exists r, behaviors_of c ns = inr r.
Proof. apply accepted. Qed.

(** ** Non-vacuity: a dataflow with a plain node, a tagged one, an EXPAND node, a data loader,
    a data saver and a [@load_from]. *)
Definition nodes : list bnode :=
  [BNode "a" false None None false;
   BNode "b" false (Some "ignore"%string) None false;
   BNode "c" false (Some "Recompute"%string) None false;
   BNode "e" true None None false;
   BNode "raw.loader" false None (Some "raw") false;
   BNode "raw" false None (Some "raw") false;
   BNode "out" false None None true;
   BNode "f.load_data.df" false None (Some "df") false;
   BNode "f.select_data.df" false None (Some "df") false].
Definition cfg : bconfig :=
  BConfig BNone (BNames ["raw"; "df"]) BNone (BNames ["b"]) None (Some "disable"%string) (Some "ignore"%string).
Example nodes_resolved : behaviors_of cfg nodes =
  inr ([("a", DEFAULT); ("b", DISABLE); ("c", RECOMPUTE); ("e", RECOMPUTE); ("raw.loader", RECOMPUTE); ("raw", RECOMPUTE);
        ("out", IGNORE); ("f.load_data.df", RECOMPUTE); ("f.select_data.df", RECOMPUTE)],
       ["raw"; "df"; "df"], ["out"]).
Proof. by vm_compute. Qed.
Example nodes_nodup : NoDup (names nodes).
Proof. apply (bool_decide_unpack _). by vm_compute. Qed.
Example nodes_twice :
  behaviors_of (BConfig (BNames ["a"]) BNone (BNames ["a"]) BNone None None None) nodes = inl BValueError.
Proof. by vm_compute. Qed.

(** ** Where resolution does not follow the documentation *)

(** [recompute=True], "apply to all nodes": the nodes of a [@load_from] stay DEFAULT. *)
Theorem C34_load_from_true_refuted : exists c ns n beh l s,
  category c RECOMPUTE = BTrue /\ n ∈ ns /\ NoDup (names ns) /\ forced c ns (bn_name n) RECOMPUTE /\
  behaviors_of c ns = inr (beh, l, s) /\ dget beh (bn_name n) = Some DEFAULT.
Proof.
  exists (BConfig BNone BTrue BNone BNone None None None), nodes, (BNode "f.load_data.df" false None (Some "df") false).
  eexists _, _, _. split_and!; [done| | | |by vm_compute|by vm_compute].
  - unfold nodes. do 7 right. left.
  - apply nodes_nodup.
  - unfold forced; cbn [category bc_recompute]; apply (bool_decide_unpack _). by vm_compute.
Qed.
(** Listing such a node by its own name has no effect. *)
Theorem C34_load_from_listed_refuted : exists c ns n beh l s,
  n ∈ ns /\ NoDup (names ns) /\ (forall b, forced c ns (bn_name n) b <-> b = DISABLE) /\
  behaviors_of c ns = inr (beh, l, s) /\ dget beh (bn_name n) = Some DEFAULT.
Proof.
  exists (BConfig BNone BNone BNone (BNames ["f.load_data.df"]) None None None), nodes, (BNode "f.load_data.df" false None (Some "df") false).
  eexists _, _, _. split_and!; [| | |by vm_compute|by vm_compute].
  - unfold nodes. do 7 right. left.
  - apply nodes_nodup.
  - intros []; unfold forced; cbn; split; try done. intros _. by left.
Qed.
(** [default_loader_behavior] and [default_behavior] are not applied to the nodes of a
    [@load_from]. *)
Theorem C34_load_from_default_refuted : exists c ns n beh l s,
  n ∈ ns /\ NoDup (names ns) /\ (forall x b, ~ forced c ns x b) /\ bn_tag n = None /\
  spells (fallback c n) RECOMPUTE /\
  behaviors_of c ns = inr (beh, l, s) /\ dget beh (bn_name n) = Some DEFAULT.
Proof.
  exists (BConfig BNone BNone BNone BNone (Some "recompute"%string) (Some "recompute"%string) None), nodes,
    (BNode "f.load_data.df" false None (Some "df") false).
  eexists _, _, _. split_and!; [| | |done|by vm_compute|by vm_compute|by vm_compute].
  - unfold nodes. do 7 right. left.
  - apply nodes_nodup.
  - intros x [] [] .
Qed.
(** An EXPAND node listed for two other behaviours is accepted, and gets neither. *)
Theorem C34_expand_refuted : exists c ns n beh l s b b',
  n ∈ ns /\ NoDup (names ns) /\ b <> b' /\ forced c ns (bn_name n) b /\ forced c ns (bn_name n) b' /\
  behaviors_of c ns = inr (beh, l, s) /\ dget beh (bn_name n) = Some RECOMPUTE /\ b <> RECOMPUTE /\ b' <> RECOMPUTE.
Proof.
  exists (BConfig (BNames ["e"]) BNone BNone (BNames ["e"]) None None None), nodes, (BNode "e" true None None false).
  eexists _, _, _, DEFAULT, DISABLE. split_and!; [| |done| | |by vm_compute|by vm_compute|done|done].
  - unfold nodes. do 3 right. left.
  - apply nodes_nodup.
  - unfold forced; cbn. by left.
  - unfold forced; cbn. by left.
Qed.

Print Assumptions C34_precedence_partial.
Print Assumptions C34_loader_follows.
Print Assumptions C34_load_from.
Print Assumptions C34_rejected.
Print Assumptions C34_two_true_rejected.
Print Assumptions C34_accepted.
Print Assumptions C34_load_from_true_refuted.
Print Assumptions C34_load_from_listed_refuted.
Print Assumptions C34_load_from_default_refuted.
Print Assumptions C34_expand_refuted.
