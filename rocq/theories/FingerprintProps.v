(** C37, C38: data versions (fingerprints). *)
From Coq Require Import Ascii.
From stdpp Require Import sorting pretty.
From Verif Require Import Base Dict Strings CacheKeyModel FingerprintModel FingerprintSpec FingerprintProofs CacheToy.

Lemma toy_ideal : ideal toy_md5 toy_sha.
Proof.
  assert (Hf : forall c s, c <> "="%char -> c <> "<"%char -> digest_format (String c (toy_compress s) +:+ "==")).
  { intros c s H1 H2. exists (String c (toy_compress s)). cbn [lacks].
    split_and!; [done|by apply toy_lacks|done|by apply toy_lacks|done]. }
  assert (Hi : forall c a b, c <> "="%char -> String c (toy_compress a) +:+ "==" = String c (toy_compress b) +:+ "==" -> a = b).
  { intros c a b Hc H. change ("==") with (String "=" "=") in H.
    apply split_unique in H as [H _].
    - injection H as H. by apply toy_inj.
    - split; [done|by apply toy_lacks].
    - split; [done|by apply toy_lacks]. }
  constructor.
  - intros a b. by apply (Hi "m"%char).
  - intros a b. by apply (Hi "s"%char).
  - intros a b. unfold toy_md5, toy_sha. rewrite !append_cons. done.
  - intros a. by apply Hf.
  - intros a. by apply Hf.
Qed.

(** ** C37 *)

(** The keys of a dictionary have pairwise different data versions. *)
Definition distinct_versions (md5 sha224 : string -> string) (md : nat) (keys : list val) : Prop :=
  forall depth, NoDup (map (hash_value md5 sha224 md depth) keys).
(** The keys are pairwise different strings. *)
Definition string_keys (keys : list val) : Prop := exists ss, keys = map VStr ss /\ NoDup ss.

(** Whatever the digests: enumerating dictionaries, sets and attributes in another order, at
    any nesting level, does not change the data version. *)
Theorem C37_order_invariant md5 sha224 md v w :
  reorder (distinct_versions md5 sha224 md) v w ->
  forall depth, hash_value md5 sha224 md depth v = hash_value md5 sha224 md depth w.
Proof. apply reorder_hash. Qed.
Print Assumptions C37_order_invariant.

Lemma reorder_mono (P Q : list val -> Prop) v w :
  (forall ks, P ks -> Q ks) -> reorder P v w -> reorder Q v w.
Proof.
  intros HPQ. induction 1.
  - apply ro_refl.
  - by eapply ro_trans.
  - apply ro_dict; auto.
  - by apply ro_set.
  - apply ro_obj; auto.
  - by apply ro_in_seq.
  - by apply ro_in_set.
  - by apply ro_in_key.
  - by apply ro_in_value.
  - by apply ro_in_attr.
Qed.

Theorem C37_order_invariant_string_keys md5 sha224 md v w :
  ideal md5 sha224 -> reorder string_keys v w ->
  forall depth, hash_value md5 sha224 md depth v = hash_value md5 sha224 md depth w.
Proof.
  intros Hi Hr. apply reorder_hash. eapply reorder_mono; [|exact Hr].
  intros ks (ss & -> & Hnd) d. rewrite map_map. cbn [hash_value].
  apply (NoDup_fmap_2_strong md5); [|done]. intros x y _ _. apply (ideal_md5 _ _ Hi).
Qed.
Print Assumptions C37_order_invariant_string_keys.

(** [{"x": [{"a": 1, "b": {2, 3}}]}] and [{"x": [{"b": {3, 2}, "a": 1}]}] *)
Example C37_nonvacuous :
  let v := VDict [(VStr "x", VSeq false [VDict [(VStr "a", VInt 1); (VStr "b", VSet [VInt 2; VInt 3])]])] in
  let w := VDict [(VStr "x", VSeq false [VDict [(VStr "b", VSet [VInt 3; VInt 2]); (VStr "a", VInt 1)]])] in
  ideal toy_md5 toy_sha /\ reorder string_keys v w /\ v <> w.
Proof.
  split_and!; [exact toy_ideal| |done].
  apply (ro_in_value _ [] (VStr "x") _ _ []). apply (ro_in_seq _ false [] _ _ []).
  eapply ro_trans.
  - apply (ro_in_value _ [(VStr "a", VInt 1)] (VStr "b") _ (VSet [VInt 3; VInt 2]) []).
    apply ro_set. apply perm_swap.
  - apply ro_dict; [|apply perm_swap].
    exists ["a"; "b"]. split; [done|]. by apply (bool_decide_unpack _); vm_compute.
Qed.

(** Keys with the same version (the int 1 and the string "1"): the order matters. *)
Theorem C37_equal_key_texts_refuted : exists l l', l ≡ₚ l' /\ NoDup l.*1 /\
  hash_value toy_md5 toy_sha 6 0 (VDict l) <> hash_value toy_md5 toy_sha 6 0 (VDict l').
Proof.
  exists [(VInt 1, VStr "a"); (VStr "1", VStr "b")], [(VStr "1", VStr "b"); (VInt 1, VStr "a")].
  split_and!.
  - apply perm_swap.
  - constructor; [rewrite elem_of_list_singleton; done|]. constructor; [apply not_elem_of_nil|constructor].
  - by vm_compute.
Qed.
Print Assumptions C37_equal_key_texts_refuted.

(** The version of a sequence determines the versions of its elements, in order. *)
Theorem C37_sequence_elements md5 sha224 md depth b b' l l' :
  ideal md5 sha224 ->
  hash_value md5 sha224 md depth (VSeq b l) = hash_value md5 sha224 md depth (VSeq b' l') ->
  map (hash_value md5 sha224 md (S depth)) l = map (hash_value md5 sha224 md (S depth)) l'.
Proof. intros Hi. by apply seq_elements. Qed.
Print Assumptions C37_sequence_elements.

Example C37_sequence_nonvacuous :
  ideal toy_md5 toy_sha /\
  hash_value toy_md5 toy_sha 6 0 (VSeq false [VInt 1; VNone]) = hash_value toy_md5 toy_sha 6 0 (VSeq true [VStr "1"; VNone]) /\
  hash_value toy_md5 toy_sha 6 0 (VSeq false [VInt 1; VInt 2]) <> hash_value toy_md5 toy_sha 6 0 (VSeq false [VInt 2; VInt 1]).
Proof. split_and!; [exact toy_ideal|by vm_compute|by vm_compute]. Qed.

(** ** C38 *)

(** Full claim: equal versions only for equal values. Proved for two values of the same type
    built from None, str, int, bool, float, bytes, Optional, list, pairs, dict and set, to any
    depth; the claim fails for values of different types, objects and arrays (below). *)
Theorem C38_same_type_partial md5 sha224 md depth t v w :
  ideal md5 sha224 -> typed t v -> typed t w ->
  (hash_value md5 sha224 md depth v = hash_value md5 sha224 md depth w <-> equal t v w).
Proof.
  intros Hi Hv Hw. split.
  - by apply typed_hash_equal.
  - by apply equal_hash.
Qed.
Print Assumptions C38_same_type_partial.

Example C38_nonvacuous :
  let t := TyDict TyStr (TyList (TyOpt TyInt)) in
  let v := VDict [(VStr "a", VSeq false [VInt 1; VNone]); (VStr "b", VSeq false [])] in
  let w := VDict [(VStr "b", VSeq false []); (VStr "a", VSeq false [VInt 1; VNone])] in
  typed t v /\ typed t w /\ equal t v w /\
  typed t (VDict [(VStr "a", VSeq false [VNone; VInt 1]); (VStr "b", VSeq false [])]) /\
  ~ equal t v (VDict [(VStr "a", VSeq false [VNone; VInt 1]); (VStr "b", VSeq false [])]).
Proof.
  assert (H12 : forall a b (x y : val), a <> b -> pairwise (fun p q => ~ equal TyStr p.1 q.1) [(VStr a, x); (VStr b, y)]).
  { intros a b x y Hab [|[|i]] [|[|j]] p q Hij Hi Hj; cbn in Hi, Hj; try done;
      injection Hi as <-; injection Hj as <-; cbn; intros (s & H1 & H2); congruence. }
  assert (T : forall a b x y, a <> b -> typed (TyList (TyOpt TyInt)) x -> typed (TyList (TyOpt TyInt)) y ->
     typed (TyDict TyStr (TyList (TyOpt TyInt))) (VDict [(VStr a, x); (VStr b, y)])).
  { intros a b x y Hab Hx Hy. eexists. split_and!; [done| |by apply H12].
    repeat constructor; cbn [fst snd]; try done; by eexists. }
  assert (L0 : typed (TyList (TyOpt TyInt)) (VSeq false [])) by (eexists; split; [done|constructor]).
  assert (L1 : typed (TyList (TyOpt TyInt)) (VSeq false [VInt 1; VNone])).
  { eexists. split; [done|]. constructor; [right; by eexists|]. constructor; [by left|constructor]. }
  assert (L2 : typed (TyList (TyOpt TyInt)) (VSeq false [VNone; VInt 1])).
  { eexists. split; [done|]. constructor; [by left|]. constructor; [|constructor]. right. by eexists. }
  cbn zeta. split_and!.
  - by apply T.
  - by apply T.
  - cbn [equal]. eexists _, _, [(VStr "a", VSeq false [VInt 1; VNone]); (VStr "b", VSeq false [])].
    split_and!; [done|done|apply perm_swap|].
    constructor; [split; cbn [fst snd]|constructor; [split; cbn [fst snd]|constructor]].
    + by eexists.
    + eexists _, _. split_and!; [done|done|]. constructor; [right; split_and!; [done|done|by eexists]|].
      constructor; [by left|constructor].
    + by eexists.
    + eexists _, _. split_and!; [done|done|]. constructor.
  - by apply T.
  - intros H. eapply (equal_hash toy_md5 toy_sha 6 toy_ideal _ 0) in H; [|by apply T..].
    by vm_compute in H.
Qed.

(** Whatever the digests, these different values have the same version: *)
(** - values of different primitive types with the same text; *)
Theorem C38_text_refuted md5 sha224 md depth :
  hash_value md5 sha224 md depth (VInt 1) = hash_value md5 sha224 md depth (VStr "1") /\
  hash_value md5 sha224 md depth (VBool true) = hash_value md5 sha224 md depth (VStr "True") /\
  hash_value md5 sha224 md depth (VBytes "a") = hash_value md5 sha224 md depth (VStr "a").
Proof. done. Qed.
Print Assumptions C38_text_refuted.

(** - a list, a tuple, a dictionary and a set with the same content; *)
Theorem C38_container_refuted md5 sha224 md depth :
  let h := hash_value md5 sha224 md depth in
  h (VSeq false [VStr "a"; VInt 1]) = h (VSeq true [VStr "a"; VInt 1]) /\
  h (VSeq false [VStr "a"; VInt 1]) = h (VDict [(VStr "a", VInt 1)]) /\
  h (VSeq false [VInt 1]) = h (VSet [VInt 1]).
Proof. done. Qed.
Print Assumptions C38_container_refuted.

(** - containers of different unhashable objects (not UNHASHABLE themselves, so they are
      cached); *)
Theorem C38_nested_unhashable_refuted md5 sha224 md depth :
  ideal md5 sha224 ->
  hash_value md5 sha224 md depth (VSeq false [VOpaque "o1"]) = hash_value md5 sha224 md depth (VSeq false [VOpaque "o2"]) /\
  hash_value md5 sha224 md depth (VSeq false [VOpaque "o1"]) <> UNHASHABLE.
Proof.
  intros Hi. split; [done|]. cbn [hash_value].
  destruct (ideal_sha_format _ _ Hi (concat_s (map (hash_value md5 sha224 md (S depth)) [VOpaque "o1"]))) as (b & _ & Hl & ->).
  destruct b as [|c b]; [done|]. destruct Hl as [Hc _]. rewrite append_cons. intros [= H _]. done.
Qed.
Print Assumptions C38_nested_unhashable_refuted.

(** - instances of different classes with the same attributes; arrays of different shape; *)
Theorem C38_class_refuted md5 sha224 md depth attrs :
  hash_value md5 sha224 md depth (VObj "A" attrs) = hash_value md5 sha224 md depth (VObj "B" attrs) /\
  hash_value md5 sha224 md depth (VArray "(2, 3)" "raw") = hash_value md5 sha224 md depth (VArray "(3, 2)" "raw").
Proof. done. Qed.
Print Assumptions C38_class_refuted.

(** - objects that differ only below the maximal depth (here 6, the default): five levels of
      objects suffice. *)
Definition wrap (v : val) : val := VObj "C" [(VStr "child", v)].
Theorem C38_depth_refuted md5 sha224 :
  let deep s := wrap (wrap (wrap (wrap (wrap (VStr s))))) in
  hash_value md5 sha224 6 0 (deep "left") = hash_value md5 sha224 6 0 (deep "right") /\
  (ideal md5 sha224 -> hash_value md5 sha224 6 0 (deep "left") <> UNHASHABLE).
Proof.
  split; [done|]. intros Hi.
  assert (exists x, hash_value md5 sha224 6 0 (wrap (wrap (wrap (wrap (wrap (VStr "left")))))) = sha224 x) as [x ->]
    by (eexists; reflexivity).
  destruct (ideal_sha_format _ _ Hi x) as (b & _ & Hl & ->).
  destruct b as [|c b]; [done|]. destruct Hl as [Hc _]. rewrite append_cons. intros [= H _]. done.
Qed.
Print Assumptions C38_depth_refuted.
