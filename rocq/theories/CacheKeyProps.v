(** C30, C31: cache keys. *)
From Coq Require Import Ascii.
From Verif Require Import Base Dict Strings CacheKeyModel CacheKeyProofs CacheToy.

(** Compression is lossless. *)
Definition lossless (compress : string -> string) (decompress : string -> option string) : Prop :=
  forall s, decompress (compress s) = Some s.
(** Base64 uses letters, digits, "+", "/" and "=". *)
Definition dash_free (compress : string -> string) : Prop := forall s, lacks "-"%char (compress s).
(** Two dictionaries with the same entries. *)
Definition same_dict (d d' : dict string) : Prop := forall k, dget d k = dget d' k.
(** A Python dictionary: every key once. *)
Definition is_dict (d : dict string) : Prop := NoDup (dkeys d).
(** No key and no value contains the separator ",". *)
Definition no_commas (d : dict string) : Prop :=
  forall k v, dget d k = Some v -> lacks ","%char k /\ lacks ","%char v.

Lemma no_commas_plain d : is_dict d -> no_commas d -> plain d.
Proof.
  intros Hd Hc. apply Forall_forall. intros [k v] Hin. apply Hc. by apply elem_dget.
Qed.

(** ** C30 *)

(** Full claim: [decode_key (create_cache_key n c d)] gives [n], [c] and [d], for all of them.
    It holds for node names made of letters, digits and "_", code versions without "-" and
    dependency dictionaries without commas; it fails without each of these restrictions
    (below). *)
Theorem C30_roundtrip_partial compress decompress n c d :
  lossless compress decompress -> is_dict d ->
  safe n -> lacks "-"%char c -> no_commas d ->
  exists d', decode_key decompress (create_cache_key compress n c d) = Some (n, c, d') /\ same_dict d' d.
Proof.
  intros Hl Hd Hn Hc Hp.
  destruct (decode_create compress decompress Hl n c d Hc Hd (no_commas_plain d Hd Hp)) as (d' & Heq & Hperm).
  exists d'. rewrite Heq, safe_name_id by done. split; [done|].
  intros k. symmetry. apply dget_perm; [done|by symmetry].
Qed.
Print Assumptions C30_roundtrip_partial.

Example C30_roundtrip_nonvacuous :
  let d := [("spend", "v2"); ("signups", "v1=="); ("_x1", "")] in
  lossless toy_compress toy_decompress /\ is_dict d /\ safe "spend_per_signup" /\
  lacks "-"%char "9f86d081" /\ no_commas d /\
  decode_key toy_decompress (create_cache_key toy_compress "spend_per_signup" "9f86d081" d)
  = Some ("spend_per_signup", "9f86d081", [("_x1", ""); ("signups", "v1=="); ("spend", "v2")]).
Proof.
  split_and!.
  - exact toy_left.
  - by apply (bool_decide_unpack _); vm_compute.
  - by apply (bool_decide_unpack _); vm_compute.
  - by apply (bool_decide_unpack _); vm_compute.
  - intros k v Hk. apply dget_elem in Hk. revert k v Hk.
    cut (Forall (fun p => lacks ","%char p.1 /\ lacks ","%char p.2) [("spend", "v2"); ("signups", "v1=="); ("_x1", "")]).
    { intros HF k v Hk. by apply (proj1 (Forall_forall _ _) HF (k, v)). }
    by repeat constructor.
  - by vm_compute.
Qed.

(** The empty dictionary is told apart from every other one. *)
Theorem C30_empty compress decompress n c :
  lossless compress decompress -> safe n -> lacks "-"%char c ->
  decode_key decompress (create_cache_key compress n c []) = Some (n, c, []).
Proof.
  intros Hl Hn Hc.
  destruct (decode_create compress decompress Hl n c [] Hc ltac:(constructor) ltac:(constructor)) as (d' & Heq & Hp).
  rewrite Heq, safe_name_id by done. by apply Permutation_nil_r in Hp as ->.
Qed.
Print Assumptions C30_empty.

(** Whatever the compression: the name of a namespaced node does not survive. *)
Theorem C30_namespaced_node_refuted : exists n c d,
  is_dict d /\ lacks "-"%char c /\ no_commas d /\
  forall compress decompress, lossless compress decompress ->
    exists n' d', n' <> n /\ decode_key decompress (create_cache_key compress n c d) = Some (n', c, d').
Proof.
  exists "subdag.x", "9f86d081", []. split_and!.
  - constructor.
  - by apply (bool_decide_unpack _); vm_compute.
  - done.
  - intros compress decompress Hl. exists "subdagx", []. split; [done|].
    destruct (decode_create compress decompress Hl "subdag.x" "9f86d081" []) as (d' & Heq & Hp);
      [by apply (bool_decide_unpack _); vm_compute|constructor|constructor|].
    rewrite Heq. by apply Permutation_nil_r in Hp as ->.
Qed.
Print Assumptions C30_namespaced_node_refuted.

(** A code version with a dash is cut at the dash (and what follows does not decompress). *)
Theorem C30_dash_refuted : exists n c d,
  is_dict d /\ safe n /\ no_commas d /\
  lossless toy_compress toy_decompress /\
  decode_key toy_decompress (create_cache_key toy_compress n c d) = None.
Proof.
  exists "x", "v-1", []. split_and!; [constructor|by apply (bool_decide_unpack _); vm_compute|done|exact toy_left|by vm_compute].
Qed.
Print Assumptions C30_dash_refuted.

(** A data version with a comma: the decoded dictionary is another one, or decoding raises. *)
Theorem C30_comma_refuted :
  decode_key toy_decompress (create_cache_key toy_compress "x" "c" [("a", "1,b,2")])
    = Some ("x", "c", [("a", "1"); ("b", "2")]) /\
  decode_key toy_decompress (create_cache_key toy_compress "x" "c" [("a", "1,2")]) = None.
Proof. by vm_compute. Qed.
Print Assumptions C30_comma_refuted.

(** ** C31 *)

(** Full claim: equal keys only for equal node names, code versions and dependency versions.
    Missing: node names are compared only after dropping every character that is no letter,
    digit or "_" (refuted below for "a.b" / "ab"). *)
Theorem C31_injective_partial compress decompress n c d n' c' d' :
  lossless compress decompress -> dash_free compress ->
  is_dict d -> is_dict d' -> no_commas d -> no_commas d' ->
  create_cache_key compress n c d = create_cache_key compress n' c' d' ->
  safe_name n = safe_name n' /\ c = c' /\ same_dict d d'.
Proof.
  intros Hl Hd Hi Hi' Hp Hp' Heq.
  destruct (create_inj compress decompress Hl Hd n c d n' c' d') as (Hn & Hc & Hperm);
    [by apply no_commas_plain|by apply no_commas_plain|done|].
  split_and!; [done|done|]. intros k. by apply dget_perm.
Qed.
Print Assumptions C31_injective_partial.

(** In particular for nodes that are not in a namespace. *)
Theorem C31_injective_safe compress decompress n c d n' c' d' :
  lossless compress decompress -> dash_free compress ->
  is_dict d -> is_dict d' -> no_commas d -> no_commas d' -> safe n -> safe n' ->
  create_cache_key compress n c d = create_cache_key compress n' c' d' ->
  n = n' /\ c = c' /\ same_dict d d'.
Proof.
  intros Hl Hd Hi Hi' Hp Hp' Hn Hn' Heq.
  destruct (C31_injective_partial compress decompress n c d n' c' d' Hl Hd Hi Hi' Hp Hp' Heq) as (H & ? & ?).
  rewrite !safe_name_id in H by done. done.
Qed.
Print Assumptions C31_injective_safe.

Example C31_nonvacuous :
  lossless toy_compress toy_decompress /\ dash_free toy_compress /\
  is_dict [("a", "1"); ("b", "2")] /\ no_commas [("a", "1"); ("b", "2")] /\ safe "x_1" /\
  create_cache_key toy_compress "x_1" "c-1" [("a", "1"); ("b", "2")]
  = create_cache_key toy_compress "x_1" "c-1" [("b", "2"); ("a", "1")].
Proof.
  split_and!.
  - exact toy_left.
  - exact toy_dash.
  - by apply (bool_decide_unpack _); vm_compute.
  - intros k v Hk. apply dget_elem in Hk. revert k v Hk.
    cut (Forall (fun p => lacks ","%char p.1 /\ lacks ","%char p.2) [("a", "1"); ("b", "2")]).
    { intros HF k v Hk. by apply (proj1 (Forall_forall _ _) HF (k, v)). }
    by repeat constructor.
  - by apply (bool_decide_unpack _); vm_compute.
  - by vm_compute.
Qed.

(** The order in which the dependencies are listed does not matter. *)
Lemma same_dict_perm d d' : is_dict d -> is_dict d' -> same_dict d d' -> d ≡ₚ d'.
Proof.
  intros Hd Hd' Hs. apply NoDup_Permutation.
  - unfold is_dict, dkeys in Hd. by apply NoDup_fmap_1 in Hd.
  - unfold is_dict, dkeys in Hd'. by apply NoDup_fmap_1 in Hd'.
  - intros [k v]. split; intros Hin.
    + apply dget_elem. rewrite <-Hs. by apply elem_dget.
    + apply dget_elem. rewrite Hs. by apply elem_dget.
Qed.
Theorem C31_order_irrelevant compress n c d d' :
  is_dict d -> is_dict d' -> same_dict d d' ->
  create_cache_key compress n c d = create_cache_key compress n c d'.
Proof. intros Hd Hd' Hs. apply create_perm. by apply same_dict_perm. Qed.
Print Assumptions C31_order_irrelevant.

Example C31_order_nonvacuous :
  is_dict [("a", "1"); ("b", "2")] /\ is_dict [("b", "2"); ("a", "1")] /\
  same_dict [("a", "1"); ("b", "2")] [("b", "2"); ("a", "1")] /\
  [("a", "1"); ("b", "2")] <> [("b", "2"); ("a", "1")].
Proof.
  split_and!; [by apply (bool_decide_unpack _); vm_compute..| |done].
  intros k. cbn. repeat case_decide; congruence.
Qed.

(** Nodes "a.b" (x in a namespace) and "ab" with the same code and arguments share a key. *)
Theorem C31_namespaced_nodes_refuted : exists n n' c d, n <> n' /\ is_dict d /\ no_commas d /\
  forall compress, create_cache_key compress n c d = create_cache_key compress n' c d.
Proof.
  exists "a.b", "ab", "c", []. split_and!; [done|constructor|done|]. intros compress. reflexivity.
Qed.
Print Assumptions C31_namespaced_nodes_refuted.

(** Data versions with commas: different dependency versions, same key. *)
Theorem C31_comma_refuted : exists d d', is_dict d /\ is_dict d' /\ ~ same_dict d d' /\
  forall compress n c, create_cache_key compress n c d = create_cache_key compress n c d'.
Proof.
  exists [("a", "1,b,2")], [("a", "1"); ("b", "2")]. split_and!.
  - by apply (bool_decide_unpack _); vm_compute.
  - by apply (bool_decide_unpack _); vm_compute.
  - intros H. specialize (H "b"). by vm_compute in H.
  - intros compress n c. reflexivity.
Qed.
Print Assumptions C31_comma_refuted.
