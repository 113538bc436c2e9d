(** Facts about data versions. *)
From Coq Require Import Ascii.
From stdpp Require Import sorting pretty.
From Verif Require Import Base Dict Strings CacheKeyModel CacheKeyProofs FingerprintModel FingerprintSpec.

Global Instance str_le_Total : Total str_le.
Proof. intros a b. unfold str_le. rewrite !Is_true_true. apply str_leb_total. Qed.
Global Instance str_le_Trans : Transitive str_le.
Proof. intros a b c. unfold str_le. rewrite !Is_true_true. apply str_leb_trans. Qed.
Global Instance str_le_Anti : AntiSymm (=) str_le.
Proof. intros a b. unfold str_le. rewrite !Is_true_true. apply str_leb_antisym. Qed.

Lemma sort_str_perm (l l' : list string) : l ≡ₚ l' -> merge_sort str_le l = merge_sort str_le l'.
Proof.
  intros Hp. apply (Sorted_unique str_le).
  - apply Sorted_merge_sort, _.
  - apply Sorted_merge_sort, _.
  - by rewrite !merge_sort_Permutation.
Qed.

Lemma foldl_dset (acc items : list (string * string)) : NoDup (acc ++ items).*1 ->
  foldl (fun d p => dset d p.1 p.2) acc items = acc ++ items.
Proof.
  revert acc. induction items as [|[k v] items IH]; intros acc Hnd; [by rewrite app_nil_r|]. cbn [foldl fst snd].
  assert (Hk : k ∉ dkeys acc).
  { rewrite fmap_app in Hnd. apply NoDup_app in Hnd as (_ & Hd & _). intros Hk. apply (Hd k Hk). by left. }
  assert (Hset : dset acc k v = acc ++ [(k, v)]).
  { clear -Hk. induction acc as [|[k' v'] acc IH]; [done|]. cbn in *.
    rewrite not_elem_of_cons in Hk. destruct Hk as [Hne Hk].
    rewrite decide_False by done. by rewrite IH. }
  rewrite Hset, IH; by rewrite <-app_assoc.
Qed.

Lemma NoDup_perm {A} (l l' : list A) : l ≡ₚ l' -> NoDup l -> NoDup l'.
Proof. by intros ->. Qed.

Section H.
Variable md5 sha224 : string -> string.
Variable md : nat.
Notation hash := (hash_value md5 sha224 md).
Notation hitems := (hash_items sha224).

Lemma hash_items_perm items items' : NoDup items.*1 -> items ≡ₚ items' -> hitems items = hitems items'.
Proof.
  intros Hnd Hp. unfold hash_items. rewrite !(foldl_dset []); cbn [app].
  - by rewrite (sort_perm _ _ Hp).
  - by rewrite <-Hp.
  - done.
Qed.

Lemma pairs_fst d (l : list (val * val)) :
  (map (fun '(k, w) => (hash d k, hash d w)) l).*1 = map (hash d) l.*1.
Proof. induction l as [|[k w] l IH]; [done|]. cbn. f_equal. apply IH. Qed.

(** The data version does not depend on the order of enumeration. *)
Lemma reorder_hash v w :
  reorder (fun ks => forall d, NoDup (map (hash d) ks)) v w -> forall d, hash d v = hash d w.
Proof.
  induction 1 as [v|u v w _ IH1 _ IH2|l l' Hs Hp|l l' Hp|c l l' Hs Hp|b l1 v w l2 _ IH|l1 v w l2 _ IH
                 |l1 k k' v l2 _ IH|l1 k v w l2 _ IH|c l1 k v w l2 _ IH]; intros d.
  - done.
  - by rewrite IH1.
  - cbn [hash_value]. apply hash_items_perm.
    + rewrite pairs_fst. apply Hs.
    + by apply Permutation_map.
  - cbn [hash_value]. f_equal. f_equal. apply sort_str_perm. by apply Permutation_map.
  - cbn [hash_value]. case_match; [done|]. apply hash_items_perm.
    + rewrite pairs_fst. apply Hs.
    + by apply Permutation_map.
  - cbn [hash_value]. rewrite !map_app. cbn [map]. by rewrite IH.
  - cbn [hash_value]. rewrite !map_app. cbn [map]. by rewrite IH.
  - cbn [hash_value]. rewrite !map_app. cbn [map]. by rewrite IH.
  - cbn [hash_value]. rewrite !map_app. cbn [map]. by rewrite IH.
  - cbn [hash_value]. rewrite !map_app. cbn [map]. by rewrite IH.
Qed.

(** ** Unique reading of concatenated versions *)
Definition token (s : string) : Prop := s = NONE_HASH \/ s = UNHASHABLE \/ digest_format s.

Hypothesis Hideal : ideal md5 sha224.

Lemma md5_token a : token (md5 a).
Proof. right. right. apply Hideal. Qed.
Lemma sha_token a : token (sha224 a).
Proof. right. right. apply Hideal. Qed.
Lemma hash_token d v : token (hash d v).
Proof.
  destruct v; cbn [hash_value]; try apply md5_token; try apply sha_token.
  - by left.
  - case_match; [right; by left|]. apply sha_token.
  - case_match; [right; by left|]. apply md5_token.
  - right. by left.
Qed.

Lemma digest_not_lt body r s : lacks "<"%char body -> (body +:+ "==") +:+ r = String "<" s -> False.
Proof.
  destruct body as [|c body]; [done|]. intros [Hc _]. rewrite !append_cons. intros [= H _]. done.
Qed.

Lemma token_prefix t r t' r' : token t -> token t' -> t +:+ r = t' +:+ r' -> t = t' /\ r = r'.
Proof.
  intros Ht Ht' Heq.
  destruct Ht as [->|[->|(b & Hb & Hl & ->)]], Ht' as [->|[->|(b' & Hb' & Hl' & ->)]].
  - split; [done|]. by apply (app_inj_l NONE_HASH).
  - unfold NONE_HASH, UNHASHABLE in Heq. by rewrite !append_cons in Heq.
  - symmetry in Heq. unfold NONE_HASH in Heq. rewrite (append_cons "<") in Heq. by apply digest_not_lt in Heq.
  - unfold NONE_HASH, UNHASHABLE in Heq. by rewrite !append_cons in Heq.
  - split; [done|]. by apply (app_inj_l UNHASHABLE).
  - symmetry in Heq. unfold UNHASHABLE in Heq. rewrite (append_cons "<") in Heq. by apply digest_not_lt in Heq.
  - unfold NONE_HASH in Heq. rewrite (append_cons "<") in Heq. by apply digest_not_lt in Heq.
  - unfold UNHASHABLE in Heq. rewrite (append_cons "<") in Heq. by apply digest_not_lt in Heq.
  - rewrite !app_assoc_s in Heq.
    change ("==" +:+ r) with (String "=" (String "=" r)) in Heq.
    change ("==" +:+ r') with (String "=" (String "=" r')) in Heq.
    apply split_unique in Heq as [-> Heq]; [|done|done]. by injection Heq as ->.
Qed.

Lemma token_nonempty t : token t -> t <> "".
Proof. intros [->|[->|(b & _ & _ & ->)]]; [done|done|]. by destruct b. Qed.
Lemma app_nonempty t r : token t -> t +:+ r <> "".
Proof. intros Ht%token_nonempty H. destruct t; [done|]. by rewrite append_cons in H. Qed.

Lemma concat_inj l l' : Forall token l -> Forall token l' -> concat_s l = concat_s l' -> l = l'.
Proof.
  revert l'. induction l as [|t l IH]; intros [|t' l'] Hl Hl' Heq; cbn [concat_s] in Heq.
  - done.
  - symmetry in Heq. apply Forall_cons in Hl' as [Ht' _]. by apply app_nonempty in Heq.
  - apply Forall_cons in Hl as [Ht _]. by apply app_nonempty in Heq.
  - apply Forall_cons in Hl as [Ht Hl]. apply Forall_cons in Hl' as [Ht' Hl'].
    apply token_prefix in Heq as [-> Heq]; [|done|done]. f_equal. by apply IH.
Qed.

Lemma hash_map_tokens d l : Forall token (map (hash d) l).
Proof. apply Forall_forall. intros s Hs. apply elem_of_list_fmap in Hs as (v & -> & _). apply hash_token. Qed.

(** The version of a sequence determines the versions of its elements, in order. *)
Lemma seq_elements d b b' l l' : hash d (VSeq b l) = hash d (VSeq b' l') ->
  map (hash (S d)) l = map (hash (S d)) l'.
Proof.
  cbn [hash_value]. intros H. apply (ideal_sha _ _ Hideal) in H.
  apply concat_inj in H; [done|apply hash_map_tokens|apply hash_map_tokens].
Qed.

(** Same for the elements of sets and the entries of dictionaries, up to order. *)
Lemma set_elements d l l' : hash d (VSet l) = hash d (VSet l') ->
  map (hash (S d)) l ≡ₚ map (hash (S d)) l'.
Proof.
  cbn [hash_value]. intros H. apply (ideal_sha _ _ Hideal) in H.
  apply concat_inj in H.
  - by rewrite <-(merge_sort_Permutation str_le (map _ l)), H, merge_sort_Permutation.
  - rewrite merge_sort_Permutation. apply hash_map_tokens.
  - rewrite merge_sort_Permutation. apply hash_map_tokens.
Qed.

Notation hp d := (fun '(k, w) => (hash d k, hash d w)).

Lemma interleave_tokens items : Forall (fun p => token p.1 /\ token p.2) items -> Forall token (interleave items).
Proof. induction 1 as [|[k v] l [Hk Hv] _ IH]; cbn; [constructor|]. constructor; [done|]. constructor; done. Qed.
Lemma pairs_tokens d l : Forall (fun p => token p.1 /\ token p.2) (map (hp d) l).
Proof.
  apply Forall_forall. intros p Hp. apply elem_of_list_fmap in Hp as ([k w] & -> & _).
  split; apply hash_token.
Qed.

Lemma dict_entries d l l' :
  NoDup (map (hash (S d)) l.*1) -> NoDup (map (hash (S d)) l'.*1) ->
  hash d (VDict l) = hash d (VDict l') -> map (hp (S d)) l ≡ₚ map (hp (S d)) l'.
Proof.
  intros Hnd Hnd' H. cbn [hash_value] in H. unfold hash_items in H.
  rewrite !(foldl_dset []) in H by (cbn [app]; by rewrite pairs_fst). cbn [app] in H.
  apply (ideal_sha _ _ Hideal) in H. apply concat_inj in H.
  - apply interleave_inj in H. by rewrite <-(merge_sort_Permutation pair_le (map _ l)), H, merge_sort_Permutation.
  - apply interleave_tokens. rewrite merge_sort_Permutation. apply pairs_tokens.
  - apply interleave_tokens. rewrite merge_sort_Permutation. apply pairs_tokens.
Qed.

(** ** Typed values *)
Lemma text_int_inj z z' : text_int z = text_int z' -> z = z'.
Proof. unfold text_int. apply (inj (pretty : Z -> string)). Qed.

Lemma none_not_digest s : digest_format s -> s <> NONE_HASH.
Proof.
  intros (b & _ & Hl & ->) H. apply (digest_not_lt b "" "none>"); [done|].
  rewrite H. done.
Qed.
Lemma hash_none d v t : typed t v -> hash d v = NONE_HASH -> v = VNone.
Proof.
  revert v. induction t; cbn [typed]; intros v Ht H.
  - done.
  - destruct Ht as [s ->]. cbn in H. exfalso. eapply none_not_digest; [|exact H]. apply Hideal.
  - destruct Ht as [s ->]. cbn in H. exfalso. eapply none_not_digest; [|exact H]. apply Hideal.
  - destruct Ht as [s ->]. cbn in H. exfalso. eapply none_not_digest; [|exact H]. apply Hideal.
  - destruct Ht as [s ->]. cbn in H. exfalso. eapply none_not_digest; [|exact H]. apply Hideal.
  - destruct Ht as [s ->]. cbn in H. exfalso. eapply none_not_digest; [|exact H]. apply Hideal.
  - destruct Ht as [->|Ht]; [done|]. by apply IHt.
  - destruct Ht as (l & -> & _). cbn in H. exfalso. eapply none_not_digest; [|exact H]. apply Hideal.
  - destruct Ht as (a & b & -> & _). cbn in H. exfalso. eapply none_not_digest; [|exact H]. apply Hideal.
  - destruct Ht as (l & -> & _). cbn [hash_value] in H. unfold hash_items in H. exfalso. eapply none_not_digest; [|exact H]. apply Hideal.
  - destruct Ht as (l & -> & _). cbn [hash_value] in H. exfalso. eapply none_not_digest; [|exact H]. apply Hideal.
Qed.

Lemma pairwise_nodup {A B} (f : A -> B) (l : list A) :
  pairwise (fun x y => f x <> f y) l -> NoDup (map f l).
Proof.
  intros H. apply NoDup_alt. intros i j b Hi Hj.
  change (map f l) with (f <$> l) in *. rewrite !list_lookup_fmap in *.
  destruct (l !! i) as [x|] eqn:Hx; [|done]. destruct (l !! j) as [y|] eqn:Hy; [|done].
  cbn in *. destruct (decide (i = j)); [done|]. exfalso. eapply (H i j x y); [done..|congruence].
Qed.

Lemma typed_hash_equal t : forall d v w, typed t v -> typed t w -> hash d v = hash d w -> equal t v w.
Proof.
  induction t as [| | | | | |t IH|t IH|t IHt u IHu|k IHk t IHt|t IH]; cbn [typed equal]; intros d v w Hv Hw H.
  - done.
  - destruct Hv as [s ->], Hw as [s' ->]. cbn in H. apply (ideal_md5 _ _ Hideal) in H as ->. by eexists.
  - destruct Hv as [s ->], Hw as [s' ->]. cbn in H. apply (ideal_md5 _ _ Hideal) in H.
    apply text_int_inj in H as ->. by eexists.
  - destruct Hv as [b ->], Hw as [b' ->]. cbn in H. apply (ideal_md5 _ _ Hideal) in H.
    exists b. split; [done|]. by destruct b, b'.
  - destruct Hv as [s ->], Hw as [s' ->]. cbn in H. apply (ideal_md5 _ _ Hideal) in H as ->. by eexists.
  - destruct Hv as [s ->], Hw as [s' ->]. cbn in H. apply (ideal_md5 _ _ Hideal) in H as ->. by eexists.
  - assert (Hn : v = VNone <-> w = VNone).
    { split; intros ->; cbn [hash_value] in H.
      - destruct Hw as [->|Hw]; [done|]. by eapply hash_none.
      - destruct Hv as [->|Hv]; [done|]. by eapply hash_none. }
    destruct Hv as [->|Hv]; [left; split; [done|]; by apply Hn|].
    destruct Hw as [->|Hw]; [left; split; [by apply Hn|done]|].
    assert (v = VNone \/ v <> VNone) as [->|Hne] by (destruct v; auto).
    { left. split; [done|]. by apply Hn. }
    right. split_and!; [done|by intros ->%Hn|by eapply IH].
  - destruct Hv as (l & -> & Hl), Hw as (l' & -> & Hl'). exists l, l'. split_and!; [done|done|].
    apply seq_elements in H. revert l' Hl' H. induction Hl as [|x l Hx Hl IHl]; intros [|y l'] Hl' H; cbn in H; try done.
    apply Forall_cons in Hl' as [Hy Hl']. injection H as H1 H2. constructor; [by eapply IH|by apply IHl].
  - destruct Hv as (a & b & -> & Ha & Hb), Hw as (a' & b' & -> & Ha' & Hb').
    apply seq_elements in H. cbn in H. injection H as H1 H2.
    exists a, b, a', b'. split_and!; [done|done|by eapply IHt|by eapply IHu].
  - destruct Hv as (l & -> & Hl & Hpl), Hw as (l' & -> & Hl' & Hpl').
    assert (Hnd : forall l, Forall (fun p => typed k p.1 /\ typed t p.2) l ->
              pairwise (fun p q => ~ equal k p.1 q.1) l -> NoDup (map (hash (S d)) l.*1)).
    { clear -IHk. intros l Hl Hp.
      change (map (hash (S d)) l.*1) with (hash (S d) <$> (fst <$> l)).
      rewrite <-list_fmap_compose. apply pairwise_nodup. intros i j p q Hij Hi Hj Heq.
      apply (Hp i j p q Hij Hi Hj). eapply IHk; [| |exact Heq].
      - by apply (proj1 (Forall_lookup _ _) Hl i p Hi).
      - by apply (proj1 (Forall_lookup _ _) Hl j q Hj). }
    apply dict_entries in H; [|by apply Hnd|by apply Hnd].
    apply Permutation_map_inv in H as (l'' & Heq & Hp).
    exists l, l', l''. split_and!; [done|done|done|].
    assert (Hl'' : Forall (fun p => typed k p.1 /\ typed t p.2) l'') by by rewrite <-Hp.
    clear -IHk IHt Hl Hl'' Heq. revert l'' Hl'' Heq.
    induction Hl as [|[x y] l [Hx Hy] Hl IHl]; intros [|[x' y'] l''] Hl'' H; cbn in H; try done.
    apply Forall_cons in Hl'' as [[Hx' Hy'] Hl'']. injection H as H1 H2 H3.
    constructor; [split; [by eapply IHk|by eapply IHt]|by apply IHl].
  - destruct Hv as (l & -> & Hl), Hw as (l' & -> & Hl').
    apply set_elements in H. apply Permutation_map_inv in H as (l'' & Heq & Hp).
    exists l, l', l''. split_and!; [done|done|done|].
    assert (Hl'' : Forall (typed t) l'') by by rewrite <-Hp.
    clear -IH Hl Hl'' Heq. revert l'' Hl'' Heq.
    induction Hl as [|x l Hx Hl IHl]; intros [|y l''] Hl'' H; cbn in H; try done.
    apply Forall_cons in Hl'' as [Hy Hl'']. injection H as H1 H2. constructor; [by eapply IH|by apply IHl].
Qed.

(** Conversely equal values have the same version. *)
Lemma equal_hash t : forall d v w, typed t v -> typed t w -> equal t v w -> hash d v = hash d w.
Proof.
  induction t as [| | | | | |t IH|t IH|t IHt u IHu|k IHk t IHt|t IH]; cbn [typed equal]; intros d v w Hv Hw H.
  - by destruct H as [-> ->].
  - by destruct H as (? & -> & ->).
  - by destruct H as (? & -> & ->).
  - by destruct H as (? & -> & ->).
  - by destruct H as (? & -> & ->).
  - by destruct H as (? & -> & ->).
  - destruct H as [[-> ->]|(Hn & Hn' & H)]; [done|].
    destruct Hv as [->|Hv]; [done|]. destruct Hw as [->|Hw]; [done|]. by apply IH.
  - destruct Hv as (l & -> & Hl), Hw as (l' & -> & Hl'), H as (? & ? & [= <-] & [= <-] & H).
    cbn [hash_value]. do 2 f_equal. revert Hl Hl'. induction H as [|x y l l' Hxy H IHl]; intros Hl Hl'; [done|].
    apply Forall_cons in Hl as [Hx Hl]. apply Forall_cons in Hl' as [Hy Hl']. cbn. f_equal; [by apply IH|by apply IHl].
  - destruct Hv as (a & b & -> & Ha & Hb), Hw as (a' & b' & -> & Ha' & Hb'), H as (? & ? & ? & ? & [= <- <-] & [= <- <-] & H1 & H2).
    cbn [hash_value]. cbn [map]. by rewrite (IHt _ _ _ Ha Ha' H1), (IHu _ _ _ Hb Hb' H2).
  - destruct Hv as (l & -> & Hl & Hpl), Hw as (l' & -> & Hl' & Hpl'), H as (? & ? & l'' & [= <-] & [= <-] & Hp & H).
    assert (Hl'' : Forall (fun p => typed k p.1 /\ typed t p.2) l'') by by rewrite <-Hp.
    assert (Heq : map (hp (S d)) l = map (hp (S d)) l'').
    { clear -IHk IHt Hl Hl'' H. revert Hl Hl''.
      induction H as [|[x y] [x' y'] l l' [H1 H2] H IHl]; intros Hl Hl'; [done|].
      apply Forall_cons in Hl as [[Hx Hy] Hl]. apply Forall_cons in Hl' as [[Hx' Hy'] Hl'].
      cbn in *. f_equal; [|by apply IHl]. f_equal; [by apply IHk|by apply IHt]. }
    cbn [hash_value]. rewrite Heq. apply hash_items_perm.
    + rewrite <-Heq, pairs_fst.
      change (map (hash (S d)) l.*1) with (hash (S d) <$> (fst <$> l)).
      rewrite <-list_fmap_compose. apply pairwise_nodup. intros i j p q Hij Hi Hj Hh.
      apply (Hpl i j p q Hij Hi Hj). eapply (typed_hash_equal k); [| |exact Hh].
      * by apply (proj1 (Forall_lookup _ _) Hl i p Hi).
      * by apply (proj1 (Forall_lookup _ _) Hl j q Hj).
    + symmetry. by apply Permutation_map.
  - destruct Hv as (l & -> & Hl), Hw as (l' & -> & Hl'), H as (? & ? & l'' & [= <-] & [= <-] & Hp & H).
    assert (Hl'' : Forall (typed t) l'') by by rewrite <-Hp.
    assert (Heq : map (hash (S d)) l = map (hash (S d)) l'').
    { clear -IH Hl Hl'' H. revert Hl Hl''.
      induction H as [|x y l l' Hxy H IHl]; intros Hl Hl'; [done|].
      apply Forall_cons in Hl as [Hx Hl]. apply Forall_cons in Hl' as [Hy Hl']. cbn. f_equal; [by apply IH|by apply IHl]. }
    cbn [hash_value]. rewrite Heq. do 2 f_equal. apply sort_str_perm. symmetry. by apply Permutation_map.
Qed.
End H.
