(** Facts about cache keys. *)
From Coq Require Import Ascii.
From stdpp Require Import sorting.
From Verif Require Import Base Dict Strings CacheKeyModel.

(** ** The order used by [sorted] *)
Lemma N_of_ascii_inj a b : N_of_ascii a = N_of_ascii b -> a = b.
Proof. intros H. rewrite <-(ascii_N_embedding a), <-(ascii_N_embedding b). by f_equal. Qed.

Lemma str_leb_refl a : str_leb a a = true.
Proof. induction a as [|x a IH]; [done|]. cbn. by destruct (decide (x = x)). Qed.

Lemma str_leb_total a b : str_leb a b = true \/ str_leb b a = true.
Proof.
  revert b. induction a as [|x a IH]; intros [|y b]; cbn; auto.
  destruct (decide (x = y)) as [->|Hne].
  - destruct (decide (y = y)); [apply IH|done].
  - rewrite decide_False by congruence.
    destruct (N.lt_total (N_of_ascii x) (N_of_ascii y)) as [H|[H|H]].
    + left. by apply N.ltb_lt.
    + by apply N_of_ascii_inj in H.
    + right. by apply N.ltb_lt.
Qed.

Lemma str_leb_antisym a b : str_leb a b = true -> str_leb b a = true -> a = b.
Proof.
  revert b. induction a as [|x a IH]; intros [|y b]; cbn; try done.
  destruct (decide (x = y)) as [->|Hne].
  - destruct (decide (y = y)); [|done]. intros H1 H2. f_equal. by apply IH.
  - rewrite decide_False by congruence. rewrite !N.ltb_lt. lia.
Qed.

Lemma str_leb_trans a b c : str_leb a b = true -> str_leb b c = true -> str_leb a c = true.
Proof.
  revert b c. induction a as [|x a IH]; intros [|y b] [|z c]; cbn; try done.
  destruct (decide (x = y)) as [->|Hxy].
  - destruct (decide (y = z)) as [->|Hyz]; [apply IH|done].
  - destruct (decide (y = z)) as [->|Hyz].
    + by rewrite decide_False.
    + rewrite !N.ltb_lt. intros H1 H2. rewrite decide_False by (intros ->; lia).
      apply N.ltb_lt. lia.
Qed.

Lemma pair_le_total p q : pair_le p q \/ pair_le q p.
Proof.
  destruct p as [a v], q as [b w]. unfold pair_le. cbn [fst snd].
  destruct (decide (a = b)) as [->|Hne].
  - rewrite decide_True by done. rewrite !Is_true_true. apply str_leb_total.
  - rewrite decide_False by congruence. rewrite !Is_true_true. apply str_leb_total.
Qed.
Lemma pair_le_antisym p q : pair_le p q -> pair_le q p -> p = q.
Proof.
  destruct p as [a v], q as [b w]. unfold pair_le. cbn [fst snd].
  destruct (decide (a = b)) as [->|Hne].
  - rewrite decide_True by done. rewrite !Is_true_true. intros H1 H2.
    f_equal. by apply str_leb_antisym.
  - rewrite decide_False by congruence. rewrite !Is_true_true. intros H1 H2.
    destruct Hne. by apply str_leb_antisym.
Qed.
Lemma pair_le_trans p q r : pair_le p q -> pair_le q r -> pair_le p r.
Proof.
  destruct p as [a u], q as [b v], r as [c w]. unfold pair_le. cbn [fst snd].
  destruct (decide (a = b)) as [->|Hab], (decide (b = c)) as [->|Hbc].
  - rewrite !Is_true_true. apply str_leb_trans.
  - done.
  - by rewrite decide_False by done.
  - rewrite !Is_true_true. intros H1 H2. destruct (decide (a = c)) as [->|Hac]; rewrite Is_true_true.
    + destruct Hab. by apply str_leb_antisym.
    + by eapply str_leb_trans.
Qed.
Global Instance pair_le_Total : Total pair_le. Proof. intros p q. apply pair_le_total. Qed.
Global Instance pair_le_Trans : Transitive pair_le. Proof. intros p q r. apply pair_le_trans. Qed.
Global Instance pair_le_Anti : AntiSymm (=) pair_le. Proof. intros p q. apply pair_le_antisym. Qed.

Lemma sort_perm (d d' : dict string) : d ≡ₚ d' -> merge_sort pair_le d = merge_sort pair_le d'.
Proof.
  intros Hp. apply (Sorted_unique pair_le).
  - apply Sorted_merge_sort, _.
  - apply Sorted_merge_sort, _.
  - by rewrite !merge_sort_Permutation.
Qed.

(** ** Joining and splitting *)
Lemma split_nonempty c s : split c s <> [].
Proof. destruct s as [|x s]; cbn; [done|]. destruct (decide (x = c)); [done|]. by destruct (split c s). Qed.

Lemma split_lacks c s : lacks c s -> split c s = [s].
Proof.
  induction s as [|x s IH]; [done|]. cbn. intros [Hx Hs]. rewrite decide_False by done.
  by rewrite (IH Hs).
Qed.

Lemma split_app c s r : lacks c s -> split c (s +:+ String c r) = s :: split c r.
Proof.
  induction s as [|x s IH].
  - intros _. change (EmptyString +:+ String c r) with (String c r). cbn. by rewrite decide_True.
  - intros [Hx Hs]. rewrite append_cons. cbn [split]. rewrite decide_False by done. by rewrite (IH Hs).
Qed.

Lemma split_join c l : l <> [] -> Forall (lacks c) l -> split c (join c l) = l.
Proof.
  induction l as [|s l IH]; [done|]. intros _ Hl. apply Forall_cons in Hl as [Hs Hl].
  destruct l as [|s' l].
  - by apply split_lacks.
  - change (join c (s :: s' :: l)) with (s +:+ String c (join c (s' :: l))).
    rewrite split_app by done. f_equal. by apply IH.
Qed.

Lemma join_has c s s' l : ~ lacks c (join c (s :: s' :: l)).
Proof.
  change (join c (s :: s' :: l)) with (s +:+ String c (join c (s' :: l))).
  rewrite lacks_app. intros [_ [? _]]. done.
Qed.

Lemma partition_app c a b : lacks c a -> partition c (a +:+ String c b) = (a, b).
Proof.
  induction a as [|x a IH].
  - intros _. change (EmptyString +:+ String c b) with (String c b). cbn. by rewrite decide_True.
  - intros [Hx Ha]. rewrite append_cons. cbn [partition]. rewrite decide_False by done. by rewrite (IH Ha).
Qed.

Lemma app_inj_r_lacks c a b a' b' : lacks c b -> lacks c b' ->
  a +:+ String c b = a' +:+ String c b' -> a = a' /\ b = b'.
Proof.
  revert a'. induction a as [|x a IH]; intros [|x' a'] H1 H2 Heq; rewrite ?append_cons in Heq.
  - injection Heq as ->. done.
  - injection Heq as -> Heq. exfalso. rewrite Heq in H1. rewrite lacks_app in H1. by destruct H1 as [_ [? _]].
  - injection Heq as -> Heq. exfalso. rewrite <-Heq in H2. rewrite lacks_app in H2. by destruct H2 as [_ [? _]].
  - injection Heq as -> Heq. by destruct (IH a' H1 H2 Heq) as [-> ->].
Qed.

(** ** Safe names *)
(** A name all of whose characters are kept. *)
Fixpoint safe (s : string) : Prop :=
  match s with
  | EmptyString => True
  | String c s' => (isalnum c = true \/ c = "_"%char) /\ safe s'
  end.
Global Instance safe_dec s : Decision (safe s).
Proof. induction s as [|c s IH]; cbn; apply _. Defined.

Lemma keep_safe_safe s : safe (keep_safe s).
Proof.
  induction s as [|c s IH]; [done|]. cbn. destruct (isalnum c) eqn:Hc; cbn; [auto|].
  case_bool_decide; cbn; auto.
Qed.
Lemma keep_safe_id s : safe s -> keep_safe s = s.
Proof.
  induction s as [|c s IH]; [done|]. cbn. intros [Hc Hs]. rewrite (IH Hs).
  destruct Hc as [-> | ->]; [done|]. by rewrite bool_decide_true, orb_true_r by done.
Qed.
Lemma safe_char_nospace c : isalnum c = true \/ c = "_"%char -> isspace c = false.
Proof.
  intros [H| ->]; [|done]. unfold isalnum, isspace in *. cbn zeta in *.
  generalize dependent (N_of_ascii c). intros n. rewrite !orb_true_iff, !andb_true_iff, !N.leb_le.
  rewrite orb_false_iff, !andb_false_iff, !N.leb_gt. lia.
Qed.
Lemma rstrip_safe s : safe s -> rstrip s = s.
Proof.
  induction s as [|c s IH]; [done|]. cbn. intros [Hc Hs]. rewrite (IH Hs).
  destruct s; [|done]. by rewrite safe_char_nospace.
Qed.
Lemma safe_name_keep s : safe_name s = keep_safe s.
Proof. apply rstrip_safe, keep_safe_safe. Qed.
Lemma safe_name_id s : safe s -> safe_name s = s.
Proof. intros H. rewrite safe_name_keep. by apply keep_safe_id. Qed.
Lemma safe_lacks c s : isalnum c = false -> c <> "_"%char -> safe s -> lacks c s.
Proof.
  intros Hc Hu. induction s as [|x s IH]; [done|]. cbn. intros [Hx Hs]. split; [|auto].
  intros ->. destruct Hx; congruence.
Qed.
Lemma safe_name_lacks s : lacks "-"%char (safe_name s).
Proof. rewrite safe_name_keep. apply safe_lacks; [done|done|]. apply keep_safe_safe. Qed.

(** ** Dictionaries *)
Lemma decode_interleave (acc l : dict string) : NoDup (dkeys (acc ++ l)) ->
  decode_pairs acc (interleave l) = Some (acc ++ l).
Proof.
  revert acc. induction l as [|[k v] l IH]; intros acc Hnd; cbn.
  - by rewrite app_nil_r.
  - assert (Hk : k ∉ dkeys acc).
    { unfold dkeys in Hnd. rewrite fmap_app in Hnd. apply NoDup_app in Hnd as (_ & Hd & _).
      intros Hk. apply (Hd k Hk). by left. }
    assert (Hset : dset acc k v = acc ++ [(k, v)]).
    { clear -Hk. induction acc as [|[k' v'] acc IH]; [done|]. cbn in *.
      rewrite not_elem_of_cons in Hk. destruct Hk as [Hne Hk].
      rewrite decide_False by done. by rewrite IH. }
    rewrite Hset, IH.
    + by rewrite <-app_assoc.
    + by rewrite <-app_assoc.
Qed.

(** No key and no value contains a comma. *)
Definition plain (d : dict string) : Prop :=
  Forall (fun p => lacks ","%char p.1 /\ lacks ","%char p.2) d.

Lemma interleave_plain d : plain d -> Forall (lacks ","%char) (interleave d).
Proof.
  induction d as [|[k v] d IH]; cbn; intros H; [constructor|].
  apply Forall_cons in H as [[Hk Hv] H]. repeat constructor; auto.
Qed.
Lemma interleave_nil d : interleave d = [] -> d = [].
Proof. by destruct d as [|[k v] d]. Qed.
Lemma interleave_inj d d' : interleave d = interleave d' -> d = d'.
Proof.
  revert d'. induction d as [|[k v] d IH]; intros [|[k' v'] d']; cbn; try done.
  intros [= -> -> H]. f_equal. by apply IH.
Qed.

Lemma plain_perm d d' : d ≡ₚ d' -> plain d -> plain d'.
Proof. unfold plain. by intros ->. Qed.

Lemma sort_nil d : merge_sort pair_le d = [] -> d = [].
Proof.
  intros H. assert (Hp := merge_sort_Permutation pair_le d). rewrite H in Hp.
  symmetry in Hp. by apply Permutation_nil_r in Hp.
Qed.

Lemma encode_split d : plain d -> d <> [] ->
  split ","%char (encode_str_dict d) = interleave (merge_sort pair_le d).
Proof.
  intros Hp Hne. unfold encode_str_dict. apply split_join.
  - intros H%interleave_nil%sort_nil. done.
  - apply interleave_plain. eapply plain_perm; [|exact Hp]. symmetry. apply merge_sort_Permutation.
Qed.

Lemma encode_not_none d : d <> [] -> encode_str_dict d <> "<none>".
Proof.
  intros Hne. unfold encode_str_dict. destruct (merge_sort pair_le d) as [|[k v] l] eqn:Hs.
  - by apply sort_nil in Hs.
  - intros Heq. apply (join_has ","%char k v (interleave l)).
    change (join ","%char (interleave ((k, v) :: l)) = "<none>") in Heq.
    change (interleave ((k, v) :: l)) with (k :: v :: interleave l) in Heq. rewrite Heq.
    by apply (bool_decide_unpack _).
Qed.

Lemma dget_perm (d d' : dict string) k : NoDup (dkeys d) -> d ≡ₚ d' -> dget d k = dget d' k.
Proof.
  intros Hnd Hp.
  assert (Hnd' : NoDup (dkeys d')) by (unfold dkeys in *; by rewrite <-Hp).
  destruct (dget d k) as [v|] eqn:Hk.
  - symmetry. apply elem_dget; [done|]. rewrite <-Hp. by apply dget_elem.
  - symmetry. apply dget_None_key. apply dget_None_key in Hk. unfold dkeys in *. by rewrite <-Hp.
Qed.

Section Keys.
Variable compress : string -> string.
Variable decompress : string -> option string.
Hypothesis Hcomp : forall s, decompress (compress s) = Some s.

Notation create := (create_cache_key compress).
Notation decode := (decode_key decompress).

(** The stringified dependencies. *)
Definition stringify (d : dict string) : string :=
  match d with [] => "<none>" | _ => encode_str_dict d end.

Lemma create_eq n c d :
  create n c d = safe_name n +:+ String "-" (c +:+ String "-" (compress (stringify d))).
Proof. by destruct d. Qed.

Lemma decode_create n c d : lacks "-"%char c -> NoDup (dkeys d) -> plain d ->
  exists d', decode (create n c d) = Some (safe_name n, c, d') /\ d' ≡ₚ d.
Proof.
  intros Hc Hnd Hp. rewrite create_eq. unfold decode_key.
  rewrite (partition_app "-"%char (safe_name n)) by apply safe_name_lacks.
  rewrite (partition_app "-"%char c) by done.
  rewrite Hcomp. destruct d as [|p d].
  - cbn [stringify]. rewrite decide_True by done. by exists [].
  - cbn [stringify]. rewrite decide_False by by apply encode_not_none.
    unfold decode_str_dict. rewrite encode_split by done.
    rewrite decode_interleave.
    + eexists. split; [done|]. apply merge_sort_Permutation.
    + rewrite app_nil_l. unfold dkeys in *. by rewrite merge_sort_Permutation.
Qed.

Hypothesis Hdash : forall s, lacks "-"%char (compress s).

Lemma compress_inj s s' : compress s = compress s' -> s = s'.
Proof. intros H. apply (f_equal decompress) in H. rewrite !Hcomp in H. by injection H. Qed.

Lemma stringify_inj d d' : plain d -> plain d' -> stringify d = stringify d' -> d ≡ₚ d'.
Proof.
  intros Hp Hp' H. destruct d as [|p d], d' as [|p' d']; cbn [stringify] in H.
  - done.
  - symmetry in H. by apply encode_not_none in H.
  - by apply encode_not_none in H.
  - apply (f_equal (split ","%char)) in H. rewrite !encode_split in H by done.
    apply interleave_inj in H. by rewrite <-(merge_sort_Permutation pair_le (p :: d)), H, merge_sort_Permutation.
Qed.

Lemma create_inj n c d n' c' d' : plain d -> plain d' ->
  create n c d = create n' c' d' -> safe_name n = safe_name n' /\ c = c' /\ d ≡ₚ d'.
Proof.
  intros Hp Hp' H. rewrite !create_eq in H.
  apply split_unique in H as [Hn H]; [|apply safe_name_lacks..].
  apply app_inj_r_lacks in H as [Hc H]; [|apply Hdash..].
  apply compress_inj in H. by apply stringify_inj in H.
Qed.

Lemma stringify_perm d d' : d ≡ₚ d' -> stringify d = stringify d'.
Proof.
  intros Hp. assert (He : encode_str_dict d = encode_str_dict d').
  { unfold encode_str_dict. by rewrite (sort_perm d d' Hp). }
  destruct d as [|p d], d' as [|p' d']; cbn [stringify]; try done.
  - by apply Permutation_nil_l in Hp.
  - by apply Permutation_nil_r in Hp.
Qed.

Lemma create_perm n c d d' : d ≡ₚ d' -> create n c d = create n c d'.
Proof. intros Hp. rewrite !create_eq. by rewrite (stringify_perm d d' Hp). Qed.
End Keys.
