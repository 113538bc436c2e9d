(** Proofs about the result builders. *)
From Verif Require Import Base Dict NodeModel DecorModel DecorProofs ResultModel ResultSpec.

Lemma dset_fresh {A} (d : dict A) k a : k ∉ dkeys d -> dset d k a = d ++ [(k, a)].
Proof.
  induction d as [|[k' a'] d IH]; [done|]. change (dkeys ((k', a') :: d)) with (k' :: dkeys d). rewrite not_elem_of_cons. intros [Hne H]. cbn.
  rewrite decide_False by done. by rewrite IH.
Qed.
Lemma dsets_fresh {A} (l : list (name * A)) : forall d, NoDup (dkeys (d ++ l)) -> foldl (fun d kc => dset d kc.1 kc.2) d l = d ++ l.
Proof.
  induction l as [|[k a] l IH]; intros d Hn; cbn; [by rewrite app_nil_r|]. rewrite dset_fresh, IH.
  - by rewrite <- app_assoc.
  - by rewrite <- app_assoc.
  - unfold dkeys in Hn. rewrite fmap_app in Hn. apply NoDup_app in Hn as (_ & H & _). intros Hin. apply (H k Hin). by left.
Qed.

Lemma dsets_keys {A} (l : list (name * A)) k : forall d0 : dict A, k ∈ dkeys (foldl (fun d kc => dset d kc.1 kc.2) d0 l) <-> k ∈ dkeys d0 \/ k ∈ dkeys l.
Proof.
  induction l as [|[k' a] l IH]; intros d0; cbn [foldl].
  - rewrite (elem_of_nil k : k ∈ dkeys (@nil (name * A)) <-> False). naive_solver.
  - rewrite IH, dkeys_dset_elem. change (dkeys ((k', a) :: l)) with (k' :: dkeys l). rewrite elem_of_cons. naive_solver.
Qed.

Section Proofs.
Context {L C : Type} `{EqDecision L}.
Variable nan : C.
Variable union : list (index L) -> index L.
Variable range : nat -> index L.
Hypothesis Hunion : joins union.
Hypothesis Hrange : forall n, length (ix_labels (range n)) = n.
Variable int_key : name.
Notation index := (index L).
Notation col := (col L C).
Notation value := (value L C).
Notation frame := (frame L C).
Notation pd_frame := (pd_frame nan union range).
Notation homogenize := (homogenize nan).
Notation extract_index := (extract_index union range).
Implicit Types (d : list (name * col)) (fr : frame) (ix to : index).

Definition wf_col (c : col) : Prop := match c with Series ix cs => length cs = length (ix_labels ix) | _ => True end.

Lemma at_label_in (ls : list L) : forall (cs : list C) l, length cs = length ls ->
  (exists j, ls !! j = Some l /\ cs !! j = Some (at_label nan ls cs l)) \/ (l ∉ ls /\ at_label nan ls cs l = nan).
Proof.
  induction ls as [|l' ls IH]; intros [|c cs] l Hl; try done; cbn; [right; split; [by apply not_elem_of_nil|done]|].
  destruct (decide (l = l')) as [-> | Hne]; [left; by exists 0|]. injection Hl as Hl.
  destruct (IH cs l Hl) as [(j & ? & ?) | [? ?]]; [left; by exists (S j)|right]. split; [by apply not_elem_of_cons|done].
Qed.

Lemma reindex_column ix cs to ds : length cs = length (ix_labels ix) -> reindex nan ix cs to = Ok ds -> column nan (ix_labels to) (Series ix cs) ds.
Proof.
  unfold reindex. intros Hl H. destruct (decide (ix_labels ix = ix_labels to)) as [He|Hne].
  - injection H as <-. rewrite He in Hl. constructor; [done|done|]. intros i l c Hi Hc. left. exists i. by rewrite He.
  - destruct (decide (NoDup (ix_labels ix))); [|done]. injection H as <-. constructor; [by rewrite map_length|done|].
    intros i l c Hi Hc. rewrite list_lookup_fmap, Hi in Hc. injection Hc as <-. by apply at_label_in.
Qed.
Lemma homogenize_column ix c ds : wf_col c -> (forall cs, c = PIndex cs \/ c = Arr cs -> length cs = length (ix_labels ix)) ->
  homogenize ix c = Ok ds -> column nan (ix_labels ix) c ds.
Proof.
  intros Hw Ha H. destruct c as [ix' cs|cs|cs|c]; cbn in H.
  - by apply reindex_column.
  - injection H as <-. constructor. apply Ha. by left.
  - injection H as <-. constructor. apply Ha. by right.
  - injection H as <-. constructor; [apply repeat_length|]. intros x Hx. by apply elem_of_list_In, repeat_spec in Hx.
Qed.

Lemma elem_indexes d ix : ix ∈ indexes (map snd d) <-> exists k cs, (k, Series ix cs) ∈ d.
Proof.
  unfold indexes. rewrite elem_of_list_omap. split.
  - intros (c & ([k c'] & -> & Hin)%elem_of_list_fmap & Hc). cbn in Hc. destruct c'; try done. injection Hc as ->. by exists k, cs.
  - intros (k & cs & Hin). exists (Series ix cs). split; [|done]. apply elem_of_list_fmap. by exists (k, Series ix cs).
Qed.
Lemma elem_lengths d n : n ∈ raw_lengths (map snd d) <-> exists k cs, ((k, Arr cs) ∈ d \/ (k, PIndex cs) ∈ d) /\ length cs = n.
Proof.
  unfold raw_lengths. rewrite elem_of_list_omap. split.
  - intros (c & ([k c'] & -> & Hin)%elem_of_list_fmap & Hc). cbn in Hc. destruct c' as [|cs|cs|]; try done; injection Hc as <-; exists k, cs; auto.
  - intros (k & cs & [Hin | Hin] & <-); eexists; (split; [apply elem_of_list_fmap; eexists; split; [|exact Hin]; done|done]).
Qed.
Lemma indexes_nil d : indexes (map snd d) = [] <-> ~ has_series d.
Proof.
  split.
  - intros H (k & ix & cs & Hin). assert (Hi : ix ∈ indexes (map snd d)) by (apply elem_indexes; eauto). rewrite H in Hi. by apply elem_of_nil in Hi.
  - intros H. destruct (indexes (map snd d)) as [|ix l] eqn:E; [done|]. destruct H. assert (Hi : ix ∈ indexes (map snd d)) by (rewrite E; by left).
    apply elem_indexes in Hi as (k & cs & ?). by exists k, ix, cs.
Qed.
Lemma lengths_nil d : raw_lengths (map snd d) = [] <-> ~ has_array d.
Proof.
  split.
  - intros H (k & cs & Hin). assert (Hi : length cs ∈ raw_lengths (map snd d)) by (apply elem_lengths; eauto). rewrite H in Hi. by apply elem_of_nil in Hi.
  - intros H. destruct (raw_lengths (map snd d)) as [|n l] eqn:E; [done|]. destruct H. assert (Hi : n ∈ raw_lengths (map snd d)) by (rewrite E; by left).
    apply elem_lengths in Hi as (k & cs & ? & _). by exists k, cs.
Qed.
Lemma same_lengths n (ns : list nat) : forallb (Nat.eqb n) ns = true <-> forall m, m ∈ n :: ns -> m = n.
Proof.
  rewrite forallb_forall. split.
  - intros H m [-> | Hin]%elem_of_cons; [done|]. symmetry. apply Nat.eqb_eq, H. by apply elem_of_list_In.
  - intros H m Hin. apply Nat.eqb_eq. symmetry. apply H. right. by apply elem_of_list_In.
Qed.

(** The index: none for scalars only; that of the Series, to which the arrays fit; or as long as the arrays. *)
Lemma extract_index_ok d ix : extract_index (map snd d) = Ok ix <->
  (d = [] /\ ix = range 0) \/ (has_series d /\ ix = union (indexes (map snd d)) /\ arrays_fit d (length (ix_labels ix))) \/
  (~ has_series d /\ has_array d /\ exists n, ix = range n /\ arrays_fit d n).
Proof.
  unfold extract_index. destruct (map snd d) as [|c cs] eqn:Em.
  { apply map_eq_nil in Em as ->. split; [intros [= <-]; by left|]. intros [[_ ->] | [[(k & ? & ? & H%elem_of_nil) _] | (_ & (k & cs & [H%elem_of_nil | H%elem_of_nil]) & _)]]; done. }
  rewrite <- Em. assert (Hne : d <> []) by (by intros ->). clear c cs Em.
  assert (Hfit : forall n, arrays_fit d n <-> forall m, m ∈ raw_lengths (map snd d) -> m = n).
  { intros n. unfold arrays_fit. split.
    - intros H m (k & cs & Hin & <-)%elem_lengths. eauto.
    - intros H k cs Hin. apply H, elem_lengths. eauto. }
  destruct (indexes (map snd d)) as [|x xs] eqn:Ei.
  - apply indexes_nil in Ei. destruct (raw_lengths (map snd d)) as [|n ns] eqn:El.
    + apply lengths_nil in El. split; [done|]. intros [[? _] | [[? _] | (_ & ? & _)]]; done.
    + assert (Ha : has_array d). { assert (Hi : n ∈ raw_lengths (map snd d)) by (rewrite El; by left). apply elem_lengths in Hi as (k & cs & ? & _). by exists k, cs. }
      destruct (forallb (Nat.eqb n) ns) eqn:Ef.
      * rewrite same_lengths in Ef. split.
        -- intros [= <-]. right. right. split_and!; [done|done|]. exists n. split; [done|]. by apply Hfit.
        -- intros [[? _] | [[? _] | (_ & _ & m & -> & Hm)]]; [done|done|]. do 2 f_equal. apply Hfit; [done|by left].
      * split; [done|]. intros [[? _] | [[? _] | (_ & _ & m & -> & Hm)]]; [done|done|]. enough (forallb (Nat.eqb n) ns = true) by congruence.
        apply same_lengths. rewrite Hfit in Hm. intros k Hk. rewrite (Hm k Hk). symmetry. apply Hm. by left.
  - assert (Hs : has_series d). { assert (Hi : x ∈ indexes (map snd d)) by (rewrite Ei; by left). apply elem_indexes in Hi as (k & cs & ?). by exists k, x, cs. }
    destruct (raw_lengths (map snd d)) as [|n ns] eqn:El.
    + split; [intros [= <-]; right; left; split_and!; [done|done|]|intros [[? _] | [(_ & -> & _) | [? _]]]; done]. apply Hfit. intros m Hm. by apply elem_of_nil in Hm.
    + destruct (forallb (Nat.eqb n) ns) eqn:Ef.
      * rewrite same_lengths in Ef. cbn zeta. destruct (n =? length (ix_labels (union (x :: xs)))) eqn:En.
        -- apply Nat.eqb_eq in En. split; [|intros [[? _] | [(_ & -> & _) | [? _]]]; done]. intros [= <-]. right. left. split_and!; [done|done|]. rewrite <- En. by apply Hfit.
        -- split; [done|]. apply Nat.eqb_neq in En. intros [[? _] | [(_ & -> & Hm) | [? _]]]; [done| |done]. destruct En. apply Hfit; [done|by left].
      * split; [done|]. intros [[? _] | [(_ & -> & Hm) | [? _]]]; [done| |done]. enough (forallb (Nat.eqb n) ns = true) by congruence.
        apply same_lengths. rewrite Hfit in Hm. intros k Hk. rewrite (Hm k Hk). symmetry. apply Hm. by left.
Qed.

Lemma union_labelled d l : l ∈ ix_labels (union (indexes (map snd d))) <-> labelled d l.
Proof.
  rewrite (joins_in _ Hunion). split.
  - intros (ix & (k & cs & Hin)%elem_indexes & Hl). by exists k, ix, cs.
  - intros (k & ix & cs & Hin & Hl). exists ix. split; [apply elem_indexes; eauto|done].
Qed.
Lemma union_once d : once d -> NoDup (ix_labels (union (indexes (map snd d)))).
Proof. intros H. apply (joins_once _ Hunion). intros ix (k & cs & Hin)%elem_indexes. by apply (H k ix cs). Qed.

Lemma pd_frame_joined d fr : (forall k c, (k, c) ∈ d -> wf_col c) -> pd_frame d = Ok fr -> joined nan d fr.
Proof.
  intros Hw H. unfold ResultModel.pd_frame in H. apply bindr_ok in H as (ix & Hix & H). apply bindr_ok in H as (cols & Hc & H). injection H as <-.
  apply mapr_ok in Hc. apply extract_index_ok in Hix. split; cbn [fr_index fr_cols].
  - assert (Hfit : arrays_fit d (length (ix_labels ix))).
    { destruct Hix as [[-> _] | [(_ & _ & ?) | (_ & _ & n & -> & ?)]]; [intros k cs [Hk%elem_of_nil | Hk%elem_of_nil]; done|done|by rewrite Hrange]. }
    clear Hix. induction Hc as [|[k c] [k' ds] d cols Hh _ IH]; constructor.
    + apply bindr_ok in Hh as (ds' & Hh & Heq). injection Heq as <- <-. split; [done|]. cbn [fst snd] in *. apply homogenize_column; [apply (Hw k); by left| |done].
      intros cs [-> | ->]; apply (Hfit k); [right|left]; by left.
    + apply IH; [intros; eapply Hw; by right|]. intros k0 cs [Hin | Hin]; apply (Hfit k0); [left|right]; by right.
  - intros Hs l. destruct Hix as [[-> _] | [(_ & -> & _) | [? _]]]; [by destruct Hs as (? & ? & ? & ?%elem_of_nil)| |done]. apply union_labelled.
  - intros Hs Ho. destruct Hix as [[-> _] | [(_ & -> & _) | [? _]]]; [by destruct Hs as (? & ? & ? & ?%elem_of_nil)| |done]. by apply union_once.
Qed.

Lemma homogenize_all d ix : (forall k ix' cs, (k, Series ix' cs) ∈ d -> NoDup (ix_labels ix') \/ ix_labels ix' = ix_labels ix) ->
  exists cols, mapr (X := exc) (fun kc : name * col => bindr (homogenize ix kc.2) (fun cs => Ok (kc.1, cs))) d = Ok cols.
Proof.
  induction d as [|[k c] d IH]; intros H; [by exists []|]. cbn [mapr]. assert (exists ds, homogenize ix c = Ok ds) as [ds Hds].
  { destruct c as [ix' cs|cs|cs|c]; cbn; [|by eexists..]. unfold reindex. destruct (decide _) as [|Hne]; [by eexists|]. destruct (H k ix' cs ltac:(by left)) as [Hn | ?]; [|done].
    rewrite decide_True by done. by eexists. }
  cbn [fst snd]. rewrite Hds. destruct IH as [cols Hc]; [intros; eapply H; by right|]. cbn [bindr]. rewrite Hc. by eexists.
Qed.
Lemma rows_series d n : has_series d -> rows d n -> length (ix_labels (union (indexes (map snd d)))) = n /\
  forall k ix cs, (k, Series ix cs) ∈ d -> NoDup (ix_labels ix) \/ ix_labels ix = ix_labels (union (indexes (map snd d))).
Proof.
  intros Hs Hr. destruct Hr as [ls Hsame | ls Ho Hn Hl].
  - assert (Hu : ix_labels (union (indexes (map snd d))) = ls).
    { apply (joins_same _ Hunion); [by rewrite indexes_nil; intros []|]. intros ix (k & cs & Hin)%elem_indexes. by apply (Hsame k ix cs). }
    rewrite Hu. split; [done|]. intros k ix cs Hin. right. by apply (Hsame k ix cs).
  - split; [|intros k ix cs Hin; left; by apply (Ho k ix cs)]. apply Permutation_length, NoDup_Permutation; [by apply union_once|done|].
    intros l. by rewrite union_labelled, Hl.
Qed.
Lemma pd_frame_series d n : has_series d -> rows d n -> (exists fr, pd_frame d = Ok fr) <-> arrays_fit d n.
Proof.
  intros Hs Hr. destruct (rows_series d n Hs Hr) as [Hl Hx]. unfold ResultModel.pd_frame. split.
  - intros [fr H]. apply bindr_ok in H as (ix & Hix & _). apply extract_index_ok in Hix as [[-> _] | [(_ & -> & Hf) | [? _]]]; [|by rewrite <- Hl|done].
    by destruct Hs as (? & ? & ? & ?%elem_of_nil).
  - intros Hf. rewrite (proj2 (extract_index_ok d (union (indexes (map snd d))))); [|right; left; by rewrite Hl]. cbn [bindr].
    destruct (homogenize_all d _ Hx) as [cols ->]. by eexists.
Qed.
Lemma pd_frame_arrays d : ~ has_series d -> (exists fr, pd_frame d = Ok fr) <-> d = [] \/ (has_array d /\ exists n, arrays_fit d n).
Proof.
  intros Hs. unfold ResultModel.pd_frame. split.
  - intros [fr H]. apply bindr_ok in H as (ix & Hix & _). apply extract_index_ok in Hix as [[-> _] | [[? _] | (_ & Ha & n & _ & ?)]]; [by left|done|]. right. split; [done|]. by exists n.
  - intros H. assert (exists ix, extract_index (map snd d) = Ok ix) as [ix Hix].
    { destruct H as [-> | [Ha [n Hn]]]; [by eexists|]. exists (range n). apply extract_index_ok. right. right. split_and!; [done|done|]. by exists n. }
    rewrite Hix. cbn [bindr]. destruct (homogenize_all d ix) as [cols ->]; [|by eexists]. intros k ix' cs Hin. destruct Hs. by exists k, ix', cs.
Qed.

(** ** Flattening DataFrames *)
Lemma columns_of_cons k (v : value) outs : columns_of ((k, v) :: outs) =
  match v with DataFrame ix cs => map (fun kc => (output_name k kc.1, Series ix kc.2)) cs | Col c => [(k, c)] end ++ columns_of outs.
Proof. done. Qed.
Lemma to_dict_nodup (ix : index) (cs : list (name * list C)) : NoDup (map fst cs) -> to_dict ix cs = map (fun kc => (kc.1, Series ix kc.2)) cs.
Proof.
  intros Hn. unfold to_dict. assert (H : forall d0 : dict col, foldl (fun d kc => dset d kc.1 (Series ix kc.2)) d0 cs = foldl (fun d kc => dset d kc.1 kc.2) d0 (map (fun kc : name * list C => (kc.1, Series ix kc.2)) cs)).
  { clear Hn. induction cs as [|x cs IH]; intros d0; [done|]. cbn. apply IH. }
  rewrite H. etransitivity; [apply dsets_fresh|done]. unfold dkeys. cbn [app]. change (NoDup (map fst (map (fun kc : name * list C => (kc.1, Series ix kc.2)) cs))). by rewrite map_map.
Qed.
Lemma flatten_columns outs : forall flat : dict col, NoDup (dkeys (flat ++ columns_of outs)) -> foldr_ flatten_step outs flat = Ok (flat ++ columns_of outs).
Proof.
  induction outs as [|[k v] outs IH]; intros flat Hn; cbn [foldr_]; [by rewrite app_nil_r|]. rewrite columns_of_cons in *. rewrite app_assoc in *.
  assert (Hn1 : NoDup (dkeys (flat ++ match v with DataFrame ix cs => map (fun kc => (output_name k kc.1, Series ix kc.2)) cs | Col c => [(k, c)] end))).
  { unfold dkeys in *. rewrite fmap_app in Hn. by apply NoDup_app in Hn as (? & _). }
  unfold flatten_step at 1. cbn [fst snd]. destruct v as [ix cs|c]; cbn [bindr].
  - rewrite to_dict_nodup, map_map; cbn [fst snd].
    + rewrite dsets_fresh by done. by apply IH.
    + unfold dkeys in Hn1. rewrite fmap_app in Hn1. apply NoDup_app in Hn1 as (_ & _ & Hn1). clear -Hn1. induction cs as [|[c v] cs IH]; [constructor|].
      cbn [map fst] in Hn1 |- *. rewrite fmap_cons in Hn1. apply NoDup_cons in Hn1 as [Hx Hn1]. apply NoDup_cons_2; [|by apply IH].
      intros ([c' v'] & -> & Hin)%elem_of_list_fmap. apply Hx.
      apply elem_of_list_fmap. exists (output_name k c', Series ix v'). split; [done|]. apply elem_of_list_fmap. by exists (c', v').
  - assert (Hk : k ∉ dkeys flat). { unfold dkeys in Hn1. rewrite fmap_app in Hn1. apply NoDup_app in Hn1 as (_ & Hd & _). intros Hin. apply (Hd k Hin). by left. }
    rewrite decide_False by done. cbn [bindr]. rewrite dset_fresh by done. by apply IH.
Qed.
Lemma cols_of_columns outs : existsb is_frame (map snd outs) = false -> cols_of outs = columns_of (L := L) (C := C) outs.
Proof.
  induction outs as [|[k [ix cs|c]] outs IH]; [done|done|]. cbn. intros H. f_equal. by apply IH.
Qed.
Lemma columns_wf outs : (forall k (v : value), (k, v) ∈ outs -> wf_value v) -> forall k c, (k, c) ∈ columns_of outs -> wf_col c.
Proof.
  induction outs as [|[k v] outs IH]; intros Hw k' c Hin; [by apply elem_of_nil in Hin|]. rewrite columns_of_cons in Hin. apply elem_of_app in Hin as [Hin | Hin].
  - specialize (Hw k v ltac:(by left)). destruct v as [ix cs|c'].
    + apply elem_of_list_fmap in Hin as ([c0 v0] & Heq & Hin). injection Heq as -> ->. cbn. by apply (Hw c0).
    + apply elem_of_list_singleton in Hin. injection Hin as -> ->. by destruct c'.
  - eapply IH; [|done]. intros; eapply Hw; by right.
Qed.

Lemma to_dict_keys ix (cs : list (name * list C)) k : k ∈ dkeys (to_dict (C := C) ix cs) <-> k ∈ map fst cs.
Proof.
  unfold to_dict. assert (H : forall d0 : dict col, k ∈ dkeys (foldl (fun d kc => dset d kc.1 (Series ix kc.2)) d0 cs) <-> k ∈ dkeys d0 \/ k ∈ map fst cs).
  { induction cs as [|[k' a] l IH]; intros d0; cbn [foldl map fst snd]; [rewrite elem_of_nil; naive_solver|]. rewrite IH, dkeys_dset_elem, elem_of_cons. naive_solver. }
  rewrite H. rewrite (elem_of_nil k : k ∈ dkeys (@nil (name * col)) <-> False). naive_solver.
Qed.
Lemma flatten_keys outs : forall flat flat' : dict col, foldr_ flatten_step outs flat = Ok flat' -> forall k, k ∈ dkeys flat \/ k ∈ dkeys (columns_of outs) -> k ∈ dkeys flat'.
Proof.
  induction outs as [|[n v] outs IH]; intros flat flat' H k Hk; cbn [foldr_] in H.
  { injection H as <-. destruct Hk as [? | Hk]; [done|]. by apply elem_of_nil in Hk. }
  apply bindr_ok in H as (flat1 & H1 & H). apply (IH _ _ H). rewrite columns_of_cons in Hk. unfold dkeys in Hk at 2. rewrite fmap_app, elem_of_app in Hk.
  destruct Hk as [Hk | [Hk | Hk]]; [left|left|by right]; unfold flatten_step in H1; cbn [fst snd] in H1.
  - destruct v as [ix cs|c]; [injection H1 as <-; apply dsets_keys; by left|]. destruct (decide _); [done|]. injection H1 as <-. apply dkeys_dset_elem. by right.
  - destruct v as [ix cs|c].
    + injection H1 as <-. apply dsets_keys. right. apply elem_of_list_fmap in Hk as ([k0 c0] & -> & ([c' v'] & Heq & Hin)%elem_of_list_fmap). injection Heq as -> ->.
      assert (Hc : c' ∈ dkeys (to_dict (C := C) ix cs)) by (apply to_dict_keys, elem_of_list_fmap; by exists (c', v')).
      apply elem_of_list_fmap in Hc as ([c1 x1] & -> & Hin1). apply elem_of_list_fmap. exists (output_name n c1, x1). split; [done|]. apply elem_of_list_fmap. by exists (c1, x1).
    + apply elem_of_list_singleton in Hk as ->. destruct (decide _); [done|]. injection H1 as <-. apply dkeys_dset_elem. by left.
Qed.
Lemma foldr_app {X A S} (h : A -> S -> res X S) l1 l2 s : foldr_ h (l1 ++ l2) s = bindr (foldr_ h l1 s) (foldr_ h l2).
Proof. revert s. induction l1 as [|a l1 IH]; intros s; [done|]. cbn [app foldr_]. destruct (h a s); cbn [bindr]; [apply IH|done]. Qed.

(** ** Index types *)
Definition key_of (v : value) : name := default "no-index" (index_type int_key v).
Record types_of (outs : dict value) (t : types3) : Prop := {
  to_all : forall k, k ∈ dkeys t.1.1 <-> exists n v, (n, v) ∈ outs /\ key_of v = k;
  to_all_once : NoDup (dkeys t.1.1);
  to_time : forall k, k ∈ dkeys t.1.2 -> exists n v, (n, v) ∈ outs /\ index_type int_key v = Some k;
  to_time_once : NoDup (dkeys t.1.2);
  to_no : dkeys t.2 = if existsb (fun v => bool_decide (index_type int_key v = None)) (map snd outs) then ["no-index"] else [];
}.
Lemma types_step outs t n v : types_of outs t -> exists t', index_step true int_key (n, v) t = Ok t' /\ types_of (outs ++ [(n, v)]) t'.
Proof.
  destruct t as [[alls times] nos]. intros [Ha Hao Ht Hto Hn]. cbn [fst snd] in *. unfold index_step. cbn [fst snd].
  set (w := match v with DataFrame ix _ | Col (Series ix _) => ix_time ix | _ => false end).
  set (i := match index_type int_key v with Some _ => true | None => false end).
  exists (dappend alls (key_of v) n, if w then dappend times (key_of v) n else times, if i then nos else dappend nos "no-index" n). split.
  { destruct v as [ix cs|[ix cs|cs|cs|c]]; done. }
  assert (Hin : forall n' v', (n', v') ∈ outs ++ [(n, v)] <-> (n', v') ∈ outs \/ (n', v') = (n, v)) by (intros; by rewrite elem_of_app, elem_of_list_singleton).
  split; cbn [fst snd].
  - intros k. unfold dappend. rewrite dkeys_dset_elem, Ha. split.
    + intros [-> | (n' & v' & ? & ?)]; [exists n, v|exists n', v']; (split; [apply Hin; auto|done]).
    + intros (n' & v' & [? | Heq]%Hin & <-); [right; eauto|left]. by injection Heq as -> ->.
  - by apply NoDup_dkeys_dset.
  - intros k Hk. assert (k ∈ dkeys times \/ w = true /\ k = key_of v) as [Hk' | [Hw ->]].
    { destruct w; [|by left]. unfold dappend in Hk. apply dkeys_dset_elem in Hk as [-> | ?]; auto. }
    + apply Ht in Hk' as (n' & v' & ? & ?). exists n', v'. split; [apply Hin; by left|done].
    + exists n, v. split; [apply Hin; by right|]. subst w. by destruct v as [ix cs|[ix cs|cs|cs|c]].
  - destruct w; [by apply NoDup_dkeys_dset|done].
  - rewrite map_app, existsb_app. cbn [existsb map snd]. rewrite orb_false_r. subst i. destruct (index_type int_key v) eqn:Ei.
    + rewrite bool_decide_eq_false_2 by done. by rewrite orb_false_r.
    + rewrite bool_decide_eq_true_2, orb_true_r by done. unfold dappend. destruct (existsb _ _).
      * rewrite dkeys_dset_in; [done|]. rewrite Hn. by left.
      * rewrite dkeys_dset_notin; rewrite Hn; [done|]. apply not_elem_of_nil.
Qed.
Lemma types_ok outs : exists t, pandas_index_types true int_key outs = Ok t /\ types_of outs t.
Proof.
  unfold pandas_index_types. assert (H : forall o1 t1, types_of o1 t1 -> exists t, foldr_ (index_step true int_key) outs t1 = Ok t /\ types_of (o1 ++ outs) t).
  { induction outs as [|[n v] outs IH]; intros o1 t1 H1; [exists t1; by rewrite app_nil_r|]. cbn [foldr_]. destruct (types_step o1 t1 n v H1) as (t' & -> & H'). cbn [bindr].
    destruct (IH _ _ H') as (t & -> & Ht). exists t. split; [done|]. by rewrite <- app_assoc in Ht. }
  apply (H [] ([], [], [])). split; cbn; [|constructor| |constructor|done].
  - intros k. split; [intros Hk; by apply elem_of_nil in Hk|]. by intros (n & v & Hin%elem_of_nil & _).
  - intros k Hk. by apply elem_of_nil in Hk.
Qed.

Lemma check_iff outs t : (forall n v, (n, v) ∈ outs -> index_type int_key v <> Some "no-index") -> types_of outs t ->
  check_match t = true <-> exists k, (exists n v, (n, v) ∈ outs /\ index_type int_key v = Some k) /\ forall n v k', (n, v) ∈ outs -> index_type int_key v = Some k' -> k' = k.
Proof.
  destruct t as [[alls times] nos]. intros Hno [Ha Hao Ht Hto Hn]. cbn [fst snd] in *.
  (* the index types *)
  assert (Hw : exists ks, dkeys alls ≡ₚ dkeys nos ++ ks /\ NoDup ks /\ forall k, k ∈ ks <-> exists n v, (n, v) ∈ outs /\ index_type int_key v = Some k).
  { exists (filter (fun k => k <> "no-index") (dkeys alls)). split_and!.
    - rewrite Hn. apply NoDup_Permutation; [done| |].
      + destruct (existsb _ _); cbn [app]; [|by apply NoDup_filter]. apply NoDup_cons. split; [|by apply NoDup_filter]. by intros [? _]%elem_of_list_filter.
      + intros k. rewrite elem_of_app, elem_of_list_filter. destruct (existsb _ _) eqn:Ex.
        * rewrite elem_of_list_singleton. split; [intros; destruct (decide (k = "no-index")); auto|]. intros [-> | [_ ?]]; [|done].
          apply existsb_exists in Ex as (v & ([n v'] & Hv & Hin)%in_map_iff & Hb). cbn in Hv. subst v'. apply Ha. exists n, v. split; [by apply elem_of_list_In|].
          apply bool_decide_eq_true in Hb. unfold key_of. by rewrite Hb.
        * split; [|by intros [?%elem_of_nil | [_ ?]]]. intros Hk. right. split; [|done]. intros ->. apply Ha in Hk as (n & v & Hin & Hv). unfold key_of in Hv.
          destruct (index_type int_key v) eqn:Ei; [cbn in Hv; subst; by apply (Hno n v)|]. enough (existsb (fun v : value => bool_decide (index_type int_key v = None)) (map snd outs) = true) by congruence.
          apply existsb_exists. exists v. split; [|by apply bool_decide_eq_true]. apply in_map_iff. exists (n, v). split; [done|by apply elem_of_list_In].
    - by apply NoDup_filter.
    - intros k. rewrite elem_of_list_filter, Ha. split.
      + intros [Hk (n & v & Hin & Hv)]. exists n, v. split; [done|]. unfold key_of in Hv. destruct (index_type int_key v); cbn in Hv; congruence.
      + intros (n & v & Hin & Hv). split; [intros ->; by apply (Hno n v)|]. exists n, v. split; [done|]. unfold key_of. by rewrite Hv. }
  destruct Hw as (ks & Hp & Hks & Hk). assert (Hlen : length alls = length nos + length ks).
  { apply Permutation_length in Hp. rewrite app_length in Hp. unfold dkeys in Hp. by rewrite !fmap_length in Hp. }
  assert (Htl : length times <= length ks).
  { assert (Hs : dkeys times ⊆ ks) by (intros k H; apply Hk; by apply Ht). apply NoDup_submseteq in Hs; [|done]. apply submseteq_length in Hs. unfold dkeys in Hs. by rewrite fmap_length in Hs. }
  assert (Hc : check_match (alls, times, nos) = true <-> length ks = 1).
  { unfold check_match. cbn zeta. rewrite Hlen. replace (length nos + length ks - length nos) with (length ks) by lia.
    destruct (1 <? length times) eqn:E1; destruct (1 <? length ks) eqn:E2; destruct (length times <? length nos + length ks) eqn:E3; destruct (length ks =? 1) eqn:E4; destruct (0 <? length nos) eqn:E5;
      destruct (length nos =? length nos + length ks) eqn:E6; cbn;
      rewrite ?Nat.ltb_lt, ?Nat.ltb_ge, ?Nat.eqb_eq, ?Nat.eqb_neq in *; split; intros; try done; try lia. }
  rewrite Hc. split.
  - intros H1. destruct ks as [|k [|]]; try done. exists k. split; [apply Hk; by left|]. intros n v k' Hin Hv. apply elem_of_list_singleton, Hk. eauto.
  - intros (k & Hex & Hall). assert (Hperm : ks ≡ₚ [k]).
    { apply NoDup_Permutation; [done|apply NoDup_singleton|]. intros k'. rewrite elem_of_list_singleton, Hk. split; [intros (n & v & Hin & Hv); by eapply Hall|by intros ->]. }
    apply Permutation_length in Hperm. done.
Qed.
End Proofs.

(** ** Matrices *)
Section Numpy.
Context {C : Type}.
Notation nvalue := (nvalue C).
Implicit Types (outs : dict nvalue).

Definition with_length (n : nat) (kv : name * nvalue) : name * Z * nvalue :=
  (kv.1, match kv.2 with Number _ => 1%Z | _ => Z.of_nat n end, kv.2).
Lemma measure_rows n outs : forall cols s, foldr_ measure outs (Z.of_nat n, cols) = Ok s <-> fits_rows outs n /\ s = (Z.of_nat n, cols ++ map (with_length n) outs).
Proof.
  induction outs as [|[k v] outs IH]; intros cols s; cbn [foldr_].
  { rewrite app_nil_r. split; [intros [= <-]; split; [|done]; intros k v Hin; by apply elem_of_nil in Hin|by intros [_ ->]]. }
  assert (Hf : fits_rows ((k, v) :: outs) n <-> match v with Sized cs => length cs = n | Number _ => True | Unsized => False end /\ fits_rows outs n).
  { unfold fits_rows. split; [intros H; split; [apply (H k v); by left|intros; eapply H; by right]|]. intros [H1 H2] k' v' [Heq | Hin]%elem_of_cons; [by injection Heq as -> ->|by apply (H2 k')]. }
  rewrite Hf. unfold measure at 1. cbn [fst snd]. destruct v as [c|cs|]; cbn [bindr].
  - rewrite IH, <- app_assoc. cbn [map app]. unfold with_length at 2. cbn [fst snd]. naive_solver.
  - rewrite decide_False by lia. destruct (decide (Z.of_nat (length cs) = Z.of_nat n)) as [He|He].
    + cbn [bindr]. rewrite IH, <- app_assoc. apply Nat2Z.inj in He. cbn [map app]. unfold with_length at 2. cbn [fst snd]. naive_solver.
    + split; [done|]. intros [[Hl _] _]. by rewrite Hl in He.
  - split; [done|]. by intros [[? _] _].
Qed.
Lemma measure_none outs : forall cols s, foldr_ measure outs ((-1)%Z, cols) = Ok s <->
  (~ has_vector outs /\ (forall k v, (k, v) ∈ outs -> v <> Unsized) /\ s = ((-1)%Z, cols ++ map (fun kv => (kv.1, 1%Z, kv.2)) outs)) \/
  (has_vector outs /\ exists n, fits_rows outs n /\ s = (Z.of_nat n, cols ++ map (with_length n) outs)).
Proof.
  induction outs as [|[k v] outs IH]; intros cols s; cbn [foldr_].
  { rewrite app_nil_r. split.
    - intros [= <-]. left. split_and!; [by intros (k & cs & ?%elem_of_nil)|intros k v Hin; by apply elem_of_nil in Hin|done].
    - intros [(_ & _ & ->) | [(k & cs & ?%elem_of_nil) _]]; done. }
  assert (Hf : forall n, fits_rows ((k, v) :: outs) n <-> match v with Sized cs => length cs = n | Number _ => True | Unsized => False end /\ fits_rows outs n).
  { intros n. unfold fits_rows. split; [intros H; split; [apply (H k v); by left|intros; eapply H; by right]|]. intros [H1 H2] k' v' [Heq | Hin]%elem_of_cons; [by injection Heq as -> ->|by apply (H2 k')]. }
  unfold measure at 1. cbn [fst snd]. destruct v as [c|cs|]; cbn [bindr].
  - rewrite IH. assert (Hv : has_vector ((k, Number c) :: outs) <-> has_vector outs).
    { split; intros (k' & cs & Hin); exists k', cs; [by apply elem_of_cons in Hin as [? | ?]|by right]. }
    rewrite Hv. setoid_rewrite Hf. rewrite <- !app_assoc. cbn [map app]. split.
    + intros [(H1 & H2 & ->) | (H1 & n & H2 & ->)]; [left|right].
      * split_and!; [done| |done]. intros k' v' [Heq | Hin]%elem_of_cons; [by injection Heq as -> ->|by apply (H2 k')].
      * split; [done|]. exists n. split; [done|]. rewrite <- app_assoc. done.
    + intros [(H1 & H2 & ->) | (H1 & n & [_ H2] & ->)]; [left|right].
      * split_and!; [done| |done]. intros; eapply H2; by right.
      * split; [done|]. exists n. split; [done|]. by rewrite <- app_assoc.
  - rewrite decide_True by done. cbn [bindr]. rewrite measure_rows. split.
    + intros [H ->]. right. split; [exists k, cs; by left|]. exists (length cs). split; [by apply Hf|]. by rewrite <- app_assoc.
    + intros [(H & _) | (_ & n & H & ->)]; [destruct H; exists k, cs; by left|]. apply Hf in H as [<- H]. split; [done|]. by rewrite <- app_assoc.
  - split; [done|]. intros [(_ & H & _) | (_ & n & H & _)]; [by destruct (H k Unsized ltac:(by left))|]. by apply Hf in H as [? _].
Qed.
End Numpy.
