(** Proofs about the decorators that attach tags. *)
From Coq Require Import Ascii.
From Verif Require Import Base Dict Strings CacheKeyModel CacheKeyProofs DecorModel DecorProofs AdapterModel TaggingModel TaggingSpec.

Lemma dget_dupdate {A} (e d : dict A) k : NoDup (dkeys e) -> dget (dupdate d e) k = match dget e k with Some v => Some v | None => dget d k end.
Proof.
  revert d. induction e as [|[k0 v0] e IH]; intros d Hn; [done|]. change (dkeys ((k0, v0) :: e)) with (k0 :: dkeys e) in Hn. apply NoDup_cons in Hn as [Hk Hn].
  change (dupdate d ((k0, v0) :: e)) with (dupdate (dset d k0 v0) e). rewrite IH by done. cbn [dget]. destruct (decide (k = k0)) as [->|Hne].
  - assert (He : dget e k0 = None) by by apply dget_None_key. rewrite He. apply dget_dset_eq.
  - destruct (dget e k); [done|]. by apply dget_dset_ne.
Qed.
Lemma NoDup_dupdate {A} (e d : dict A) : NoDup (dkeys d) -> NoDup (dkeys (dupdate d e)).
Proof. revert d. induction e as [|[k v] e IH]; intros d Hn; [done|]. apply (IH (dset d k v)). by apply NoDup_dkeys_dset. Qed.
Lemma dkeys_dupdate {A} (e d : dict A) k : k ∈ dkeys (dupdate d e) <-> k ∈ dkeys d \/ k ∈ dkeys e.
Proof.
  revert d. induction e as [|[k0 v] e IH]; intros d; [cbn; rewrite elem_of_nil; tauto|].
  change (dupdate d ((k0, v) :: e)) with (dupdate (dset d k0 v) e). rewrite IH, dkeys_dset_elem. change (dkeys ((k0, v) :: e)) with (k0 :: dkeys e). rewrite elem_of_cons. tauto.
Qed.

Section Proofs.
Context {T R J : Type}.
Variable ident : string -> bool.
Variable dumps : J -> string.
Variable loads : string -> option J.
Variable dataset : T -> bool.
Notation tnode := (tnode T R).
Notation dec := (dec J).
Notation gives := (gives dumps).
Notation decorate_node := (decorate_node dumps dataset).
Notation apply_dec := (apply_dec dumps dataset).
Notation last_word := (last_word dumps).

(** ** Selection *)
Definition mark (n : tnode) : bool := match dget (tn_tags n) NON_FINAL with Some v => truthy v | None => false end.
Lemma mark_spec n : mark n = true <-> marked n.
Proof.
  unfold mark, marked. change NON_FINAL with "hamilton.non_final_node". destruct (dget (tn_tags n) _) as [v|]; [|split; [done|by intros (v & ? & _)]].
  split.
  - intros Hv. exists v. split; [done|]. destruct v as [s|l|h b]; cbn in Hv.
    + apply bool_decide_eq_true in Hv. split_and!; congruence.
    + apply bool_decide_eq_true in Hv. split_and!; congruence.
    + split_and!; congruence.
  - intros (w & [= <-] & H1 & H2 & H3). destruct v as [s|l|h b]; cbn.
    + apply bool_decide_eq_true. congruence.
    + apply bool_decide_eq_true. congruence.
    + destruct b; [done|]. by destruct (H3 h).
Qed.

Lemma select_spec t (nodes : list tnode) sel : select t nodes = Ok sel -> forall n, n ∈ sel <-> n ∈ nodes /\ targeted t nodes n.
Proof.
  destruct t as [| |x|xs]; cbn; intros H n.
  - injection H as <-. unfold finals. rewrite elem_of_list_filter. fold (mark n). rewrite <- mark_spec. split.
    + intros [[H1 H2] H3]. split_and!; [done|by rewrite H2|]. intros n' Hn' Hx. apply H1. apply elem_of_concat. exists (tn_deps n'). split; [done|]. apply elem_of_list_fmap. by exists n'.
    + intros (H1 & H2 & H3). split_and!; [|by destruct (mark n)|done]. intros (l & Hl & (n' & -> & Hn')%elem_of_list_fmap)%elem_of_concat. by apply (H3 n').
  - injection H as <-. tauto.
  - assert (F : sel = filter (fun n => tn_name n = x) nodes) by (destruct (filter _ nodes); [done|by injection H as <-]).
    rewrite F, elem_of_list_filter. tauto.
  - destruct (decide _); [|done]. injection H as <-. rewrite elem_of_list_filter. tauto.
Qed.

Lemma select_sub t (nodes : list tnode) sel : select t nodes = Ok sel -> sublist sel nodes.
Proof.
  assert (F : forall (P : tnode -> Prop) `{forall n, Decision (P n)}, sublist (filter P nodes) nodes).
  { intros P HP. induction nodes as [|n l IH]; [constructor|]. rewrite filter_cons. destruct (decide (P n)); by constructor. }
  destruct t as [| |x|xs]; cbn; intros H.
  - injection H as <-. apply F.
  - by injection H as <-.
  - destruct (filter _ nodes) eqn:E; [done|]. injection H as <-. rewrite <- E. apply F.
  - destruct (decide _); [|done]. injection H as <-. apply F.
Qed.

Lemma filter_names_length (xs : list name) (nodes : list tnode) : NoDup (map tn_name nodes) -> NoDup xs ->
  (length (filter (fun n => tn_name n ∈ xs) nodes) = length xs <-> forall x, x ∈ xs -> x ∈ map tn_name nodes).
Proof.
  intros Nn Nx.
  assert (L : map tn_name (filter (fun n : tnode => tn_name n ∈ xs) nodes) ≡ₚ filter (fun x => x ∈ map tn_name nodes) xs).
  { apply NoDup_Permutation.
    - clear -Nn. induction nodes as [|n l IH]; cbn in *; [apply NoDup_nil_2|]. apply NoDup_cons in Nn as [N1 N2].
      destruct (decide _); cbn; [|by apply IH]. apply NoDup_cons. split; [|by apply IH].
      intros (n' & Hn & [_ Hin]%elem_of_list_filter)%elem_of_list_fmap. apply N1. rewrite Hn. apply elem_of_list_fmap. by exists n'.
    - by apply NoDup_filter.
    - intros x. rewrite elem_of_list_fmap, elem_of_list_filter. setoid_rewrite elem_of_list_filter. rewrite elem_of_list_fmap. split.
      + intros (n & -> & H1 & H2). split; [by exists n|done].
      + intros [(n & -> & H2) H1]. by exists n. }
  apply Permutation_length in L. rewrite map_length in L. rewrite L. clear L Nx. induction xs as [|x xs IH]; [split; [by intros _ ? []%elem_of_nil|done]|].
  rewrite filter_cons. destruct (decide _) as [H|H]; cbn [length].
  - split.
    + intros [= He] y [-> | Hy]%elem_of_cons; [done|]. by apply IH.
    + intros Hy. f_equal. apply IH. intros y Hy'. apply Hy. by right.
  - split.
    + intros He. exfalso. pose proof (filter_length (fun x => x ∈ map tn_name nodes) xs). lia.
    + intros Hy. exfalso. apply H, Hy. by left.
Qed.

Lemma select_found t (nodes : list tnode) : NoDup (map tn_name nodes) -> target_ok t ->
  (found t nodes -> exists sel, select t nodes = Ok sel) /\ (~ found t nodes -> select t nodes = Err TInvalid).
Proof.
  intros Nn Nx. destruct t as [| |x|xs]; cbn [found select].
  - split; [eauto|done].
  - split; [eauto|done].
  - destruct (filter (fun n : tnode => tn_name n = x) nodes) as [|n l] eqn:F.
    + split; [|done]. intros (n & -> & Hn)%elem_of_list_fmap. exfalso.
      assert (Hin : n ∈ filter (fun n' : tnode => tn_name n' = tn_name n) nodes) by by apply elem_of_list_filter.
      rewrite F in Hin. by apply elem_of_nil in Hin.
    + split; [eauto|]. intros Hx. exfalso. apply Hx. assert (Hin : n ∈ filter (fun n' : tnode => tn_name n' = x) nodes) by (rewrite F; by left).
      apply elem_of_list_filter in Hin as [<- Hin]. apply elem_of_list_fmap. by exists n.
  - rewrite <- (filter_names_length xs nodes Nn Nx). cbn zeta. split; intros H; [rewrite decide_True by done; eauto|by rewrite decide_False by done].
Qed.
Lemma found_dec t (nodes : list tnode) : found t nodes \/ ~ found t nodes.
Proof.
  destruct t as [| |x|xs]; cbn; [by left|by left| |].
  - destruct (decide (x ∈ map tn_name nodes)); [by left|by right].
  - destruct (decide (Forall (fun x => x ∈ map tn_name nodes) xs)) as [H|H]; rewrite Forall_forall in H; [by left|by right].
Qed.
Lemma targeted_dec t (nodes : list tnode) n : targeted t nodes n \/ ~ targeted t nodes n.
Proof.
  destruct t as [| |x|xs]; cbn; [|by left| |].
  - rewrite <- mark_spec. destruct (mark n); [right; tauto|].
    destruct (decide (Forall (fun n' => tn_name n ∉ tn_deps n') nodes)) as [H|H]; rewrite Forall_forall in H; [left|right; tauto]. done.
  - destruct (decide (tn_name n = x)); [by left|by right].
  - destruct (decide (tn_name n ∈ xs)); [by left|by right].
Qed.

Lemma same_name (nodes : list tnode) n n' : NoDup (map tn_name nodes) -> n ∈ nodes -> n' ∈ nodes -> tn_name n = tn_name n' -> n = n'.
Proof.
  intros Hn [i Hi]%elem_of_list_lookup [j Hj]%elem_of_list_lookup He.
  assert (i = j) as ->; [|congruence]. eapply (NoDup_lookup (map tn_name nodes)); [done| |]; rewrite list_lookup_fmap; [by rewrite Hi|]. rewrite Hj. cbn. by rewrite He.
Qed.

(** ** One decorator, one node *)
Lemma decorate_same d (n m : tnode) : decorate_node d n = Ok m -> same n m.
Proof.
  destruct d as [t b tags|mp|t bh f|t fs|o]; cbn.
  - by intros [= <-].
  - destruct (dget mp (tn_name n)) as [tags|]; [|by intros [= <-]]. unfold tag_call. destruct (decide _); [done|]. cbn. by intros [= <-].
  - by intros [= <-].
  - destruct (dataset _); [|done]. by intros [= <-].
  - by intros [= <-].
Qed.

(** What [d] says about a node, whatever its target. *)
Definition said (d : dec) (n : tnode) : dict tv :=
  match d with
  | DTag _ _ tags => tags
  | DTagOutputs m => default [] (dget m (tn_name n))
  | DCache _ b f => cache_tags b f
  | DSchema _ fs => [(SCHEMA_KEY, VStr (schema_tag fs))]
  | DRay o => ray_tags dumps o
  end.

Lemma cache_tags_get b f k : dget (cache_tags b f) k =
  if decide (k = BEHAVIOR_KEY) then (match b with Some s => if decide (s = "") then None else Some (VStr s) | None => None end)
  else if decide (k = FORMAT_KEY) then (match f with Some s => if decide (s = "") then None else Some (VStr s) | None => None end) else None.
Proof.
  unfold cache_tags. destruct b as [b|], f as [f|]; repeat (match goal with |- context[decide (?x = "")] => destruct (decide (x = "")) end); rewrite ?dget_dset; cbn [dget];
    destruct (decide (k = BEHAVIOR_KEY)) as [-> |]; try (destruct (decide (k = FORMAT_KEY)) as [-> |]); reflexivity.
Qed.
Lemma cache_tags_NoDup b f : NoDup (dkeys (cache_tags b f)).
Proof. unfold cache_tags. destruct b, f; repeat (destruct (decide _)); repeat apply NoDup_dkeys_dset; apply NoDup_nil_2. Qed.
Lemma ray_tags_get o k : dget (ray_tags dumps o) ("ray_remote." +:+ k) = VStr ∘ dumps <$> dget o k.
Proof.
  induction o as [|[k0 j] o IH]; [done|]. change (ray_tags dumps ((k0, j) :: o)) with (("ray_remote." +:+ k0, VStr (dumps j)) :: ray_tags dumps o). cbn [dget].
  destruct (decide (k = k0)) as [->|Hne]; [by rewrite decide_True|]. rewrite decide_False by (intros He%app_inj_l; done). apply IH.
Qed.
Lemma ray_tags_keys o k : k ∈ dkeys (ray_tags dumps o) <-> exists o', k = "ray_remote." +:+ o' /\ o' ∈ dkeys o.
Proof.
  unfold dkeys, ray_tags. rewrite elem_of_list_fmap. split.
  - intros ([k' v] & -> & ([o' j] & [= -> ->] & Hin)%elem_of_list_fmap). exists o'. split; [done|]. apply elem_of_list_fmap. by exists (o', j).
  - intros (o' & -> & ([o'' j] & -> & Hin)%elem_of_list_fmap). exists ("ray_remote." +:+ o'', VStr (dumps j)). split; [done|]. apply elem_of_list_fmap. by exists (o'', j).
Qed.
Lemma ray_tags_NoDup o : NoDup (dkeys o) -> NoDup (dkeys (ray_tags dumps o)).
Proof.
  induction o as [|[k j] o IH]; [intros _; apply NoDup_nil_2|]. change (dkeys ((k, j) :: o)) with (k :: dkeys o). intros [Hk Hn]%NoDup_cons.
  change (dkeys (ray_tags dumps ((k, j) :: o))) with (("ray_remote." +:+ k) :: dkeys (ray_tags dumps o)). apply NoDup_cons. split; [|by apply IH].
  intros (o' & He%app_inj_l & Ho)%ray_tags_keys. by subst.
Qed.

Lemma said_ok d n : dec_ok d -> tags_ok (said d n).
Proof.
  unfold tags_ok, own_names. destruct d as [t b tags|mp|t bh f|t fs|o]; cbn [said dec_ok].
  - by intros [_ H].
  - intros H. destruct (dget mp (tn_name n)) as [tags|] eqn:E; cbn; [by apply (H _ _ E)|]. split; [apply NoDup_nil_2|by intros ? _ ?%elem_of_nil].
  - intros _. split; [apply cache_tags_NoDup|]. intros k Hk Hin. apply dget_Some_key in Hin. rewrite cache_tags_get in Hin.
    repeat (apply elem_of_cons in Hk as [-> |Hk]; [by destruct Hin|]). by apply elem_of_nil in Hk.
  - intros _. split; [apply NoDup_singleton|]. intros k Hk ->%elem_of_list_singleton.
    repeat (apply elem_of_cons in Hk as [? |Hk]; [done|]). by apply elem_of_nil in Hk.
  - intros H. split; [by apply ray_tags_NoDup|]. intros k Hk (o' & -> & _)%ray_tags_keys.
    repeat (apply elem_of_cons in Hk as [? |Hk]; [done|]). by apply elem_of_nil in Hk.
Qed.

Lemma filter_all {A} (f : A -> bool) l : (forall x, x ∈ l -> f x = true) -> List.filter f l = l.
Proof. induction l as [|a l IH]; intros H; [done|]. cbn. rewrite H by by left. f_equal. apply IH. intros x Hx. apply H. by right. Qed.

Lemma tag_call_ok tags : tags_ok tags -> tag_call tags = Ok tags.
Proof.
  intros [_ H]. unfold tag_call. rewrite decide_False by (apply H; by left). f_equal. apply filter_all. intros [k v] Hin. cbn. apply negb_true_iff, bool_decide_eq_false.
  intros Hk. apply (H k); [by right|]. apply elem_of_list_fmap. by exists (k, v).
Qed.

Lemma decorate_get d (n : tnode) : dec_ok d -> tags_ok (tn_tags n) ->
  (forall m, decorate_node d n = Ok m -> tags_ok (tn_tags m) /\ forall k, dget (tn_tags m) k = match dget (said d n) k with Some v => Some v | None => dget (tn_tags n) k end) /\
  (forall e, decorate_node d n = Err e -> e = TInvalid /\ exists t fs, d = DSchema t fs /\ dataset (tn_type n) = false) /\
  (forall t fs, d = DSchema t fs -> dataset (tn_type n) = false -> decorate_node d n = Err TInvalid).
Proof.
  intros Hd Hn. pose proof (said_ok d n Hd) as Hs.
  assert (Up : tags_ok (dupdate (tn_tags n) (said d n))).
  { split; [apply NoDup_dupdate, Hn|]. intros k Hk [H|H]%dkeys_dupdate; [by apply (proj2 Hn k)|by apply (proj2 Hs k)]. }
  assert (Get : forall k, dget (dupdate (tn_tags n) (said d n)) k = match dget (said d n) k with Some v => Some v | None => dget (tn_tags n) k end).
  { intros k. apply dget_dupdate, Hs. }
  destruct d as [t b tags|mp|t bh f|t fs|o]; cbn [decorate_node said] in *.
  - split; [intros m [= <-]; by split|]. by split.
  - destruct (dget mp (tn_name n)) as [tags|] eqn:E; cbn [default from_option] in *.
    + rewrite tag_call_ok by done. cbn. split; [|by split]. intros m [= <-]. cbn [tn_tags with_tags].
      assert (Up2 : tags_ok (dupdate (tn_tags n) (dupdate (tn_tags n) tags))).
      { split; [apply NoDup_dupdate, Hn|]. intros k Hk [H|H]%dkeys_dupdate; [by apply (proj2 Hn k)|by apply (proj2 Up k)]. }
      split; [done|]. intros k. rewrite dget_dupdate by apply Up. change (id tags) with tags in *. rewrite Get. destruct (dget tags k); [done|]. by destruct (dget (tn_tags n) k).
    + split; [intros m [= <-]; by split|]. by split.
  - split; [intros m [= <-]; by split|]. by split.
  - destruct (dataset (tn_type n)) eqn:E.
    + split; [intros m [= <-]; by split|]. by split.
    + split; [done|]. split; [intros e [= <-]; split; [done|by exists t, fs]|done].
  - split; [intros m [= <-]; by split|]. by split.
Qed.

Lemma schema_rendered fs s : rendered fs s <-> s = schema_tag fs.
Proof.
  unfold schema_tag. split.
  - induction 1 as [|k t|k t f fs s H IH]; [done|done|]. rewrite IH. cbn. by rewrite !app_assoc_s.
  - intros ->. induction fs as [|[k t] fs IH]; [constructor|]. destruct fs as [|f fs]; [constructor|].
    change (join _ _) with ((k +:+ "=" +:+ t) +:+ String ","%char (join ","%char (map (fun f : string * string => f.1 +:+ "=" +:+ f.2) (f :: fs)))).
    set (s := join _ _) in *. rewrite !app_assoc_s. by constructor.
Qed.

Lemma gives_said nodes d (n : tnode) k v : gives nodes d n k v <-> targeted (dec_target d) nodes n /\ dget (said d n) k = Some v.
Proof.
  split.
  - destruct 1 as [t b tags n k v|mp n tags k v Hm|t b f n|t b f n|fs s n|x fs s n|o n k j]; cbn [dec_target said].
    + done.
    + rewrite Hm. done.
    + split; [done|]. rewrite cache_tags_get. by rewrite decide_True, decide_False by done.
    + split; [done|]. rewrite cache_tags_get. by rewrite decide_False, decide_True, decide_False by done.
    + split; [done|]. cbn [dget]. rewrite decide_True by done. by rewrite (proj1 (schema_rendered _ _) H0).
    + split; [done|]. cbn [dget]. rewrite decide_True by done. by rewrite (proj1 (schema_rendered _ _) H0).
    + split; [done|]. rewrite ray_tags_get, H0. done.
  - intros [Ht Hg]. destruct d as [t b tags|mp|t bh f|t fs|o]; cbn [dec_target said] in *.
    + by constructor.
    + destruct (dget mp (tn_name n)) as [tags|] eqn:E; [|done]. by eapply G_outputs.
    + rewrite cache_tags_get in Hg. destruct (decide (k = BEHAVIOR_KEY)) as [-> |].
      * destruct bh as [s|]; [|done]. destruct (decide (s = "")); [done|]. injection Hg as <-. by apply G_behavior.
      * destruct (decide (k = FORMAT_KEY)) as [-> |]; [|done]. destruct f as [s|]; [|done]. destruct (decide (s = "")); [done|]. injection Hg as <-. by apply G_format.
    + cbn [dget] in Hg. destruct (decide (k = SCHEMA_KEY)) as [-> |]; [|done]. injection Hg as <-. destruct t as [x|]; [apply G_schema_of|apply G_schema]; [done|by apply schema_rendered|done|by apply schema_rendered].
    + assert (Hk : k ∈ dkeys (ray_tags dumps o)) by (apply dget_Some_key; by exists v). apply ray_tags_keys in Hk as (o' & -> & _). rewrite ray_tags_get in Hg.
      destruct (dget o o') as [j|] eqn:E; [|done]. injection Hg as <-. by apply G_ray.
Qed.

(** ** One decorator, all nodes *)
Lemma mapr_err {X A B} (f : A -> res X B) l e : mapr f l = Err e -> exists a, a ∈ l /\ f a = Err e.
Proof.
  induction l as [|a l IH]; cbn; [done|]. destruct (f a) as [b|e'] eqn:Ef; cbn.
  - destruct (mapr f l) as [bs|e'']; cbn; [done|]. intros [= ->]. destruct (IH eq_refl) as (a' & ? & ?). exists a'. split; [by right|done].
  - intros [= ->]. exists a. split; [by left|done].
Qed.

Lemma keep_sel (nodes sel : list tnode) : NoDup (map tn_name nodes) -> sublist sel nodes -> filter (fun n => tn_name n ∉ map tn_name sel) nodes ++ sel ≡ₚ nodes.
Proof.
  intros Hn Hs. assert (Hd : NoDup nodes) by by apply NoDup_fmap_1 in Hn.
  assert (Hns : NoDup sel) by (apply sublist_submseteq, submseteq_Permutation in Hs as [rest Hp]; rewrite Hp in Hd; by apply NoDup_app in Hd as [? _]).
  assert (Hin : forall n, n ∈ sel -> n ∈ nodes) by (intros n Hn'; eapply elem_of_submseteq; [done|by apply sublist_submseteq]).
  apply NoDup_Permutation; [|done|].
  - apply NoDup_app. split_and!; [by apply NoDup_filter| |done]. intros n [H _]%elem_of_list_filter Hi. apply H. apply elem_of_list_fmap. by exists n.
  - intros n. rewrite elem_of_app, elem_of_list_filter. split.
    + intros [[_ H]|H]; [done|]. by apply Hin.
    + intros H. destruct (decide (tn_name n ∈ map tn_name sel)) as [(n' & He & Hi)%elem_of_list_fmap|]; [|by left]. right.
      replace n with n'; [done|]. symmetry. apply (same_name nodes); [done|done|by apply Hin|done].
Qed.

Lemma apply_dec_spec (nodes : list tnode) d : NoDup (map tn_name nodes) -> target_ok (dec_target d) ->
  match apply_dec nodes d with
  | Ok out => found (dec_target d) nodes /\ map tn_name out ≡ₚ map tn_name nodes /\
      forall n, n ∈ nodes -> exists m, m ∈ out /\ ((targeted (dec_target d) nodes n /\ decorate_node d n = Ok m) \/ (~ targeted (dec_target d) nodes n /\ m = n))
  | Err e => (~ found (dec_target d) nodes /\ e = TInvalid) \/ exists n, n ∈ nodes /\ targeted (dec_target d) nodes n /\ decorate_node d n = Err e
  end.
Proof.
  intros Hn Ht. unfold TaggingModel.apply_dec. destruct (select_found (dec_target d) nodes Hn Ht) as [F1 F2].
  destruct (found_dec (dec_target d) nodes) as [Hf|Hf]; [|rewrite (F2 Hf); by left].
  destruct (F1 Hf) as [sel Hs]. rewrite Hs. cbn. pose proof (select_spec _ _ _ Hs) as Sel. pose proof (select_sub _ _ _ Hs) as Sub.
  destruct (mapr (decorate_node d) sel) as [out|e] eqn:Em; cbn.
  - apply mapr_ok in Em. split; [done|]. split.
    + rewrite map_app. rewrite <- (keep_sel nodes sel Hn Sub) at 2. rewrite map_app. apply Permutation_app_head. clear -Em.
      induction Em as [|n m sel out H _ IH]; [done|]. cbn. apply decorate_same in H as [-> _]. by constructor.
    + intros n Hin. destruct (targeted_dec (dec_target d) nodes n) as [Hd|Hd].
      * assert (Hi : n ∈ sel) by by apply Sel. apply elem_of_list_lookup in Hi as [i Hi]. destruct (Forall2_lookup_l _ _ _ _ _ Em Hi) as (m & Hm & Hdm).
        exists m. split; [apply elem_of_app; right; by eapply elem_of_list_lookup_2|]. by left.
      * exists n. split; [|by right]. apply elem_of_app. left. apply elem_of_list_filter. split; [|done].
        intros (n' & He & [Hin' Hd']%Sel)%elem_of_list_fmap. apply Hd. by rewrite (same_name nodes n n' Hn Hin Hin' He).
  - apply mapr_err in Em as (n & [Hin Hd]%Sel & He). right. by exists n.
Qed.

(** ** All decorators *)
Lemma dec_ok_target d : dec_ok (J := J) d -> target_ok (dec_target d).
Proof. destruct d as [t b tags|mp|t bh f|[x|] fs|o]; cbn; tauto. Qed.

Lemma mark_free_said d n : mark_free d -> dget (said d n) NON_FINAL = None.
Proof.
  intros H. apply dget_None_key. destruct d as [t b tags|mp|t bh f|t fs|o]; cbn [said mark_free] in *.
  - done.
  - destruct (dget mp (tn_name n)) as [tags|] eqn:E; cbn; [by apply (H _ _ E)|by intros ?%elem_of_nil].
  - intros Hin%dget_Some_key. rewrite cache_tags_get in Hin. by destruct Hin.
  - by intros ?%elem_of_list_singleton.
  - by intros (o' & ? & _)%ray_tags_keys.
Qed.

(** The nodes after the decorators [pre]. *)
Definition after (nodes : list tnode) (pre : list dec) (cur : list tnode) : Prop :=
  map tn_name cur ≡ₚ map tn_name nodes /\
  forall n, n ∈ nodes -> exists m, m ∈ cur /\ same n m /\ tags_ok (tn_tags m) /\ dget (tn_tags m) NON_FINAL = dget (tn_tags n) NON_FINAL /\
    forall k v, dget (tn_tags m) k = Some v <-> last_word pre nodes n k v.

Lemma after_names nodes pre cur : nodes_ok nodes -> after nodes pre cur -> NoDup (map tn_name cur).
Proof. intros [Hn _] [Hp _]. by rewrite Hp. Qed.
Lemma after_back nodes pre cur m : nodes_ok nodes -> after nodes pre cur -> m ∈ cur -> exists n, n ∈ nodes /\ same n m /\ tags_ok (tn_tags m) /\ dget (tn_tags m) NON_FINAL = dget (tn_tags n) NON_FINAL.
Proof.
  intros Hok Ha Hm. pose proof (after_names _ _ _ Hok Ha) as Hn. destruct Ha as [Hp Ha].
  assert (Hx : tn_name m ∈ map tn_name nodes) by (rewrite <- Hp; apply elem_of_list_fmap; by exists m).
  apply elem_of_list_fmap in Hx as (n & Hx & Hin). exists n. split; [done|]. destruct (Ha n Hin) as (m' & Hm' & Hs & Ht & Hmk & _).
  replace m with m'; [done|]. apply (same_name cur); [done|done|done|]. rewrite Hx. apply Hs.
Qed.
Lemma after_targeted nodes pre cur n m t : nodes_ok nodes -> after nodes pre cur -> n ∈ nodes -> m ∈ cur -> same n m -> dget (tn_tags m) NON_FINAL = dget (tn_tags n) NON_FINAL ->
  targeted t cur m <-> targeted t nodes n.
Proof.
  intros Hok Ha Hn Hm (Hx & _ & _ & _) Hmk. destruct t as [| |x|xs]; cbn; rewrite ?Hx; [|done|done|done].
  rewrite <- !mark_spec. unfold mark. rewrite Hmk. apply and_iff_compat_l. split.
  - intros H n' Hn'. destruct (proj2 Ha n' Hn') as (m' & Hm' & (_ & _ & <- & _) & _). by apply H.
  - intros H m' Hm'. destruct (after_back _ _ _ _ Hok Ha Hm') as (n' & Hn' & (_ & _ & -> & _) & _). by apply H.
Qed.
Lemma after_found nodes pre cur t : after nodes pre cur -> found t cur <-> found t nodes.
Proof. intros [Hp _]. destruct t as [| |x|xs]; cbn; [done|done|by rewrite Hp|by setoid_rewrite Hp]. Qed.

Lemma said_same d (n m : tnode) : same n m -> said d m = said d n.
Proof. intros (Hx & _). destruct d; cbn; by rewrite ?Hx. Qed.

Lemma last_word_none nodes (n : tnode) k v : last_word [] nodes n k v <-> dget (tn_tags n) k = Some v.
Proof.
  split.
  - intros [(pre & d & post & He & _)|[_ H]]; [by destruct pre|done].
  - intros H. right. split; [by intros d' v' ?%elem_of_nil|done].
Qed.
Lemma last_word_snoc pre d nodes (n : tnode) k v : last_word (pre ++ [d]) nodes n k v <-> gives nodes d n k v \/ ((forall v', ~ gives nodes d n k v') /\ last_word pre nodes n k v).
Proof.
  unfold TaggingSpec.last_word. split.
  - intros [(p & d0 & q & He & Hg & Hq)|[Hno Hg]].
    + destruct q as [|d1 q _] using rev_ind.
      * apply app_inj_tail in He as [-> ->]. by left.
      * rewrite app_comm_cons, app_assoc in He. apply app_inj_tail in He as [-> ->]. right. split; [intros v'; apply Hq; apply elem_of_app; right; by left|].
        left. exists p, d0, q. split_and!; [done|done|]. intros d' v' Hd'. apply Hq. apply elem_of_app. by left.
    + right. split; [intros v'; apply Hno; apply elem_of_app; right; by left|]. right. split; [|done]. intros d' v' Hd'. apply Hno. apply elem_of_app. by left.
  - intros [Hg|[Hno [(p & d0 & q & -> & Hg & Hq)|[Hq Hg]]]].
    + left. exists pre, d, []. split_and!; [done|done|]. by intros d' v' ?%elem_of_nil.
    + left. exists p, d0, (q ++ [d]). split_and!; [by rewrite <- app_assoc|done|]. intros d' v' [Hd'| ->%elem_of_list_singleton]%elem_of_app; [by apply Hq|apply Hno].
    + right. split; [|done]. intros d' v' [Hd'| ->%elem_of_list_singleton]%elem_of_app; [by apply Hq|apply Hno].
Qed.

Lemma after_fits nodes pre cur (d : dec) : nodes_ok nodes -> after nodes pre cur ->
  fits dataset nodes d <-> found (dec_target d) cur /\ forall m, m ∈ cur -> targeted (dec_target d) cur m -> forall t fs, d = DSchema t fs -> dataset (tn_type m) = true.
Proof.
  intros Hok Ha. rewrite (after_found _ _ _ (dec_target d) Ha).
  assert (Hsch : forall t, (forall m, m ∈ cur -> targeted t cur m -> dataset (tn_type m) = true) <-> (forall n, n ∈ nodes -> targeted t nodes n -> dataset (tn_type n) = true)).
  { intros t. split.
    - intros H n Hn Ht. destruct (proj2 Ha n Hn) as (m & Hm & Hs & _ & Hmk & _). destruct (Hs) as (_ & <- & _). apply H; [done|]. by apply (after_targeted nodes pre cur n m).
    - intros H m Hm Ht. destruct (after_back _ _ _ _ Hok Ha Hm) as (n & Hn & Hs & _ & Hmk). destruct (Hs) as (_ & -> & _). apply H; [done|]. by apply (after_targeted nodes pre cur n m). }
  destruct d as [t b tags|mp|t bh f|[x|] fs|o]; cbn [fits dec_target].
  - split; [intros H; split; [done|intros; done]|by intros [? _]].
  - split; [intros H; split; [done|intros; done]|done].
  - split; [intros H; split; [done|intros; done]|by intros [? _]].
  - apply and_iff_compat_l. rewrite <- (Hsch (TName x)). split; [intros H m Hm Ht t fs' _; by apply H|]. intros H m Hm Ht. by eapply H.
  - change (found TNone nodes) with True. rewrite <- (Hsch TNone). split; [intros H; split; [done|]; intros m Hm Ht t fs' _; by apply H|]. intros [_ H] m Hm Ht. by eapply H.
  - split; [intros H; split; [done|intros; done]|done].
Qed.

Lemma step nodes pre cur (d : dec) : nodes_ok nodes -> dec_ok d -> mark_free d -> after nodes pre cur ->
  match apply_dec cur d with
  | Ok out => fits dataset nodes d /\ after nodes (pre ++ [d]) out
  | Err e => e = TInvalid /\ ~ fits dataset nodes d
  end.
Proof.
  intros Hok Hd Hmf Ha. pose proof (apply_dec_spec cur d (after_names _ _ _ Hok Ha) (dec_ok_target d Hd)) as Hspec.
  pose proof (after_fits nodes pre cur d Hok Ha) as Hfits.
  destruct (apply_dec cur d) as [out|e].
  - destruct Hspec as (Hf & Hp & Hout). split.
    + apply Hfits. split; [done|]. intros m Hm Ht t fs ->. destruct (Hout m Hm) as (m' & Hm' & [[_ He]|[Hnt _]]); [|done]. cbn in He. by destruct (dataset (tn_type m)).
    + split; [by rewrite Hp; apply Ha|]. intros n Hn. destruct (proj2 Ha n Hn) as (m & Hm & Hs & Htk & Hmk & Hlast).
      destruct (Hout m Hm) as (m' & Hm' & [[Ht He]|[Hnt ->]]).
      * exists m'. split; [done|]. apply decorate_same in He as Hs'. destruct (decorate_get d m Hd Htk) as [G _]. destruct (G m' He) as [Hok' Hget].
        split; [destruct Hs as (? & ? & ? & ?), Hs' as (? & ? & ? & ?); unfold same; split_and!; congruence|]. split; [done|].
        split; [by rewrite Hget, mark_free_said, Hmk|]. intros k v. rewrite Hget, (said_same d n m Hs), last_word_snoc.
        assert (Ht' : targeted (dec_target d) nodes n) by by apply (after_targeted nodes pre cur n m). setoid_rewrite gives_said.
        destruct (dget (said d n) k) as [w|] eqn:Ek.
        -- split; [intros [= ->]; by left|]. intros [[_ ?]|[Hno _]]; [done|]. by destruct (Hno w).
        -- rewrite Hlast. split; [intros H; right; split; [by intros v' [_ ?]|done]|]. by intros [[_ ?]|[_ ?]].
      * exists m. split; [done|]. split; [done|]. split; [done|]. split; [done|]. intros k v. rewrite last_word_snoc. setoid_rewrite gives_said.
        assert (Ht' : ~ targeted (dec_target d) nodes n) by (intros H; apply Hnt; by apply (after_targeted nodes pre cur n m)).
        rewrite Hlast. split; [intros H; right; split; [by intros v' [? _]|done]|]. by intros [[? _]|[_ ?]].
  - destruct Hspec as [[Hf ->]|(m & Hm & Ht & He)].
    + split; [done|]. rewrite Hfits. by intros [? _].
    + destruct (after_back _ _ _ _ Hok Ha Hm) as (n & Hn & Hs & Htk & Hmk). destruct (decorate_get d m Hd Htk) as (_ & G & _). destruct (G e He) as (-> & t & fs & -> & Hds).
      split; [done|]. rewrite Hfits. intros [_ H]. specialize (H m Hm Ht t fs eq_refl). by rewrite Hds in H.
Qed.

Lemma after_start nodes : nodes_ok nodes -> after nodes [] nodes.
Proof.
  intros [Hn Hok]. split; [done|]. intros n Hin. exists n. split_and!; [done|by repeat split|by apply Hok|done|]. intros k v. by rewrite last_word_none.
Qed.

Lemma apply_decs_spec nodes (decs : list dec) pre cur : nodes_ok nodes -> Forall dec_ok decs -> Forall mark_free decs -> after nodes pre cur ->
  match apply_decs dumps dataset decs cur with
  | Ok out => Forall (fits dataset nodes) decs /\ after nodes (pre ++ decs) out
  | Err e => e = TInvalid /\ Exists (fun d => ~ fits dataset nodes d) decs
  end.
Proof.
  intros Hok. revert pre cur. induction decs as [|d decs IH]; intros pre cur Hd Hm Ha.
  - cbn. rewrite app_nil_r. by split.
  - apply Forall_cons in Hd as [Hd Hds]. apply Forall_cons in Hm as [Hm Hms]. unfold apply_decs. cbn [foldr_].
    pose proof (step nodes pre cur d Hok Hd Hm Ha) as Hs. destruct (apply_dec cur d) as [out|e]; cbn [DecorModel.bindr].
    + destruct Hs as [Hf Ha']. specialize (IH _ out Hds Hms Ha'). unfold apply_decs in IH. revert IH. destruct (foldr_ _ decs out); intros IH.
      * destruct IH as [H1 H2]. split; [by constructor|]. by rewrite <- app_assoc in H2.
      * destruct IH as [-> H]. split; [done|]. by right.
    + destruct Hs as [-> H]. split; [done|]. by left.
Qed.

(** ** Validation *)
Lemma split_dotless c s : Forall (lacks c) (split c s).
Proof.
  induction s as [|x s IH]; cbn; [by constructor|]. destruct (decide (x = c)) as [->|Hne]; [by constructor|].
  destruct (split c s) as [|h t]; [by repeat constructor|]. apply Forall_cons in IH as [H1 H2]. by repeat constructor.
Qed.
Lemma join_split c s : join c (split c s) = s.
Proof.
  induction s as [|x s IH]; cbn [split]; [done|]. destruct (decide (x = c)) as [->|Hne].
  - destruct (split c s) as [|h t] eqn:E; [by destruct (split_nonempty c s)|].
    change (join c ("" :: h :: t)) with ("" +:+ String c (join c (h :: t))). rewrite IH. done.
  - destruct (split c s) as [|h t] eqn:E; [by destruct (split_nonempty c s)|].
    destruct t as [|h' t]; [by rewrite <- IH|]. change (join c (String x h :: h' :: t)) with (String x h +:+ String c (join c (h' :: t))). rewrite append_cons.
    change (join c (h :: h' :: t)) with (h +:+ String c (join c (h' :: t))) in IH. by rewrite IH.
Qed.

Lemma key_allowed_spec b k : key_allowed ident b k = true <-> good_key ident b k.
Proof.
  unfold key_allowed, good_key. split.
  - destruct (split "."%char k) as [|c cs] eqn:E; [done|]. destruct (negb b && bool_decide (c ∈ RESERVED)) eqn:Eb; [done|]. intros H.
    exists c, cs. split_and!.
    + by rewrite <- E, join_split.
    + rewrite Forall_forall. intros x Hx. split; [apply elem_of_list_In in Hx; rewrite forallb_forall in H; by apply H|].
      pose proof (split_dotless "."%char k) as Hl. rewrite E, Forall_forall in Hl. by apply Hl.
    + intros ->. cbn in Eb. by apply bool_decide_eq_false in Eb.
  - intros (c & cs & -> & Hf & Hr). rewrite split_join; [|done|eapply Forall_impl; [exact Hf|by intros ? [_ ?]]].
    assert (Eb : negb b && bool_decide (c ∈ RESERVED) = false).
    { destruct b; [done|]. cbn. apply bool_decide_eq_false. by apply Hr. }
    rewrite Eb. apply forallb_forall. intros x Hx%elem_of_list_In. rewrite Forall_forall in Hf. by apply Hf.
Qed.

Lemma remove_dups_length {A} `{EqDecision A} (l : list A) : length (remove_dups l) = length l <-> NoDup l.
Proof.
  assert (Hle : forall l : list A, length (remove_dups l) <= length l).
  { clear l. induction l as [|a l IH]; cbn; [lia|]. destruct (decide_rel _ a l); cbn; lia. }
  induction l as [|a l IH]; cbn; [split; [intros _; apply NoDup_nil_2|done]|]. rewrite NoDup_cons. destruct (decide_rel _ a l) as [H|H].
  - split; [specialize (Hle l); lia|tauto].
  - cbn. rewrite <- IH. split; [intros [= ->]; done|by intros [_ ->]].
Qed.

Lemma value_allowed_spec v : value_allowed v = true <-> good_value v.
Proof.
  destruct v as [s|l|h b]; cbn [value_allowed good_value]; [done| |done]. split.
  - destruct (bool_decide (l = [])) eqn:E1; [done|]. destruct (negb _) eqn:E2; [done|]. destruct (negb (bool_decide _)) eqn:E3; [done|]. intros _.
    apply bool_decide_eq_false in E1. apply negb_false_iff in E2, E3. apply bool_decide_eq_true in E3. apply remove_dups_length in E3.
    assert (Hs : exists ss, l = map Some ss).
    { clear -E2. induction l as [|[s|] l IH]; [by exists []| |done]. cbn in E2. destruct (IH E2) as [ss ->]. by exists (s :: ss). }
    destruct Hs as [[|s ss] ->]; [done|]. exists s, ss. split; [done|]. by apply NoDup_fmap_1 in E3.
  - intros (s & ss & -> & Hn). rewrite bool_decide_eq_false_2 by done. assert (E2 : forallb (fun x : option string => bool_decide (is_Some x)) (map Some (s :: ss)) = true).
    { apply forallb_forall. intros x (s' & <- & _)%in_map_iff. by apply bool_decide_eq_true. }
    rewrite E2. assert (E3 : length (remove_dups (map Some (s :: ss))) = length (map Some (s :: ss))).
    { apply remove_dups_length. by apply NoDup_fmap_2; [intros ?? [= ->]|]. }
    rewrite bool_decide_eq_true_2 by done. done.
Qed.

Definition bad b (kv : string * tv) : Prop := ~ (good_key ident b kv.1 /\ good_value kv.2).
Lemma bad_spec b k v : (negb (key_allowed ident b k) || negb (value_allowed v)) = true <-> bad b (k, v).
Proof.
  unfold bad. cbn. rewrite <- key_allowed_spec, <- value_allowed_spec. destruct (key_allowed ident b k), (value_allowed v); cbn; split; try done; try (by intros _ [? ?]). intros H. exfalso. by apply H.
Qed.
Lemma validate_spec b was tags :
  (validate ident b was tags = Err TUnhashable <-> exists kv, kv ∈ tags /\ bad b kv /\ hashable kv.2 = false) /\
  (validate ident b was tags = Ok () <-> was = false /\ forall kv, kv ∈ tags -> ~ bad b kv) /\
  (forall e, validate ident b was tags = Err e -> e = TUnhashable \/ e = TInvalid).
Proof.
  revert was. induction tags as [|[k v] tags IH]; intros was; cbn [validate].
  - split_and!.
    + split; [by destruct was|]. by intros (kv & ?%elem_of_nil & _).
    + destruct was; split; try done. by intros [? _]. intros _. split; [done|]. by intros kv ?%elem_of_nil.
    + destruct was; [|done]. intros e [= <-]. by right.
  - setoid_rewrite elem_of_cons. destruct (negb (key_allowed ident b k) || negb (value_allowed v)) eqn:E.
    + apply bad_spec in E. destruct (hashable v) eqn:Eh.
      * destruct (IH true) as (I1 & I2 & I3). split_and!; [| |done].
        -- rewrite I1. split; [intros (kv & ? & ?); exists kv; split; [by right|done]|]. intros (kv & [-> |Hin] & Hb & Hh); [cbn in Hh; by rewrite Eh in Hh|]. by exists kv.
        -- rewrite I2. split; [by intros [? _]|]. intros [_ H]. by destruct (H (k, v)); [left|].
      * split_and!.
        -- split; [|done]. intros _. exists (k, v). split; [by left|done].
        -- split; [done|]. intros [_ H]. by destruct (H (k, v)); [left|].
        -- intros e [= <-]. by left.
    + assert (Hg : ~ bad b (k, v)) by (rewrite <- bad_spec, E; done). destruct (IH was) as (I1 & I2 & I3). split_and!; [| |done].
      * rewrite I1. split; [intros (kv & ? & ?); exists kv; split; [by right|done]|]. intros (kv & [-> |Hin] & Hb & Hh); [done|]. by exists kv.
      * rewrite I2. apply and_iff_compat_l. split; [intros H kv [-> |Hin]; [done|by apply H]|]. intros H kv Hin. apply H. by right.
Qed.
Lemma not_bad b (tags : dict tv) : (forall kv, kv ∈ tags -> ~ bad b kv) <-> good ident b tags.
Proof.
  unfold good, bad. split.
  - intros H k v Hin. specialize (H (k, v) Hin). cbn in H. rewrite <- key_allowed_spec, <- value_allowed_spec in *.
    destruct (key_allowed ident b k), (value_allowed v); try done; exfalso; apply H; by intros [? ?].
  - intros H [k v] Hin Hb. apply Hb. by apply H.
Qed.

(** ** The options of ray *)
Lemma prefix_split s k : String.prefix s k = true <-> exists o, k = s +:+ o.
Proof.
  revert k. induction s as [|a s IH]; intros k.
  - split; [intros _; by exists k|by intros _; destruct k].
  - destruct k as [|b k]; cbn; [split; [done|by intros [o ?]]|]. destruct (Ascii.ascii_dec a b) as [->|Hne].
    + rewrite IH. split; intros [o Ho]; exists o; [by rewrite Ho, append_cons|]. rewrite append_cons in Ho. by injection Ho.
    + split; [done|]. intros [o Ho]. rewrite append_cons in Ho. by injection Ho as ->.
Qed.
Lemma ray_name o : snd (partition "."%char ("ray_remote." +:+ o)) = o.
Proof. change ("ray_remote." +:+ o) with ("ray_remote" +:+ String "."%char o). rewrite partition_app; [done|]. cbn. by repeat split. Qed.

Lemma parse_ray_spec tags : (forall o v, ("ray_remote." +:+ o, v) ∈ tags -> exists s j, v = VStr s /\ loads s = Some j) ->
  exists d, parse_ray loads tags = Ok d /\ forall o, dget d o = match dget tags ("ray_remote." +:+ o) with Some (VStr s) => loads s | _ => None end.
Proof.
  induction tags as [|[k v] tags IH]; intros H; [by exists []|]. destruct IH as (d & Hd & Hget); [intros o w Hin; apply (H o); by right|].
  cbn [parse_ray]. destruct (is_ray k) eqn:Er.
  - apply prefix_split in Er as [o ->]. destruct (H o v) as (s & j & -> & Hj); [by left|]. rewrite Hj, Hd. cbn [bindr]. eexists. split; [done|]. intros o'. rewrite ray_name. cbn [dget].
    destruct (decide (o' = o)) as [->|Hne]; [by rewrite decide_True|]. rewrite decide_False by (intros He%app_inj_l; done). apply Hget.
  - exists d. split; [done|]. intros o. cbn [dget]. rewrite decide_False; [apply Hget|]. intros <-. apply not_true_iff_false in Er. apply Er. apply prefix_split. by exists o.
Qed.
End Proofs.
