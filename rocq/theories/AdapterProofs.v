From Verif Require Import Base Dict NodeModel NodeSpec NodeProofs PipeModel PipeSpec PipeProofs ExtractProofs SubdagProofs AdapterModel AdapterSpec.

Section Proofs.
Context {V E T : Type}.
Implicit Types (ns : dict (pnode V E T)) (env : gmap name V) (c : acls V E T) (kws : dict (dep V)).

(** ** The class *)
Lemma filter_rev_first {A} (P : A -> Prop) `{forall x, Decision (P x)} (l : list A) x rest : filter P (rev l) = x :: rest ->
  exists pre post, l = pre ++ x :: post /\ P x /\ forall y, y ∈ post -> ~ P y.
Proof.
  induction l as [|y l IH] using rev_ind; [done|]. rewrite rev_unit. cbn [filter list_filter].
  change (list_filter P _ (rev l)) with (filter P (rev l)).
  destruct (decide (P y)) as [Hy|Hy].
  - intros [= -> _]. exists l, []. split; [done|]. split; [done|]. intros z []%elem_of_nil.
  - intros Hf. destruct (IH Hf) as (pre & post & -> & H1 & H2). exists pre, (post ++ [y]).
    rewrite <- app_assoc. split; [done|]. split; [done|]. intros z [Hz|Hz%elem_of_list_singleton]%elem_of_app; [by apply H2|by subst].
Qed.
Lemma filter_rev_nil {A} (P : A -> Prop) `{forall x, Decision (P x)} (l : list A) : filter P (rev l) = [] -> forall y, y ∈ l -> ~ P y.
Proof.
  intros Hf y Hy HP. assert (Hin : y ∈ filter P (rev l)).
  { apply elem_of_list_filter. split; [done|]. by apply elem_of_list_In, in_rev, elem_of_list_In in Hy || (apply elem_of_list_In; rewrite <- in_rev; by apply elem_of_list_In). }
  rewrite Hf in Hin. by apply elem_of_nil in Hin.
Qed.
Lemma resolve_class_chosen t (classes : list (acls V E T)) c : resolve_class t classes = Some c -> chosen t classes c.
Proof.
  unfold resolve_class. destruct (filter _ (rev classes)) as [|c0 rest] eqn:Ha.
  - destruct (filter (fun c => ac_any c = true) (rev classes)) as [|c1 rest] eqn:Hb; [done|]. intros [= ->]. right. split.
    + intros c' Hc'. apply not_true_is_false. by apply (filter_rev_nil _ _ Ha).
    + apply filter_rev_first in Hb as (pre & post & H1 & H2 & H3). exists pre, post. split_and!; [done|done|].
      intros c' Hc'. by apply not_true_is_false, H3.
  - intros [= ->]. left. apply filter_rev_first in Ha as (pre & post & H1 & H2 & H3). exists pre, post. split_and!; [done|done|].
    intros c' Hc'. by apply not_true_is_false, H3.
Qed.
Lemma resolve_class_none t (classes : list (acls V E T)) : resolve_class t classes = None <->
  forall c, c ∈ classes -> ac_applies c t = false /\ ac_any c = false.
Proof.
  unfold resolve_class. split.
  - destruct (filter _ (rev classes)) as [|c0 rest] eqn:Ha; [|done].
    destruct (filter (fun c => ac_any c = true) (rev classes)) as [|c1 rest] eqn:Hb; [|done]. intros _ c Hc.
    split; apply not_true_is_false; [by apply (filter_rev_nil _ _ Ha)|by apply (filter_rev_nil _ _ Hb)].
  - intros H. destruct (filter _ (rev classes)) as [|c0 rest] eqn:Ha.
    + destruct (filter (fun c => ac_any c = true) (rev classes)) as [|c1 rest] eqn:Hb; [done|].
      apply filter_rev_first in Hb as (pre & post & -> & H2 & _). destruct (H c1) as [_ ?]; [apply elem_of_app; right; by left|congruence].
    + apply filter_rev_first in Ha as (pre & post & -> & H2 & _). destruct (H c0) as [? _]; [apply elem_of_app; right; by left|congruence].
Qed.

Lemma existsb_false {A} (f : A -> bool) l : existsb f l = false <-> forall x, x ∈ l -> f x = false.
Proof.
  split.
  - intros H x Hx. apply not_true_is_false. intros Hf. apply not_true_iff_false in H. apply H. apply existsb_exists. exists x. by rewrite <- elem_of_list_In.
  - intros H. apply not_true_is_false. intros (x & Hx & Hf)%existsb_exists. rewrite <- elem_of_list_In in Hx. rewrite (H x Hx) in Hf. done.
Qed.
Lemma validate_accepted c kws : validate c kws = Ok tt <-> accepted c kws.
Proof.
  unfold validate, accepted. destruct (existsb _ (dkeys (ac_required c))) eqn:E1.
  - split; [done|]. intros [H _]. apply existsb_exists in E1 as (k & Hk & Hb). rewrite <- elem_of_list_In in Hk.
    apply bool_decide_eq_true in Hb. apply dget_None_key in Hb. destruct Hb. by apply H.
  - destruct (existsb _ (dkeys kws)) eqn:E2.
    + split; [done|]. intros [_ H]. apply existsb_exists in E2 as (k & Hk & Hb). rewrite <- elem_of_list_In in Hk.
      apply andb_true_iff in Hb as [H1 H2]. apply bool_decide_eq_true in H1, H2. apply dget_None_key in H1, H2. by destruct (H k Hk).
    + split; [|done]. intros _. rewrite existsb_false in E1, E2. split.
      * intros k Hk. apply E1 in Hk. apply bool_decide_eq_false in Hk. destruct (dget kws k) eqn:Hd; [|done]. apply dget_Some_key. by eexists.
      * intros k Hk. apply E2 in Hk. apply andb_false_iff in Hk as [Hk|Hk]; apply bool_decide_eq_false in Hk; [left|right].
        -- destruct (dget (ac_required c) k) eqn:Hd; [|done]. apply dget_Some_key. by eexists.
        -- destruct (dget (ac_optional c) k) eqn:Hd; [|done]. apply dget_Some_key. by eexists.
Qed.

(** ** The parameters of the node *)
Lemma optional_fold (deps : dict name) (opt : dict T) : forall acc,
  foldl (fun (d : dict (T * deptype)) kt => match dget deps kt.1 with Some s => dset d s (kt.2, OPTIONAL) | None => d end) acc opt =
  foldl (fun d (x : name * (T * deptype)) => dset d x.1 x.2) acc (omap (fun kt => (fun s => (s, (kt.2, OPTIONAL))) <$> dget deps kt.1) opt).
Proof.
  induction opt as [|[k t] opt IH]; intros acc; [done|]. cbn. destruct (dget deps k) as [s|]; cbn; apply IH.
Qed.
Lemma map_eta {A B} (l : list (A * B)) : map (fun x => (x.1, x.2)) l = l.
Proof. induction l as [|[a b] l IH]; cbn; [done|]. by rewrite IH. Qed.

Section Inputs.
Variables (c : acls V E T) (kws : dict (dep V)).
Hypothesis W : well_formed c kws.
Hypothesis A : accepted c kws.
Hypothesis S : separate kws.

Lemma kind k : k ∈ dkeys kws -> (exists s, dget kws k = Some (DSource s)) \/ (exists u, dget kws k = Some (DValue u)).
Proof. intros [[s|u] Hk]%dget_Some_key; eauto. Qed.
Lemma rename_source k s : dget kws k = Some (DSource s) -> rename (upstream_of kws) k = s.
Proof. intros H. unfold rename. rewrite dget_upstream by apply W. by rewrite H. Qed.
Lemma rename_literal k u : dget kws k = Some (DValue u) -> rename (upstream_of kws) k = k.
Proof. intros H. unfold rename. rewrite dget_upstream by apply W. by rewrite H. Qed.
Lemma rename_kw_inj k k' : k ∈ dkeys kws -> k' ∈ dkeys kws -> rename (upstream_of kws) k = rename (upstream_of kws) k' -> k = k'.
Proof.
  destruct S as [S1 S2]. intros [(s & H1)|(u & H1)]%kind [(s' & H2)|(u' & H2)]%kind.
  - rewrite (rename_source _ _ H1), (rename_source _ _ H2). intros ->. by eapply S1.
  - rewrite (rename_source _ _ H1), (rename_literal _ _ H2). intros ->. by destruct (S2 _ _ u' H1).
  - rewrite (rename_literal _ _ H1), (rename_source _ _ H2). intros ->. by destruct (S2 _ _ u H2).
  - by rewrite (rename_literal _ _ H1), (rename_literal _ _ H2).
Qed.

Definition raw_inputs : dict (T * deptype) :=
  map (fun kt : name * T => (rename (upstream_of kws) kt.1, (kt.2, REQUIRED))) (ac_required c) ++
  omap (fun kt : name * T => (fun s => (s, (kt.2, OPTIONAL))) <$> dget (upstream_of kws) kt.1) (ac_optional c).

(** Which variable each entry stands for. *)
Lemma NoDup_raw : NoDup (dkeys raw_inputs).
Proof.
  destruct W as [W1 W2]. apply NoDup_app in W2 as (N1 & N2 & N3). unfold raw_inputs, dkeys. rewrite fmap_app.
  apply NoDup_app. split_and!.
  - rewrite <- list_fmap_compose. cbn.
    assert (Heq : (fst ∘ (fun kt : name * T => (rename (upstream_of kws) kt.1, (kt.2, REQUIRED)))) <$> ac_required c = map (rename (upstream_of kws)) (dkeys (ac_required c))).
    { unfold dkeys. rewrite <- list_fmap_compose. done. }
    rewrite Heq. apply NoDup_map_inj; [done|]. intros x y Hx Hy. apply rename_kw_inj; by apply A.
  - intros x (kt & -> & Hx)%elem_of_list_fmap ([s p] & Hs & Ho)%elem_of_list_fmap. cbn in *. subst s.
    apply elem_of_list_fmap in Hx as ([k t] & -> & Hk). cbn in *.
    apply elem_of_list_omap in Ho as ([k' t'] & Hk' & He). cbn in He.
    destruct (dget (upstream_of kws) k') as [s|] eqn:Es; [|done]. cbn in He. injection He as -> _.
    pose proof Es as Es'. rewrite dget_upstream in Es' by done. destruct (dget kws k') as [[s'|]|] eqn:Ek; [|done|done]. injection Es' as ->.
    apply PipeProofs.elem_dkeys in Hk, Hk'. apply (N2 k'); [|done].
    replace k' with k; [done|]. apply rename_kw_inj; [by apply A|apply dget_Some_key; by eexists|].
    by rewrite (rename_source _ _ Ek).
  - assert (Hsub : forall opt : list (name * T), NoDup (opt.*1) -> NoDup (fst <$> omap (fun kt : name * T => (fun s : name => (s, (kt.2, OPTIONAL))) <$> dget (upstream_of kws) kt.1) opt)).
    { induction opt as [|[k t] opt IH]; cbn; [intros; apply NoDup_nil_2|]. intros [Nk No]%NoDup_cons.
      destruct (dget (upstream_of kws) k) as [s|] eqn:Es; cbn; [|by apply IH]. apply NoDup_cons. split; [|by apply IH].
      intros ([s' p] & Hs & Ho)%elem_of_list_fmap. cbn in Hs. subst s'.
      apply elem_of_list_omap in Ho as ([k' t'] & Hk' & He). cbn in He.
      destruct (dget (upstream_of kws) k') as [s2|] eqn:Es2; [|done]. cbn in He. injection He as -> _.
      rewrite dget_upstream in Es, Es2 by done.
      destruct (dget kws k) as [[x|]|] eqn:E1; [|done|done]. destruct (dget kws k') as [[y|]|] eqn:E2; [|done|done].
      injection Es as ->. injection Es2 as ->. destruct S as [S1 _]. apply Nk. rewrite (S1 _ _ _ E1 E2). by eapply PipeProofs.elem_dkeys. }
    by apply Hsub.
Qed.

Lemma adapter_inputs_eq : adapter_inputs c kws = filter (fun kt : name * (T * deptype) => dget (literal_of kws) kt.1 = None) raw_inputs.
Proof.
  pose proof NoDup_raw as N. unfold raw_inputs, dkeys in N. rewrite fmap_app in N.
  unfold adapter_inputs. cbn zeta. f_equal.
  rewrite (foldl_dset_map (fun kt : name * T => rename (upstream_of kws) kt.1) (fun kt => (kt.2, REQUIRED))).
  - rewrite optional_fold. cbn [Datatypes.app].
    rewrite (foldl_dset_map (fun x : name * (T * deptype) => x.1) (fun x => x.2)); [|exact N].
    unfold raw_inputs. by rewrite map_eta.
  - cbn. apply NoDup_app in N as (N & _ & _). rewrite <- list_fmap_compose in N. exact N.
Qed.
Lemma NoDup_adapter_inputs : NoDup (dkeys (adapter_inputs c kws)).
Proof.
  rewrite adapter_inputs_eq. pose proof NoDup_raw as N. revert N. generalize raw_inputs.
  intros l. induction l as [|[k t] l IH]; cbn; [intros; apply NoDup_nil_2|]. intros [N1 N2]%NoDup_cons.
  destruct (decide _); cbn; [|by apply IH]. apply NoDup_cons. split; [|by apply IH].
  intros ([k' t'] & Heq & Hin)%elem_of_list_fmap. apply elem_of_list_filter in Hin as [_ Hin]. apply N1. cbn in Heq. subst. by eapply PipeProofs.elem_dkeys.
Qed.

Definition kind_of (k : name) : deptype := if dget (ac_required c) k then REQUIRED else OPTIONAL.
(** The parameters are the sources. *)
Lemma adapter_inputs_elem x t dt : (x, (t, dt)) ∈ adapter_inputs c kws -> exists k, dget kws k = Some (DSource x) /\ dt = kind_of k.
Proof.
  destruct W as [W1 W2]. apply NoDup_app in W2 as (N1 & N2 & N3).
  rewrite adapter_inputs_eq. intros [Hl Hx]%elem_of_list_filter. cbn in Hl. unfold raw_inputs in Hx. apply elem_of_app in Hx as [Hx|Hx].
  - apply elem_of_list_fmap in Hx as ([k t'] & He & Hk). cbn in He. injection He as -> -> ->.
    pose proof Hk as Hk'. apply PipeProofs.elem_dkeys in Hk. pose proof (proj1 A k Hk) as Hk2.
    destruct (kind k Hk2) as [(s & Hs)|(u & Hu)].
    + exists k. rewrite (rename_source _ _ Hs). split; [done|]. unfold kind_of. apply dget_Some_key in Hk as [? ->]. done.
    + rewrite (rename_literal _ _ Hu) in Hl. rewrite dget_literal in Hl by done. by rewrite Hu in Hl.
  - apply elem_of_list_omap in Hx as ([k t'] & Hk & He). cbn in He.
    destruct (dget (upstream_of kws) k) as [s|] eqn:Es; [|done]. cbn in He. injection He as <- <- <-.
    rewrite dget_upstream in Es by done. destruct (dget kws k) as [[s'|]|] eqn:Ek; [|done|done]. injection Es as ->.
    exists k. split; [done|]. unfold kind_of. destruct (dget (ac_required c) k) eqn:Er; [|done].
    exfalso. apply (N2 k); [apply dget_Some_key; by eexists|by eapply PipeProofs.elem_dkeys].
Qed.
Lemma adapter_inputs_source k s : dget kws k = Some (DSource s) -> exists t, (s, (t, kind_of k)) ∈ adapter_inputs c kws.
Proof.
  destruct W as [W1 W2]. intros Hs. rewrite adapter_inputs_eq. destruct A as [A1 A2].
  assert (Hk : k ∈ dkeys kws) by (apply dget_Some_key; by eexists).
  assert (Hl : dget (literal_of kws) s = None).
  { rewrite dget_literal by done. destruct (dget kws s) as [[?|u]|] eqn:Eu; [done| |done]. by destruct (proj2 S _ _ u Hs). }
  unfold kind_of. destruct (dget (ac_required c) k) as [t|] eqn:Er.
  - exists t. apply elem_of_list_filter. split; [done|]. apply elem_of_app. left. apply elem_of_list_fmap. exists (k, t).
    cbn. rewrite (rename_source _ _ Hs). split; [done|]. by apply dget_elem.
  - destruct (A2 k Hk) as [Hr|Ho]; [apply dget_Some_key in Hr as [? ?]; congruence|].
    apply dget_Some_key in Ho as [t Ho]. exists t. apply elem_of_list_filter. split; [done|]. apply elem_of_app. right.
    apply elem_of_list_omap. exists (k, t). split; [by apply dget_elem|]. cbn. rewrite dget_upstream by done. by rewrite Hs.
Qed.

(** ** The keyword arguments *)
Definition is_source (s : name) : Prop := exists k, dget kws k = Some (DSource s).
Lemma unrename_source k s : dget kws k = Some (DSource s) -> rename (reverse_names (upstream_of kws)) s = k.
Proof.
  intros Hs. unfold rename. assert (N : NoDup (dkeys (upstream_of kws))).
  { unfold upstream_of. apply NoDup_omap_keys; [|apply W]. intros [q [s'|u]] r; cbn; [by intros [= <-]|done]. }
  pose proof (reverse_names_elem (upstream_of kws) s N) as R.
  destruct (dget (reverse_names (upstream_of kws)) s) as [o|] eqn:Eo; cbn.
  - rewrite dget_upstream in R by apply W. destruct (dget kws o) as [[s'|]|] eqn:Ek; [|done|done]. injection R as ->. by eapply (proj1 S).
  - exfalso. apply (R k). rewrite dget_upstream by apply W. by rewrite Hs.
Qed.
Lemma unrename_other s : ~ is_source s -> rename (reverse_names (upstream_of kws)) s = s.
Proof.
  intros Hs. unfold rename. assert (N : NoDup (dkeys (upstream_of kws))).
  { unfold upstream_of. apply NoDup_omap_keys; [|apply W]. intros [q [s'|u]] r; cbn; [by intros [= <-]|done]. }
  pose proof (reverse_names_elem (upstream_of kws) s N) as R.
  destruct (dget (reverse_names (upstream_of kws)) s) as [o|] eqn:Eo; cbn; [|done].
  rewrite dget_upstream in R by apply W. destruct (dget kws o) as [[s'|]|] eqn:Ek; [|done|done]. injection R as ->. destruct Hs. by exists o.
Qed.
Lemma is_source_dec s : is_source s \/ ~ is_source s.
Proof.
  destruct (decide (s ∈ (upstream_of kws).*2)) as [H|H].
  - left. apply elem_of_list_fmap in H as ([k s'] & -> & H). cbn. unfold upstream_of in H.
    apply elem_of_list_omap in H as ([k' [x|u]] & H & He); cbn in He; [|done]. injection He as -> ->. exists k. apply elem_dget; [apply W|done].
  - right. intros (k & Hk). apply H. apply elem_of_list_fmap. exists (k, s). split; [done|]. apply dget_elem. rewrite dget_upstream by apply W. by rewrite Hk.
Qed.

Lemma adapter_kwargs_get (kw : dict V) k : NoDup (dkeys kw) -> (forall x, x ∈ dkeys kw -> is_source x \/ (x ∉ dkeys kws)) ->
  dget (adapter_kwargs kws kw) k =
  match dget kws k with
  | Some (DValue u) => Some u
  | Some (DSource s) => dget kw s
  | None => if decide (k ∈ dkeys kw) then if decide (k ∈ (upstream_of kws).*2) then None else dget kw k else None
  end.
Proof.
  intros N Hx. unfold adapter_kwargs. set (ren := rename (reverse_names (upstream_of kws))).
  assert (Inj : forall k1 k2, k1 ∈ dkeys kw -> k2 ∈ dkeys kw -> ren k1 = ren k2 -> k1 = k2).
  { intros k1 k2 H1 H2. unfold ren. destruct (is_source_dec k1) as [(a1 & Ha1)|Hn1], (is_source_dec k2) as [(a2 & Ha2)|Hn2].
    - rewrite (unrename_source _ _ Ha1), (unrename_source _ _ Ha2). intros ->. congruence.
    - rewrite (unrename_source _ _ Ha1), (unrename_other _ Hn2). intros ->. destruct (Hx k2 H2) as [?|Hk2]; [done|].
      exfalso. apply Hk2, dget_Some_key. by eexists.
    - rewrite (unrename_source _ _ Ha2), (unrename_other _ Hn1). intros ->. destruct (Hx a2 H1) as [?|Hk2]; [done|].
      exfalso. apply Hk2, dget_Some_key. by eexists.
    - by rewrite (unrename_other _ Hn1), (unrename_other _ Hn2). }
  assert (Key : forall v, dget (dmapk ren kw) k = Some v -> exists x, x ∈ dkeys kw /\ ren x = k).
  { intros v Hv. apply dkeys_dmapk. apply dget_Some_key. by eexists. }
  rewrite dget_dupd by apply NoDup_dmapk. rewrite dget_literal by apply W.
  destruct (dget kws k) as [[s|u]|] eqn:Ek.
  - destruct (decide (s ∈ dkeys kw)) as [Hs|Hs].
    + rewrite <- (unrename_source _ _ Ek). fold ren. rewrite dget_dmapk by done. by destruct (dget kw s).
    + rewrite (proj2 (dget_None_key kw s) Hs). destruct (dget (dmapk ren kw) k) eqn:Ed; [|done].
      destruct (Key _ eq_refl) as (x & H1 & H2). exfalso. unfold ren in H2.
      destruct (is_source_dec x) as [(a & Ha)|Hn].
      * rewrite (unrename_source _ _ Ha) in H2. subst a. assert (x = s) by congruence. by subst.
      * rewrite (unrename_other _ Hn) in H2. subst x. destruct (Hx k H1) as [?|Hk]; [done|]. apply Hk, dget_Some_key. by eexists.
  - destruct (dget (dmapk ren kw) k) eqn:Ed; [|done].
    destruct (Key _ eq_refl) as (x & H1 & H2). exfalso. unfold ren in H2.
    destruct (is_source_dec x) as [(a & Ha)|Hn].
    + rewrite (unrename_source _ _ Ha) in H2. subst a. congruence.
    + rewrite (unrename_other _ Hn) in H2. subst x. destruct (Hx k H1) as [?|Hk]; [done|]. apply Hk, dget_Some_key. by eexists.
  - assert (Kn : k ∉ dkeys kws) by by apply dget_None_key.
    destruct (decide (k ∈ dkeys kw)) as [Hk|Hk].
    + destruct (decide (k ∈ (upstream_of kws).*2)) as [Hu|Hu].
      * destruct (dget (dmapk ren kw) k) eqn:Ed; [|done]. destruct (Key _ eq_refl) as (x & H1 & H2). exfalso. unfold ren in H2.
        destruct (is_source_dec x) as [(a & Ha)|Hn].
        -- rewrite (unrename_source _ _ Ha) in H2. subst a. congruence.
        -- rewrite (unrename_other _ Hn) in H2. subst x. apply Hn.
           apply elem_of_list_fmap in Hu as ([k' s'] & -> & H). cbn in *. apply elem_of_list_omap in H as ([k2 [x|u]] & H & He); cbn in He; [|done]. injection He as -> ->. exists k'. apply elem_dget; [apply W|done].
      * assert (Hn : ~ is_source k).
        { intros (a & Ha). apply Hu. apply elem_of_list_fmap. exists (a, k). split; [done|]. apply dget_elem. rewrite dget_upstream by apply W. by rewrite Ha. }
        assert (Hr : ren k = k) by by apply unrename_other. rewrite <- Hr at 1. rewrite dget_dmapk by done. by destruct (dget kw k).
    + destruct (dget (dmapk ren kw) k) eqn:Ed; [|done]. destruct (Key _ eq_refl) as (x & H1 & H2). exfalso. unfold ren in H2.
      destruct (is_source_dec x) as [(a & Ha)|Hn].
      * rewrite (unrename_source _ _ Ha) in H2. subst a. congruence.
      * rewrite (unrename_other _ Hn) in H2. by subst x.
Qed.
Lemma NoDup_adapter_kwargs (kw : dict V) : NoDup (dkeys (adapter_kwargs kws kw)).
Proof.
  unfold adapter_kwargs. apply NoDup_dupd. unfold literal_of. apply NoDup_omap_keys; [|apply W].
  intros [q [s'|u]] r; cbn; [done|by intros [= <-]].
Qed.

Lemma find_none_iff {B} (f : B -> bool) l : find f l = None <-> forall x, x ∈ l -> f x = false.
Proof.
  split.
  - intros H x Hx. apply (find_none f l H). by apply elem_of_list_In.
  - induction l as [|x l IH]; intros H; [done|]. cbn. rewrite (H x) by by left. apply IH. intros y Hy. apply H. by right.
Qed.
Lemma construct_ok (kw : dict V) : NoDup (dkeys kw) -> (forall k, k ∈ dkeys kw -> k ∈ dkeys kws) -> (forall k, k ∈ dkeys (ac_required c) -> k ∈ dkeys kw) ->
  construct c kw = Ok (list_to_map kw).
Proof.
  intros N H1 H2. unfold construct.
  destruct (find _ (dkeys kw)) as [k|] eqn:F1.
  { apply find_some in F1 as [Hk Hb]. rewrite <- elem_of_list_In in Hk. apply H1 in Hk. apply andb_true_iff in Hb as [B1 B2].
    apply bool_decide_eq_true in B1, B2. apply dget_None_key in B1, B2. by destruct (proj2 A k Hk). }
  destruct (find _ (dkeys (ac_required c))) as [k|] eqn:F2; [|done].
  apply find_some in F2 as [Hk Hb]. rewrite <- elem_of_list_In in Hk. apply H2 in Hk. apply bool_decide_eq_true, dget_None_key in Hb. done.
Qed.

(** ** Arguments *)
Section Graph.
Variables (ns : dict (pnode V E T)) (env : gmap name V).

(** From the values of the parameters to the arguments. *)
Lemma args_forward (ins : dict (T * deptype)) (m : gmap name V) (kw : dict V) :
  NoDup (dkeys kw) -> (forall x, x ∈ dkeys kw -> is_source x \/ (x ∉ dkeys kws)) ->
  (forall k s, dget kws k = Some (DSource s) -> given ns env s (kind_of k) (dget kw s)) ->
  (forall k, k ∈ dkeys kw -> k ∈ dkeys kws \/ is_source k) ->
  adapter_args ns env c kws (list_to_map (adapter_kwargs kws kw)) /\ construct c (adapter_kwargs kws kw) = Ok (list_to_map (adapter_kwargs kws kw)).
Proof.
  intros N Hx Hg Hk.
  assert (G : forall k, dget kws k = None -> dget (adapter_kwargs kws kw) k = None).
  { intros k Ek. rewrite adapter_kwargs_get by done. rewrite Ek. destruct (decide (k ∈ dkeys kw)) as [Hin|]; [|done].
    rewrite decide_True; [done|]. destruct (Hk k Hin) as [Hc|(a & Ha)]; [apply dget_Some_key in Hc as [? ?]; congruence|].
    apply elem_of_list_fmap. exists (a, k). split; [done|]. apply dget_elem. rewrite dget_upstream by apply W. by rewrite Ha. }
  split.
  - intros k. rewrite list_to_map_dget by apply NoDup_adapter_kwargs.
    destruct (dget kws k) as [[s|u]|] eqn:Ek; [| |by apply G]; rewrite adapter_kwargs_get by done; rewrite Ek; [|done]. by apply Hg.
  - apply construct_ok; [apply NoDup_adapter_kwargs| |].
    + intros k Hk'. destruct (dget kws k) eqn:Ek; [apply dget_Some_key; by eexists|]. apply dget_Some_key in Hk' as [v Hv]. rewrite (G k Ek) in Hv. done.
    + intros k Hr. apply dget_Some_key. rewrite adapter_kwargs_get by done.
      pose proof (proj1 A k Hr) as Hkk. destruct (kind k Hkk) as [(s & Es)|(u & Eu)]; rewrite ?Es, ?Eu; [|by eexists].
      pose proof (Hg k s Es) as Hgk. destruct (dget kw s) as [v|]; [by eexists|]. cbn in Hgk. destruct Hgk as [Hd _].
      unfold kind_of in Hd. apply dget_Some_key in Hr as [? Hr]. by rewrite Hr in Hd.
Qed.

(** The value of each source, from the arguments. *)
Definition source_value (a : gmap name V) (kd : name * dep V) : option (name * V) :=
  match kd.2 with
  | DSource s => match a !! kd.1 with Some u => Some (s, u) | None => None end
  | DValue _ => None
  end.
Definition source_values (a : gmap name V) : gmap name V := list_to_map (omap (source_value a) kws).
Lemma source_values_get a k s : dget kws k = Some (DSource s) -> source_values a !! s = a !! k.
Proof.
  intros Hs. unfold source_values.
  assert (Gen : forall l : dict (dep V), (forall q d, (q, d) ∈ l -> dget kws q = Some d) -> NoDup (dkeys l) ->
    (list_to_map (omap (source_value a) l) : gmap name V) !! s
    = if decide (k ∈ dkeys l) then a !! k else None).
  { induction l as [|[q d] l IH]; intros Hl Nl; [done|]. cbn in Nl. apply NoDup_cons in Nl as [Nq Nl].
    assert (IH' := IH ltac:(intros; apply Hl; by right) Nl). clear IH.
    pose proof (Hl q d ltac:(by left)) as Hq. cbn [omap list_omap fst snd].
    change (list_omap _ _ _ l) with (omap (source_value a) l).
    unfold source_value at 1. cbn [fst snd].
    destruct (decide (q = k)) as [-> | Hne].
    - assert (d = DSource s) as -> by congruence. rewrite (decide_True (P := k ∈ dkeys ((k, DSource s) :: l))) by by left.
      destruct (a !! k) as [u|] eqn:Ea.
      + change (list_to_map ((s, u) :: ?l)) with (<[s := u]> (list_to_map l : gmap name V)). by rewrite lookup_insert.
      + rewrite IH'. by destruct (decide _).
    - assert (Hd : (if decide (k ∈ dkeys ((q, d) :: l)) then a !! k else None) = if decide (k ∈ dkeys l) then a !! k else None).
      { destruct (decide (k ∈ dkeys l)) as [Hl'|Hl']; [by rewrite decide_True by by right|]. rewrite decide_False; [done|]. intros [Heq|?]%elem_of_cons; [cbn in Heq; congruence|done]. }
      rewrite Hd, <- IH'. destruct d as [s'|u]; [|done]. destruct (a !! q) as [u|]; [|done].
      change (list_to_map ((s', u) :: ?l)) with (<[s' := u]> (list_to_map l : gmap name V)).
      rewrite lookup_insert_ne; [done|]. intros ->. apply Hne. by eapply (proj1 S). }
  rewrite Gen; [|intros; apply elem_dget; [apply W|done]|apply W]. rewrite decide_True; [done|]. apply dget_Some_key. by eexists.
Qed.
Lemma source_values_none a x : ~ is_source x -> source_values a !! x = None.
Proof.
  intros Hn. unfold source_values. apply not_elem_of_list_to_map. intros ([s u] & Hs & Hin)%elem_of_list_fmap. cbn in Hs. subst s.
  apply elem_of_list_omap in Hin as ([q [s|v]] & Hq & He); cbn in He; [|done]. destruct (a !! q); [|done]. cbn in He. injection He as -> ->.
  apply Hn. exists q. apply elem_dget; [apply W|done].
Qed.
End Graph.
End Inputs.

Lemma dget_filter_ne {B} (l : list (name * B)) data k :
  dget (filter (fun kv : name * B => kv.1 <> data) l) k = if decide (k = data) then None else dget l k.
Proof.
  induction l as [|[k' u] l IH]; [cbn; by destruct (decide _)|].
  destruct (decide (k' = data)) as [-> | Hne].
  - rewrite filter_cons_False by (cbn; by intros H; apply H). rewrite IH. cbn. by destruct (decide (k = data)).
  - rewrite filter_cons_True by done. cbn. rewrite IH. destruct (decide (k = k')) as [-> | ]; [by rewrite decide_False|done].
Qed.

(** ** Loaders and savers *)
Section Nodes.
Variable vpair : V -> V -> V.
Variable vfst : V -> option V.
Variables (c : acls V E T) (kws : dict (dep V)).
Hypothesis W : well_formed c kws.
Hypothesis A : accepted c kws.
Hypothesis S : separate kws.
Variables (ns : dict (pnode V E T)) (env : gmap name V).

Lemma loader_value x ty v : dget ns x = Some (PNode x ty (adapter_inputs c kws) (load_call vpair c kws)) ->
  value ns env x v <-> exists a d meta, adapter_args ns env c kws a /\ ac_load c a = Ok (d, meta) /\ v = vpair d meta.
Proof.
  intros D. rewrite (value_node_iff ns env x _ v D). cbn [pn_inputs pn_call].
  assert (Src : forall (m : gmap name V) x', x' ∈ dkeys (kwargs (adapter_inputs c kws) m) -> is_source kws x').
  { intros m x' [Hx _]%dkeys_kwargs. apply elem_of_list_fmap in Hx as ([y [t dt]] & -> & Hx). destruct (adapter_inputs_elem c kws W A S _ _ _ Hx) as (k & Hk & _). by exists k. }
  assert (Fwd : forall m, args ns env (adapter_inputs c kws) m ->
    adapter_args ns env c kws (list_to_map (adapter_kwargs kws (kwargs (adapter_inputs c kws) m))) /\
    construct c (adapter_kwargs kws (kwargs (adapter_inputs c kws) m)) = Ok (list_to_map (adapter_kwargs kws (kwargs (adapter_inputs c kws) m)))).
  { intros m [M1 M2]. apply (args_forward c kws W A S ns env (adapter_inputs c kws) m).
    - by apply NoDup_kwargs, NoDup_adapter_inputs.
    - intros y Hy. left. by eapply Src.
    - intros k s Hs. destruct (adapter_inputs_source c kws W A S k s Hs) as (t & Ht).
      rewrite dget_kwargs, decide_True by by eapply PipeProofs.elem_dkeys.
      destruct (m !! s) as [u|] eqn:Em; cbn; [by apply M1|]. by apply (M2 s t).
    - intros k Hk. right. by eapply Src. }
  split.
  - intros (m & Hm & Hc). destruct (Fwd m Hm) as [F1 F2]. unfold load_call in Hc. rewrite F2 in Hc. cbn in Hc.
    eexists. destruct (ac_load c _) as [[d meta]|e] eqn:El; cbn in Hc; [|done]. injection Hc as <-. exists d, meta. split; [exact F1|]. by rewrite El.
  - intros (a & d & meta & Ha & Hl & ->). set (m := source_values kws a).
    assert (Hm : args ns env (adapter_inputs c kws) m).
    { split.
      - intros k w Hk. destruct (is_source_dec c kws W k) as [(q & Hq)|Hn]; [|unfold m in Hk; by rewrite (source_values_none c kws W a k Hn) in Hk].
        split; [destruct (adapter_inputs_source c kws W A S q k Hq) as (t & Ht); by eapply PipeProofs.elem_dkeys|].
        unfold m in Hk. rewrite (source_values_get c kws W S a q k Hq) in Hk. pose proof (Ha q) as Haq. rewrite Hq, Hk in Haq. done.
      - intros k t dt Hk Hn. destruct (adapter_inputs_elem c kws W A S _ _ _ Hk) as (q & Hq & ->).
        unfold m in Hn. rewrite (source_values_get c kws W S a q k Hq) in Hn. pose proof (Ha q) as Haq. rewrite Hq, Hn in Haq. done. }
    exists m. split; [done|]. destruct (Fwd m Hm) as [F1 F2]. unfold load_call. rewrite F2. cbn.
    replace (list_to_map (adapter_kwargs kws (kwargs (adapter_inputs c kws) m)) : gmap name V) with a; [by rewrite Hl|].
    apply map_eq. intros k. rewrite list_to_map_dget by apply (NoDup_adapter_kwargs c kws W).
    rewrite (adapter_kwargs_get c kws W S); [|by apply NoDup_kwargs, NoDup_adapter_inputs|intros y Hy; left; by eapply Src].
    pose proof (Ha k) as Hak. destruct (dget kws k) as [[s|u]|] eqn:Ek.
    + destruct (adapter_inputs_source c kws W A S k s Ek) as (t & Ht). rewrite dget_kwargs, decide_True by by eapply PipeProofs.elem_dkeys.
      unfold m. by rewrite (source_values_get c kws W S a k s Ek).
    + done.
    + rewrite Hak. destruct (decide (k ∈ dkeys (kwargs (adapter_inputs c kws) m))) as [Hin|]; [|done]. rewrite decide_True; [done|].
      destruct (Src m k Hin) as (q & Hq). apply elem_of_list_fmap. exists (q, k). split; [done|]. apply dget_elem. rewrite dget_upstream by apply W. by rewrite Hq.
Qed.

Lemma selected_value (Pf : forall a b, vfst (vpair a b) = Some a) p l ty tyl v :
  dget ns l = Some (PNode l tyl (adapter_inputs c kws) (load_call vpair c kws)) ->
  dget ns p = Some (PNode p ty [(l, (tyl, REQUIRED))] (filter_call vfst l)) ->
  value ns env p v <-> exists a meta, adapter_args ns env c kws a /\ ac_load c a = Ok (v, meta).
Proof.
  intros D1 D2. rewrite (single_value ns env p l _ _ _ v D2).
  assert (X : forall d, filter_call (E := E) vfst l [(l, d)] = match vfst d with Some u => Ok u | None => Err (NKey "0") end).
  { intros d. unfold filter_call. cbn. by rewrite decide_True. }
  split.
  - intros (d & Hd & Hc). apply (loader_value l _ _ D1) in Hd as (a & d' & meta & Ha & Hl & ->). rewrite X, Pf in Hc. injection Hc as ->. eauto.
  - intros (a & meta & Ha & Hl). exists (vpair v meta). split; [apply (loader_value l _ _ D1); by exists a, v, meta|]. by rewrite X, Pf.
Qed.

Lemma saver_value x data ty dty v : data ∉ dkeys kws -> ~ is_source kws data ->
  dget ns x = Some (PNode x dty (dset (adapter_inputs c kws) data (ty, REQUIRED)) (save_call c kws data)) ->
  value ns env x v <-> exists a d, adapter_args ns env c kws a /\ value ns env data d /\ ac_save c a d = Ok v.
Proof.
  intros Hdk Hds D. rewrite (value_node_iff ns env x _ v D). cbn [pn_inputs pn_call].
  set (ins := dset (adapter_inputs c kws) data (ty, REQUIRED)).
  assert (Hfresh : data ∉ dkeys (adapter_inputs c kws)).
  { intros ([y [t dt]] & -> & Hx)%elem_of_list_fmap. destruct (adapter_inputs_elem c kws W A S _ _ _ Hx) as (k & Hk & _). apply Hds. by exists k. }
  assert (Hins : ins = adapter_inputs c kws ++ [(data, (ty, REQUIRED))]) by by apply dset_new.
  assert (Ni : NoDup (dkeys ins)) by (apply NoDup_dkeys_dset; by apply NoDup_adapter_inputs).
  assert (Src : forall (m : gmap name V) x', x' ∈ dkeys (kwargs ins m) -> is_source kws x' \/ x' = data).
  { intros m x' [Hx _]%dkeys_kwargs. unfold ins in Hx. apply dkeys_dset_elem in Hx as [-> | Hx]; [by right|].
    apply elem_of_list_fmap in Hx as ([y [t dt]] & -> & Hx). destruct (adapter_inputs_elem c kws W A S _ _ _ Hx) as (k & Hk & _). left. by exists k. }
  assert (Src' : forall (m : gmap name V) x', x' ∈ dkeys (kwargs ins m) -> is_source kws x' \/ x' ∉ dkeys kws).
  { intros m x' Hx. destruct (Src m x' Hx) as [? | ->]; [by left|by right]. }
  assert (Get : forall (m : gmap name V) k, dget (adapter_kwargs kws (kwargs ins m)) k =
    match dget kws k with Some (DValue u) => Some u | Some (DSource s) => m !! s | None => if decide (k = data) then m !! data else None end).
  { intros m k. rewrite (adapter_kwargs_get c kws W S); [|by apply NoDup_kwargs|by apply Src'].
    destruct (dget kws k) as [[s|u]|] eqn:Ek.
    - destruct (adapter_inputs_source c kws W A S k s Ek) as (t & Ht). rewrite dget_kwargs, decide_True; [done|].
      unfold ins. apply dkeys_dset_elem. right. by eapply PipeProofs.elem_dkeys.
    - done.
    - destruct (decide (k = data)) as [-> | Hne].
      + assert (Hd : data ∈ dkeys ins) by (unfold ins; apply dkeys_dset_elem; by left).
        rewrite dget_kwargs, (decide_True (P := data ∈ dkeys ins)) by done.
        destruct (decide (data ∈ (upstream_of kws).*2)) as [Hu|Hu].
        * exfalso. apply Hds. apply elem_of_list_fmap in Hu as ([k' s'] & -> & H). cbn in *. apply elem_of_list_omap in H as ([k2 [x0|u]] & H & He); cbn in He; [|done]. injection He as -> ->. exists k'. apply elem_dget; [apply W|done].
        * destruct (decide _) as [|Hn]; [done|]. destruct (m !! data) eqn:Em; [|done]. exfalso. apply Hn. apply dkeys_kwargs. split; [done|by rewrite Em].
      + destruct (decide (k ∈ dkeys (kwargs ins m))) as [Hin|]; [|done]. rewrite decide_True; [done|].
        destruct (Src m k Hin) as [(q & Hq)| ->]; [|done]. apply elem_of_list_fmap. exists (q, k). split; [done|]. apply dget_elem. rewrite dget_upstream by apply W. by rewrite Hq. }
  set (rest := fun m : gmap name V => filter (fun kv : name * V => kv.1 <> data) (adapter_kwargs kws (kwargs ins m))).
  assert (Nr : forall m, NoDup (dkeys (rest m))).
  { intros m. unfold rest. pose proof (NoDup_adapter_kwargs c kws W (kwargs ins m)) as N. revert N. generalize (adapter_kwargs kws (kwargs ins m)).
    induction d as [|[k u] l IH]; cbn; [intros; apply NoDup_nil_2|]. intros [N1 N2]%NoDup_cons.
    destruct (decide _); cbn; [|by apply IH]. apply NoDup_cons. split; [|by apply IH].
    intros ([k' t'] & Heq & Hin)%elem_of_list_fmap. apply elem_of_list_filter in Hin as [_ Hin]. apply N1. cbn in Heq. subst. by eapply PipeProofs.elem_dkeys. }
  assert (GetR : forall m k, dget (rest m) k = if decide (k = data) then None else dget (adapter_kwargs kws (kwargs ins m)) k).
  { intros m k. apply dget_filter_ne. }
  assert (Fwd : forall m, args ns env ins m -> adapter_args ns env c kws (list_to_map (rest m)) /\ construct c (rest m) = Ok (list_to_map (rest m))).
  { intros m [M1 M2]. 
    assert (Gv : forall k s, dget kws k = Some (DSource s) -> given ns env s (kind_of c k) (m !! s)).
    { intros k s Hs. destruct (adapter_inputs_source c kws W A S k s Hs) as (t & Ht).
      destruct (m !! s) as [u|] eqn:Em; cbn; [by apply M1|]. apply (M2 s t); [|done]. rewrite Hins. apply elem_of_app. by left. }
    split.
    - intros k. rewrite list_to_map_dget by done. rewrite GetR, Get. destruct (dget kws k) as [[s|u]|] eqn:Ek.
      + rewrite decide_False; [by apply Gv|]. intros ->. apply Hdk, dget_Some_key. by eexists.
      + rewrite decide_False; [done|]. intros ->. apply Hdk, dget_Some_key. by eexists.
      + by destruct (decide (k = data)).
    - apply (construct_ok c kws A); [done| |].
      + intros k Hk. apply dget_Some_key in Hk as [u Hu]. rewrite GetR, Get in Hu. destruct (decide (k = data)); [done|].
        destruct (dget kws k) eqn:Ek; [apply dget_Some_key; by eexists|done].
      + intros k Hr. pose proof (proj1 A k Hr) as Hk. apply dget_Some_key. rewrite GetR, Get.
        rewrite decide_False by (intros ->; done).
        destruct (kind kws k Hk) as [(s & Es)|(u & Eu)]; rewrite ?Es, ?Eu; [|by eexists].
        pose proof (Gv k s Es) as Hg. destruct (m !! s); [by eexists|]. destruct Hg as [Hg _]. unfold kind_of in Hg.
        apply dget_Some_key in Hr as [? Hr]. by rewrite Hr in Hg. }
  assert (Dn : forall m, dget (adapter_kwargs kws (kwargs ins m)) data = m !! data).
  { intros m. rewrite Get. rewrite (proj2 (dget_None_key kws data) Hdk). by rewrite decide_True. }
  split.
  - intros (m & Hm & Hc). destruct (Fwd m Hm) as [F1 F2]. unfold save_call in Hc. rewrite Dn in Hc.
    destruct (m !! data) as [d|] eqn:Ed; [|done]. fold (rest m) in Hc. rewrite F2 in Hc. cbn in Hc.
    exists (list_to_map (rest m)), d. split_and!; [exact F1|by apply (proj1 Hm)|]. destruct (ac_save c _ d); cbn in Hc; congruence.
  - intros (a & d & Ha & Hd & Hs). set (m := <[data := d]> (source_values kws a)).
    assert (Hsv : forall k s, dget kws k = Some (DSource s) -> m !! s = a !! k).
    { intros k s Hk. unfold m. rewrite lookup_insert_ne; [by apply (source_values_get c kws W S)|]. intros ->. apply Hds. by exists k. }
    assert (Hm : args ns env ins m).
    { split.
      - intros k w Hk. destruct (decide (k = data)) as [-> | Hne].
        + unfold m in Hk. rewrite lookup_insert in Hk. injection Hk as ->. split; [unfold ins; apply dkeys_dset_elem; by left|done].
        + destruct (is_source_dec c kws W k) as [(q & Hq)|Hn].
          * split; [destruct (adapter_inputs_source c kws W A S q k Hq) as (t & Ht); unfold ins; apply dkeys_dset_elem; right; by eapply PipeProofs.elem_dkeys|].
            rewrite (Hsv q k Hq) in Hk. pose proof (Ha q) as Haq. rewrite Hq, Hk in Haq. done.
          * unfold m in Hk. rewrite lookup_insert_ne in Hk by done. by rewrite (source_values_none c kws W a k Hn) in Hk.
      - intros k t dt Hk Hn. rewrite Hins in Hk. apply elem_of_app in Hk as [Hk|Hk%elem_of_list_singleton].
        + destruct (adapter_inputs_elem c kws W A S _ _ _ Hk) as (q & Hq & ->).
          rewrite (Hsv q k Hq) in Hn. pose proof (Ha q) as Haq. rewrite Hq, Hn in Haq. done.
        + injection Hk as -> -> ->. unfold m in Hn. by rewrite lookup_insert in Hn. }
    exists m. split; [done|]. destruct (Fwd m Hm) as [F1 F2]. unfold save_call. rewrite Dn. unfold m at 1. rewrite lookup_insert.
    fold (rest m). rewrite F2. cbn.
    replace (list_to_map (rest m) : gmap name V) with a; [by rewrite Hs|].
    apply map_eq. intros k. rewrite list_to_map_dget by done. rewrite GetR, Get.
    pose proof (Ha k) as Hak. destruct (dget kws k) as [[s|u]|] eqn:Ek.
    + rewrite decide_False; [by rewrite (Hsv k s Ek)|]. intros ->. apply Hdk, dget_Some_key. by eexists.
    + rewrite decide_False; [done|]. intros ->. apply Hdk, dget_Some_key. by eexists.
    + rewrite Hak. by destruct (decide (k = data)).
Qed.
End Nodes.
End Proofs.
