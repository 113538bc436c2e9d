From Verif Require Import Base Dict NodeModel NodeSpec.

(** ** Dictionaries *)
Section Dicts.
Context {A : Type}.
Implicit Types d a b : dict A.

Lemma NoDup_dupd a b : NoDup (dkeys a) -> NoDup (dkeys (dupd a b)).
Proof.
  unfold dupd. revert a. induction b as [|[k v] b IH]; cbn; intros a N; [done|]. by apply IH, NoDup_dkeys_dset.
Qed.
Lemma dget_dupd a b k : NoDup (dkeys b) -> dget (dupd a b) k = match dget b k with Some v => Some v | None => dget a k end.
Proof.
  unfold dupd. revert a. induction b as [|[k' v] b IH]; cbn; intros a N; [done|].
  apply NoDup_cons in N as [N1 N2]. rewrite IH by done. rewrite dget_dset.
  destruct (decide (k = k')) as [-> | H]; [|done].
  rewrite (proj2 (dget_None_key b k')); done.
Qed.

Lemma dget_snoc a k v j : dget (a ++ [(k, v)]) j = match dget a j with Some x => Some x | None => if decide (j = k) then Some v else None end.
Proof. induction a as [|[k0 v0] a IH]; cbn; [done|]. by destruct (decide (j = k0)). Qed.
Lemma dmapk_app g a b : dmapk g (a ++ b) = foldl (fun d kv => dset d (g kv.1) kv.2) (dmapk g a) b.
Proof. unfold dmapk. by rewrite foldl_app. Qed.
Lemma NoDup_dmapk g a : NoDup (dkeys (dmapk g a)).
Proof.
  unfold dmapk. assert (N : NoDup (dkeys ([] : dict A))) by apply NoDup_nil_2. revert N.
  generalize ([] : dict A). induction a as [|[k v] a IH]; cbn; intros d N; [done|]. by apply IH, NoDup_dkeys_dset.
Qed.
Lemma dget_dmapk g a k : NoDup (dkeys a) -> (forall k1 k2, k1 ∈ dkeys a -> k2 ∈ dkeys a -> g k1 = g k2 -> k1 = k2) ->
  k ∈ dkeys a -> dget (dmapk g a) (g k) = dget a k.
Proof.
  intros N G. induction a as [|[k' v] a IH] using rev_ind; [intros []%elem_of_nil|].
  intros Hk. rewrite dmapk_app. cbn. unfold dkeys in *. rewrite fmap_app in N, G, Hk. cbn in N, G, Hk.
  apply NoDup_app in N as (N1 & N2 & _).
  rewrite dget_dset, dget_snoc. destruct (decide (k = k')) as [-> | Hn].
  - rewrite decide_True by done. rewrite (proj2 (dget_None_key a k')); [done|]. intros H. by apply (N2 k'); [|left].
  - apply elem_of_app in Hk as [Hk|Hk%elem_of_list_singleton]; [|done].
    rewrite decide_False.
    + rewrite IH; [|done| |done].
      * apply dget_Some_key in Hk as [x ->]. done.
      * intros k1 k2 H1 H2. apply G; apply elem_of_app; by left.
    + intros Hg. apply Hn. apply G; [apply elem_of_app; by left|apply elem_of_app; right; by left|done].
Qed.
Lemma dkeys_dmapk g a k : k ∈ dkeys (dmapk g a) <-> exists k', k' ∈ dkeys a /\ g k' = k.
Proof.
  induction a as [|[k' v] a IH] using rev_ind.
  - cbn. split; [by intros []%elem_of_nil|by intros (? & []%elem_of_nil & _)].
  - rewrite dmapk_app. cbn [foldl fst snd]. rewrite dkeys_dset_elem, IH. unfold dkeys. rewrite fmap_app. setoid_rewrite elem_of_app. cbn.
    split.
    + intros [-> | (k1 & H1 & H2)]; [exists k'; split; [right; by left|done]|exists k1; split; [by left|done]].
    + intros (k1 & [H1|H1%elem_of_list_singleton] & H2); [right; by exists k1|left; by subst].
Qed.
End Dicts.

(** ** Keyword arguments *)
Section Kwargs.
Context {V A : Type}.
Implicit Types (ins : dict A) (m : gmap name V).

Lemma dkeys_kwargs ins m k : k ∈ dkeys (kwargs ins m) <-> k ∈ dkeys ins /\ is_Some (m !! k).
Proof.
  unfold kwargs. induction ins as [|[k' t] ins IH]; cbn.
  - split; [by intros []%elem_of_nil|by intros [[]%elem_of_nil _]].
  - destruct (m !! k') as [v|] eqn:E; cbn; rewrite ?elem_of_cons, ?IH; [naive_solver|].
    split; [naive_solver|]. intros [[-> | H] Hs]; [rewrite E in Hs; by destruct Hs|done].
Qed.
Lemma NoDup_kwargs ins m : NoDup (dkeys ins) -> NoDup (dkeys (kwargs ins m)).
Proof.
  induction ins as [|[k t] ins IH]; cbn; intros N; [apply NoDup_nil_2|].
  apply NoDup_cons in N as [N1 N2]. destruct (m !! k) as [v|] eqn:E; cbn; [|by apply IH].
  apply NoDup_cons. split; [|by apply IH]. intros [H _]%dkeys_kwargs. done.
Qed.
Lemma dget_kwargs ins m k : dget (kwargs ins m) k = if decide (k ∈ dkeys ins) then m !! k else None.
Proof.
  unfold kwargs. induction ins as [|[k' t] ins IH]; cbn [omap list_omap].
  - rewrite decide_False; [done|]. by intros []%elem_of_nil.
  - cbn [fst]. destruct (m !! k') as [v|] eqn:E; cbn.
    + destruct (decide (k = k')) as [-> | Hn].
      * rewrite decide_True; [done|by left].
      * rewrite IH. destruct (decide (k ∈ dkeys ins)) as [H|H].
        -- rewrite decide_True; [done|by right].
        -- rewrite decide_False; [done|]. intros [? | ?]%elem_of_cons; done.
    + rewrite IH. destruct (decide (k ∈ dkeys ins)) as [H|H].
      * rewrite decide_True; [done|by right].
      * destruct (decide (k = k')) as [-> | Hn].
        -- rewrite decide_True; [done|by left].
        -- rewrite decide_False; [done|]. intros [? | ?]%elem_of_cons; done.
Qed.
End Kwargs.

(** ** Values *)
Section Value.
Context {V E T : Type}.
Implicit Types (ns : dict (pnode V E T)) (env : gmap name V).

Lemma value_node_iff ns env x n v : dget ns x = Some n ->
  value ns env x v <-> exists m, args ns env (pn_inputs n) m /\ pn_call n (kwargs (pn_inputs n) m) = Ok v.
Proof.
  intros D. split.
  - intros H. inversion H as [? ? H1|? n' m ? H1 H2 H3 H4 H5]; subst; [congruence|].
    assert (n' = n) as -> by congruence. exists m. split; [|done]. split; [|done]. intros k w Hk. split; eauto.
  - intros (m & [H1 H2] & H3). eapply value_node; eauto; intros; by eapply H1.
Qed.
Lemma value_input_iff ns env x v : dget ns x = None -> value ns env x v <-> env !! x = Some v.
Proof.
  intros D. split.
  - intros H. inversion H; congruence.
  - intros H. by apply value_input.
Qed.

Lemma value_fun ns env x v v' : (forall y n, dget ns y = Some n -> NoDup (dkeys (pn_inputs n))) ->
  value ns env x v -> value ns env x v' -> v = v'.
Proof.
  intros W H. revert v'. induction H as [x v D Hx|x n m v D Hd Hv IH Ho Hc]; intros v' H'.
  - apply value_input_iff in H'; [congruence|done].
  - apply (value_node_iff ns env x n) in H' as (m' & [M1 M2] & C'); [|done].
    assert (m = m') as <-.
    { apply map_eq. intros k. destruct (m !! k) as [w|] eqn:Em; destruct (m' !! k) as [w'|] eqn:Em'; [| | |done].
      - f_equal. apply (IH k w Em). by apply M1.
      - exfalso. pose proof (Hd k w Em) as Hk. apply elem_of_list_fmap in Hk as ([k' [t dt]] & -> & Hk). cbn in *.
        destruct (M2 k' t dt Hk Em') as (_ & Hn & He). apply Hv in Em. apply value_input_iff in Em; [congruence|done].
      - exfalso. destruct (M1 k w' Em') as [Hk Hw]. apply elem_of_list_fmap in Hk as ([k' [t dt]] & -> & Hk). cbn in *.
        destruct (Ho k' t dt Hk Em) as (_ & Hn & He). apply value_input_iff in Hw; [congruence|done]. }
    congruence.
Qed.
End Value.

(** ** Renaming *)
Lemma reverse_names_elem names k : NoDup (dkeys names) ->
  match dget (reverse_names names) k with
  | Some o => dget names o = Some k
  | None => forall o, dget names o <> Some k
  end.
Proof.
  unfold reverse_names. induction names as [|[o v] names IH] using rev_ind; cbn; intros N; [done|].
  unfold dkeys in N. rewrite fmap_app in N. cbn in N. apply NoDup_app in N as (N1 & N2 & _).
  specialize (IH N1). rewrite foldl_app. cbn.
  assert (O : dget names o = None).
  { apply dget_None_key. intros H. by apply (N2 o); [|left]. }
  rewrite dget_dset. destruct (decide (k = v)) as [-> | Hn].
  - rewrite dget_snoc, O. by rewrite decide_True.
  - destruct (dget (foldl (fun (d : dict name) kv => dset d kv.2 kv.1) [] names) k) as [o'|] eqn:E.
    + by rewrite dget_snoc, IH.
    + intros o'. rewrite dget_snoc. destruct (dget names o') as [x|] eqn:E'; [specialize (IH o'); congruence|].
      destruct (decide (o' = o)); [congruence|done].
Qed.

Section Reassign.
Context {V E T : Type}.
Implicit Types (n : pnode V E T) (values : dict V) (names : dict name).

Lemma reassigned_inputs_eq names values ins d :
  foldl (fun d (kt : name * (T * deptype)) => if dget values kt.1 then d else dset d (rename names kt.1) kt.2) d ins =
  foldl (fun d kv => dset d (rename names kv.1) kv.2) d (filter (fun kt => dget values kt.1 = None) ins).
Proof.
  revert d. induction ins as [|[k t] ins IH]; intros d; [done|]. cbn [foldl fst snd].
  destruct (dget values k) as [v|] eqn:Ex.
  - rewrite filter_cons_False by (cbn; congruence). apply IH.
  - rewrite filter_cons_True by done. cbn. apply IH.
Qed.
Lemma reassigned_inputs_map names values ins :
  reassigned_inputs names values ins = dmapk (rename names) (filter (fun kt : name * (T * deptype) => dget values kt.1 = None) ins).
Proof. apply reassigned_inputs_eq. Qed.

Lemma dkeys_reassigned names values (ins : dict (T * deptype)) k :
  k ∈ dkeys (reassigned_inputs names values ins) <-> exists p, p ∈ dkeys ins /\ dget values p = None /\ rename names p = k.
Proof.
  rewrite reassigned_inputs_map, dkeys_dmapk. split.
  - intros (p & ([p' t] & -> & [Hf Hp]%elem_of_list_filter)%elem_of_list_fmap & Hr). exists p'.
    split_and!; [apply elem_of_list_fmap; by exists (p', t)|done|done].
  - intros (p & ([p' t] & -> & Hp)%elem_of_list_fmap & Hf & Hr). exists p'. split; [|done].
    apply elem_of_list_fmap. exists (p', t). split; [done|]. by apply elem_of_list_filter.
Qed.

Lemma reverse_rename names values (ins : dict (T * deptype)) k : clash_free names values ins -> k ∈ dkeys ins ++ dkeys values ++ dkeys names ->
  rename (reverse_names names) (rename names k) = k.
Proof.
  intros (N1 & N2 & N3 & L & I) Hk. unfold rename at 1.
  pose proof (reverse_names_elem names (rename names k) N1) as R.
  destruct (dget (reverse_names names) (rename names k)) as [o|] eqn:Ex; cbn.
  - apply I; [| |unfold rename; by rewrite R].
    + rewrite !elem_of_app. right. right. apply dget_Some_key. eauto.
    + done.
  - unfold rename. destruct (dget names k) as [x|] eqn:Ex'; [|done]. cbn.
    exfalso. apply (R k). unfold rename. by rewrite Ex'.
Qed.

Lemma reassign_call n names values m :
  clash_free names values (pn_inputs n) ->
  let n' := reassign_inputs n names values in
  exists kw, pn_call n' (kwargs (pn_inputs n') m) = pn_call n kw /\ NoDup (dkeys kw) /\
    forall k, dget kw k = match dget values k with
                          | Some v => Some v
                          | None => if decide (k ∈ dkeys (pn_inputs n)) then m !! rename names k else None
                          end.
Proof.
  intros C n'. pose proof C as (N1 & N2 & N3 & L & I).
  exists (dmapk (rename (reverse_names names)) (dupd (kwargs (pn_inputs n') m) values)).
  split; [done|]. split; [apply NoDup_dmapk|]. intros k.
  set (kw := dupd (kwargs (pn_inputs n') m) values).
  assert (Nk : NoDup (dkeys (kwargs (pn_inputs n') m))).
  { apply NoDup_kwargs. unfold n'. cbn. rewrite reassigned_inputs_map. apply NoDup_dmapk. }
  assert (Nkw : NoDup (dkeys kw)) by (by apply NoDup_dupd).
  assert (G : forall j, dget kw j = match dget values j with Some v => Some v | None => if decide (j ∈ dkeys (pn_inputs n')) then m !! j else None end).
  { intros j. unfold kw. rewrite dget_dupd by done. destruct (dget values j); [done|]. by rewrite dget_kwargs. }
  (* every key of kw is the new name of a parameter *)
  assert (K : forall j, j ∈ dkeys kw -> exists p, p ∈ dkeys (pn_inputs n) ++ dkeys values ++ dkeys names /\ rename names p = j /\
     (dget values p = None -> p ∈ dkeys (pn_inputs n))).
  { intros j Hj. apply dget_Some_key in Hj as [v Hv]. rewrite G in Hv. destruct (dget values j) as [w|] eqn:Ex.
    - exists j. split_and!; [rewrite !elem_of_app; right; left; apply dget_Some_key; eauto| |congruence].
      unfold rename. rewrite L; [done|]. apply dget_Some_key. eauto.
    - destruct (decide (j ∈ dkeys (pn_inputs n'))) as [Hj|]; [|done].
      apply dkeys_reassigned in Hj as (p & Hp & _ & <-). exists p. split_and!; [rewrite !elem_of_app; by left|done|done]. }
  assert (Kinj : forall k1 k2, k1 ∈ dkeys kw -> k2 ∈ dkeys kw ->
     rename (reverse_names names) k1 = rename (reverse_names names) k2 -> k1 = k2).
  { intros k1 k2 (p1 & Hp1 & <- & _)%K (p2 & Hp2 & <- & _)%K. rewrite !(reverse_rename names values (pn_inputs n)) by done. by intros ->. }
  destruct (decide (k ∈ dkeys (pn_inputs n) ++ dkeys values)) as [Hk|Hk].
  - assert (Hk' : k ∈ dkeys (pn_inputs n) ++ dkeys values ++ dkeys names).
    { rewrite !elem_of_app in *. tauto. }
    destruct (decide (rename names k ∈ dkeys kw)) as [Hin|Hout].
    + rewrite <- (reverse_rename names values (pn_inputs n) k) at 1 by done.
      rewrite dget_dmapk by done. rewrite G.
      destruct (dget values k) as [v|] eqn:Ev.
      * assert (rename names k = k) as ->; [|by rewrite Ev].
        unfold rename. rewrite L; [done|]. apply dget_Some_key. eauto.
      * apply elem_of_app in Hk as [Hk|Hk%dget_Some_key]; [|rewrite Ev in Hk; by destruct Hk].
        rewrite (decide_True _ _ Hk).
        assert (dget values (rename names k) = None) as ->.
        { apply dget_None_key. intros Hv. assert (k = rename names k) as Heq.
          { apply I; [done|rewrite !elem_of_app; tauto|]. change (rename names k = default (rename names k) (dget names (rename names k))); by rewrite (L _ Hv). }
          rewrite <- Heq in Hv. apply dget_Some_key in Hv as [? ?]. congruence. }
        rewrite decide_True; [done|]. apply dkeys_reassigned. eauto.
    + (* not passed: the parameter is absent *)
      assert (dget (dmapk (rename (reverse_names names)) kw) k = None) as ->.
      { apply dget_None_key. intros (j & Hj & Hr)%dkeys_dmapk. apply Hout.
        destruct (K j Hj) as (p & Hp & <- & _). rewrite (reverse_rename names values (pn_inputs n)) in Hr by done. by subst. }
      destruct (dget values k) as [v|] eqn:Ev.
      * exfalso. apply Hout. apply dget_Some_key. rewrite G.
        assert (rename names k = k) as ->; [|rewrite Ev; eauto].
        unfold rename. rewrite L; [done|]. apply dget_Some_key. eauto.
      * destruct (decide (k ∈ dkeys (pn_inputs n))) as [Hi|]; [|done].
        destruct (m !! rename names k) as [w|] eqn:Em; [|done]. exfalso. apply Hout. apply dget_Some_key. rewrite G.
        destruct (dget values (rename names k)); [eauto|]. rewrite decide_True; [eauto|]. apply dkeys_reassigned. eauto.
  - rewrite elem_of_app in Hk.
    assert (dget values k = None) as -> by (apply dget_None_key; tauto).
    rewrite decide_False by tauto.
    apply dget_None_key. intros (j & Hj & Hr)%dkeys_dmapk. destruct (K j Hj) as (p & Hp & <- & Hp').
    rewrite (reverse_rename names values (pn_inputs n)) in Hr by done. subst p.
    apply Hk. destruct (dget values k) eqn:Ev; [right; apply dget_Some_key; eauto|left; by apply Hp'].
Qed.

(** Requiredness follows the parameter. *)
Lemma reassigned_input_get n names values p : clash_free names values (pn_inputs n) ->
  p ∈ dkeys (pn_inputs n) -> dget values p = None ->
  dget (pn_inputs (reassign_inputs n names values)) (rename names p) = dget (pn_inputs n) p.
Proof.
  intros (N1 & N2 & N3 & L & I) Hp Hv. cbn. rewrite reassigned_inputs_map.
  assert (F : forall (l : dict (T * deptype)) q, NoDup (dkeys l) -> dget values q = None ->
    dget (filter (fun kt : name * (T * deptype) => dget values kt.1 = None) l) q = dget l q).
  { clear. intros l q N Hq. induction l as [|[k t] l IH]; [done|]. cbn in N. apply NoDup_cons in N as [_ N].
    destruct (dget values k) as [v|] eqn:Ex.
    - rewrite (filter_cons_False (fun kt : name * (T * deptype) => dget values kt.1 = None)) by (cbn; congruence). cbn. rewrite decide_False by congruence. by apply IH.
    - rewrite (filter_cons_True (fun kt : name * (T * deptype) => dget values kt.1 = None)) by done. cbn. destruct (decide (q = k)); [done|by apply IH]. }
  rewrite dget_dmapk.
  - by apply F.
  - clear -N3. induction (pn_inputs n) as [|[k t] l IH]; [apply NoDup_nil_2|]. cbn in N3. apply NoDup_cons in N3 as [H1 H2].
    destruct (dget values k) as [v|] eqn:Ex.
    + rewrite (filter_cons_False (fun kt : name * (T * deptype) => dget values kt.1 = None)) by (cbn; congruence). by apply IH.
    + rewrite (filter_cons_True (fun kt : name * (T * deptype) => dget values kt.1 = None)) by done. cbn. apply NoDup_cons. split; [|by apply IH].
      intros ([k' t'] & -> & [_ Hk]%elem_of_list_filter)%elem_of_list_fmap. apply H1. apply elem_of_list_fmap. by exists (k', t').
  - intros k1 k2 ([k1' t1] & -> & [_ H1]%elem_of_list_filter)%elem_of_list_fmap ([k2' t2] & -> & [_ H2]%elem_of_list_filter)%elem_of_list_fmap.
    cbn. apply I; rewrite elem_of_app; left; apply elem_of_list_fmap; eexists (_, _); by split.
  - apply elem_of_list_fmap in Hp as ([p' t] & -> & Hp). apply elem_of_list_fmap. exists (p', t). split; [done|]. by apply elem_of_list_filter.
Qed.
End Reassign.
