From Verif Require Import Base Dict NodeModel NodeSpec NodeProofs PipeModel PipeSpec PipeProofs SubdagModel SubdagSpec SubdagProofs
  ExtractModel PruneProps ColumnsModel ColumnsSpec.

(** ** First occurrences *)
Lemma elem_firsts l c : c ∈ firsts l <-> c ∈ l.
Proof.
  induction l as [|x l IH]; cbn; [done|]. rewrite !elem_of_cons, elem_of_list_filter, IH. destruct (decide (c = x)); naive_solver.
Qed.
Lemma NoDup_firsts l : NoDup (firsts l).
Proof.
  induction l as [|x l IH]; cbn; [apply NoDup_nil_2|]. apply NoDup_cons. split; [|by apply NoDup_filter].
  rewrite elem_of_list_filter. naive_solver.
Qed.
Lemma filter_filter_name (P Q : name -> Prop) `{forall x, Decision (P x)} `{forall x, Decision (Q x)} (l : list name) :
  filter P (filter Q l) = filter (fun x => P x /\ Q x) l.
Proof.
  induction l as [|x l IH]; [done|]. rewrite !filter_cons. destruct (decide (Q x)).
  - rewrite filter_cons. destruct (decide (P x)); [rewrite decide_True by done; by f_equal|]. rewrite decide_False by naive_solver. done.
  - rewrite decide_False by naive_solver. done.
Qed.
Lemma filter_ext_name (P Q : name -> Prop) `{forall x, Decision (P x)} `{forall x, Decision (Q x)} (l : list name) :
  (forall x, P x <-> Q x) -> filter P l = filter Q l.
Proof. intros HPQ. induction l as [|x l IH]; [done|]. rewrite !filter_cons. destruct (decide (P x)), (decide (Q x)); try (by f_equal); by rewrite HPQ in *. Qed.

Lemma dict_ext {A} (d d' : dict A) : NoDup (dkeys d) -> dkeys d = dkeys d' -> (forall k, dget d k = dget d' k) -> d = d'.
Proof.
  revert d'. induction d as [|[k v] d IH]; intros [|[k' v'] d'] N K G; try done.
  cbn in K. injection K as <- K. pose proof (G k) as Gk. cbn in Gk. rewrite !decide_True in Gk by done. injection Gk as <-.
  cbn in N. apply NoDup_cons in N as [N1 N2]. f_equal. apply IH; [done|done|]. intros j. specialize (G j). cbn in G.
  destruct (decide (j = k)) as [-> | Hj]; [|done]. assert (dget d k = None) as -> by by apply dget_None_key.
  assert (N1' : k ∉ dkeys d') by (unfold dkeys; rewrite <- K; exact N1). by rewrite (proj2 (dget_None_key d' k)).
Qed.

Section Proofs.
Context {V E T : Type}.
Context `{EqDecision T}.
Implicit Types (kw acc : dict V).

(** ** The callable that appends *)
Lemma selected_ok sel kw : forall acc d, NoDup (dkeys acc) -> selected (E := E) sel acc kw = Ok d ->
  dkeys d = dkeys acc ++ filter (fun c => c ∉ dkeys acc) (firsts sel) /\ NoDup (dkeys d) /\
  (forall c, c ∈ sel -> is_Some (dget kw c)) /\
  forall c, dget d c = if decide (c ∈ sel) then dget kw c else dget acc c.
Proof.
  induction sel as [|x sel IH]; intros acc d N H; cbn in H.
  - injection H as <-. cbn. rewrite app_nil_r. split_and!; [done|done|by intros c []%elem_of_nil|]. intros c. done.
  - destruct (dget kw x) as [v|] eqn:Ex; [|done]. apply IH in H as (K & N' & S & G); [|by apply NoDup_dkeys_dset].
    split_and!.
    + rewrite K. cbn [firsts]. rewrite filter_cons. destruct (decide (x ∈ dkeys acc)) as [Hx|Hx].
      * rewrite dkeys_dset_in by done. rewrite decide_False by naive_solver. rewrite filter_filter_name. f_equal. apply filter_ext_name.
        intros y. split; [|naive_solver]. intros Hy. split; [done|]. by intros ->.
      * rewrite dkeys_dset_notin by done. rewrite decide_True by done. rewrite <- app_assoc. cbn. f_equal. f_equal.
        rewrite filter_filter_name. apply filter_ext_name. intros y. rewrite elem_of_app, elem_of_list_singleton. naive_solver.
    + done.
    + intros c [-> | Hc]%elem_of_cons; [by eexists|by apply S].
    + intros c. rewrite G, dget_dset. destruct (decide (c ∈ sel)) as [Hc|Hc]; [by rewrite decide_True by by right|].
      destruct (decide (c = x)) as [-> | Hn]; [by rewrite decide_True by by left|]. rewrite decide_False; [done|]. by intros [? | ?]%elem_of_cons.
Qed.
Lemma selected_total sel kw : forall acc, (forall c, c ∈ sel -> is_Some (dget kw c)) -> exists d, selected (E := E) sel acc kw = Ok d.
Proof.
  induction sel as [|x sel IH]; intros acc H; cbn; [by eexists|]. destruct (H x) as [v Hv]; [by left|]. rewrite Hv. apply IH.
  intros c Hc. apply H. by right.
Qed.

Lemma filter_nil_keys (l : list name) : filter (fun c => c ∉ dkeys ([] : dict V)) l = l.
Proof. induction l as [|x l IH]; [done|]. rewrite filter_cons, decide_True; [by f_equal|]. by intros []%elem_of_nil. Qed.

Variable vget : V -> key -> option V.
Variable vfill : V -> key -> V -> V.
Variable assign : V -> dict V -> res E V.
Variable column_type : T -> option T.
Variable df_type : T.
Variable captured : dict V -> res (nerr E) V.
Variable order : list name -> list name.

Notation append_node := (append_node assign df_type).
Lemma append_inputs p sel ct k : k ∈ dkeys (pn_inputs (append_node p sel ct)) <-> k = p \/ k ∈ sel.
Proof.
  cbn [pn_inputs ColumnsModel.append_node]. rewrite dkeys_dset_elem. apply or_iff_compat_l.
  assert (G : forall (d : dict (T * deptype)), k ∈ dkeys (foldl (fun d c => dset d c (ct, REQUIRED)) d sel) <-> k ∈ dkeys d \/ k ∈ sel).
  { induction sel as [|x sel IH]; intros d; cbn [foldl]; [rewrite elem_of_nil; tauto|]. rewrite IH, dkeys_dset_elem, elem_of_cons. tauto. }
  rewrite G. cbn. rewrite elem_of_nil. tauto.
Qed.
Lemma append_required p sel ct k t dt : (k, (t, dt)) ∈ pn_inputs (append_node p sel ct) -> dt = REQUIRED.
Proof.
  cbn [pn_inputs ColumnsModel.append_node]. assert (D : forall (d : dict (T * deptype)) k' t', (forall k t dt, (k, (t, dt)) ∈ d -> dt = REQUIRED) -> forall k t dt, (k, (t, dt)) ∈ dset d k' (t', REQUIRED) -> dt = REQUIRED).
  { clear k t dt. intros d k' t'. induction d as [|[j [tj dj]] d IH]; intros Hd k t dt H; cbn in H.
    - apply elem_of_list_singleton in H. by injection H.
    - case_decide.
      + apply elem_of_cons in H as [[= -> -> ->] | H]; [done|]. eapply Hd. right. exact H.
      + apply elem_of_cons in H as [H | H]; [eapply Hd; rewrite H; left|]. eapply IH; [|exact H]. intros ? ? ? ?. eapply Hd. by right. }
  apply D. clear k t dt. assert (G : forall (d : dict (T * deptype)), (forall k t dt, (k, (t, dt)) ∈ d -> dt = REQUIRED) ->
    forall k t dt, (k, (t, dt)) ∈ foldl (fun d c => dset d c (ct, REQUIRED)) d sel -> dt = REQUIRED).
  { induction sel as [|x sel IH]; intros d Hd; cbn [foldl]; [done|]. apply IH. by apply D. }
  apply G. by intros ? ? ? []%elem_of_nil.
Qed.
Lemma append_nodup p sel ct : NoDup (dkeys (pn_inputs (append_node p sel ct))).
Proof.
  cbn [pn_inputs ColumnsModel.append_node]. apply NoDup_dkeys_dset.
  assert (G : forall (d : dict (T * deptype)), NoDup (dkeys d) -> NoDup (dkeys (foldl (fun d c => dset d c (ct, REQUIRED)) d sel))).
  { induction sel as [|x sel IH]; intros d N; cbn [foldl]; [done|]. apply IH. by apply NoDup_dkeys_dset. }
  apply G, NoDup_nil_2.
Qed.

(** ** The value of the appended dataframe *)
Section Value.
Variable ns : dict (pnode V E T).
Variable env : gmap name V.
Variable fns : list (pnode V E T).
Variable cols : list name.
Variable p N : name.
Variable tp ct0 ct : T.
Variable sel : list name.
Variable pruned : list (pnode V E T).
Variable df : V.
Variable env' : gmap name V.

Definition extractors : list (pnode V E T) :=
  map (fun c => PNode c ct0 [(p, (tp, REQUIRED))] (extractor_call vget "column_to_extract" p c)) cols.
Notation out := (pruned ++ [append_node p sel ct]).
Notation out' := (add_namespace captured out N [] []).

Hypothesis W : forall y n, dget ns y = Some n -> NoDup (dkeys (pn_inputs n)).
Hypothesis F : fits fns cols p N.
Hypothesis ND : NoDup (map pn_name (extractors ++ fns)).
Hypothesis P1 : NoDup (map pn_name pruned).
Hypothesis P2 : forall n, n ∈ pruned -> n ∈ extractors ++ fns.
Hypothesis P3 : forall c, c ∈ sel -> c ∈ map pn_name pruned.
Hypothesis P4 : forall n k, n ∈ pruned -> k ∈ dkeys (pn_inputs n) -> k ∈ map pn_name (extractors ++ fns) -> k ∈ map pn_name pruned.
Hypothesis in_graph : forall n, n ∈ out' -> dget ns (pn_name n) = Some n.
Hypothesis Hdf : value ns env p df.
Hypothesis bound : forall k, wanted fns sel k -> k ∉ map pn_name fns -> reads ns env cols p vget df k (env' !! k).

Lemma extractor_names : map pn_name extractors = cols.
Proof. unfold extractors. rewrite map_map. cbn. by rewrite map_id. Qed.
Lemma generated_names k : k ∈ map pn_name (extractors ++ fns) <-> k ∈ cols \/ k ∈ map pn_name fns.
Proof. by rewrite map_app, elem_of_app, extractor_names. Qed.
Lemma p_not_pruned : p ∉ map pn_name pruned.
Proof.
  intros (n & Hp & Hn)%elem_of_list_fmap. apply P2 in Hn.
  destruct (proj1 (generated_names p)) as [H | H]; [|by apply (fits_p_col _ _ _ _ F)|by apply (fits_p_fn _ _ _ _ F)].
  rewrite Hp. by apply elem_of_list_fmap_1.
Qed.
Lemma append_not_pruned : "_append" ∉ map pn_name pruned.
Proof.
  intros (n & Hp & Hn)%elem_of_list_fmap. apply P2 in Hn.
  destruct (proj1 (generated_names "_append")) as [H | H]; [|by apply (fits_col _ _ _ _ F)|].
  - rewrite Hp. by apply elem_of_list_fmap_1.
  - apply elem_of_list_fmap in H as (n' & H & Hn'). by apply (fits_fn _ _ _ _ F) in Hn' as (? & _).
Qed.
Lemma out_wd : well_declared (E := E) out [] [].
Proof.
  unfold well_declared. split_and!.
  - rewrite map_app. cbn. apply NoDup_app. split_and!; [done| |apply NoDup_singleton]. intros x Hx ->%elem_of_list_singleton. by apply append_not_pruned.
  - intros n [Hn | ->%elem_of_list_singleton]%elem_of_app; [|apply append_nodup].
    apply P2, elem_of_app in Hn as [Hn | Hn]; [|by apply (fits_fn _ _ _ _ F)].
    apply elem_of_list_fmap in Hn as (c & -> & _). apply NoDup_singleton.
  - apply NoDup_nil_2.
  - apply NoDup_nil_2.
  - by intros k []%elem_of_nil.
  - by intros k []%elem_of_nil.
Qed.
Lemma declared_out k : declared (E := E) out [] [] k <-> k ∈ map pn_name pruned \/ k = "_append".
Proof. unfold declared. cbn. rewrite map_app, elem_of_app. cbn. rewrite elem_of_list_singleton, elem_of_nil. tauto. Qed.
Lemma out_apart n k : n ∈ out -> k ∈ dkeys (pn_inputs n) -> ~ declared (E := E) out [] [] k ->
  k ∉ sub_reserved /\ forall k', k' ∈ dkeys (pn_inputs n) -> k <> assign_namespace k' N.
Proof.
  intros Hn Hk Hd. rewrite declared_out in Hd. pose proof (fits_p_name _ _ _ _ F) as (_ & Hp1 & _ & Hp2).
  apply elem_of_app in Hn as [Hn | ->%elem_of_list_singleton].
  - pose proof Hn as Hn'. apply P2, elem_of_app in Hn' as [Hn' | Hn'].
    + apply elem_of_list_fmap in Hn' as (c & -> & _). cbn in Hk. apply elem_of_list_singleton in Hk as ->. split; [done|]. intros k' _. apply Hp2.
    + assert (Hg : k ∉ map pn_name (extractors ++ fns)) by (intros ?; apply Hd; left; by apply (P4 n)). rewrite generated_names in Hg.
      apply (fits_outer _ _ _ _ F n k Hn' Hk); tauto.
  - apply append_inputs in Hk as [-> | Hk]; [|exfalso; apply Hd; left; by apply P3]. split; [done|]. intros k' _. apply Hp2.
Qed.
Notation names := (new_name_map out N [] []).
Lemma rename_in k : k ∈ map pn_name pruned -> rename names k = assign_namespace k N.
Proof. intros H. eapply rename_declared. apply declared_out. by left. Qed.
Lemma rename_out k : k ∉ map pn_name pruned -> k <> "_append" -> rename names k = k.
Proof. intros H1 H2. eapply rename_undeclared. rewrite declared_out. tauto. Qed.
Lemma rename_p : rename names p = p.
Proof. apply rename_out; [apply p_not_pruned|]. apply (fits_p_name _ _ _ _ F). Qed.
Lemma out_in n : n ∈ out -> dget ns (assign_namespace (pn_name n) N) = Some (namespaced_node captured names n).
Proof.
  intros Hn. rewrite <- (rename_declared out [] [] N) by (left; by apply elem_of_list_fmap_1).
  apply (in_graph (namespaced_node captured names n)). by apply elem_of_list_fmap_1.
Qed.
Lemma out_value n v : n ∈ out -> value ns env (assign_namespace (pn_name n) N) v <-> exists m : gmap name V,
    (forall k w, m !! k = Some w -> k ∈ dkeys (pn_inputs n) /\ value ns env (rename names k) w) /\
    (forall k t dt, (k, (t, dt)) ∈ pn_inputs n -> m !! k = None -> dt = OPTIONAL /\ dget ns (rename names k) = None /\ env !! rename names k = None) /\
    pn_call n (kwargs (pn_inputs n) m) = Ok v.
Proof.
  intros Hn. apply (renamed_value (rename names) ns env _ (namespaced_node captured names n)).
  - by apply out_in.
  - by apply out_wd.
  - eapply (rename_inj out [] [] N); [exact out_apart|done].
  - eapply namespaced_inputs; [exact out_wd|exact out_apart|done].
  - intros m'. eapply namespaced_call; [exact out_wd|exact out_apart|done].
Qed.

Lemma pruned_fn n : n ∈ fns -> pn_name n ∈ map pn_name pruned -> n ∈ pruned.
Proof.
  intros Hn (n' & Heq & Hn')%elem_of_list_fmap. pose proof (P2 _ Hn') as Hg.
  assert (n = n') as ->; [|done]. assert (Hn2 : n ∈ extractors ++ fns) by (apply elem_of_app; by right).
  pose proof (by_name_spec _ ND) as [_ G]. pose proof (proj2 (G (pn_name n) n) (conj Hn2 eq_refl)) as G1.
  pose proof (proj2 (G (pn_name n) n') (conj Hg (eq_sym Heq))) as G2. congruence.
Qed.
Lemma fns_nodup : NoDup (map pn_name fns).
Proof. rewrite map_app in ND. by apply NoDup_app in ND as (_ & _ & ?). Qed.
Lemma alone_get x n : dget (standalone fns) x = Some n <-> n ∈ fns /\ pn_name n = x.
Proof.
  unfold standalone. split.
  - intros H. apply dget_elem in H. apply elem_of_list_fmap in H as (n' & [= -> ->] & Hn). done.
  - intros [Hn <-]. apply elem_dget; [|apply elem_of_list_fmap; by exists n].
    unfold dkeys. change (@fmap list _ ?A ?B ?f ?l) with (map f l). rewrite map_map. apply fns_nodup.
Qed.
Lemma alone_none x : dget (standalone fns) x = None <-> x ∉ map pn_name fns.
Proof.
  destruct (dget (standalone fns) x) as [n|] eqn:D.
  - apply alone_get in D as [Hn <-]. split; [done|]. intros H. exfalso. apply H. by apply elem_of_list_fmap_1.
  - split; [|done]. intros _ (n & -> & Hn)%elem_of_list_fmap. assert (dget (standalone fns) (pn_name n) = Some n) by by apply alone_get. congruence.
Qed.
Lemma cols_not_fns c : c ∈ cols -> c ∉ map pn_name fns.
Proof. intros Hc Hf. rewrite map_app, extractor_names in ND. apply NoDup_app in ND as (_ & N' & _). by apply (N' c). Qed.

Lemma df_unique w : value ns env p w -> w = df.
Proof. intros H. by eapply value_fun. Qed.

(** A passed column. *)
Lemma passed_value c v : c ∈ cols -> c ∈ map pn_name pruned -> value ns env (assign_namespace c N) v <-> vget df (KName c) = Some v.
Proof.
  intros Hc Hp. apply elem_of_list_fmap in Hp as (n & -> & Hn). pose proof (P2 _ Hn) as Hg. apply elem_of_app in Hg as [Hg | Hg].
  2: { exfalso. apply (cols_not_fns _ Hc). by apply elem_of_list_fmap_1. }
  rewrite (out_value n v) by (apply elem_of_app; by left). apply elem_of_list_fmap in Hg as (c & -> & _). cbn [pn_inputs pn_call pn_name].
  pose proof (fits_p_name _ _ _ _ F) as (_ & _ & Hpc & _). split.
  - intros (m & M1 & M2 & C). unfold extractor_call in C. rewrite decide_False in C by done. rewrite dget_kwargs, decide_True in C by by left.
    destruct (m !! p) as [w|] eqn:Em; [|done]. destruct (M1 _ _ Em) as [_ Hw]. rewrite rename_p in Hw. apply df_unique in Hw as ->.
    destruct (vget df (KName c)) as [u|] eqn:Eu; [|done]. by injection C as ->.
  - intros Hv. exists {[p := df]}. split_and!.
    + intros k w Hk. apply lookup_singleton_Some in Hk as [<- <-]. split; [by left|]. by rewrite rename_p.
    + intros k t dt Hk Hm. apply elem_of_list_singleton in Hk as [= -> -> ->]. by rewrite lookup_singleton in Hm.
    + unfold extractor_call. rewrite decide_False by done. rewrite dget_kwargs, decide_True by by left. rewrite lookup_singleton. by rewrite Hv.
Qed.

(** What a function reads from outside. *)
Lemma outer_reads k : wanted fns sel k -> k ∉ map pn_name pruned -> k <> "_append" -> k ∉ map pn_name fns -> k ∉ cols ->
  (forall w, value ns env (rename names k) w <-> env' !! k = Some w) /\
  ((dget ns (rename names k) = None /\ env !! rename names k = None) <-> env' !! k = None).
Proof.
  intros Hw Hp Ha Hf Hc. rewrite rename_out by done. specialize (bound k Hw Hf). unfold reads in bound. rewrite decide_False in bound by done.
  destruct (decide (k = p)) as [-> | Hkp].
  - rewrite bound. split.
    + intros w. split; [by intros ->%df_unique|]. by intros [= ->].
    + split; [|done]. intros [H1 H2]. apply value_input_iff in Hdf; [congruence|done].
  - destruct bound as [(u & Hu & ->) | (H1 & H2 & ->)].
    + split; [intros w; split; [intros Hv; f_equal; by eapply value_fun|by intros [= ->]]|]. split; [|done].
      intros [H1 H2]. apply value_input_iff in Hu; [congruence|done].
    + split; [|done]. intros w. split; [|done]. intros Hv. apply value_input_iff in Hv; [congruence|done].
Qed.

Lemma col_sound y v : value ns env y v -> forall n, n ∈ pruned -> wanted fns sel (pn_name n) -> y = assign_namespace (pn_name n) N ->
  value (standalone fns) env' (pn_name n) v.
Proof.
  induction 1 as [y v D Hy|y n' m' v D Hd Hv IH Ho Hc]; intros n Hn Hwn ->.
  - rewrite out_in in D by (apply elem_of_app; by left). done.
  - assert (Hout : n ∈ out) by (apply elem_of_app; by left).
    destruct (decide (pn_name n ∈ cols)) as [Hcol|Hcol].
    { assert (Hval : value ns env (assign_namespace (pn_name n) N) v) by by eapply value_node.
      apply passed_value in Hval; [|done|by apply elem_of_list_fmap_1]. pose proof (cols_not_fns _ Hcol) as Hnf.
      apply value_input; [by apply alone_none|]. specialize (bound _ Hwn Hnf). unfold reads in bound. rewrite decide_True in bound by done.
      destruct bound as (u & Hu & ->). congruence. }
    assert (Hfn : n ∈ fns).
    { apply P2, elem_of_app in Hn as [Hn | Hn]; [|done]. exfalso. apply Hcol. rewrite <- extractor_names. by apply elem_of_list_fmap_1. }
    rewrite out_in in D by done. injection D as <-.
    rewrite (namespaced_inputs captured out [] [] N out_wd out_apart) in Hd, Ho, Hc by done.
    rewrite (namespaced_call captured out [] [] N out_wd out_apart) in Hc by done.
    assert (Nn : NoDup (dkeys (pn_inputs n))) by by apply (fits_fn _ _ _ _ F).
    destruct (gather (rename names) m' (dkeys (pn_inputs n))) as [m Hm].
    assert (Dn : dget (standalone fns) (pn_name n) = Some n) by by apply alone_get.
    apply (value_node_iff (standalone fns) env' _ n v Dn). exists m.
    assert (HP : forall k, k ∈ dkeys (pn_inputs n) -> k ∉ map pn_name pruned -> k <> "_append" /\ k ∉ map pn_name fns /\ k ∉ cols).
    { intros k Hk Hkp. split; [intros ->; by apply (fits_fn _ _ _ _ F) in Hfn as (_ & _ & ?)|].
      assert (Hg : k ∉ map pn_name (extractors ++ fns)) by (intros ?; apply Hkp; by apply (P4 n)). rewrite generated_names in Hg. tauto. }
    split; [split|].
    + intros k w Hk. rewrite Hm in Hk. destruct (decide (k ∈ dkeys (pn_inputs n))) as [Hki|]; [|done]. split; [done|].
      assert (Hwk : wanted fns sel k) by by eapply wanted_dep.
      destruct (decide (k ∈ map pn_name pruned)) as [Hkp|Hkp].
      * pose proof (rename_in _ Hkp) as Hr. apply elem_of_list_fmap in Hkp as (nk & -> & Hnk). by apply (IH _ _ Hk nk Hnk Hwk).
      * destruct (HP k Hki Hkp) as (H1 & H2 & H3). apply value_input_iff; [by apply alone_none|].
        apply (outer_reads k Hwk Hkp H1 H2 H3). by apply Hv.
    + intros k t dt Hk Hmk. pose proof (elem_dkeys _ _ _ _ Hk) as Hki. rewrite Hm, decide_True in Hmk by done.
      assert (Hwk : wanted fns sel k) by by eapply wanted_dep.
      destruct (Ho (rename names k) t dt (elem_renamed _ _ _ _ _ Hk) Hmk) as (Hopt & H1 & H2).
      destruct (decide (k ∈ map pn_name pruned)) as [Hkp|Hkp].
      * exfalso. rewrite rename_in in H1 by done. apply elem_of_list_fmap in Hkp as (nk & -> & Hnk). by rewrite out_in in H1 by (apply elem_of_app; by left).
      * destruct (HP k Hki Hkp) as (H3 & H4 & H5). split_and!; [done|by apply alone_none|]. by apply (outer_reads k Hwk Hkp H3 H4 H5).
    + rewrite <- Hc. symmetry. apply call_renamed; [done|by eapply (rename_inj out [] [] N out_apart)|]. intros k Hk. rewrite Hm. by rewrite decide_True.
Qed.
Lemma col_complete x v : value (standalone fns) env' x v -> wanted fns sel x -> x ∈ map pn_name pruned -> value ns env (assign_namespace x N) v.
Proof.
  induction 1 as [x v D Hx|x n m v D Hd Hv IH Ho Hc]; intros Hwx Hxp.
  - apply alone_none in D. assert (Hcol : x ∈ cols).
    { apply elem_of_list_fmap in Hxp as (n & -> & Hn). apply P2 in Hn.
      destruct (proj1 (generated_names (pn_name n))) as [? | ?]; [by apply elem_of_list_fmap_1|done|done]. }
    apply passed_value; [done|done|]. specialize (bound _ Hwx D). unfold reads in bound. rewrite decide_True in bound by done.
    destruct bound as (u & Hu & Hx'). congruence.
  - apply alone_get in D as [Hfn <-]. pose proof (pruned_fn _ Hfn Hxp) as Hn.
    apply (out_value n v); [apply elem_of_app; by left|].
    assert (HP : forall k, k ∈ dkeys (pn_inputs n) -> k ∉ map pn_name pruned -> k <> "_append" /\ k ∉ map pn_name fns /\ k ∉ cols).
    { intros k Hk Hkp. split; [intros ->; by apply (fits_fn _ _ _ _ F) in Hfn as (_ & _ & ?)|].
      assert (Hg : k ∉ map pn_name (extractors ++ fns)) by (intros ?; apply Hkp; by apply (P4 n)). rewrite generated_names in Hg. tauto. }
    exists m. split_and!; [| |done].
    + intros k w Hk. pose proof (Hd _ _ Hk) as Hki. split; [done|]. assert (Hwk : wanted fns sel k) by by eapply wanted_dep.
      destruct (decide (k ∈ map pn_name pruned)) as [Hkp|Hkp].
      * rewrite rename_in by done. by eapply IH.
      * destruct (HP k Hki Hkp) as (H1 & H2 & H3). apply (outer_reads k Hwk Hkp H1 H2 H3). apply Hv in Hk.
        apply value_input_iff in Hk; [done|by apply alone_none].
    + intros k t dt Hk Hmk. pose proof (elem_dkeys _ _ _ _ Hk) as Hki. assert (Hwk : wanted fns sel k) by by eapply wanted_dep.
      destruct (Ho k t dt Hk Hmk) as (Hopt & H1 & H2). split; [done|]. apply alone_none in H1.
      destruct (decide (k ∈ map pn_name pruned)) as [Hkp|Hkp].
      * exfalso. assert (Hcol : k ∈ cols).
        { apply elem_of_list_fmap in Hkp as (n2 & -> & Hn2). apply P2 in Hn2.
          destruct (proj1 (generated_names (pn_name n2))) as [? | ?]; [by apply elem_of_list_fmap_1|done|done]. }
        specialize (bound _ Hwk H1). unfold reads in bound. rewrite decide_True in bound by done. destruct bound as (u & _ & Hu). congruence.
      * destruct (HP k Hki Hkp) as (H3 & H4 & H5). by apply (outer_reads k Hwk Hkp H3 H4 H5).
Qed.
Lemma col_value c v : c ∈ sel -> value ns env (assign_namespace c N) v <-> value (standalone fns) env' c v.
Proof.
  intros Hc. pose proof (P3 _ Hc) as Hp. assert (Hw : wanted fns sel c) by by apply wanted_sel. split.
  - intros Hv. apply elem_of_list_fmap in Hp as (n & -> & Hn). by eapply col_sound.
  - intros Hv. by apply col_complete.
Qed.

(** The appended dataframe. *)
Lemma append_value v : value ns env (assign_namespace "_append" N) v <->
  exists new, new_columns fns env' sel new /\ assign df new = Ok v.
Proof.
  assert (Hout : append_node p sel ct ∈ out) by (apply elem_of_app; right; by apply elem_of_list_singleton).
  pose proof (out_value (append_node p sel ct) v Hout) as OV. cbn [pn_name append_node ColumnsModel.append_node] in OV. rewrite OV. clear OV.
  set (ins := pn_inputs (append_node p sel ct)).
  assert (Hps : p ∉ sel) by (intros ?; apply p_not_pruned; by apply P3).
  assert (Hr : forall c, c ∈ sel -> rename names c = assign_namespace c N) by (intros c Hc; apply rename_in; by apply P3).
  assert (Hkp : forall m, dget (kwargs ins m) p = (m : gmap name V) !! p).
  { intros m. rewrite dget_kwargs, decide_True; [done|]. apply append_inputs. by left. }
  assert (Hkc : forall m c, c ∈ sel -> dget (kwargs ins m) c = (m : gmap name V) !! c).
  { intros m c Hc. rewrite dget_kwargs, decide_True; [done|]. apply append_inputs. by right. }
  change (pn_call (append_node p sel ct)) with (append_call (E := E) assign p sel). split.
  - intros (m & M1 & M2 & C). change (append_call (E := E) assign p sel (kwargs ins m) = Ok v) in C. unfold append_call in C. rewrite Hkp in C.
    destruct (m !! p) as [w|] eqn:Em; [|done]. destruct (M1 _ _ Em) as [_ Hw]. rewrite rename_p in Hw. apply df_unique in Hw as ->.
    destruct (selected sel [] (kwargs ins m)) as [d|] eqn:Es; [|done]. destruct (assign df d) as [v'|] eqn:Ea; [|done]. injection C as ->.
    apply selected_ok in Es as (K & Nd & S & G); [|apply NoDup_nil_2]. exists d. split; [|done]. split.
    + rewrite K. apply filter_nil_keys.
    + intros c w Hc. rewrite G in Hc. destruct (decide (c ∈ sel)) as [Hcs|Hcs]; [|done]. rewrite Hkc in Hc by done.
      apply col_value; [done|]. rewrite <- Hr by done. by apply M1.
  - intros (new & [K G] & Ha).
    assert (Nn : NoDup (dkeys new)) by (rewrite K; apply NoDup_firsts).
    assert (Hnew : forall c, c ∈ sel <-> is_Some (dget new c)) by (intros c; by rewrite dget_Some_key, K, elem_firsts).
    assert (Hmc : forall c, c ∈ sel -> (<[p := df]> (list_to_map new : gmap name V)) !! c = dget new c).
    { intros c Hc. rewrite lookup_insert_ne by (by intros ->). by apply list_to_map_dget. }
    exists (<[p := df]> (list_to_map new)). split_and!.
    + intros k w Hk. destruct (decide (k = p)) as [-> | Hne].
      * rewrite lookup_insert in Hk. injection Hk as <-. rewrite rename_p. split; [|done]. apply append_inputs. by left.
      * rewrite lookup_insert_ne, list_to_map_dget in Hk by done. assert (Hks : k ∈ sel) by (apply Hnew; by eexists). split; [apply append_inputs; by right|].
        rewrite Hr by done. apply col_value; [done|]. by apply G.
    + intros k t dt Hk Hm. exfalso. assert (Hki : k ∈ dkeys ins) by by eapply elem_dkeys. apply append_inputs in Hki as [-> | Hks].
      * by rewrite lookup_insert in Hm.
      * rewrite Hmc in Hm by done. apply Hnew in Hks as [? ?]. congruence.
    + change (append_call (E := E) assign p sel (kwargs ins (<[p := df]> (list_to_map new))) = Ok v). unfold append_call. rewrite Hkp, lookup_insert.
      destruct (selected_total sel (kwargs ins (<[p := df]> (list_to_map new))) []) as [d Hd].
      { intros c Hc. rewrite Hkc, Hmc by done. by apply Hnew. }
      rewrite Hd. apply selected_ok in Hd as (Kd & Nd & S & Gd); [|apply NoDup_nil_2].
      assert (d = new) as ->.
      { apply dict_ext; [done| |].
        - rewrite Kd, K. apply filter_nil_keys.
        - intros c. rewrite Gd. destruct (decide (c ∈ sel)) as [Hc|Hc]; [by rewrite Hkc, Hmc|].
          cbn. symmetry. apply dget_None_key. rewrite K, elem_firsts. done. }
      by rewrite Ha.
Qed.
(** A wanted name that is generated is not pruned. *)
Lemma wanted_pruned x : wanted fns sel x -> x ∈ map pn_name (extractors ++ fns) -> x ∈ map pn_name pruned.
Proof.
  induction 1 as [c Hc|n k Hn _ IH Hk]; intros Hg; [by apply P3|]. apply (P4 n); [|done|done].
  apply pruned_fn; [done|]. apply IH. rewrite generated_names. right. by apply elem_of_list_fmap_1.
Qed.
(** What a wanted name needs, the dataframe needs. *)
Lemma wanted_strict x : wanted fns sel x -> x ∈ map pn_name pruned -> (forall v, ~ value ns env (assign_namespace x N) v) ->
  forall v, ~ value ns env (assign_namespace "_append" N) v.
Proof.
  induction 1 as [c Hc|n k Hn Hwn IH Hk]; intros Hx Hno v Hv.
  - assert (Hout : append_node p sel ct ∈ out) by (apply elem_of_app; right; by apply elem_of_list_singleton).
    apply (out_value (append_node p sel ct) v Hout) in Hv as (m & M1 & M2 & _).
    assert (Hci : c ∈ dkeys (pn_inputs (append_node p sel ct))) by (apply append_inputs; by right).
    apply elem_of_list_fmap in Hci as ([c' [t dt]] & Heq & Hci). cbn in Heq. subst c'.
    destruct (m !! c) as [w|] eqn:Em.
    + destruct (M1 _ _ Em) as [_ Hw]. rewrite rename_in in Hw by done. by apply Hno in Hw.
    + destruct (M2 _ _ _ Hci Em) as [-> _]. by apply append_required in Hci.
  - assert (Hnp : pn_name n ∈ map pn_name pruned).
    { apply wanted_pruned; [done|]. rewrite generated_names. right. by apply elem_of_list_fmap_1. }
    pose proof (pruned_fn n Hn Hnp) as Hnp'. apply (IH Hnp) with (v := v); [|done]. intros u Hu.
    apply (out_value n u) in Hu as (m & M1 & M2 & _); [|apply elem_of_app; by left].
    apply elem_of_list_fmap in Hk as ([k' [t dt]] & Heq & Hk). cbn in Heq. subst k'.
    destruct (m !! k) as [w|] eqn:Em.
    + destruct (M1 _ _ Em) as [_ Hw]. rewrite rename_in in Hw by done. by apply Hno in Hw.
    + destruct (M2 _ _ _ Hk Em) as (_ & Hd & _). rewrite rename_in in Hd by done.
      apply elem_of_list_fmap in Hx as (nk & -> & Hnk). by rewrite out_in in Hd by (apply elem_of_app; by left).
Qed.
Lemma append_missing c : c ∈ cols -> wanted fns sel c -> vget df (KName c) = None -> forall v, ~ value ns env (assign_namespace "_append" N) v.
Proof.
  intros Hc Hw Hn. assert (Hp : c ∈ map pn_name pruned) by (apply wanted_pruned; [done|]; rewrite generated_names; by left).
  apply (wanted_strict c Hw Hp). intros v Hv. apply passed_value in Hv; [congruence|done|done].
Qed.
Lemma append_in_graph : dget ns (assign_namespace "_append" N) = Some (namespaced_node captured names (append_node p sel ct)).
Proof. apply (out_in (append_node p sel ct)). apply elem_of_app. right. by apply elem_of_list_singleton. Qed.
End Value.

(** ** What is built *)
(** The columns that are passed to the functions. *)
Definition passed (st : wc) : list name := match wc_on_input st with Some _ => [] | None => default [] (wc_columns st) end.
(** The columns that are appended. *)
Definition chosen (st : wc) (t ct : T) (fns : list (pnode V E T)) : list name :=
  match wc_select st with
  | Some sel => sel
  | None => (if decide (column_type t = Some ct) then passed st else []) ++ map pn_name (filter (fun n => pn_type n = ct) fns)
  end.

Lemma initial_inv st p t initial : initial_nodes (E := E) vget vfill column_type st p t = Ok initial ->
  exists ct0, initial = extractors (passed st) p t ct0 /\ (wc_on_input st = None -> column_type t = Some ct0 /\ wc_columns st = Some (passed st) /\ passed st <> []).
Proof.
  unfold initial_nodes, passed. destruct (wc_on_input st); [intros [= <-]; exists t; by split|]. unfold column_nodes.
  destruct (wc_columns st) as [[|c cols]|]; [done| |done]. destruct (column_type t) as [ct0|]; [|done]. intros [= <-]. exists ct0. split; [|intros _; by split_and!].
  cbn [default]. unfold extractors, extract_columns, extractor. cbn [tail pn_name pn_type].
  change (@fmap list _ ?A ?B ?f ?l) with (map f l). rewrite map_map. done.
Qed.
Lemma selection_chosen st p t ct ct0 fns pruned : (wc_on_input st = None -> column_type t = Some ct0) ->
  prune_nodes order (extractors (passed st) p t ct0 ++ fns) (wc_select st) = Pruned pruned ->
  selection st ct pruned = chosen st t ct fns.
Proof.
  intros Hc Hp. unfold selection, chosen. destruct (wc_select st) as [sel|]; [done|]. cbn in Hp. injection Hp as <-.
  rewrite filter_app, map_app. f_equal. unfold extractors, passed. unfold passed in Hc.
  destruct (wc_on_input st) as [o|]; [by destruct (decide _)|]. rewrite Hc by done.
  induction (default [] (wc_columns st)) as [|c l IH]; [by destruct (decide _)|]. cbn [map]. rewrite filter_cons. cbn [pn_type].
  destruct (decide (ct0 = ct)) as [-> | Hne].
  - rewrite decide_True by done. cbn [map pn_name]. f_equal. by rewrite decide_True in IH by done.
  - rewrite decide_False by congruence. by rewrite decide_False in IH by congruence.
Qed.

(** [p] has type [t] wherever the nodes take it. *)
Definition param_type (nodes : list (pnode V E T)) (p : name) (t : T) : Prop :=
  exists n dt, n ∈ nodes /\ (p, (t, dt)) ∈ pn_inputs n /\ p ∉ map pn_name nodes.
Lemma injectable_types_some (nodes : list (pnode V E T)) p t : dget (injectable_types nodes) p = Some t -> param_type nodes p t.
Proof.
  unfold injectable_types, param_type.
  assert (G1 : forall (names : list name) (ins : dict (T * deptype)) (d : dict T) t, dget (foldl (fun d kt => if decide (kt.1 ∈ names) then d else dset d kt.1 kt.2.1) d ins) p = Some t ->
    dget d p = Some t \/ exists dt, (p, (t, dt)) ∈ ins /\ p ∉ names).
  { clear t. intros names. induction ins as [|[k [tk dk]] ins IH]; intros d t H; cbn [foldl] in H; [by left|].
    apply IH in H as [H | (dt & H & Hn)]; [|right; exists dt; split; [by right|done]]. cbn in H.
    destruct (decide (k ∈ names)) as [Hk|Hk]; [by left|]. rewrite dget_dset in H. destruct (decide (p = k)) as [-> | Hne]; [|by left].
    injection H as <-. right. exists dk. split; [by left|done]. }
  assert (G2 : forall (names : list name) (l : list (pnode V E T)) (d : dict T) t, dget (foldl (fun d n => foldl (fun d kt => if decide (kt.1 ∈ names) then d else dset d kt.1 kt.2.1) d (pn_inputs n)) d l) p = Some t ->
    dget d p = Some t \/ exists n dt, n ∈ l /\ (p, (t, dt)) ∈ pn_inputs n /\ p ∉ names).
  { clear t. intros names. induction l as [|n l IH]; intros d t H; cbn [foldl] in H; [by left|].
    apply IH in H as [H | (n' & dt & Hn' & H)]; [|right; exists n', dt; split; [by right|done]].
    apply G1 in H as [H | (dt & H & Hn)]; [by left|]. right. exists n, dt. split_and!; [by left|done|done]. }
  intros H. by apply G2 in H as [? | H].
Qed.
Lemma injectable_types_none (nodes : list (pnode V E T)) p : dget (injectable_types nodes) p = None -> ~ free nodes p.
Proof.
  unfold injectable_types. intros H ((n & Hn & Hp) & Hf).
  assert (Hnn : p ∉ map pn_name nodes) by (intros (m & -> & Hm)%elem_of_list_fmap; by apply (Hf m)).
  apply dget_None_key in H. apply H. clear H Hf. revert Hnn. generalize (map pn_name nodes) as names. intros names Hnn.
  assert (G1 : forall (ins : dict (T * deptype)) (d : dict T), p ∈ dkeys d \/ p ∈ dkeys ins -> p ∈ dkeys (foldl (fun d kt => if decide (kt.1 ∈ names) then d else dset d kt.1 kt.2.1) d ins)).
  { induction ins as [|[k [tk dk]] ins IH]; intros d H; cbn [foldl]; [destruct H as [? | []%elem_of_nil]; done|]. apply IH. cbn [fst snd].
    destruct H as [H | [-> | H]%elem_of_cons]; [left|left|by right].
    - destruct (decide _); [done|]. apply dkeys_dset_elem. by right.
    - cbn in Hnn. rewrite decide_False by done. apply dkeys_dset_elem. by left. }
  assert (G2 : forall (l : list (pnode V E T)) (d : dict T), p ∈ dkeys d \/ (exists n, n ∈ l /\ p ∈ dkeys (pn_inputs n)) ->
    p ∈ dkeys (foldl (fun d n => foldl (fun d kt => if decide (kt.1 ∈ names) then d else dset d kt.1 kt.2.1) d (pn_inputs n)) d l)).
  { induction l as [|n' l IH]; intros d H; cbn [foldl]; [destruct H as [? | (? & []%elem_of_nil & _)]; done|]. apply IH.
    destruct H as [H | (m & [-> | Hm]%elem_of_cons & H)]; [left; apply G1; by left|left; apply G1; by right|right; by exists m]. }
  apply G2. right. by exists n.
Qed.

Notation inject := (inject_nodes vget vfill assign column_type df_type captured order).
Notation transform := (transform_dag vget vfill assign column_type df_type captured order).

(** Everything that a successful transformation says. *)
Lemma transform_inv st fn sig fns orig nodes st' : transform st fn sig fns orig = Ok (nodes, st') ->
  exists p t ct0 ct pruned, let N := default fn (wc_namespace st) in let sel := chosen st t ct fns in
    inject_parameter st sig = Ok p /\ param_type orig p t /\ (forall t', dget (injectable_types orig) p = Some t' -> t' = t) /\
    NoDup (map pn_name (extractors (passed st) p t ct0 ++ fns)) /\
    (wc_on_input st = None -> column_type t = Some ct0 /\ wc_columns st = Some (passed st) /\ passed st <> []) /\
    prune_nodes order (extractors (passed st) p t ct0 ++ fns) (wc_select st) = Pruned pruned /\ pruned <> [] /\
    column_type df_type = Some ct /\
    st' = WC (wc_columns st) (wc_on_input st) (Some sel) (wc_namespace st) /\
    nodes = map (fun n => if decide (p ∈ dkeys (pn_inputs n)) then reassign_inputs n [(p, assign_namespace "_append" N)] [] else n) orig ++
            add_namespace captured (pruned ++ [append_node p sel ct]) N [] [].
Proof.
  unfold transform_dag, inject_nodes, validate_dataframe. destruct (inject_parameter st sig) as [p|] eqn:Ep; [|done].
  destruct (dget (injectable_types orig) p) as [t|] eqn:Et; [|done].
  destruct (initial_nodes vget vfill column_type st p t) as [initial|] eqn:Ei; [|done].
  destruct (initial_inv _ _ _ _ Ei) as (ct0 & -> & Hct0).
  destruct (decide (NoDup _)) as [ND|]; [|done].
  destruct (prune_nodes order _ (wc_select st)) as [[|x pruned]| |] eqn:Epr; [done| |done|done].
  destruct (column_type df_type) as [ct|] eqn:Ec; [|done]. intros [= <- <-].
  assert (Hsel : selection st ct (x :: pruned) = chosen st t ct fns) by (eapply selection_chosen; [|exact Epr]; intros ?; by apply Hct0).
  exists p, t, ct0, ct, (x :: pruned). split_and!; [done|by apply injectable_types_some| |done|done|done|done|done|by rewrite Hsel|by rewrite Hsel].
  intros t' Ht'. congruence.
Qed.

(** What pruning keeps. *)
Lemma pruned_facts st p t ct0 ct fns pruned : (forall l, order l ≡ₚ l) -> (wc_on_input st = None -> column_type t = Some ct0) ->
  NoDup (map pn_name (extractors (passed st) p t ct0 ++ fns)) ->
  prune_nodes order (extractors (passed st) p t ct0 ++ fns) (wc_select st) = Pruned pruned ->
  let g := extractors (passed st) p t ct0 ++ fns in
  NoDup (map pn_name pruned) /\ (forall n, n ∈ pruned -> n ∈ g) /\
  (forall c, c ∈ chosen st t ct fns -> c ∈ map pn_name pruned) /\
  (forall n k, n ∈ pruned -> k ∈ dkeys (pn_inputs n) -> k ∈ map pn_name g -> k ∈ map pn_name pruned).
Proof.
  intros O Hc ND Hp g. pose proof (selection_chosen _ _ _ ct _ _ _ Hc Hp) as Hsel.
  destruct (wc_select st) as [sel|] eqn:Es.
  - pose proof (C43_prune order g sel ND O) as C. change (prune_nodes order g (Some sel) = Pruned pruned) in Hp. rewrite Hp in C.
    destruct C as (C1 & C2 & C3). split_and!; [done|intros n Hn; by apply C2| |].
    + unfold chosen. rewrite Es. intros c Hcs. pose proof (C3 c Hcs) as Hg. apply elem_of_list_fmap in Hg as (n & -> & Hn).
      apply elem_of_list_fmap_1, C2. split; [done|]. by apply needed_selected.
    + intros n k Hn Hk Hg. apply C2 in Hn as [Hn Hd]. apply elem_of_list_fmap in Hg as (m & -> & Hm).
      apply elem_of_list_fmap_1, C2. split; [done|]. by apply (needed_input g sel n m).
  - cbn in Hp. injection Hp as <-. split_and!; [done|done| |done]. rewrite <- Hsel. unfold selection. rewrite Es.
    intros c (n & -> & Hn)%elem_of_list_fmap. apply elem_of_list_filter in Hn as [_ Hn]. by apply elem_of_list_fmap_1.
Qed.
End Proofs.
