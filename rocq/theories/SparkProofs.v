From Verif Require Import Base Dict NodeModel NodeSpec NodeProofs PipeModel PipeSpec PipeProofs SubdagModel SubdagSpec SubdagProofs
  TopoModel TopoProofs TopoProps PruneProps ColumnsProofs SparkModel SparkSpec.

(** ** Dictionaries *)
Lemma lookup_pick {A} (l : list name) (d : dict A) k : pick l d !! k = if decide (k ∈ l) then dget d k else None.
Proof.
  unfold pick. induction l as [|x l IH]; cbn [omap list_omap]; [by rewrite decide_False by by intros []%elem_of_nil|].
  destruct (dget d x) as [a|] eqn:Hx; cbn [fmap option_fmap option_map].
  - rewrite list_to_map_cons. destruct (decide (k = x)) as [-> | Hk]; [rewrite lookup_insert, decide_True by (by left); done|].
    rewrite lookup_insert_ne by done. etransitivity; [exact IH|]. destruct (decide (k ∈ l)); [rewrite decide_True by (by right); done|].
    rewrite decide_False; [done|]. by intros [? | ?]%elem_of_cons.
  - etransitivity; [exact IH|]. destruct (decide (k ∈ l)); [rewrite decide_True by (by right); done|].
    destruct (decide (k ∈ x :: l)) as [[-> | ?]%elem_of_cons|]; done.
Qed.
Lemma finite_choice {A} (P : name -> option A -> Prop) (l : list name) : (forall k, k ∈ l -> exists o, P k o) ->
  exists m : gmap name A, (forall k, k ∈ l -> P k (m !! k)) /\ forall k, k ∉ l -> m !! k = None.
Proof.
  induction l as [|x l IH]; intros H; [exists ∅; split; [by intros k []%elem_of_nil|intros; apply lookup_empty]|].
  destruct IH as (m & M1 & M2); [intros k Hk; apply H; by right|].
  destruct (decide (x ∈ l)) as [Hx|Hx].
  - exists m. split; [intros k [-> | Hk]%elem_of_cons; by apply M1|]. intros k Hk. apply M2. intros ?. apply Hk. by right.
  - destruct (H x) as [[a|] Ho]; [by left| |].
    + exists (<[x := a]> m). split.
      * intros k [-> | Hk]%elem_of_cons; [by rewrite lookup_insert|]. rewrite lookup_insert_ne by (by intros ->). by apply M1.
      * intros k Hk. rewrite not_elem_of_cons in Hk. rewrite lookup_insert_ne by naive_solver. apply M2. tauto.
    + exists m. split; [intros k [-> | Hk]%elem_of_cons; [rewrite M2 by done; done|by apply M1]|]. intros k Hk. apply M2. intros ?. apply Hk. by right.
Qed.
Lemma dget_filter {A} (P : name * A -> Prop) `{forall x, Decision (P x)} (Q : name -> Prop) `{forall x, Decision (Q x)} (d : dict A) k :
  (forall kv, P kv <-> Q kv.1) -> dget (filter P d) k = if decide (Q k) then dget d k else None.
Proof.
  intros HPQ. unfold dict. induction d as [|[k' a] d IH]; [by destruct (decide (Q k))|]. rewrite filter_cons. pose proof (HPQ (k', a)) as Hk'. cbn in Hk'.
  destruct (decide (P (k', a))); cbn [dget]; rewrite IH; destruct (decide (k = k')) as [-> | Hk]; try done.
  - rewrite decide_True by tauto. done.
  - rewrite !decide_False by tauto. done.
Qed.
Lemma dkeys_filter {A} (P : name -> Prop) `{forall x, Decision (P x)} (d : dict A) :
  dkeys (filter (fun kv : name * A => P kv.1) d) = filter P (dkeys d).
Proof.
  unfold dict. induction d as [|[k a] d IH]; [done|]. rewrite filter_cons. unfold dkeys in *. cbn [fst fmap list_fmap]. rewrite (filter_cons _ k).
  destruct (decide (P k)); cbn [fmap list_fmap fst]; [f_equal|]; exact IH.
Qed.
Lemma dkeys_filter_iff {A} (P : name -> Prop) (Q : name * A -> Prop) `{forall x, Decision (P x)} `{forall x, Decision (Q x)} (d : dict A) :
  (forall kv, Q kv <-> P kv.1) -> dkeys (filter Q d) = filter P (dkeys d).
Proof.
  intros HQ. unfold dict. induction d as [|[k a] d IH]; [done|]. rewrite filter_cons. unfold dkeys in *. cbn [fst fmap list_fmap]. rewrite (filter_cons _ k).
  specialize (HQ (k, a)). cbn in HQ. destruct (decide (P k)), (decide (Q (k, a))); [cbn [fmap list_fmap fst]; f_equal; exact IH|tauto|tauto|exact IH].
Qed.
Lemma NoDup_dkeys_filter {A} (P : name * A -> Prop) `{forall x, Decision (P x)} (d : dict A) : NoDup (dkeys d) -> NoDup (dkeys (filter P d)).
Proof.
  unfold dict, dkeys. intros N. induction d as [|[k a] d IH]; [done|]. cbn in N. apply NoDup_cons in N as [N1 N2]. rewrite filter_cons.
  destruct (decide (P (k, a))); [|by apply IH]. cbn. apply NoDup_cons. split; [|by apply IH].
  intros (kv & -> & Hkv)%elem_of_list_fmap. apply elem_of_list_filter in Hkv as [_ Hkv]. apply N1. by apply elem_of_list_fmap_1.
Qed.
Lemma NoDup_foldl_dset {A} (l : list name) (a : A) : forall d, NoDup (dkeys d) -> NoDup (dkeys (foldl (fun d k => dset d k a) d l)).
Proof. induction l as [|k l IH]; intros d N; [done|]. cbn. by apply IH, NoDup_dkeys_dset. Qed.
Lemma dget_foldl_dset {A} (l : list name) (a : A) k : forall d, dget (foldl (fun d k => dset d k a) d l) k = if decide (k ∈ l) then Some a else dget d k.
Proof.
  induction l as [|x l IH]; intros d; [by rewrite decide_False by by intros []%elem_of_nil|]. cbn. rewrite IH, dget_dset.
  destruct (decide (k ∈ l)); [by rewrite decide_True by by right|]. destruct (decide (k = x)) as [-> | Hk]; [by rewrite decide_True by by left|].
  rewrite decide_False; [done|]. by intros [? | ?]%elem_of_cons.
Qed.
Lemma dkeys_dupd {A} (a b : dict A) k : k ∈ dkeys (dupd a b) <-> k ∈ dkeys a \/ k ∈ dkeys b.
Proof.
  unfold dupd. revert a. induction b as [|[j v] b IH]; intros a; cbn [foldl].
  - cbn. rewrite elem_of_nil. tauto.
  - rewrite IH, dkeys_dset_elem. cbn. rewrite elem_of_cons. tauto.
Qed.
Lemma dupd_snoc {A} (a b : dict A) k v : dupd a (b ++ [(k, v)]) = dset (dupd a b) k v.
Proof. unfold dupd. by rewrite foldl_app. Qed.
Lemma dkeys_snoc {A} (b : dict A) k v : dkeys (b ++ [(k, v)]) = dkeys b ++ [k].
Proof. unfold dkeys, dict. by rewrite fmap_app. Qed.
Lemma dkeys_dupd_eq {A} (a b : dict A) : NoDup (dkeys b) -> dkeys (dupd a b) = dkeys a ++ filter (fun x => x ∉ dkeys a) (dkeys b).
Proof.
  induction b as [|[k v] b IH] using rev_ind; intros N; [cbn; by rewrite app_nil_r|]. rewrite dupd_snoc.
  rewrite dkeys_snoc in *. apply NoDup_app in N as (N1 & N2 & _). specialize (IH N1).
  assert (Hk : k ∉ dkeys b) by (intros H; by apply (N2 k H); left).
  rewrite filter_app, filter_cons.
  destruct (decide (k ∈ dkeys a)) as [Ha|Ha].
  - rewrite decide_False by tauto. rewrite dkeys_dset_in by (apply dkeys_dupd; by left). rewrite IH. cbn. by rewrite app_nil_r.
  - rewrite decide_True by done. rewrite dkeys_dset_notin by (rewrite dkeys_dupd; tauto). rewrite IH. cbn. by rewrite app_assoc.
Qed.

Section Proofs.
Context {C U E T : Type}.
Notation V := (sval C U E).
Notation node := (pnode V E T).
Variable is_df is_column is_series : T -> bool.
Variable df_type : T.
Variable spark_type series_type : T -> bool.
Variable value_error attribute_error analysis_error : E.
Variable sort : list name -> list name.
Hypothesis sort_perm : forall l, sort l ≡ₚ l.
Variable spark_apply : bool -> (list V -> res (nerr E) V) -> list C -> res (nerr E) C.
Notation lambda := (lambda_udf is_series spark_type series_type value_error analysis_error sort spark_apply).
Notation udf_column := (udf_column is_series spark_type series_type value_error sort spark_apply).
Notation udf_fn := (udf_fn is_series spark_type series_type value_error sort spark_apply).
Notation implements := (implements is_series spark_type series_type value_error sort spark_apply).

(** ** UDFs *)
Lemma parameters_ok (kw : dict V) (cols : list name) (ext : gmap name V) (ins : dict (T * deptype)) :
  (forall k, k ∈ dkeys ins -> k ∉ cols -> dget kw k = ext !! k) -> (forall k, k ∈ dkeys ins -> k ∈ cols -> ext !! k = None) ->
  (forall k d, ext !! k <> Some (SDf d)) ->
  parameters_to_bind value_error kw cols ins =
    if decide (Forall (fun kt : name * (T * deptype) => kt.1 ∈ cols) (filter (fun kt : name * (T * deptype) => kt.2.2 = REQUIRED /\ ext !! kt.1 = None) ins))
    then Ok (filter (fun k => k ∈ cols) (dkeys ins), kwargs ins ext) else Err (NUser value_error).
Proof.
  intros H1 H2 H3. induction ins as [|[k [t dt]] ins IH]; [done|]. cbn [parameters_to_bind].
  rewrite IH; [|intros; apply H1; [by right|done]|intros; apply H2; [by right|done]]. clear IH.
  unfold kwargs. cbn [omap list_omap fst]. rewrite (filter_cons _ (k, (t, dt))). cbn [fst snd]. change (dkeys ((k, (t, dt)) :: ins)) with (k :: dkeys ins). rewrite (filter_cons _ k).
  destruct (decide (k ∈ cols)) as [Hk|Hk].
  - rewrite (H2 k) by (done || by left). cbn [fmap option_fmap option_map]. destruct (decide (dt = REQUIRED /\ None = None)) as [Hd|Hd].
    + destruct (decide (Forall _ (_ :: _))) as [G|G]; match goal with |- context [decide (Forall ?P ?l)] => destruct (decide (Forall P l)) as [F|F] end; try done; exfalso.
      * apply F. by apply Forall_cons in G as [_ ?].
      * apply G. by apply Forall_cons.
    + by destruct (decide (Forall _ _)).
  - rewrite (H1 k) by (done || by left). destruct (ext !! k) as [w|] eqn:Hw.
    + destruct (decide (dt = REQUIRED /\ Some w = None)) as [[_ ?]|_]; [done|]. cbn [fmap option_fmap option_map].
      destruct w as [d|x|u]; [by apply H3 in Hw| |]; by destruct (decide (Forall _ _)).
    + cbn [fmap option_fmap option_map]. destruct (decide (dt = REQUIRED)) as [Hd|Hd].
      * destruct (decide (dt = REQUIRED /\ None = None)) as [_|Hn]; [|by destruct Hn]. rewrite decide_False; [done|]. by intros [? _]%Forall_cons.
      * destruct (decide (dt = REQUIRED /\ None = None)) as [[? _]|_]; [done|]. by destruct (decide (Forall _ _)).
Qed.

Lemma existsb_elem (l : list bool) : existsb id l = bool_decide (true ∈ l).
Proof.
  induction l as [|b l IH]; [done|]. cbn. rewrite IH. destruct b; cbn.
  - rewrite bool_decide_eq_true_2 by by left. done.
  - apply bool_decide_ext. rewrite elem_of_cons. naive_solver.
Qed.
Lemma forallb_elem (l : list bool) : forallb id l = negb (bool_decide (false ∈ l)).
Proof.
  induction l as [|b l IH]; [done|]. cbn. rewrite IH. destruct b; cbn.
  - f_equal. apply bool_decide_ext. rewrite elem_of_cons. naive_solver.
  - rewrite bool_decide_eq_true_2 by by left. done.
Qed.
Lemma Forall_filter_iff {A} (P Q : A -> Prop) l : (forall x, x ∈ l -> P x <-> Q x) -> Forall P l <-> Forall Q l.
Proof. intros H. rewrite !Forall_forall. naive_solver. Qed.
Lemma filter_ext_elem {A} (P Q : A -> Prop) `{forall x, Decision (P x)} `{forall x, Decision (Q x)} (l : list A) :
  (forall x, x ∈ l -> P x <-> Q x) -> filter P l = filter Q l.
Proof.
  intros HPQ. induction l as [|x l IH]; [done|]. rewrite !filter_cons, IH by (intros; apply HPQ; by right).
  destruct (decide (P x)) as [HP|HP], (decide (Q x)) as [HQ|HQ]; try done; exfalso; apply HP + apply HQ; apply HPQ; [by left|done|by left|done].
Qed.

Lemma lambda_ok (n : node) (d : dict C) (kw : dict V) (reads : list name) (ext : gmap name V) :
  NoDup (dkeys (pn_inputs n)) ->
  (forall k, k ∈ dkeys (pn_inputs n) -> k ∉ dkeys d -> dget kw k = ext !! k) ->
  (forall k, k ∈ dkeys (pn_inputs n) -> k ∈ dkeys d -> ext !! k = None /\ k ∈ reads) ->
  (forall k d, ext !! k <> Some (SDf d)) ->
  lambda n d kw = match udf_column n (pick reads d) ext with Ok c => Ok (SDf (dset d (pn_name n) c)) | Err e => Err e end.
Proof.
  intros N H1 H2 H3. unfold lambda_udf, SparkSpec.udf_column. rewrite (parameters_ok kw (dkeys d) ext); [|done|intros k Hk Hd; by apply H2|done].
  assert (Hp : forall k, k ∈ dkeys (pn_inputs n) -> k ∈ dkeys d <-> is_Some (pick reads d !! k)).
  { intros k Hk. rewrite lookup_pick, <- dget_Some_key. split.
    - intros Hd. rewrite decide_True; [done|]. apply H2; [done|]. by apply dget_Some_key.
    - intros [c Hc]. destruct (decide (k ∈ reads)); [|done]. by eexists. }
  set (req := filter _ (pn_inputs n)).
  assert (Hreq : forall kt, kt ∈ req -> kt.1 ∈ dkeys (pn_inputs n)).
  { intros kt [_ Hkt]%elem_of_list_filter. by apply elem_of_list_fmap_1. }
  rewrite (decide_ext (Forall (fun kt : name * (T * deptype) => kt.1 ∈ dkeys d) req) (Forall (fun kt : name * (T * deptype) => is_Some (pick reads d !! kt.1)) req))
    by (apply Forall_filter_iff; intros kt Hkt; apply Hp; by apply Hreq).
  destruct (decide (Forall _ req)) as [F|F]; [|done].
  assert (Ha : pandas_annotations is_series n (kwargs (pn_inputs n) ext) = map (fun kt => is_series kt.2.1) req).
  { unfold pandas_annotations, req. f_equal. apply filter_ext_elem. intros kt Hkt. rewrite dget_kwargs, decide_True by by apply elem_of_list_fmap_1. tauto. }
  rewrite Ha. rewrite existsb_elem, forallb_elem.
  assert (Hps : filter (fun k => k ∈ dkeys d) (dkeys (pn_inputs n)) = filter (fun k => is_Some (pick reads d !! k)) (dkeys (pn_inputs n))).
  { apply filter_ext_elem. intros k Hk. by apply Hp. }
  rewrite Hps. set (ps := filter (fun k => is_Some (pick reads d !! k)) (dkeys (pn_inputs n))).
  assert (Hm : mapM (dget d) (sort ps) = mapM (fun k => pick reads d !! k) (sort ps)).
  { assert (Hin : forall k, k ∈ sort ps -> dget d k = pick reads d !! k).
    { intros k Hk. rewrite sort_perm in Hk. apply elem_of_list_filter in Hk as [Hs Hk]. rewrite lookup_pick. rewrite lookup_pick in Hs.
      destruct (decide (k ∈ reads)); [done|]. by destruct Hs. }
    revert Hin. generalize (sort ps). induction l as [|x l IH]; intros Hin; [done|]. cbn. rewrite (Hin x) by by left. by rewrite IH by (intros; apply Hin; by right). }
  assert (Hd : is_Some (mapM (fun k => pick reads d !! k) (sort ps))).
  { apply mapM_is_Some, Forall_forall. intros k Hk. rewrite sort_perm in Hk. by apply elem_of_list_filter in Hk as [? _]. }
  destruct Hd as [cols Hcols].
  cbv zeta. rewrite Hm, Hcols. destruct (decide (true ∈ _)) as [Ht|Ht].
  - rewrite bool_decide_eq_true_2 by done. destruct (decide (false ∈ _)) as [Hf|Hf].
    + rewrite bool_decide_eq_true_2 by done. done.
    + rewrite bool_decide_eq_false_2 by done. cbn [negb]. by destruct (series_type (pn_type n)).
  - rewrite bool_decide_eq_false_2 by done. by destruct (spark_type (pn_type n)).
Qed.

(** ** One node of the chain *)
Notation sparkify := (sparkify is_series df_type spark_type series_type value_error attribute_error analysis_error sort spark_apply).
Section Step.
Variable st : spark_wc.
Variable p : name.
Notation cols := (default [] (sw_columns st)).
Variable nodes : list (snode C U E T).
Notation names := (map sn_name nodes).
(** The functions that are run. *)
Variable kept : list name.
Hypothesis kept_names : forall k, k ∈ kept -> k ∈ names.
Hypothesis p_names : p ∉ names.
Variable s : snode C U E T.
Hypothesis s_deps : forall k, k ∈ dkeys (pn_inputs (sn s)) -> k ∈ names -> k ∈ kept.
Hypothesis s_nodup : NoDup (dkeys (pn_inputs (sn s))).
Hypothesis s_p : p ∈ dkeys (pn_inputs (sn s)) -> exists l, sn_tag s = Some (p, l).
Variable f : colfn (C := C) (U := U) (E := E).
Hypothesis s_f : implements names cols s f.
Variable L : name.
Hypothesis L_ok : L ∈ kept \/ L = p.
Notation n' := (sparkify st p kept L s).

Lemma ext_key k dt : (k, dt) ∈ cf_ext f -> exists t, (k, (t, dt)) ∈ pn_inputs (sn s) /\ k ∉ names /\ k ∉ cols /\ k <> p /\ match sn_tag s with Some (t, _) => k <> t | None => True end.
Proof.
  unfold SparkSpec.implements in s_f. destruct (sn_tag s) as [[target l]|] eqn:Et.
  - intros Hk. destruct (adds_ext _ _ _ _ _ s_f k dt Hk) as ((t & Ht) & H1 & H2 & H3). exists t. split_and!; [done|done|done| |done].
    intros ->. destruct s_p as [l' Hl]; [by eapply elem_dkeys|]. congruence.
  - rewrite s_f. cbn. intros ([k' [t dt']] & [= -> ->] & Hk)%elem_of_list_fmap. cbn in Hk. apply elem_of_list_filter in Hk as [[H1 H2] Hk]. cbn in H1, H2.
    exists t. split_and!; [done|done|done| |done]. intros ->. destruct s_p as [l' Hl]; [by eapply elem_dkeys|]. congruence.
Qed.
Lemma L_not_ext k dt : (k, dt) ∈ cf_ext f -> k <> L.
Proof. intros Hk ->. apply ext_key in Hk as (t & _ & H1 & _ & H2 & _). destruct L_ok as [H | H]; [by apply H1, kept_names|done]. Qed.

Lemma inputs_get : NoDup (dkeys (pn_inputs n')) /\ dget (pn_inputs n') L = Some (df_type, REQUIRED) /\
  forall k, k <> L ->
    (k ∈ dkeys (cf_ext f) -> dget (pn_inputs n') k = dget (pn_inputs (sn s)) k) /\
    (k ∉ dkeys (cf_ext f) -> dget (pn_inputs n') k = None \/
       dget (pn_inputs n') k = Some (df_type, REQUIRED) /\ (k = p \/ (k ∈ dkeys (pn_inputs (sn s)) /\ k ∈ kept))).
Proof.
  unfold SparkModel.sparkify. pose proof s_f as Sf. unfold SparkSpec.implements in Sf.
  assert (Ekey : forall k, k ∈ dkeys (cf_ext f) -> k ∉ names /\ k ∉ cols /\ k <> p /\ match sn_tag s with Some (t, _) => k <> t | None => True end).
  { intros k ([k' dt] & -> & Hk)%elem_of_list_fmap. apply ext_key in Hk as (t & _ & H). exact H. }
  destruct (sn_tag s) as [[target l]|] eqn:Et; cbn [sparkify_df sparkify_udf pn_inputs].
  - set (i1 := filter _ (pn_inputs (sn s))). set (i2 := dset i1 L _). set (i3 := foldl _ i2 _).
    assert (N3 : NoDup (dkeys i3)) by by apply NoDup_foldl_dset, NoDup_dkeys_dset, NoDup_dkeys_filter.
    assert (G3 : forall k, dget i3 k = if decide (k ∈ kept /\ k ∈ dkeys (pn_inputs (sn s))) then Some (df_type, REQUIRED)
      else if decide (k = L) then Some (df_type, REQUIRED) else if decide (k <> target /\ k ∉ cols) then dget (pn_inputs (sn s)) k else None).
    { intros k. unfold i3. rewrite dget_foldl_dset. rewrite (decide_ext _ _ _ _ (elem_of_list_filter _ _ k)).
      destruct (decide _); [done|]. unfold i2. rewrite dget_dset. destruct (decide (k = L)); [done|].
      unfold i1. rewrite (dget_filter _ (fun k => k <> target /\ k ∉ cols)) by done. done. }
    destruct (bool_decide (sw_pass_as st = Some target)).
    + split_and!; [by apply NoDup_dkeys_dset| |].
      * rewrite dget_dset, G3. repeat case_decide; done.
      * intros k HkL. rewrite dget_dset, G3. split.
        -- intros Hk. destruct (Ekey k Hk) as (E1 & E2 & E3 & E4). rewrite decide_False by done. rewrite decide_False by (intros [? _]; by apply E1, kept_names).
           rewrite decide_False by done. by rewrite decide_True by done.
        -- intros Hk. destruct (decide (k = p)) as [-> | Hkp]; [right; split; [done|by left]|].
           destruct (decide (k ∈ kept /\ _)) as [[? ?]|Hg]; [right; split; [done|by right]|]. rewrite decide_False by done. left.
           destruct (decide (k <> target /\ k ∉ cols)) as [[H1 H2]|]; [|done]. destruct (dget (pn_inputs (sn s)) k) as [[t dt]|] eqn:Eg; [|done]. exfalso.
           apply dget_elem in Eg. destruct (adds_all _ _ _ _ _ Sf k t dt Eg) as [? | [Hn | [? | He]]]; [done| |done|].
           ++ apply Hg. pose proof (elem_dkeys _ _ _ _ Eg). split; [by apply s_deps|done].
           ++ apply Hk. apply elem_of_list_fmap. by exists (k, dt).
    + split_and!; [done| |].
      * rewrite G3. repeat case_decide; done.
      * intros k HkL. rewrite G3. split.
        -- intros Hk. destruct (Ekey k Hk) as (E1 & E2 & E3 & E4). rewrite decide_False by (intros [? _]; by apply E1, kept_names).
           rewrite decide_False by done. by rewrite decide_True by done.
        -- intros Hk. destruct (decide (k ∈ kept /\ _)) as [[? ?]|Hg]; [right; split; [done|by right]|]. rewrite decide_False by done. left.
           destruct (decide (k <> target /\ k ∉ cols)) as [[H1 H2]|]; [|done]. destruct (dget (pn_inputs (sn s)) k) as [[t dt]|] eqn:Eg; [|done]. exfalso.
           apply dget_elem in Eg. destruct (adds_all _ _ _ _ _ Sf k t dt Eg) as [? | [Hn | [? | He]]]; [done| |done|].
           ++ apply Hg. pose proof (elem_dkeys _ _ _ _ Eg). split; [by apply s_deps|done].
           ++ apply Hk. apply elem_of_list_fmap. by exists (k, dt).
  - set (g := filter (fun k => k ∈ kept) (dkeys (pn_inputs (sn s)))). set (fr := filter (fun k => k ∈ cols) (dkeys (pn_inputs (sn s)))).
    assert (Hp : p ∉ dkeys (pn_inputs (sn s))) by (intros Hp; destruct (s_p Hp); congruence).
    rewrite (bool_decide_eq_false_2 (p ∈ dkeys (pn_inputs (sn s)))) by done. rewrite andb_false_r.
    set (i1 := filter _ (pn_inputs (sn s))). set (i2 := dset i1 L _). set (i3 := foldl _ i2 _).
    assert (N3 : NoDup (dkeys i3)) by by apply NoDup_foldl_dset, NoDup_dkeys_dset, NoDup_dkeys_filter.
    assert (G3 : forall k, dget i3 k = if decide (k ∈ kept /\ k ∈ dkeys (pn_inputs (sn s))) then Some (df_type, REQUIRED)
      else if decide (k = L) then Some (df_type, REQUIRED) else if decide (k ∉ fr) then dget (pn_inputs (sn s)) k else None).
    { intros k. unfold i3. rewrite dget_foldl_dset. unfold g. rewrite (decide_ext _ _ _ _ (elem_of_list_filter _ _ k)).
      destruct (decide _); [done|]. unfold i2. rewrite dget_dset. destruct (decide (k = L)); [done|].
      unfold i1. rewrite (dget_filter _ (fun k => k ∉ fr)) by done. done. }
    assert (GN : forall k, k <> L -> k ∉ dkeys (cf_ext f) -> ~ (k ∈ kept /\ k ∈ dkeys (pn_inputs (sn s))) -> k ∉ fr -> dget (pn_inputs (sn s)) k = None).
    { intros k HkL Hk Hg Hf. destruct (dget (pn_inputs (sn s)) k) as [[t dt]|] eqn:Eg; [|done]. exfalso. apply dget_elem in Eg.
      pose proof (elem_dkeys _ _ _ _ Eg) as Hi. apply Hk. rewrite Sf. cbn. apply elem_of_list_fmap. exists (k, dt). split; [done|].
      apply elem_of_list_fmap. exists (k, (t, dt)). split; [done|]. apply elem_of_list_filter. cbn. split; [|done]. split.
      - intros Hn. apply Hg. split; [by apply s_deps|done].
      - intros Hc. apply Hf. by apply elem_of_list_filter. }
    assert (EF : forall k, k ∈ dkeys (cf_ext f) -> ~ (k ∈ kept /\ k ∈ dkeys (pn_inputs (sn s))) /\ k ∉ fr /\ k <> p).
    { intros k Hk. destruct (Ekey k Hk) as (E1 & E2 & E3 & _). split_and!; [intros [? _]; by apply E1, kept_names| |done]. by intros [? _]%elem_of_list_filter. }
    destruct (bool_decide (fr = [])).
    + split_and!; [done| |].
      * rewrite G3. repeat case_decide; done.
      * intros k HkL. rewrite G3. split.
        -- intros Hk. destruct (EF k Hk) as (E1 & E2 & E3). by rewrite decide_False, decide_False, decide_True by done.
        -- intros Hk. destruct (decide (k ∈ kept /\ _)) as [[? ?]|Hg]; [right; split; [done|by right]|]. rewrite decide_False by done. left.
           destruct (decide (k ∉ fr)); [|done]. by apply GN.
    + split_and!; [by apply NoDup_dkeys_dset| |].
      * rewrite dget_dset, G3. repeat case_decide; done.
      * intros k HkL. rewrite dget_dset, G3. split.
        -- intros Hk. destruct (EF k Hk) as (E1 & E2 & E3). by rewrite decide_False, decide_False, decide_False, decide_True by done.
        -- intros Hk. destruct (decide (k = p)) as [-> | Hkp]; [right; split; [done|by left]|].
           destruct (decide (k ∈ kept /\ _)) as [[? ?]|Hg]; [right; split; [done|by right]|]. rewrite decide_False by done. left.
           destruct (decide (k ∉ fr)); [|done]. by apply GN.
Qed.

Lemma ext_in k : k ∈ dkeys (cf_ext f) -> k ∈ dkeys (pn_inputs n').
Proof.
  intros Hk. pose proof Hk as ([k' dt] & -> & He)%elem_of_list_fmap. cbn in *. pose proof (L_not_ext _ _ He) as HL.
  destruct inputs_get as (_ & _ & G). destruct (G k' HL) as [G1 _]. apply dget_Some_key. rewrite G1 by done.
  apply ext_key in He as (t & Ht & _). apply dget_Some_key. by eapply elem_dkeys.
Qed.
Lemma ext_type k dt : (k, dt) ∈ cf_ext f -> exists t, (k, (t, dt)) ∈ pn_inputs n'.
Proof.
  intros He. assert (Hk : k ∈ dkeys (cf_ext f)) by (apply elem_of_list_fmap; by exists (k, dt)). pose proof (L_not_ext _ _ He) as HL.
  destruct inputs_get as (_ & _ & G). destruct (G k HL) as [G1 _]. apply ext_key in He as (t & Ht & _). exists t. apply dget_elem. rewrite G1 by done. by apply elem_dget.
Qed.

(** What it computes on the dataframe [d]. *)
Definition mext (m : gmap name V) : gmap name V := pick (dkeys (cf_ext f)) (kwargs (pn_inputs n') m).
Lemma mext_get m k : mext m !! k = if decide (k ∈ dkeys (cf_ext f)) then m !! k else None.
Proof. unfold mext. rewrite lookup_pick. destruct (decide (k ∈ dkeys (cf_ext f))) as [Hk|]; [|done]. rewrite dget_kwargs, decide_True; [done|by apply ext_in]. Qed.

Lemma step_call (m : gmap name V) d : m !! L = Some (SDf d) ->
  (sn_tag s = None -> forall k, k ∈ dkeys (cf_ext f) -> k ∉ dkeys d /\ forall d', m !! k <> Some (SDf d')) ->
  pn_call n' (kwargs (pn_inputs n') m) =
  match cf_call f (pick (cf_reads f) d) (mext m) with Ok c => Ok (SDf (dset d (sn_name s) c)) | Err e => Err e end.
Proof.
  intros HL Hx. destruct inputs_get as (N & GL & G).
  assert (Ekey : forall k, k ∈ dkeys (cf_ext f) -> k ∉ names /\ k ∉ cols /\ k <> p /\ k <> L).
  { intros k ([k' dt] & -> & Hk)%elem_of_list_fmap. pose proof (L_not_ext _ _ Hk). apply ext_key in Hk as (t & _ & H1 & H2 & H3 & _). done. }
  assert (HkL : dget (kwargs (pn_inputs n') m) L = Some (SDf d)).
  { rewrite dget_kwargs, decide_True; [done|]. apply dget_Some_key. by rewrite GL. }
  assert (Nk : NoDup (dkeys (kwargs (pn_inputs n') m))) by by apply NoDup_kwargs.
  pose proof s_f as Sf. unfold SparkSpec.implements in Sf. pose proof mext_get as Mg.
  assert (Hm : mext m = pick (dkeys (cf_ext f)) (kwargs (pn_inputs n') m)) by done. revert Hm Mg. generalize (mext m) as me. intros me Hm Mg.
  assert (Mget : forall k, me !! k = if decide (k ∈ dkeys (cf_ext f)) then m !! k else None) by (intros k; rewrite Hm; apply (mext_get m k)).
  clear Mg. revert Hm HkL Nk. set (kw := kwargs (pn_inputs n') m).
  assert (Hkw : forall k, k ∈ dkeys (cf_ext f) -> dget kw k = m !! k).
  { intros k Hk. unfold kw. rewrite dget_kwargs, decide_True; [done|by apply ext_in]. }
  clearbody kw. intros Hm HkL Nk. unfold SparkModel.sparkify. destruct (sn_tag s) as [[target l]|] eqn:Et; cbn [sparkify_df sparkify_udf pn_call].
  - rewrite HkL. rewrite (adds_call _ _ _ _ _ Sf (dset kw target (SDf d)) d); [|by apply NoDup_dkeys_dset|by rewrite dget_dset, decide_True].
    assert (pick (dkeys (cf_ext f)) (dset kw target (SDf d)) = me) as ->; [|done].
    rewrite Hm. apply map_eq. intros k. rewrite !lookup_pick. destruct (decide (k ∈ dkeys (cf_ext f))) as [Hk|]; [|done].
    rewrite dget_dset_ne; [done|]. intros ->. apply elem_of_list_fmap in Hk as ([k dt] & -> & Hk). cbn in *. by apply (adds_ext _ _ _ _ _ Sf) in Hk as (_ & ? & _).
  - unfold dataframe_of. rewrite HkL.
    assert (Hc : cf_call f = udf_column (sn s)) by by rewrite Sf. rewrite Hc.
    assert (Hext : forall k, k ∈ dkeys (pn_inputs (sn s)) -> k ∈ dkeys (cf_ext f) \/ (k ∈ names \/ k ∈ cols)).
    { intros k Hk. destruct (decide (k ∈ names)); [by right; left|]. destruct (decide (k ∈ cols)); [by right; right|]. left.
      apply elem_of_list_fmap in Hk as ([k' [t dt]] & -> & Hk). rewrite Sf. cbn. apply elem_of_list_fmap. exists (k', dt). split; [done|].
      apply elem_of_list_fmap. exists (k', (t, dt)). split; [done|]. apply elem_of_list_filter. cbn. done. }
    apply lambda_ok; [done| | |].
    + intros k Hk Hd. rewrite (dget_filter _ (fun k => k ∉ filter (fun k => k ∈ cols) (dkeys (pn_inputs (sn s))) /\ k ∉ filter (fun k => k ∈ kept) (dkeys (pn_inputs (sn s))) /\ k <> L /\ k <> p)) by done.
      rewrite Mget. destruct (Hext k Hk) as [He | Hn].
      * destruct (Ekey k He) as (E1 & E2 & E3 & E4). rewrite decide_True, (decide_True (P := k ∈ dkeys _)) by (done || split_and!; try done; intros [? _]%elem_of_list_filter; auto). by apply Hkw.
      * rewrite decide_False.
        -- rewrite decide_False; [done|]. intros He. apply Ekey in He as (E1 & E2 & _). tauto.
        -- intros (F1 & F2 & _). destruct Hn as [Hn | Hn]; [apply F2|apply F1]; apply elem_of_list_filter; split; auto.
    + intros k Hk Hd. rewrite Mget. destruct (Hext k Hk) as [He | Hn].
      * exfalso. by apply (Hx eq_refl k He).
      * split.
        -- rewrite decide_False; [done|]. intros He. apply Ekey in He as (E1 & E2 & _). tauto.
        -- rewrite Sf. cbn. by apply elem_of_list_filter.
    + intros k d'. rewrite Mget. destruct (decide (k ∈ dkeys (cf_ext f))) as [He|]; [|done]. by apply (Hx eq_refl k He).
Qed.
End Step.

Lemma implements_name names cols (x : snode C U E T) f : implements names cols x f -> cf_name f = sn_name x.
Proof. unfold SparkSpec.implements. destruct (sn_tag x) as [[target l]|]; [intros H; by apply H|by intros ->]. Qed.

(** ** The chain *)
Notation chain := (chain is_series df_type spark_type series_type value_error attribute_error analysis_error sort spark_apply).
Definition lastname (L : name) (l : list (snode C U E T)) : name := match last l with Some x => sn_name x | None => L end.
Lemma lastname_cons L x l : lastname L (x :: l) = lastname (sn_name x) l.
Proof. unfold lastname. destruct l as [|y l] using rev_ind; [done|]. rewrite app_comm_cons, !last_snoc. done. Qed.
Lemma lastname_snoc L x l : lastname L (l ++ [x]) = sn_name x.
Proof. unfold lastname. by rewrite last_snoc. Qed.
Lemma sparkify_name st base group L x : pn_name (sparkify st base group L x) = sn_name x.
Proof. unfold SparkModel.sparkify. by destruct (sn_tag x) as [[target l]|]. Qed.
Lemma chain_names st base group l : forall L, map pn_name (chain st base group L l).1 = map sn_name l /\ (chain st base group L l).2 = lastname L l.
Proof.
  induction l as [|x l IH]; intros L; [done|]. cbn [SparkModel.chain]. rewrite sparkify_name. specialize (IH (sn_name x)).
  destruct (chain st base group (sn_name x) l) as [out lst]. cbn in *. destruct IH as [<- ->]. split; [by rewrite sparkify_name|by rewrite lastname_cons].
Qed.
Lemma chain_in st base group l : forall L n, n ∈ (chain st base group L l).1 <->
  exists l1 x l2, l = l1 ++ x :: l2 /\ n = sparkify st base group (lastname L l1) x.
Proof.
  induction l as [|x l IH]; intros L n; cbn [SparkModel.chain].
  - split; [by intros []%elem_of_nil|]. intros ([|? ?] & ? & ? & ? & _); done.
  - rewrite sparkify_name. specialize (IH (sn_name x) n). destruct (chain st base group (sn_name x) l) as [out lst]. cbn in *. rewrite elem_of_cons, IH. split.
    + intros [-> | (l1 & y & l2 & -> & ->)]; [by exists [], x, l|]. exists (x :: l1), y, l2. split; [done|]. by rewrite lastname_cons.
    + intros ([|z l1] & y & l2 & [= -> ->] & ->); [by left|]. right. exists l1, y, l2. split; [done|]. by rewrite lastname_cons.
Qed.
Lemma lastname_in L l : lastname L l = L \/ lastname L l ∈ map sn_name l.
Proof. unfold lastname. destruct (last l) as [x|] eqn:H; [|by left]. right. apply last_Some in H as [l' ->]. rewrite map_app. apply elem_of_app. right. by left. Qed.

Variable captured : dict V -> res (nerr E) V.
Section Value.
Variable ns : dict node.
Variable env : gmap name V.
Variable st : spark_wc.
Variable p N : name.
Variable d0 : dict C.
Variable nodes ss : list (snode C U E T).
Variable fs : list (colfn (C := C) (U := U) (E := E)).
Variable ex : list node.
Notation cols := (default [] (sw_columns st)).
Notation names := (map sn_name nodes).
Notation kept := (map sn_name ss).
Notation out := ((chain st p kept p ss).1 ++ ex).
Hypothesis W : forall y n, dget ns y = Some n -> NoDup (dkeys (pn_inputs n)).
Hypothesis F : spark_fits nodes cols p N.
Hypothesis FS : Forall2 (implements names cols) nodes fs.
Hypothesis UA : udf_apart ns env nodes cols d0.
Hypothesis Nd0 : NoDup (dkeys d0).
Hypothesis Hdf : value ns env p (SDf d0).
Hypothesis S1 : forall x, x ∈ ss -> x ∈ nodes.
Hypothesis S2 : NoDup kept.
Hypothesis S3 : forall l1 x l2, ss = l1 ++ x :: l2 -> forall k, k ∈ dkeys (pn_inputs (sn x)) -> k ∈ names -> k ∈ map sn_name l1.
Hypothesis EX : ex = [] \/ exists e, ex = [e] /\ pn_name e = "_select" /\ pn_inputs e = [(lastname p ss, (df_type, REQUIRED))].
Hypothesis in_graph : forall n, n ∈ add_namespace captured out N [] [] -> dget ns (pn_name n) = Some n.

Lemma kept_names k : k ∈ kept -> k ∈ names.
Proof. intros (x & -> & Hx)%elem_of_list_fmap. apply elem_of_list_fmap_1. by apply S1. Qed.
Lemma fs_names : map cf_name fs = names.
Proof. revert FS. generalize names at 1. intros q FS'. clear -FS'. induction FS' as [|x f l k H _ IH]; [done|]. cbn. rewrite IH. f_equal. by eapply implements_name. Qed.
Lemma fs_nodup : NoDup (map cf_name fs).
Proof. rewrite fs_names. apply F. Qed.
Lemma sem x : x ∈ nodes -> exists f, f ∈ fs /\ implements names cols x f /\ cf_name f = sn_name x.
Proof.
  intros Hx. apply elem_of_list_lookup in Hx as [i Hi]. destruct (Forall2_lookup_l _ _ _ _ _ FS Hi) as (f & Hf & Hp).
  exists f. split_and!; [by eapply elem_of_list_lookup_2|done|by eapply implements_name].
Qed.
Lemma fs_unique f f' : f ∈ fs -> f' ∈ fs -> cf_name f = cf_name f' -> f = f'.
Proof.
  intros Hf Hf' H. pose proof fs_nodup as N'. clear -Hf Hf' H N'. induction fs as [|g l IH]; [by apply elem_of_nil in Hf|].
  cbn in N'. apply NoDup_cons in N' as [N1 N2]. apply elem_of_cons in Hf as [-> | Hf]; apply elem_of_cons in Hf' as [-> | Hf'].
  - done.
  - exfalso. apply N1. rewrite H. by apply elem_of_list_fmap_1.
  - exfalso. apply N1. rewrite <- H. by apply elem_of_list_fmap_1.
  - by apply IH.
Qed.
Lemma colval_fun x c : colval ns env fs d0 x c -> forall c', colval ns env fs d0 x c' -> c = c'.
Proof.
  induction 1 as [x c Hx Hc|f cm ext c Hf R1 R2 IH R3 [X1 X2] Hc]; intros c' H'.
  - inversion H' as [x' c2 Hx' Hc'|f' cm' ext' c2 Hf']; subst; [congruence|]. exfalso. apply Hx. by apply elem_of_list_fmap_1.
  - inversion H' as [x' c2 Hx' Hc'|f' cm' ext' c2 Hf' R1' R2' R3' [X1' X2'] Hc' Heq]; subst.
    { exfalso. apply Hx'. by apply elem_of_list_fmap_1. }
    assert (f' = f) as -> by by apply fs_unique.
    assert (cm = cm') as <-.
    { apply map_eq. intros k. destruct (cm !! k) as [u|] eqn:E1, (cm' !! k) as [u'|] eqn:E2; [|exfalso|exfalso|done].
      - f_equal. apply (IH k u E1). by apply R2'.
      - destruct (R3' k (R1 _ _ E1) E2) as [Hn Hd]. specialize (R2 _ _ E1). inversion R2 as [|g ? ? ? Hg]; subst; [congruence|]. apply Hn. by apply elem_of_list_fmap_1.
      - destruct (R3 k (R1' _ _ E2) E1) as [Hn Hd]. specialize (R2' _ _ E2). inversion R2' as [|g ? ? ? Hg]; subst; [congruence|]. apply Hn. by apply elem_of_list_fmap_1. }
    assert (ext = ext') as <-.
    { apply map_eq. intros k. destruct (decide (k ∈ dkeys (cf_ext f))) as [Hk|Hk].
      - apply elem_of_list_fmap in Hk as ([k' dt] & -> & Hk). cbn. specialize (X2 _ _ Hk). specialize (X2' _ _ Hk). unfold given in X2, X2'.
        destruct (ext !! k') as [w|], (ext' !! k') as [w'|]; [f_equal; by eapply value_fun| | |done].
        + destruct X2' as (_ & D1 & D2). apply value_input_iff in X2; [congruence|done].
        + destruct X2 as (_ & D1 & D2). apply value_input_iff in X2'; [congruence|done].
      - destruct (ext !! k) eqn:E1; [by apply X1 in E1|]. destruct (ext' !! k) eqn:E2; [by apply X1' in E2|done]. }
    congruence.
Qed.

Lemma colval_inv x c : colval ns env fs d0 x c -> (x ∉ map cf_name fs /\ dget d0 x = Some c) \/
  exists f cm ext, f ∈ fs /\ cf_name f = x /\ (forall k u, cm !! k = Some u -> k ∈ cf_reads f) /\ (forall k u, cm !! k = Some u -> colval ns env fs d0 k u) /\
    (forall k, k ∈ cf_reads f -> cm !! k = None -> k ∉ map cf_name fs /\ dget d0 k = None) /\ externals ns env f ext /\ cf_call f cm ext = Ok c.
Proof. destruct 1; [by left|]. right. by exists f, cm, ext. Qed.

(** *** Namespacing *)
Lemma out_names : map pn_name out = kept ++ map pn_name ex.
Proof. rewrite map_app. f_equal. apply chain_names. Qed.
Lemma select_not_kept : "_select" ∉ kept.
Proof. intros (x & Hx & Hin)%elem_of_list_fmap. apply S1 in Hin. by apply (sf_fn _ _ _ _ F) in Hin as (? & _). Qed.
Lemma ex_names k : k ∈ map pn_name ex -> k = "_select".
Proof. destruct EX as [-> | (e & -> & He & _)]; [by intros []%elem_of_nil|]. cbn. rewrite He. by intros ?%elem_of_list_singleton. Qed.
Lemma declared_out k : declared (E := E) out [] [] k <-> k ∈ kept \/ k ∈ map pn_name ex.
Proof. unfold declared. rewrite out_names. cbn. rewrite elem_of_app, elem_of_nil. tauto. Qed.
Lemma split_facts l1 x l2 : ss = l1 ++ x :: l2 ->
  x ∈ nodes /\ (forall k, k ∈ dkeys (pn_inputs (sn x)) -> k ∈ names -> k ∈ kept) /\ (lastname p l1 ∈ kept \/ lastname p l1 = p).
Proof.
  intros Hs. split_and!.
  - apply S1. rewrite Hs. apply elem_of_app. right. by left.
  - intros k Hk Hn. pose proof (S3 _ _ _ Hs k Hk Hn) as H. rewrite Hs, map_app. apply elem_of_app. by left.
  - destruct (lastname_in p l1) as [H|H]; [by right|]. left. rewrite Hs, map_app. apply elem_of_app. by left.
Qed.
Lemma step_inputs l1 x l2 f : ss = l1 ++ x :: l2 -> implements names cols x f ->
  let n' := sparkify st p kept (lastname p l1) x in
  NoDup (dkeys (pn_inputs n')) /\ dget (pn_inputs n') (lastname p l1) = Some (df_type, REQUIRED) /\
  forall k, k <> lastname p l1 ->
    (k ∈ dkeys (cf_ext f) -> dget (pn_inputs n') k = dget (pn_inputs (sn x)) k) /\
    (k ∉ dkeys (cf_ext f) -> dget (pn_inputs n') k = None \/
       dget (pn_inputs n') k = Some (df_type, REQUIRED) /\ (k = p \/ (k ∈ dkeys (pn_inputs (sn x)) /\ k ∈ kept))).
Proof.
  intros Hs Hf. destruct (split_facts _ _ _ Hs) as (Hx & Hd & HL).
  exact (inputs_get st p nodes kept kept_names x Hd (proj1 (proj2 (sf_fn _ _ _ _ F x Hx))) (sf_p_in _ _ _ _ F x Hx) f Hf _).
Qed.
Lemma ext_facts x f k dt : x ∈ nodes -> implements names cols x f -> (k, dt) ∈ cf_ext f ->
  k ∈ dkeys (pn_inputs (sn x)) /\ k ∉ names /\ k ∉ cols /\ k <> p /\ k <> "_select".
Proof.
  intros Hx Hf Hk. destruct (ext_key st p nodes x (sf_p_in _ _ _ _ F x Hx) f Hf k dt Hk) as (t & Ht & H1 & H2 & H3 & _).
  pose proof (elem_dkeys _ _ _ _ Ht) as Hi. split_and!; [done|done|done|done|]. intros ->. by apply (sf_fn _ _ _ _ F) in Hx as (_ & _ & ?).
Qed.
Lemma out_wd : well_declared (E := E) out [] [].
Proof.
  unfold well_declared. split_and!.
  - rewrite out_names. apply NoDup_app. split_and!; [done| |].
    + intros k Hk ->%ex_names. by apply select_not_kept.
    + destruct EX as [-> | (e & -> & _)]; [apply NoDup_nil_2|apply NoDup_singleton].
  - intros n [Hn | Hn]%elem_of_app.
    + apply chain_in in Hn as (l1 & x & l2 & Hs & ->). destruct (split_facts _ _ _ Hs) as (Hx & _). destruct (sem x Hx) as (f & _ & Hf & _).
      apply (step_inputs _ _ _ f Hs Hf).
    + destruct EX as [-> | (e & -> & _ & He)]; [by apply elem_of_nil in Hn|]. apply elem_of_list_singleton in Hn as ->. rewrite He. apply NoDup_singleton.
  - apply NoDup_nil_2.
  - apply NoDup_nil_2.
  - by intros k []%elem_of_nil.
  - by intros k []%elem_of_nil.
Qed.
Lemma out_apart n k : n ∈ out -> k ∈ dkeys (pn_inputs n) -> ~ declared (E := E) out [] [] k ->
  k ∉ sub_reserved /\ forall k', k' ∈ dkeys (pn_inputs n) -> k <> assign_namespace k' N.
Proof.
  intros Hn Hk Hd. rewrite declared_out in Hd. destruct (sf_p_name _ _ _ _ F) as (_ & Hp1 & Hp2).
  apply elem_of_app in Hn as [Hn | Hn].
  - apply chain_in in Hn as (l1 & x & l2 & Hs & ->). destruct (split_facts _ _ _ Hs) as (Hx & Hdeps & HL). destruct (sem x Hx) as (f & _ & Hf & _).
    destruct (step_inputs _ _ _ f Hs Hf) as (_ & _ & G).
    destruct (decide (k = lastname p l1)) as [-> | HkL]; [destruct HL as [? | ->]; [exfalso; apply Hd; by left|]; split; [done|]; intros; apply Hp2|].
    destruct (G k HkL) as [G1 G2]. destruct (decide (k ∈ dkeys (cf_ext f))) as [He|He].
    + apply elem_of_list_fmap in He as ([k' dt] & -> & He). cbn in *. destruct (ext_facts x f k' dt Hx Hf He) as (I1 & I2 & I3 & _).
      destruct (sf_outer _ _ _ _ F x k' Hx I1 I2 I3) as [O1 O2]. split; [done|]. intros; apply O2.
    + destruct (G2 He) as [Hno | [_ [-> | [_ Hkk]]]].
      * apply dget_Some_key in Hk as [? ?]. congruence.
      * split; [done|]. intros; apply Hp2.
      * exfalso. apply Hd. by left.
  - destruct EX as [-> | (e & -> & _ & He)]; [by apply elem_of_nil in Hn|]. apply elem_of_list_singleton in Hn as ->. rewrite He in Hk |- *.
    apply elem_of_list_singleton in Hk as ->. cbn. destruct (lastname_in p ss) as [HL|HL]; [|exfalso; apply Hd; by left]. rewrite HL. split; [done|]. intros; apply Hp2.
Qed.
Notation names_map := (new_name_map out N [] []).
Lemma rename_in k : k ∈ kept -> rename names_map k = assign_namespace k N.
Proof. intros H. eapply rename_declared. apply declared_out. by left. Qed.
Lemma rename_out k : k ∉ kept -> k <> "_select" -> rename names_map k = k.
Proof. intros H1 H2. eapply rename_undeclared. rewrite declared_out. intros [? | ?%ex_names]; done. Qed.
Lemma rename_p : rename names_map p = p.
Proof. apply rename_out; [|by apply (sf_p_name _ _ _ _ F)]. intros ?%kept_names. by apply (sf_p _ _ _ _ F). Qed.
Lemma out_in n : n ∈ out -> dget ns (assign_namespace (pn_name n) N) = Some (namespaced_node captured names_map n).
Proof.
  intros Hn. rewrite <- (rename_declared out [] [] N) by (left; by apply elem_of_list_fmap_1).
  apply (in_graph (namespaced_node captured names_map n)). by apply elem_of_list_fmap_1.
Qed.
Lemma out_value n v : n ∈ out -> value ns env (assign_namespace (pn_name n) N) v <-> exists m : gmap name V,
    (forall k w, m !! k = Some w -> k ∈ dkeys (pn_inputs n) /\ value ns env (rename names_map k) w) /\
    (forall k t dt, (k, (t, dt)) ∈ pn_inputs n -> m !! k = None -> dt = OPTIONAL /\ dget ns (rename names_map k) = None /\ env !! rename names_map k = None) /\
    pn_call n (kwargs (pn_inputs n) m) = Ok v.
Proof.
  intros Hn. apply (renamed_value (rename names_map) ns env _ (namespaced_node captured names_map n)).
  - by apply out_in.
  - by apply out_wd.
  - eapply (rename_inj out [] [] N); [exact out_apart|done].
  - eapply namespaced_inputs; [exact out_wd|exact out_apart|done].
  - intros m'. eapply namespaced_call; [exact out_wd|exact out_apart|done].
Qed.

(** *** The dataframes of the chain *)
Notation colval := (colval ns env fs d0).
Notation columns := (columns ns env fs d0).
Lemma dget_frame new k : NoDup (dkeys new) -> dget (dupd d0 new) k = match dget new k with Some c => Some c | None => dget d0 k end.
Proof. intros. by apply dget_dupd. Qed.
Lemma prefix_nodup l1 l2 : ss = l1 ++ l2 -> NoDup (map sn_name l1).
Proof. intros Hs. pose proof S2 as S2'. rewrite Hs, map_app in S2'. by apply NoDup_app in S2' as (? & _). Qed.

(** The columns read by a function of the chain are those of the group. *)
Lemma reads_ok l1 x l2 f new : ss = l1 ++ x :: l2 -> f ∈ fs -> implements names cols x f -> columns (map sn_name l1) new ->
  forall k, k ∈ cf_reads f ->
    match dget (dupd d0 new) k with Some u => colval k u | None => k ∉ map cf_name fs /\ dget d0 k = None end.
Proof.
  intros Hs Hf Hi [Hk Hc] k Hr. assert (Nn : NoDup (dkeys new)) by (rewrite Hk; by eapply prefix_nodup).
  assert (Hn : k ∈ map cf_name fs -> k ∈ dkeys new).
  { rewrite fs_names, Hk. intros Hn. apply (S3 _ _ _ Hs); [|done]. unfold SparkSpec.implements in Hi. destruct (sn_tag x) as [[target l]|].
    - by apply (adds_reads _ _ _ _ _ Hi).
    - rewrite Hi in Hr. cbn in Hr. by apply elem_of_list_filter in Hr as [_ ?]. }
  rewrite dget_frame by done. destruct (dget new k) as [u|] eqn:E1; [by apply Hc|].
  assert (Hk' : k ∉ map cf_name fs) by (intros H%Hn%dget_Some_key; rewrite E1 in H; by destruct H).
  destruct (dget d0 k) as [u|] eqn:E2; [by apply cv_orig|done].
Qed.
Lemma udf_ext l1 x l2 f new (m : gmap name V) : ss = l1 ++ x :: l2 -> implements names cols x f -> columns (map sn_name l1) new ->
  (forall k w, k ∈ dkeys (cf_ext f) -> m !! k = Some w -> value ns env k w) ->
  sn_tag x = None -> forall k, k ∈ dkeys (cf_ext f) -> k ∉ dkeys (dupd d0 new) /\ forall d', m !! k <> Some (SDf d').
Proof.
  intros Hs Hi [Hk Hc] Hm Ht k He. destruct (split_facts _ _ _ Hs) as (Hx & _).
  pose proof He as ([k' dt] & -> & He')%elem_of_list_fmap. cbn in *. destruct (ext_facts x f k' dt Hx Hi He') as (I1 & I2 & I3 & _).
  destruct (UA x k' Hx Ht I1 I2 I3) as [U1 U2]. split.
  - rewrite dkeys_dupd, Hk. intros [? | Hin]; [done|]. apply I2. apply kept_names. rewrite Hs, map_app. apply elem_of_app. by left.
  - intros d' Hd. apply (U2 d'). by apply Hm.
Qed.

Lemma prefix_value : forall len l1 l2, length l1 = len -> ss = l1 ++ l2 -> forall v,
  value ns env (rename names_map (lastname p l1)) v <-> exists new, columns (map sn_name l1) new /\ v = SDf (dupd d0 new).
Proof.
  intros len. induction len as [len IHlen] using lt_wf_ind. intros l1 l2 Hlen Hs v.
  destruct l1 as [|x l1 _] using rev_ind.
  { unfold lastname. cbn [last]. rewrite rename_p. split.
    - intros Hv. exists []. split; [split; [done|by intros ? ? [=]]|]. cbn. by eapply value_fun.
    - intros (new & [Hk _] & ->). destruct new as [|? ?]; [|done]. done. }
  rewrite app_length in Hlen. cbn in Hlen. rewrite <- app_assoc in Hs. cbn in Hs. rewrite lastname_snoc.
  destruct (split_facts _ _ _ Hs) as (Hx & Hdeps & HL). destruct (sem x Hx) as (f & Hf & Hi & Hfn).
  assert (IHl1 : forall v, value ns env (rename names_map (lastname p l1)) v <-> exists new, columns (map sn_name l1) new /\ v = SDf (dupd d0 new)).
  { eapply (IHlen (length l1)); [lia|done|exact Hs]. }
  set (L := lastname p l1) in *. set (n' := sparkify st p kept L x).
  assert (Hout : n' ∈ out). { apply elem_of_app. left. apply chain_in. by exists l1, x, l2. }
  assert (Hkx : sn_name x ∈ kept) by (rewrite Hs, map_app; apply elem_of_app; right; by left).
  rewrite rename_in by done. pose proof (out_value n' v Hout) as OV. unfold n' in OV at 1. rewrite sparkify_name in OV. rewrite OV. clear OV.
  destruct (step_inputs _ _ _ f Hs Hi) as (Ni & GL & G). fold L n' in Ni, GL, G.
  assert (SC : forall m d, m !! L = Some (SDf d) ->
    (sn_tag x = None -> forall k, k ∈ dkeys (cf_ext f) -> k ∉ dkeys d /\ forall d', m !! k <> Some (SDf d')) ->
    pn_call n' (kwargs (pn_inputs n') m) =
    match cf_call f (pick (cf_reads f) d) (mext st p kept x f L m) with Ok c => Ok (SDf (dset d (sn_name x) c)) | Err e => Err e end).
  { exact (step_call st p nodes kept kept_names x Hdeps (proj1 (proj2 (sf_fn _ _ _ _ F x Hx))) (sf_p_in _ _ _ _ F x Hx) f Hi L HL). }
  assert (MG : forall m k, mext st p kept x f L m !! k = if decide (k ∈ dkeys (cf_ext f)) then m !! k else None).
  { exact (mext_get st p nodes kept kept_names x Hdeps (proj1 (proj2 (sf_fn _ _ _ _ F x Hx))) (sf_p_in _ _ _ _ F x Hx) f Hi L HL). }
  assert (EI : forall k, k ∈ dkeys (cf_ext f) -> k ∈ dkeys (pn_inputs n')).
  { exact (ext_in st p nodes kept kept_names x Hdeps (proj1 (proj2 (sf_fn _ _ _ _ F x Hx))) (sf_p_in _ _ _ _ F x Hx) f Hi L HL). }
  assert (ET : forall k dt, (k, dt) ∈ cf_ext f -> exists t, (k, (t, dt)) ∈ pn_inputs n').
  { exact (ext_type st p nodes kept kept_names x Hdeps (proj1 (proj2 (sf_fn _ _ _ _ F x Hx))) (sf_p_in _ _ _ _ F x Hx) f Hi L HL). }
  assert (ER : forall k dt, (k, dt) ∈ cf_ext f -> rename names_map k = k).
  { intros k dt Hk. destruct (ext_facts x f k dt Hx Hi Hk) as (_ & I2 & _ & _ & I3). apply rename_out; [|done]. intros ?%kept_names. done. }
  assert (Nl1 : NoDup (map sn_name l1)) by by eapply prefix_nodup.
  split.
  - intros (m & M1 & M2 & Hc). destruct (m !! L) as [w|] eqn:Em.
    2: { exfalso. destruct (M2 L df_type REQUIRED) as [? _]; [by apply dget_elem|done|done]. }
    destruct (M1 _ _ Em) as [_ Hw]. apply IHl1 in Hw as (new & Hnew & ->). pose proof Hnew as [Hk Hcv].
    assert (Mv : forall k w, k ∈ dkeys (cf_ext f) -> m !! k = Some w -> value ns env k w).
    { intros k w ([k' dt] & -> & Hk')%elem_of_list_fmap Hm. cbn in *. apply M1 in Hm as [_ Hm]. by erewrite ER in Hm by done. }
    rewrite (SC m _ Em) in Hc by (by eapply udf_ext). destruct (cf_call f _ _) as [c|] eqn:Ec; [|done]. injection Hc as <-.
    assert (Hxc : colval (sn_name x) c).
    { rewrite <- Hfn. pose proof (reads_ok _ _ _ f new Hs Hf Hi Hnew) as RO. eapply (cv_fn _ _ _ _ f _ _ c Hf); [| | | |exact Ec].
      - intros k u Hu. rewrite lookup_pick in Hu. by destruct (decide (k ∈ cf_reads f)).
      - intros k u Hu. rewrite lookup_pick in Hu. destruct (decide (k ∈ cf_reads f)) as [Hr|]; [|done]. specialize (RO k Hr). by rewrite Hu in RO.
      - intros k Hr Hu. rewrite lookup_pick, decide_True in Hu by done. specialize (RO k Hr). by rewrite Hu in RO.
      - split.
        + intros k w Hw. rewrite MG in Hw. by destruct (decide (k ∈ dkeys (cf_ext f))).
        + intros k dt Hk'. rewrite MG, decide_True by (apply elem_of_list_fmap; by exists (k, dt)). unfold given.
          destruct (m !! k) as [w|] eqn:Ew; [apply Mv; [apply elem_of_list_fmap; by exists (k, dt)|done]|].
          destruct (ET k dt Hk') as [t Ht]. destruct (M2 k t dt Ht Ew) as (? & ? & ?). by erewrite ER in * by done. }
    exists (new ++ [(sn_name x, c)]). split; [|by rewrite dupd_snoc]. split; [rewrite dkeys_snoc, map_app, Hk; done|].
    intros k u Hu. rewrite dget_snoc in Hu. destruct (dget new k) as [u'|] eqn:E1; [injection Hu as ->; by apply Hcv|].
    destruct (decide (k = sn_name x)) as [-> | ]; [|done]. by injection Hu as <-.
  - intros (new' & [Hk' Hcv'] & ->).
    destruct new' as [|[y c] new _] using rev_ind; [rewrite map_app in Hk'; by destruct (map sn_name l1)|].
    rewrite dkeys_snoc, map_app in Hk'. cbn in Hk'. apply app_inj_tail in Hk' as [Hk ->].
    assert (Hxn : sn_name x ∉ dkeys new).
    { rewrite Hk. pose proof S2 as S2'. rewrite Hs, map_app in S2'. apply NoDup_app in S2' as (_ & S2' & _). intros Hin. apply (S2' _ Hin). by left. }
    assert (Hnew : columns (map sn_name l1) new).
    { split; [done|]. intros k u Hu. apply Hcv'. rewrite dget_snoc. by rewrite Hu. }
    assert (Hxc : colval (sn_name x) c).
    { apply Hcv'. rewrite dget_snoc. apply dget_None_key in Hxn. rewrite Hxn. by rewrite decide_True. }
    assert (HLv : value ns env (rename names_map L) (SDf (dupd d0 new))) by (apply IHl1; by exists new).
    apply colval_inv in Hxc as [[Hx' _] | (f' & cm & ext & Hf' & Heq & R1 & R2 & R3 & [X1 X2] & Hc)].
    { exfalso. apply Hx'. rewrite fs_names. apply kept_names. done. }
    assert (f' = f) as -> by (apply fs_unique; congruence).
    assert (Nn : NoDup (dkeys new)) by by rewrite Hk.
    assert (Hcm : cm = pick (cf_reads f) (dupd d0 new)).
    { pose proof (reads_ok _ _ _ f new Hs Hf Hi Hnew) as RO. apply map_eq. intros k. rewrite lookup_pick. destruct (decide (k ∈ cf_reads f)) as [Hr|Hr].
      - specialize (RO k Hr). destruct (cm !! k) as [u|] eqn:E1.
        + specialize (R2 _ _ E1). destruct (dget (dupd d0 new) k) as [u'|] eqn:E2; [f_equal; by eapply colval_fun|].
          exfalso. destruct RO as [RO1 RO2]. apply colval_inv in R2 as [[_ ?] | (g & _ & _ & Hg & <- & _)]; [congruence|]. apply RO1. by apply elem_of_list_fmap_1.
        + destruct (R3 k Hr E1) as [H1 H2]. destruct (dget (dupd d0 new) k) as [u'|] eqn:E2; [|done].
          exfalso. apply colval_inv in RO as [[_ ?] | (g & _ & _ & Hg & <- & _)]; [congruence|]. apply H1. by apply elem_of_list_fmap_1.
      - destruct (cm !! k) eqn:E1; [by apply R1 in E1|done]. }
    (* the dataframes of the previous functions *)
    assert (Hprev : forall k, k ∈ map sn_name l1 -> exists w, value ns env (rename names_map k) w).
    { intros k (y & -> & Hy)%elem_of_list_fmap. apply elem_of_list_split in Hy as (a & b & ->).
      assert (Hs' : ss = (a ++ [y]) ++ (b ++ x :: l2)) by (rewrite Hs; rewrite <- !app_assoc; done).
      rewrite <- (lastname_snoc p y a).
      rewrite map_app in Hk. cbn in Hk. change (sn_name y :: map sn_name b) with ([sn_name y] ++ map sn_name b) in Hk. rewrite app_assoc in Hk.
      exists (SDf (dupd d0 (take (length (map sn_name a ++ [sn_name y])) new))). apply (IHlen (length (a ++ [y])) ltac:(rewrite !app_length in *; cbn in *; lia) _ _ eq_refl Hs').
      eexists. split; [|reflexivity]. split.
      - unfold dkeys, dict in *. rewrite fmap_take, Hk, take_app. by rewrite map_app.
      - intros k u Hu. destruct Hnew as [_ Hnew]. apply Hnew. rewrite <- (take_drop (length (map sn_name a ++ [sn_name y])) new).
        clear -Hu. induction (take _ new) as [|[k' u'] l IH]; [done|]. cbn in *. destruct (decide (k = k')); [done|by apply IH]. }
    destruct (finite_choice (fun k o => if decide (k = L) then o = Some (SDf (dupd d0 new)) else if decide (k ∈ dkeys (cf_ext f)) then o = ext !! k
      else exists w, o = Some w /\ value ns env (rename names_map k) w) (dkeys (pn_inputs n'))) as (m & M1 & M2).
    { intros k Hki. destruct (decide (k = L)); [by eexists|]. destruct (decide (k ∈ dkeys (cf_ext f))) as [He|He]; [by eexists|].
      destruct (G k n) as [_ G2]. destruct (G2 He) as [Hno | [_ [-> | [Hki' Hkk]]]].
      - apply dget_Some_key in Hki as [? ?]. congruence.
      - exists (Some (SDf d0)), (SDf d0). by rewrite rename_p.
      - destruct (Hprev k) as [w Hw]; [apply (S3 _ _ _ Hs); [done|by apply kept_names]|]. by exists (Some w), w. }
    assert (HmL : m !! L = Some (SDf (dupd d0 new))).
    { specialize (M1 L). rewrite decide_True in M1 by done. apply M1. apply dget_Some_key. by rewrite GL. }
    assert (Hme : forall k, k ∈ dkeys (cf_ext f) -> m !! k = ext !! k).
    { intros k He. specialize (M1 k (EI k He)). rewrite decide_False in M1; [by rewrite decide_True in M1|].
      intros ->. apply elem_of_list_fmap in He as ([k' dt] & Hk'L & He). cbn in Hk'L. destruct (ext_facts x f k' dt Hx Hi He) as (_ & I2 & _ & I4 & _).
      destruct HL as [HL | HL]; rewrite Hk'L in HL; [by apply I2, kept_names|done]. }
    exists m. split_and!.
    + intros k w Hm. destruct (decide (k ∈ dkeys (pn_inputs n'))) as [Hki|Hki]; [|by rewrite M2 in Hm]. split; [done|]. specialize (M1 k Hki).
      destruct (decide (k = L)) as [-> | HkL]; [congruence|]. destruct (decide (k ∈ dkeys (cf_ext f))) as [He|He].
      * apply elem_of_list_fmap in He as ([k' dt] & -> & He). cbn in *. erewrite ER by done. specialize (X2 _ _ He). rewrite <- M1, Hm in X2. done.
      * destruct M1 as (w' & M1 & ?). congruence.
    + intros k t dt Hki Hm. pose proof (elem_dkeys _ _ _ _ Hki) as Hki'. specialize (M1 k Hki').
      destruct (decide (k = L)) as [-> | HkL]; [congruence|]. destruct (decide (k ∈ dkeys (cf_ext f))) as [He|He]; [|destruct M1 as (w' & M1 & ?); congruence].
      apply elem_of_list_fmap in He as ([k' dt'] & -> & He). cbn in *. erewrite ER by done. specialize (X2 _ _ He). rewrite <- M1, Hm in X2.
      destruct (ET k' dt' He) as [t' Ht']. assert ((t, dt) = (t', dt')) as [= -> ->]; [|done].
      assert (D1 : dget (pn_inputs n') k' = Some (t, dt)) by by apply elem_dget. assert (D2 : dget (pn_inputs n') k' = Some (t', dt')) by by apply elem_dget. congruence.
    + assert (Mv : forall k w, k ∈ dkeys (cf_ext f) -> m !! k = Some w -> value ns env k w).
      { intros k w He Hm. rewrite Hme in Hm by done. apply elem_of_list_fmap in He as ([k' dt] & -> & He). cbn in *. specialize (X2 _ _ He). by rewrite Hm in X2. }
      rewrite (SC m _ HmL) by (by eapply udf_ext).
      assert (mext st p kept x f L m = ext) as ->.
      { apply map_eq. intros k. rewrite MG. destruct (decide (k ∈ dkeys (cf_ext f))); [by apply Hme|]. destruct (ext !! k) eqn:E1; [by apply X1 in E1|done]. }
      rewrite <- Hcm, Hc. by rewrite dupd_snoc.
Qed.

(** *** The dataframe that is given *)
Lemma full_value v : ss <> [] -> value ns env (assign_namespace (lastname p ss) N) v <-> exists new, columns kept new /\ v = SDf (dupd d0 new).
Proof.
  intros Hss. rewrite <- rename_in; [apply (prefix_value (length ss) ss []); [done|by rewrite app_nil_r]|].
  destruct ss as [|x l _] using rev_ind; [done|]. rewrite lastname_snoc, map_app. apply elem_of_app. right. by left.
Qed.
Lemma ex_value e v : ex = [e] -> pn_name e = "_select" -> pn_inputs e = [(lastname p ss, (df_type, REQUIRED))] ->
  value ns env (assign_namespace "_select" N) v <-> exists new, columns kept new /\ pn_call e [(lastname p ss, SDf (dupd d0 new))] = Ok v.
Proof.
  intros He H1 H2. rewrite <- H1. rewrite (out_value e v) by (apply elem_of_app; right; rewrite He; by left). rewrite H2.
  pose proof (prefix_value (length ss) ss [] eq_refl (eq_sym (app_nil_r ss))) as PV. set (L := lastname p ss) in *. split.
  - intros (m & M1 & M2 & Hc). destruct (m !! L) as [w|] eqn:Em.
    + destruct (M1 _ _ Em) as [_ Hw]. apply PV in Hw as (new & Hnew & ->). exists new. split; [done|]. unfold kwargs in Hc. cbn in Hc. by rewrite Em in Hc.
    + destruct (M2 L df_type REQUIRED) as [? _]; [by left|done|done].
  - intros (new & Hnew & Hc). exists {[L := SDf (dupd d0 new)]}. split_and!.
    + intros k w [<- <-]%lookup_singleton_Some. split; [by left|]. apply PV. by exists new.
    + intros k t dt Hk Hm. apply elem_of_list_singleton in Hk as [= -> -> ->]. by rewrite lookup_singleton in Hm.
    + unfold kwargs. cbn. by rewrite lookup_singleton.
Qed.
End Value.

(** ** Dropping and selecting columns *)
Section Final.
Variable d0 new : dict C.
Hypothesis Nd0 : NoDup (dkeys d0).
Hypothesis Nn : NoDup (dkeys new).
Lemma append_final select d : final Append select d0 new d <->
  d = filter (fun kc : name * C => kc.1 ∉ dkeys new \/ kc.1 ∈ default (dkeys new) select) (dupd d0 new).
Proof.
  assert (ND : NoDup (dkeys (dupd d0 new))) by by apply NoDup_dupd.
  set (P := fun x => x ∉ dkeys new \/ x ∈ default (dkeys new) select). set (f := filter _ (dupd d0 new)).
  assert (Hk : dkeys f = filter P (dkeys d0) ++ filter (fun x => P x /\ x ∉ dkeys d0) (dkeys new)).
  { transitivity (filter P (dkeys (dupd d0 new))); [by apply dkeys_filter_iff|]. rewrite dkeys_dupd_eq by done. rewrite filter_app. f_equal. apply filter_filter_name. }
  assert (Hg : forall x, dget f x = if decide (P x) then match dget new x with Some c => Some c | None => dget d0 x end else None).
  { intros x. unfold f. rewrite (dget_filter _ P) by done. rewrite dget_dupd by done. done. }
  change (final Append select d0 new d) with (dkeys d = filter P (dkeys d0) ++ filter (fun x => P x /\ x ∉ dkeys d0) (dkeys new) /\
    forall x, dget d x = if decide (P x) then match dget new x with Some c => Some c | None => dget d0 x end else None). split.
  - intros [H1 H2]. apply dict_ext; [|by rewrite H1|intros k; by rewrite H2, Hg]. rewrite H1, <- Hk. by apply NoDup_dkeys_filter.
  - intros ->. by split.
Qed.
Lemma append_all d : final Append None d0 new d <-> d = dupd d0 new.
Proof.
  rewrite append_final. set (f := filter _ _). assert (f = dupd d0 new) as ->; [|done]. unfold f. cbn [default].
  generalize (dupd d0 new). unfold dict. intros l. induction l as [|[k c] l IH]; [done|]. rewrite filter_cons. rewrite decide_True; [by f_equal|]. cbn.
  destruct (decide (k ∈ dkeys new)); tauto.
Qed.
Lemma append_sel sel d : (forall x, x ∈ dkeys new -> x ∈ sel) -> final Append (Some sel) d0 new d <-> d = dupd d0 new.
Proof.
  intros Hs. rewrite append_final. set (f := filter _ _). assert (f = dupd d0 new) as ->; [|done]. unfold f. cbn [default].
  generalize (dupd d0 new). unfold dict. intros l. induction l as [|[k c] l IH]; [done|]. rewrite filter_cons. rewrite decide_True; [by f_equal|]. cbn.
  destruct (decide (k ∈ dkeys new)) as [Hk|]; [right; by apply Hs|by left].
Qed.
Lemma append_drop sel d : final Append (Some sel) d0 new d <-> d = drop_columns (filter (fun x => x ∉ sel) (dkeys new)) (dupd d0 new).
Proof.
  rewrite append_final. cbn [default]. unfold drop_columns, dict. rewrite (filter_ext_elem (fun kc : name * C => kc.1 ∉ filter (fun x => x ∉ sel) (dkeys new)) (fun kc => kc.1 ∉ dkeys new \/ kc.1 ∈ sel)); [done|].
  intros [k c] _. cbn. rewrite elem_of_list_filter. destruct (decide (k ∈ sel)), (decide (k ∈ dkeys new)); naive_solver.
Qed.
Lemma select_final sel d : (forall x, x ∈ sel -> x ∈ dkeys new) ->
  select_columns sel (dupd d0 new) = Some d <-> dkeys d = sel /\ forall x c, (x, c) ∈ d -> dget new x = Some c.
Proof.
  intros Hs. unfold select_columns. revert d. induction sel as [|x sel IH]; intros d; cbn.
  - split; [by intros [= <-]; split; [|by intros ? ? ?%elem_of_nil]|]. intros [H _]. by destruct d.
  - assert (Hx : x ∈ dkeys new) by (apply Hs; by left). apply dget_Some_key in Hx as [c Hc]. rewrite dget_dupd, Hc by done. cbn.
    assert (IH' : forall d, mapM (fun c => (fun v => (c, v)) <$> dget (dupd d0 new) c) sel = Some d <-> dkeys d = sel /\ forall x c, (x, c) ∈ d -> dget new x = Some c).
    { apply IH. intros y Hy. apply Hs. by right. }
    destruct (mapM _ sel) as [d'|] eqn:E'; cbn.
    + destruct (proj1 (IH' d') eq_refl) as [K G]. split.
      * intros [= <-]. split; [cbn; by f_equal|]. intros y u [[= -> ->] | Hy]%elem_of_cons; [done|by apply G].
      * destruct d as [|[y u] d]; [by intros [? _]|]. intros [[= -> Hk] G']. assert (dget new x = Some u) by (apply G'; by left).
        assert (Some d' = Some d) as Hd'; [|injection Hd' as ->; assert (c = u) as -> by congruence; done]. apply IH'. split; [done|]. intros ? ? ?. apply G'. by right.
    + split; [done|]. destruct d as [|[y u] d]; [by intros [? _]|]. intros [[= -> Hk] G']. exfalso.
      assert (None = Some d) as [=]. apply IH'. split; [done|]. intros ? ? ?. apply G'. by right.
Qed.
End Final.

(** ** The whole group *)
Notation chain_subdag_nodes := (chain_subdag_nodes is_series df_type spark_type series_type value_error attribute_error analysis_error sort spark_apply).
Definition drops (st : spark_wc) (ss : list (snode C U E T)) : list name :=
  match sw_select st with Some sel => filter (fun x => x ∉ sel) (map sn_name ss) | None => [] end.
Definition extra (st : spark_wc) (p : name) (ss : list (snode C U E T)) : list node :=
  match sw_mode st with
  | Select => [selector_node df_type attribute_error analysis_error (lastname p ss) (default (map sn_name ss) (sw_select st))]
  | Append => match drops st ss with [] => [] | dr => [drop_node df_type attribute_error (lastname p ss) dr] end
  end.
Definition final_name (st : spark_wc) (p : name) (ss : list (snode C U E T)) : name :=
  match extra st p ss with [] => lastname p ss | _ => "_select" end.
Lemma chain_subdag_eq st p g : chain_subdag_nodes st p g =
  let ss := sort_nodes g in ((chain st p (map sn_name ss) p ss).1 ++ extra st p ss, final_name st p ss).
Proof.
  cbv zeta. unfold SparkModel.chain_subdag_nodes, final_name, extra. destruct (chain_names st p (map sn_name (sort_nodes g)) (sort_nodes g) p) as [_ H].
  destruct (chain st p _ p _) as [out lst]. cbn in H |- *. subst lst. fold (drops st (sort_nodes g)).
  destruct (sw_mode st); [|done]. destruct (drops st (sort_nodes g)); [by rewrite app_nil_r|done].
Qed.
Lemma extra_shape st p ss : extra st p ss = [] \/ exists e, extra st p ss = [e] /\ pn_name e = "_select" /\ pn_inputs e = [(lastname p ss, (df_type, REQUIRED))].
Proof. unfold extra. destruct (sw_mode st); [destruct (drops st ss); [by left|]|]; right; by eexists. Qed.

(** The dataframe given, of a chain that runs the functions [ss]. *)
Section Last.
Variable ns : dict node.
Variable env : gmap name V.
Variable st : spark_wc.
Variable p N : name.
Variable d0 : dict C.
Variable nodes ss : list (snode C U E T).
Variable fs : list (colfn (C := C) (U := U) (E := E)).
Notation cols := (default [] (sw_columns st)).
Notation names := (map sn_name nodes).
Notation kept := (map sn_name ss).
Hypothesis W : forall y n, dget ns y = Some n -> NoDup (dkeys (pn_inputs n)).
Hypothesis F : spark_fits nodes cols p N.
Hypothesis FS : Forall2 (implements names cols) nodes fs.
Hypothesis UA : udf_apart ns env nodes cols d0.
Hypothesis Nd0 : NoDup (dkeys d0).
Hypothesis Hdf : value ns env p (SDf d0).
Hypothesis S1 : forall x, x ∈ ss -> x ∈ nodes.
Hypothesis S2 : NoDup kept.
Hypothesis S3 : forall l1 x l2, ss = l1 ++ x :: l2 -> forall k, k ∈ dkeys (pn_inputs (sn x)) -> k ∈ names -> k ∈ map sn_name l1.
Hypothesis S4 : ss <> [].
Hypothesis S5 : forall c, c ∈ default [] (sw_select st) -> c ∈ kept.
Hypothesis in_graph : forall n, n ∈ add_namespace captured ((chain st p kept p ss).1 ++ extra st p ss) N [] [] -> dget ns (pn_name n) = Some n.
Lemma last_value v : value ns env (assign_namespace (final_name st p ss) N) v <->
  exists new d, columns ns env fs d0 kept new /\ final (sw_mode st) (sw_select st) d0 new d /\ v = SDf d.
Proof.
  pose proof (full_value ns env st p N d0 nodes ss fs (extra st p ss) W F FS UA Hdf S1 S2 S3 (extra_shape st p ss) in_graph v S4) as FV.
  pose proof (fun e => ex_value ns env st p N d0 nodes ss fs (extra st p ss) W F FS UA Hdf S1 S2 S3 (extra_shape st p ss) in_graph e v) as EV.
  assert (NN : forall new, columns ns env fs d0 kept new -> NoDup (dkeys new)) by (intros new [-> _]; done).
  unfold final_name. unfold extra in *. destruct (sw_mode st).
  - destruct (drops st ss) as [|x dr] eqn:Ed.
    + rewrite FV. apply exist_proper. intros new. split.
      * intros [Hn ->]. exists (dupd d0 new). split_and!; [done| |done]. unfold drops in Ed. destruct (sw_select st) as [sel|]; [|by apply append_all; auto].
        apply append_sel; [done|by apply NN| |done]. intros y Hy. destruct (decide (y ∈ sel)); [done|]. destruct Hn as [Hn _]. rewrite Hn in Hy.
        assert (Hi : y ∈ filter (fun x => x ∉ sel) kept) by by apply elem_of_list_filter. rewrite Ed in Hi. by apply elem_of_nil in Hi.
      * intros (d & Hn & Hf & ->). split; [done|]. f_equal. unfold drops in Ed. destruct (sw_select st) as [sel|]; [|by apply append_all in Hf; auto].
        apply append_sel in Hf; [done|done|by apply NN|]. intros y Hy. destruct (decide (y ∈ sel)); [done|]. destruct Hn as [Hn _]. rewrite Hn in Hy.
        assert (Hi : y ∈ filter (fun x => x ∉ sel) kept) by by apply elem_of_list_filter. rewrite Ed in Hi. by apply elem_of_nil in Hi.
    + rewrite (EV _ eq_refl eq_refl eq_refl). apply exist_proper. intros new. cbn [drop_node pn_call]. unfold dataframe_of. cbn [dget]. rewrite decide_True by done.
      unfold drops in Ed. destruct (sw_select st) as [sel|] eqn:Es; [|done]. rewrite <- Ed. split.
      * intros [Hn [= <-]]. exists (drop_columns (filter (fun x => x ∉ sel) kept) (dupd d0 new)). split_and!; [done| |done]. apply append_drop; [done|by apply NN|]. destruct Hn as [-> _]. done.
      * intros (d & Hn & Hf & ->). split; [done|]. apply append_drop in Hf; [|done|by apply NN]. destruct Hn as [Hn _]. rewrite Hn in Hf. by subst d.
  - rewrite (EV _ eq_refl eq_refl eq_refl). apply exist_proper. intros new. cbn [selector_node pn_call]. unfold dataframe_of. cbn [dget]. rewrite decide_True by done.
    unfold final. assert (SF : forall d, columns ns env fs d0 kept new -> select_columns (default kept (sw_select st)) (dupd d0 new) = Some d <->
      dkeys d = default (dkeys new) (sw_select st) /\ forall x c, (x, c) ∈ d -> dget new x = Some c).
    { intros d Hn. pose proof (NN _ Hn) as Nn. destruct Hn as [Hn _]. rewrite Hn. apply select_final; [done|]. rewrite Hn. destruct (sw_select st); cbn in *; [by apply S5|done]. }
    split.
    + intros [Hn Hc]. destruct (select_columns _ _) as [d|] eqn:Es; [|done]. injection Hc as <-. exists d. split; [done|]. split; [by apply SF|done].
    + intros (d & Hn & Hf & ->). split; [done|]. apply SF in Hf; [|done]. by rewrite Hf.
Qed.
Lemma last_in_graph : dget ns (assign_namespace (final_name st p ss) N) <> None.
Proof.
  assert (G : forall n, n ∈ (chain st p kept p ss).1 ++ extra st p ss -> dget ns (assign_namespace (pn_name n) N) <> None).
  { intros n Hn. by rewrite (out_in ns st p N ss (extra st p ss) in_graph n Hn). }
  unfold final_name. destruct (extra_shape st p ss) as [He | (e & He & Hn & _)].
  - rewrite He. destruct ss as [|x l _] eqn:Hss using rev_ind; [done|]. rewrite <- Hss at 1. rewrite Hss, lastname_snoc.
    rewrite <- (sparkify_name st p (map sn_name (l ++ [x])) (lastname p l) x). apply G. apply elem_of_app. left. apply chain_in. exists l, x, []. split; done.
  - rewrite He, <- Hn. apply G, elem_of_app. right. rewrite He. by left.
Qed.
End Last.

(** ** Which functions are run *)
Lemma find_name (nodes : list (snode C U E T)) x s : NoDup (map sn_name nodes) ->
  find (fun s => bool_decide (sn_name s = x)) nodes = Some s <-> s ∈ nodes /\ sn_name s = x.
Proof.
  intros N'. induction nodes as [|y l IH]; cbn; [split; [done|]; by intros [?%elem_of_nil _]|]. cbn in N'. apply NoDup_cons in N' as [N1 N2].
  rewrite elem_of_cons. destruct (bool_decide (sn_name y = x)) eqn:Ey.
  - apply bool_decide_eq_true in Ey. split; [intros [= <-]; tauto|]. intros [[-> | Hs] Hx]; [done|]. exfalso. apply N1. rewrite Ey, <- Hx. by apply elem_of_list_fmap_1.
  - apply bool_decide_eq_false in Ey. rewrite IH by done. split; [tauto|]. intros [[-> | Hs] Hx]; done.
Qed.
Lemma by_names_in (nodes : list (snode C U E T)) l s : NoDup (map sn_name nodes) -> s ∈ by_names nodes l <-> s ∈ nodes /\ sn_name s ∈ l.
Proof.
  intros N'. unfold by_names. rewrite elem_of_list_omap. split.
  - intros (x & Hx & Hf). apply find_name in Hf as [? <-]; done.
  - intros [H1 H2]. exists (sn_name s). split; [done|]. by apply find_name.
Qed.
Lemma by_names_names (nodes : list (snode C U E T)) l : NoDup (map sn_name nodes) -> (forall x, x ∈ l -> x ∈ map sn_name nodes) -> map sn_name (by_names nodes l) = l.
Proof.
  intros N' H. induction l as [|x l IH]; [done|]. unfold by_names. cbn. pose proof (H x (elem_of_list_here _ _)) as Hx.
  apply elem_of_list_fmap in Hx as (s & -> & Hs). assert (find (fun s' => bool_decide (sn_name s' = sn_name s)) nodes = Some s) as -> by by apply find_name.
  cbn. f_equal. apply IH. intros y Hy. apply H. by right.
Qed.
Lemma by_names_split (nodes : list (snode C U E T)) l l1 s l2 : NoDup (map sn_name nodes) -> (forall x, x ∈ l -> x ∈ map sn_name nodes) -> by_names nodes l = l1 ++ s :: l2 ->
  l = map sn_name l1 ++ sn_name s :: map sn_name l2 /\ s ∈ nodes.
Proof.
  intros N' H Hs. split.
  - rewrite <- (by_names_names nodes l N' H), Hs, map_app. done.
  - assert (s ∈ by_names nodes l) by (rewrite Hs; apply elem_of_app; right; by left). by apply (by_names_in nodes l s N').
Qed.

(** The functions that the selection needs. *)
Lemma needed_reach (nodes : list (snode C U E T)) sel x :
  needed (map sn nodes) sel x <-> x ∈ map sn_name nodes /\ exists y, y ∈ sel /\ y ∈ map sn_name nodes /\ rtc (reads_fn nodes) y x.
Proof.
  assert (Hn : forall n, n ∈ map sn nodes -> exists s, s ∈ nodes /\ sn s = n) by (intros n (s & -> & Hs)%elem_of_list_fmap; by exists s).
  split.
  - induction 1 as [n Hn' Hs|m n Hm _ IH Hn' Hi].
    + destruct (Hn _ Hn') as (s & Hs' & <-). assert (pn_name (sn s) ∈ map sn_name nodes) by by apply (elem_of_list_fmap_1 sn_name). split; [done|]. by exists (pn_name (sn s)).
    + destruct (Hn _ Hn') as (s & Hs' & <-), (Hn _ Hm) as (t & Ht & <-). assert (Hsn : pn_name (sn s) ∈ map sn_name nodes) by by apply (elem_of_list_fmap_1 sn_name). split; [done|].
      destruct IH as (_ & y & Hy & Hyn & Hr). exists y. split_and!; [done|done|]. eapply rtc_r; [exact Hr|]. by exists t.
  - intros (Hx & y & Hy & Hyn & Hr). clear Hx. assert (Hny : needed (map sn nodes) sel y).
    { apply elem_of_list_fmap in Hyn as (s & -> & Hs). apply needed_selected; [by apply elem_of_list_fmap_1|done]. }
    clear Hyn Hy. induction Hr as [x|x z w (s & Hs & <- & Hi & Hz) _ IH]; [done|]. apply IH.
    apply elem_of_list_fmap in Hz as (t & -> & Ht). eapply (needed_input _ _ (sn s) (sn t)); try (by apply elem_of_list_fmap_1); done.
Qed.

Variable order : list name -> list name.
Lemma run_facts (st : spark_wc) (nodes : list (snode C U E T)) (pruned : list node) : NoDup (map sn_name nodes) -> (forall l, order l ≡ₚ l) -> (forall s, s ∈ nodes -> NoDup (dkeys (pn_inputs (sn s)))) ->
  (forall x, ~ tc (reads_fn nodes) x x) -> prune_nodes order (map sn nodes) (sw_select st) = Pruned pruned -> pruned <> [] ->
  let ss := sort_nodes (by_names nodes (map pn_name pruned)) in
  run_order nodes (sw_select st) (map sn_name ss) /\ (forall s, s ∈ ss -> s ∈ nodes) /\ ss <> [] /\
  (forall c, c ∈ default [] (sw_select st) -> c ∈ map sn_name ss) /\
  (forall l1 x l2, ss = l1 ++ x :: l2 -> forall k, k ∈ dkeys (pn_inputs (sn x)) -> k ∈ map sn_name nodes -> k ∈ map sn_name l1).
Proof.
  intros N' O ND A Hpr Hne ss.
  assert (Hmn : map pn_name (map sn nodes) = map sn_name nodes) by by rewrite map_map.
  (* pruning *)
  assert (P : (forall x, x ∈ map pn_name pruned <-> x ∈ map sn_name nodes /\ match sw_select st with None => True | Some sel => exists y, y ∈ sel /\ y ∈ map sn_name nodes /\ rtc (reads_fn nodes) y x end) /\
    NoDup (map pn_name pruned) /\ (forall c, c ∈ default [] (sw_select st) -> c ∈ map pn_name pruned)).
  { destruct (sw_select st) as [sel|].
    - pose proof (C43_prune order (map sn nodes) sel) as C43. rewrite Hpr, Hmn in C43. destruct (C43 N' O) as (C1 & C2 & C3).
      assert (Hx : forall x, x ∈ map pn_name pruned <-> needed (map sn nodes) sel x).
      { intros x. split.
        - intros (n & -> & Hn)%elem_of_list_fmap. by apply C2 in Hn as [_ ?].
        - intros Hx. pose proof Hx as [Hxn _]%needed_reach. apply elem_of_list_fmap in Hxn as (s & -> & Hs). apply (elem_of_list_fmap_1 pn_name _ (sn s)), C2.
          split; [by apply elem_of_list_fmap_1|done]. }
      split_and!; [|done|].
      + intros x. rewrite Hx. apply needed_reach.
      + intros c Hc. apply Hx, needed_reach. split; [by apply C3|]. exists c. split_and!; [done|by apply C3|done].
    - cbn in Hpr. injection Hpr as <-. rewrite Hmn. split_and!; [intros x; tauto|done|by intros c []%elem_of_nil]. }
  destruct P as (P1 & P2 & P3). set (g := by_names nodes (map pn_name pruned)) in *.
  assert (Hgn : map sn_name g = map pn_name pruned) by (apply by_names_names; [done|]; intros x Hx; by apply P1 in Hx as [? _]).
  assert (Hg : forall s, s ∈ g <-> s ∈ nodes /\ sn_name s ∈ map pn_name pruned) by (intros s; by apply by_names_in).
  assert (Ng : NoDup (map sn_name g)) by by rewrite Hgn.
  (* what is read is not pruned *)
  assert (Hdep : forall s k, s ∈ g -> k ∈ dkeys (pn_inputs (sn s)) -> k ∈ map sn_name nodes -> k ∈ map sn_name g).
  { intros s k Hs Hk Hkn. rewrite Hgn. apply Hg in Hs as [Hs Hsp]. apply P1. split; [done|]. apply P1 in Hsp as [_ Hsp]. destruct (sw_select st) as [sel|]; [|done].
    destruct Hsp as (y & Hy & Hyn & Hr). exists y. split_and!; [done|done|]. eapply rtc_r; [exact Hr|]. by exists s. }
  (* sorting *)
  set (tn := fun s : snode C U E T => TNode (sn_name s) (dkeys (pn_inputs (sn s)))).
  assert (Htn : tnames (map tn g) = map sn_name g) by (unfold tnames; change (@fmap list _ ?A ?B ?f ?l) with (map f l); by rewrite map_map).
  assert (SC := C18_sort_with_cycles (map tn g)). rewrite Htn in SC.
  destruct SC as (out & Hout & T1 & T2 & T3 & T4); [done|intros n (s & -> & Hs)%elem_of_list_fmap; cbn; apply ND; by apply Hg in Hs as [? _]|].
  assert (Hss : ss = by_names g (tnames out)) by (unfold ss, SparkModel.sort_nodes; fold tn; by rewrite Hout).
  assert (Hon : forall x, x ∈ tnames out -> x ∈ map sn_name g).
  { intros x (n & -> & Hn)%elem_of_list_fmap. rewrite <- Htn. apply elem_of_list_fmap_1. by apply T2. }
  assert (Hsn : map sn_name ss = tnames out) by (rewrite Hss; by apply by_names_names).
  assert (Hall : forall x, x ∈ tnames out <-> x ∈ map sn_name g).
  { intros x. split; [apply Hon|]. intros (s & -> & Hs)%elem_of_list_fmap. apply (elem_of_list_fmap_1 tn_name _ (tn s)), T4; [by apply elem_of_list_fmap_1|].
    intros (z & _ & Hz). apply (A z). clear -Hz Hg. assert (Hst : forall a b, ldep (map tn g) a b -> reads_fn nodes a b).
    { intros a b (n & Hn & <- & Hb & Hbn). apply elem_of_list_fmap in Hn as (s & -> & Hs). exists s. apply Hg in Hs as [Hs _]. split_and!; [done|done|done|].
      apply elem_of_list_fmap in Hbn as (m & -> & Hm). apply elem_of_list_fmap in Hm as (t & -> & Ht). apply Hg in Ht as [Ht _]. by apply (elem_of_list_fmap_1 sn_name). }
    assert (Ht : forall a b, tc (ldep (map tn g)) a b -> tc (reads_fn nodes) a b); [|by apply Ht].
    intros a b H. induction H as [a b H|a c b H _ IH]; [by apply tc_once, Hst|]. eapply tc_l; [by apply Hst|done]. }
  assert (Hsg : forall s, s ∈ ss -> s ∈ g) by (intros s Hs; rewrite Hss in Hs; by apply (by_names_in g _ s Ng) in Hs as [? _]).
  assert (S3 : forall l1 x l2, ss = l1 ++ x :: l2 -> forall k, k ∈ dkeys (pn_inputs (sn x)) -> k ∈ map sn_name nodes -> k ∈ map sn_name l1).
  { intros l1 x l2 Hl k Hk Hkn. assert (Hxg : x ∈ g) by (apply Hsg; rewrite Hl; apply elem_of_app; right; by left).
    assert (Ho : tnames out = map sn_name l1 ++ sn_name x :: map sn_name l2) by (rewrite <- Hsn, Hl, map_app; done).
    unfold tnames in Ho. apply fmap_app_inv in Ho as (o1 & o2 & Ho1 & Ho2 & Ho). symmetry in Ho2. apply fmap_cons_inv in Ho2 as (nx & o3 & Hnx & _ & ->).
    assert (nx = tn x) as ->.
    { assert (Hin : nx ∈ map tn g) by (apply T2; rewrite Ho; apply elem_of_app; right; by left). apply elem_of_list_fmap in Hin as (x' & -> & Hx'). cbn in Hnx.
      f_equal. pose proof (proj2 (find_name g (sn_name x) x Ng) (conj Hxg eq_refl)). pose proof (proj2 (find_name g (sn_name x) x' Ng) (conj Hx' (eq_sym Hnx))). congruence. }
    rewrite Ho1. apply (T3 _ _ _ Ho); [done|]. by eapply Hdep. }
  split_and!.
  - split_and!.
    + by rewrite Hsn.
    + intros x. rewrite Hsn, Hall, Hgn. apply P1.
    + intros l1 x l2 Hl y (s & Hs & <- & Hi & Hy). apply fmap_app_inv in Hl as (o1 & o2 & -> & Ho2 & Ho). symmetry in Ho2. apply fmap_cons_inv in Ho2 as (sx & o3 & Hsx & _ & ->).
      assert (Hsxn : sx ∈ nodes) by (apply Hg, Hsg; rewrite Ho; apply elem_of_app; right; by left).
      assert (sx = s) as ->. { pose proof (proj2 (find_name nodes (sn_name s) s N') (conj Hs eq_refl)). pose proof (proj2 (find_name nodes (sn_name s) sx N') (conj Hsxn (eq_sym Hsx))). congruence. }
      by apply (S3 _ _ _ Ho).
  - intros s Hs. by apply Hg, Hsg.
  - intros He. destruct pruned as [|n l]; [done|]. assert (Hn : pn_name n ∈ map sn_name ss) by (rewrite Hsn, Hall, Hgn; by left). rewrite He in Hn. by apply elem_of_nil in Hn.
  - intros c Hc. rewrite Hsn, Hall, Hgn. by apply P3.
  - done.
Qed.
End Proofs.
