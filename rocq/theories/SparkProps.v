(** C71: @with_columns and @select for Spark. *)
From Verif Require Import Base Dict NodeModel NodeSpec NodeProofs PipeModel PipeSpec PipeProofs SubdagModel SubdagSpec SubdagProofs
  TopoModel PruneProps SparkModel SparkSpec SparkProofs.

Section Props.
Context {C U E T : Type}.
Notation V := (sval C U E).
Notation node := (pnode V E T).
Variable is_df is_column is_series : T -> bool.
Variable df_type : T.
Variable spark_type series_type : T -> bool.
Variable value_error attribute_error analysis_error : E.
Variable sort : list name -> list name.
Variable spark_apply : bool -> (list V -> res (nerr E) V) -> list C -> res (nerr E) C.
Variable captured : dict V -> res (nerr E) V.
Variable order : list name -> list name.
Notation transform := (spark_transform is_df is_column is_series df_type spark_type series_type value_error attribute_error analysis_error sort spark_apply captured order).
Notation inject := (spark_inject is_df is_column is_series df_type spark_type series_type value_error attribute_error analysis_error sort spark_apply captured order).
Notation prep_node := (prep_node is_df is_column df_type attribute_error).
Notation require_columns := (require_columns is_df is_column df_type attribute_error).
Notation implements := (implements is_series spark_type series_type value_error sort spark_apply).
Notation chain := (chain is_series df_type spark_type series_type value_error attribute_error analysis_error sort spark_apply).
Notation extra := (extra df_type attribute_error analysis_error).
Notation final_name := (final_name df_type attribute_error analysis_error).

Lemma inject_inv st fn sig params fns new p lst : inject st fn sig params fns = Ok (new, (p, lst)) ->
  exists nodes pruned, let N := default fn (sw_namespace st) in let ss := sort_nodes (by_names nodes (map pn_name pruned)) in
    first_parameter is_df sig = Ok p /\ p ∈ params /\ mapM prep_node fns = Some nodes /\ validate_frames is_df st nodes = true /\
    NoDup (map sn_name nodes) /\ prune_nodes order (map sn nodes) (sw_select st) = Pruned pruned /\ pruned <> [] /\
    new = add_namespace captured ((chain st p (map sn_name ss) p ss).1 ++ extra st p ss) N [] [] /\ lst = assign_namespace (final_name st p ss) N.
Proof.
  unfold spark_inject. destruct (first_parameter is_df sig) as [q|] eqn:Ep; [|done]. destruct (decide (q ∈ params)) as [Hq|]; [|done].
  destruct (mapM prep_node fns) as [nodes|] eqn:Em; [|done]. destruct (validate_frames is_df st nodes) eqn:Ev; [|done].
  destruct (decide (NoDup _)) as [ND|]; [|done]. destruct (prune_nodes order _ (sw_select st)) as [[|x pruned]| |] eqn:Epr; [done| |done|done].
  rewrite chain_subdag_eq. cbv zeta. intros [= <- <- <-]. exists nodes, (x :: pruned). by split_and!.
Qed.
Lemma transform_inv st fn sig fns orig out : transform st fn sig fns orig = Ok out ->
  exists p nodes pruned, let N := default fn (sw_namespace st) in let ss := sort_nodes (by_names nodes (map pn_name pruned)) in
    first_parameter is_df sig = Ok p /\ p ∈ injectable orig /\ mapM prep_node fns = Some nodes /\ validate_frames is_df st nodes = true /\
    NoDup (map sn_name nodes) /\ prune_nodes order (map sn nodes) (sw_select st) = Pruned pruned /\ pruned <> [] /\
    out = map (fun n => if decide (p ∈ dkeys (pn_inputs n)) then reassign_inputs n [(p, assign_namespace (final_name st p ss) N)] [] else n) orig ++
          add_namespace captured ((chain st p (map sn_name ss) p ss).1 ++ extra st p ss) N [] [].
Proof.
  unfold spark_transform. destruct (inject st fn sig (injectable orig) fns) as [[new [p lst]]|] eqn:Ei; [|done]. intros [= <-].
  apply inject_inv in Ei as (nodes & pruned & H1 & H2 & H3 & H4 & H5 & H6 & H7 & -> & ->). exists p, nodes, pruned. by split_and!.
Qed.

(** Shared hypotheses: the decorated nodes [out] are in the graph [ns], whose variable [p] is the dataframe [d0]; [nodes]
    are the functions of the group, none of which depends on itself; [n] is a node of the decorated function that takes [p]. *)
Definition spark_placed (ns : dict node) (env : gmap name V) (st : spark_wc) (fn : name) (sig : dict T) (fns : list (snode C U E T)) (orig out : list node)
    (nodes : list (snode C U E T)) (p : name) (d0 : dict C) (n : node) : Prop :=
  let N := default fn (sw_namespace st) in
  (forall y n, dget ns y = Some n -> NoDup (dkeys (pn_inputs n))) /\ (forall l, order l ≡ₚ l) /\ (forall l, sort l ≡ₚ l) /\
  transform st fn sig fns orig = Ok out /\ first_parameter is_df sig = Ok p /\ mapM prep_node fns = Some nodes /\
  spark_fits nodes (default [] (sw_columns st)) p N /\ udf_apart ns env nodes (default [] (sw_columns st)) d0 /\ (forall x, ~ tc (reads_fn nodes) x x) /\
  (forall m, m ∈ out -> dget ns (pn_name m) = Some m) /\
  n ∈ orig /\ p ∈ dkeys (pn_inputs n) /\ NoDup (dkeys (pn_inputs n)) /\ keyword_fn (pn_call n) /\
  (forall k, assign_namespace k N ∉ dkeys (pn_inputs n)) /\ value ns env p (SDf d0) /\ NoDup (dkeys d0).

(** A function under @with_columns (or @select) is called with the dataframe to which (or of which only) the columns that the
    functions of the group compute are added, each from the columns it names: those of the group, else those of the dataframe. *)
Theorem C71_value ns env st fn sig fns orig out nodes p d0 n fs :
  spark_placed ns env st fn sig fns orig out nodes p d0 n -> Forall2 (implements (map sn_name nodes) (default [] (sw_columns st))) nodes fs ->
  exists run, run_order nodes (sw_select st) run /\
  forall v, value ns env (pn_name n) v <->
  exists kw new d, pn_call n kw = Ok v /\ NoDup (dkeys kw) /\ (forall k, k ∈ dkeys kw -> k ∈ dkeys (pn_inputs n)) /\
    columns ns env fs d0 run new /\ final (sw_mode st) (sw_select st) d0 new d /\ dget kw p = Some (SDf d) /\
    (forall q t dt, (q, (t, dt)) ∈ pn_inputs n -> q <> p -> given ns env q dt (dget kw q)).
Proof.
  intros (W & O & SO & H & Hp & Hn' & F & UA & A & Hn & Ho & Hin & N' & K & Hl & Hw & Nd) FS.
  apply transform_inv in H as (p' & nodes' & pruned & Hp' & _ & Hm & _ & ND & Hpr & Hne & ->).
  rewrite Hp in Hp'. injection Hp' as <-. rewrite Hn' in Hm. injection Hm as <-.
  destruct (run_facts is_df is_column is_series df_type spark_type series_type spark_apply order st nodes pruned ND O (fun s Hs => proj1 (proj2 (sf_fn _ _ _ _ F s Hs))) A Hpr Hne) as (R & S1 & S4 & S5 & S3).
  set (ss := sort_nodes (by_names nodes (map pn_name pruned))) in *. set (N := default fn (sw_namespace st)) in *.
  exists (map sn_name ss). split; [done|]. intros v.
  assert (IG : forall m, m ∈ add_namespace captured ((chain st p (map sn_name ss) p ss).1 ++ extra st p ss) N [] [] -> dget ns (pn_name m) = Some m).
  { intros m Hm. apply Hn, elem_of_app. by right. }
  pose proof (last_value is_df is_column is_series df_type spark_type series_type value_error attribute_error analysis_error sort SO spark_apply captured
    ns env st p N d0 nodes ss fs W F FS UA Nd Hw S1 (proj1 R) S3 S4 S5 IG) as LV.
  assert (Dl : dget ns (assign_namespace (final_name st p ss) N) <> None) by (eapply last_in_graph; [exact S1|exact (proj1 R)|exact S3|exact S4|exact S5|exact IG]).
  set (lst := assign_namespace (final_name st p ss) N) in *.
  assert (Cf : clash_free [(p, lst)] ([] : dict V) (pn_inputs n)) by (apply single_clash_free; [done|left; exact (Hl _)|done]).
  assert (Dn : dget ns (pn_name n) = Some (reassign_inputs n [(p, lst)] [])).
  { apply (Hn (reassign_inputs n [(p, lst)] [])), elem_of_app. left. apply elem_of_list_fmap. exists n. split; [by rewrite decide_True by done|done]. }
  rewrite (reassign_value ns env (pn_name n) n [(p, lst)] [] v K Cf Dn). split.
  - intros (kw & Hc & Nk & _ & Hk & Hg). pose proof Hin as Hin'. apply elem_of_list_fmap in Hin' as ([p' [tp dt]] & Heq & Hp'). cbn in Heq. subst p'.
    pose proof (Hg p tp dt Hp' eq_refl) as Hgp. unfold rename in Hgp. cbn in Hgp. rewrite decide_True in Hgp by done. cbn in Hgp.
    destruct (dget kw p) as [u|] eqn:Ek; cbn in Hgp; [|by destruct Hgp as (_ & ? & _)].
    apply LV in Hgp as (new & d & Hnew & Hf & ->). exists kw, new, d. split; [done|]. split; [done|]. split; [|split; [done|split; [done|split; [done|]]]].
    + intros k Hkk. apply Hk in Hkk. by rewrite app_nil_r in Hkk.
    + intros q t' dt' Hq Hqn. pose proof (Hg q t' dt' Hq eq_refl) as Hgq. unfold rename in Hgq. cbn in Hgq. by rewrite decide_False in Hgq.
  - intros (kw & new & d & Hc & Nk & Hk & Hnew & Hf & Hkp & Hg). exists kw. split_and!; [done|done|by intros ? ? [=]| |].
    + intros k Hkk. rewrite app_nil_r. by apply Hk.
    + intros q tq dt Hq _. unfold rename. cbn. destruct (decide (q = p)) as [-> | Hqn]; cbn; [|by apply (Hg q tq dt)].
      rewrite Hkp. cbn. apply LV. by exists new, d.
Qed.

(** When no function is named like a column of the dataframe, its columns are given as they are, followed by those of the selected functions. *)
Theorem C71_append ns env st fn sig fns orig out nodes p d0 n fs v :
  spark_placed ns env st fn sig fns orig out nodes p d0 n -> Forall2 (implements (map sn_name nodes) (default [] (sw_columns st))) nodes fs ->
  sw_mode st = Append -> (forall x, x ∈ map sn_name nodes -> x ∉ dkeys d0) -> value ns env (pn_name n) v ->
  exists run kw d, run_order nodes (sw_select st) run /\ pn_call n kw = Ok v /\ dget kw p = Some (SDf d) /\
    dkeys d = dkeys d0 ++ filter (fun x => x ∈ default run (sw_select st)) run /\
    (forall x, x ∈ dkeys d0 -> dget d x = dget d0 x) /\ (forall x c, x ∈ run -> dget d x = Some c -> colval ns env fs d0 x c).
Proof.
  intros P FS M Hc Hv. destruct (C71_value _ _ _ _ _ _ _ _ _ _ _ _ _ P FS) as (run & R & VV). destruct (proj1 (VV v) Hv) as (kw & new & d & Hcall & _ & _ & [Hk Hcv] & Hf & Hkp & _).
  exists run, kw, d. rewrite M in Hf. unfold final in Hf. destruct Hf as [F1 F2].
  assert (Hnew : forall x, x ∈ dkeys new -> x ∉ dkeys d0) by (intros x Hx; apply Hc; rewrite Hk in Hx; by apply R in Hx as [? _]).
  split; [done|]. split_and!; [done|done| | |].
  - rewrite F1. f_equal.
    + clear -Hnew. assert (G : forall l : list name, (forall x, x ∈ l -> x ∈ dkeys d0) -> filter (fun x => x ∉ dkeys new \/ x ∈ default (dkeys new) (sw_select st)) l = l).
      { intros l. induction l as [|x l IH]; intros Hl; [done|]. rewrite filter_cons, decide_True; [f_equal; apply IH; intros; apply Hl; by right|].
        left. intros Hx. apply (Hnew x Hx). apply Hl. by left. }
      by apply G.
    + rewrite <- Hk. apply filter_ext_elem. intros x Hx. specialize (Hnew x Hx). tauto.
  - intros x Hx. rewrite F2. rewrite decide_True; [|left; intros Hn; by apply (Hnew x)]. destruct (dget new x) as [c|] eqn:En; [|done].
    exfalso. apply (Hnew x); [|done]. apply dget_Some_key. by eexists.
  - intros x c Hx Hd. rewrite F2 in Hd. destruct (decide _); [|done]. rewrite <- Hk in Hx. apply dget_Some_key in Hx as [c' Hc']. rewrite Hc' in Hd. injection Hd as ->. by apply Hcv.
Qed.

(** What is added to the graph: under the namespace, one node for each function that is run and possibly the one that drops or selects. *)
Theorem C71_nodes st fn sig fns orig out nodes : (forall l, order l ≡ₚ l) -> transform st fn sig fns orig = Ok out -> mapM prep_node fns = Some nodes ->
  (forall s, s ∈ nodes -> NoDup (dkeys (pn_inputs (sn s)))) -> (forall x, ~ tc (reads_fn nodes) x x) ->
  let N := default fn (sw_namespace st) in
  map pn_name (take (length orig) out) = map pn_name orig /\
  exists run last, run_order nodes (sw_select st) run /\ run <> [] /\
    map pn_name (drop (length orig) out) = map (fun x => assign_namespace x N) (run ++ last) /\
    ((last = ["_select"] /\ (sw_mode st = Select \/ exists x, x ∈ run /\ x ∉ default run (sw_select st))) \/
     (last = [] /\ sw_mode st = Append /\ forall x, x ∈ run -> x ∈ default run (sw_select st))).
Proof.
  intros O H Hm ND A N. apply transform_inv in H as (p & nodes' & pruned & _ & _ & Hm' & _ & NN & Hpr & Hne & ->). rewrite Hm in Hm'. injection Hm' as <-.
  destruct (run_facts is_df is_column is_series df_type spark_type series_type spark_apply order st nodes pruned NN O ND A Hpr Hne) as (R & S1 & S4 & S5 & S3).
  set (ss := sort_nodes (by_names nodes (map pn_name pruned))) in *. fold N. set (f := fun n => _). assert (Hl : length (map f orig) = length orig) by apply map_length.
  split.
  - rewrite <- Hl, take_app. rewrite map_map. apply map_ext. intros n. unfold f. by destruct (decide _).
  - exists (map sn_name ss), (map pn_name (extra st p ss)). split; [done|]. split; [by destruct ss|]. rewrite <- Hl, drop_app.
    set (l := (chain st p (map sn_name ss) p ss).1 ++ extra st p ss).
    assert (Hnames : map pn_name (add_namespace captured l N [] []) = map (fun x => assign_namespace x N) (map pn_name l)).
    { unfold add_namespace. rewrite !map_map. apply map_ext_in. intros n Hn%elem_of_list_In. cbn [namespaced_node pn_name].
      apply rename_declared. left. by apply elem_of_list_fmap_1. }
    split; [rewrite Hnames; f_equal; unfold l; rewrite map_app; f_equal; apply chain_names|].
    unfold SparkProofs.extra, drops. destruct (sw_mode st); [|left; split; [done|by left]].
    destruct (sw_select st) as [sel|]; cbn [default].
    + destruct (filter (fun x => x ∉ sel) (map sn_name ss)) as [|x l'] eqn:Ef.
      * right. split_and!; [done|done|]. intros x Hx. destruct (decide (x ∈ sel)); [done|]. assert (Hi : x ∈ filter (fun x => x ∉ sel) (map sn_name ss)) by by apply elem_of_list_filter.
        rewrite Ef in Hi. by apply elem_of_nil in Hi.
      * left. split; [done|]. right. exists x. assert (Hi : x ∈ filter (fun x => x ∉ sel) (map sn_name ss)) by (rewrite Ef; by left).
        apply elem_of_list_filter in Hi as [? ?]. done.
    + right. done.
Qed.

(** A selection of a name that no function of the group has, such as that of a column of the dataframe, is refused. *)
Theorem C71_select_unknown st fn sig fns orig nodes sel c : (forall l, order l ≡ₚ l) -> mapM prep_node fns = Some nodes ->
  sw_select st = Some sel -> c ∈ sel -> c ∉ map sn_name nodes -> exists e, transform st fn sig fns orig = Err e.
Proof.
  intros O Hm Hs Hc Hn. destruct (transform st fn sig fns orig) as [out|e] eqn:H; [|by exists e]. exfalso.
  apply transform_inv in H as (p & nodes' & pruned & _ & _ & Hm' & _ & NN & Hpr & _). rewrite Hm in Hm'. injection Hm' as <-.
  pose proof (C43_prune order (map sn nodes) sel) as C43. rewrite Hs in Hpr. rewrite Hpr, map_map in C43. destruct (C43 NN O) as (_ & _ & C3). by apply Hn, C3.
Qed.

Definition outside_nodes (st : spark_wc) (nodes : list (snode C U E T)) (k : name) : Prop :=
  k ∉ map sn_name nodes /\ k ∉ default [] (sw_columns st) /\
  exists s, s ∈ nodes /\ match sn_tag s with Some (_, cols) => k ∈ cols | None => exists t dt, (k, (t, dt)) ∈ pn_inputs (sn s) /\ is_df t = true end.
Lemma frames_nodes st nodes : validate_frames is_df st nodes = true <->
  match sw_pass_as st with None => forall k, ~ outside_nodes st nodes k | Some q => forall k, outside_nodes st nodes k <-> k = q end.
Proof.
  assert (Hu : forall k, k ∈ upstream_frames is_df st nodes <-> outside_nodes st nodes k).
  { intros k. unfold upstream_frames, outside_nodes. rewrite elem_of_remove_dups, elem_of_list_filter. split.
    - intros [[H1 H2] H3]. split_and!; [done|done|]. apply elem_of_list_In, in_flat_map in H3 as (s & Hs & Hk). apply elem_of_list_In in Hs, Hk.
      exists s. split; [done|]. destruct (sn_tag s) as [[t l]|]; [done|]. unfold df_params in Hk. apply elem_of_list_fmap in Hk as ([k' [t dt]] & -> & Hk).
      apply elem_of_list_filter in Hk as [Ht Hk]. cbn in *. exists t, dt. split; [done|]. by apply Is_true_true.
    - intros (H1 & H2 & s & Hs & Hk). split; [done|]. apply elem_of_list_In, in_flat_map. exists s. split; [by apply elem_of_list_In|]. apply elem_of_list_In.
      destruct (sn_tag s) as [[t l]|]; [done|]. destruct Hk as (t & dt & Hk & Ht). apply elem_of_list_fmap. exists (k, (t, dt)). split; [done|].
      apply elem_of_list_filter. cbn. split; [by apply Is_true_true|done]. }
  assert (Nu : NoDup (upstream_frames is_df st nodes)) by apply NoDup_remove_dups.
  unfold validate_frames. destruct (upstream_frames is_df st nodes) as [|a [|b l]] eqn:Ef; destruct (sw_pass_as st) as [q|].
  - split; [done|]. intros H. assert (Hq : q ∈ ([] : list name)) by (apply Hu; by apply H). by apply elem_of_nil in Hq.
  - split; [|done]. intros _ k Hk%Hu. by apply elem_of_nil in Hk.
  - rewrite bool_decide_eq_true. split.
    + intros ->. intros k. rewrite <- Hu. by rewrite elem_of_list_singleton.
    + intros H. apply H, Hu. by left.
  - split; [done|]. intros H. destruct (H a). apply Hu. by left.
  - split; [done|]. intros H. assert (a = q) by (apply H, Hu; by left). assert (b = q) by (apply H, Hu; right; by left). subst. apply NoDup_cons in Nu as [Nu _]. exfalso. apply Nu. by left.
  - split; [done|]. intros H. destruct (H a). apply Hu. by left.
Qed.

(** [pass_dataframe_as] names the one dataframe that the functions take from outside the group; without it there is none. A
    function takes its parameter that is a dataframe, if there is exactly one; else the columns of its @require_columns, or all
    its parameters that are dataframes. *)
Definition frame_param (s : snode C U E T) (k : name) : Prop := exists t dt, (k, (t, dt)) ∈ pn_inputs (sn s) /\ is_df t = true.
Definition sole_frame (s : snode C U E T) (k : name) : Prop := forall k', frame_param s k' <-> k' = k.
Definition takes_frame (s : snode C U E T) (k : name) : Prop :=
  sole_frame s k \/ ((forall p, ~ sole_frame s p) /\ match sn_tag s with Some (_, cols) => k ∈ cols | None => frame_param s k end).
Definition outside (st : spark_wc) (fns : list (snode C U E T)) (k : name) : Prop :=
  k ∉ map sn_name fns /\ k ∉ default [] (sw_columns st) /\ exists s, s ∈ fns /\ takes_frame s k.
Lemma df_params_iff (s : snode C U E T) k : k ∈ df_params is_df (sn s) <-> frame_param s k.
Proof.
  unfold df_params, frame_param, dkeys. split.
  - intros ([k' [t dt]] & -> & Hk)%elem_of_list_fmap. apply elem_of_list_filter in Hk as [Ht Hk]. cbn in *. exists t, dt. split; [done|]. by apply Is_true_true.
  - intros (t & dt & Hk & Ht). apply elem_of_list_fmap. exists (k, (t, dt)). split; [done|]. apply elem_of_list_filter. cbn. split; [by apply Is_true_true|done].
Qed.
Lemma sole_iff (s : snode C U E T) k : NoDup (dkeys (pn_inputs (sn s))) -> sole_frame s k <-> df_params is_df (sn s) = [k].
Proof.
  intros ND. unfold sole_frame. split.
  - intros H. assert (N : NoDup (df_params is_df (sn s))).
    { unfold df_params. by apply NoDup_dkeys_filter. }
    assert (M : forall k', k' ∈ df_params is_df (sn s) <-> k' = k) by (intros k'; by rewrite df_params_iff).
    destruct (df_params is_df (sn s)) as [|a l].
    + exfalso. apply (elem_of_nil k). by apply M.
    + assert (a = k) as -> by (apply M; by left). destruct l as [|b l]; [done|]. assert (b = k) as -> by (apply M; right; by left).
      apply NoDup_cons in N as [N _]. exfalso. apply N. by left.
  - intros H k'. rewrite <- df_params_iff, H. apply elem_of_list_singleton.
Qed.
Theorem C71_frames st fns nodes : mapM prep_node fns = Some nodes -> (forall s, s ∈ fns -> NoDup (dkeys (pn_inputs (sn s)))) ->
  validate_frames is_df st nodes = true <->
  match sw_pass_as st with None => forall k, ~ outside st fns k | Some q => forall k, outside st fns k <-> k = q end.
Proof.
  intros Hm ND. rewrite frames_nodes. apply mapM_Some in Hm.
  assert (Hn : map sn_name nodes = map sn_name fns).
  { clear -Hm. induction Hm as [|s s' fns nodes Hs Hm IH]; [done|]. cbn. f_equal; [|exact IH]. unfold prep_node in Hs.
    destruct (df_params is_df (sn s)) as [|a [|b l]]; [by injection Hs as <-| |by injection Hs as <-].
    unfold require_columns in Hs. destruct (derive_parameter is_df (sn s)); [|done]. destruct (is_column _); by injection Hs as <-. }
  assert (Hs : forall s s', s ∈ fns -> prep_node s = Some s' -> forall k,
    match sn_tag s' with Some (_, cols) => k ∈ cols | None => exists t dt, (k, (t, dt)) ∈ pn_inputs (sn s') /\ is_df t = true end <-> takes_frame s k).
  { intros s s' Hs Hp k. specialize (ND s Hs). unfold takes_frame. unfold prep_node in Hp. destruct (df_params is_df (sn s)) as [|a [|b l]] eqn:Ed.
    - injection Hp as <-. assert (S : forall p, ~ sole_frame s p) by (intros p Hp; apply sole_iff in Hp; [|done]; by rewrite Ed in Hp). split; [by right|].
      by intros [H|[_ H]]; [destruct (S k)|].
    - assert (S : sole_frame s k <-> k = a). { rewrite sole_iff by done. rewrite Ed. split; [by intros [= ->]|by intros ->]. }
      unfold require_columns in Hp. destruct (derive_parameter is_df (sn s)) as [q|]; [|done]. assert (Ht : sn_tag s' = Some (q, [a])) by (destruct (is_column _); by injection Hp as <-).
      rewrite Ht, elem_of_list_singleton, S. split; [by left|]. intros [H|[H _]]; [done|]. destruct (H a). by apply sole_iff.
    - injection Hp as <-. assert (S : forall p, ~ sole_frame s p) by (intros p Hp; apply sole_iff in Hp; [|done]; by rewrite Ed in Hp). split; [by right|].
      by intros [H|[_ H]]; [destruct (S k)|]. }
  assert (O : forall k, outside_nodes st nodes k <-> outside st fns k).
  { intros k. unfold outside_nodes, outside. rewrite Hn. split; intros (H1 & H2 & s & H3 & H4); split_and!; try done.
    - destruct (elem_of_list_lookup_1 _ _ H3) as [i Hi]. destruct (Forall2_lookup_r _ _ _ _ _ Hm Hi) as (s0 & Hi0 & Hp). exists s0.
      assert (Hin : s0 ∈ fns) by (by eapply elem_of_list_lookup_2). split; [done|]. by apply (Hs s0 s).
    - destruct (elem_of_list_lookup_1 _ _ H3) as [i Hi]. destruct (Forall2_lookup_l _ _ _ _ _ Hm Hi) as (s1 & Hi1 & Hp). exists s1.
      split; [by eapply elem_of_list_lookup_2|]. by apply (Hs s s1). }
  destruct (sw_pass_as st); split; intros H k; specialize (H k); rewrite O in *; done.
Qed.

Lemma dget_more (a : dict (T * deptype)) (l : list name) k :
  dget (dupd a (map (fun c => (c, (df_type, REQUIRED))) l)) k = if decide (k ∈ l) then Some (df_type, REQUIRED) else dget a k.
Proof.
  rewrite <- dget_foldl_dset. f_equal. unfold dupd. revert a. induction l as [|x l IH]; intros a; [done|]. apply IH.
Qed.
(** @require_columns: a function of a dataframe that returns a column computed from the [columns] it declares and its other
    arguments adds that column. *)
Theorem C71_require_columns columns n s names cols target cc : require_columns columns n = Some s ->
  (forall c, c ∈ columns -> c ∈ names \/ c ∈ cols) -> NoDup (dkeys (pn_inputs n)) -> is_column (pn_type n) = true ->
  derive_parameter is_df n = Some target -> target ∉ columns ->
  let ext := filter (fun kt : name * (T * deptype) => kt.1 <> target /\ kt.1 ∉ names /\ kt.1 ∉ cols) (pn_inputs n) in
  (forall kw d, NoDup (dkeys kw) -> (forall k, k ∈ dkeys kw -> k ∈ dkeys (pn_inputs n)) -> dget kw target = Some (SDf d) ->
    match pn_call n kw with
    | Ok (SCol x) => match x d with Ok c => Ok c | Err e => Err (NUser e) end
    | Ok _ => Err (NUser attribute_error)
    | Err e => Err e
    end = cc (pick columns d) (pick (dkeys ext) kw)) ->
  implements names cols s (ColFn (pn_name n) columns (map (fun kt => (kt.1, kt.2.2)) ext) cc).
Proof.
  intros H Hc ND Hcol Ht Htc ext Hcall. unfold SparkModel.require_columns in H. rewrite Ht, Hcol in H. injection H as <-.
  set (more := filter (fun c => c ∉ dkeys (pn_inputs n)) columns).
  unfold SparkSpec.implements. cbn [sn_tag sn].
  assert (Hti : target ∈ dkeys (pn_inputs n)).
  { unfold derive_parameter in Ht. destruct (df_params is_df n) as [|q [|? ?]] eqn:Ed; [done| |done]. injection Ht as <-.
    assert (Hq : q ∈ df_params is_df n) by (rewrite Ed; by left). unfold df_params in Hq. apply elem_of_list_fmap in Hq as (kt & -> & Hq).
    apply elem_of_list_filter in Hq as [_ Hq]. by apply elem_of_list_fmap_1. }
  assert (Hmore : forall k, k ∈ dkeys (map (fun c => (c, (df_type, REQUIRED))) more) <-> k ∈ columns /\ k ∉ dkeys (pn_inputs n)).
  { intros k. unfold dkeys at 1. change (@fmap list _ ?A ?B ?f ?l) with (map f l). rewrite map_map. cbn. rewrite map_id. unfold more. rewrite elem_of_list_filter. tauto. }
  assert (Hdx : dkeys (map (fun kt : name * (T * deptype) => (kt.1, kt.2.2)) ext) = dkeys ext).
  { unfold dkeys. change (@fmap list _ ?A ?B ?f ?l) with (map f l). by rewrite map_map. }
  assert (Hin : forall k td, (k, td) ∈ dupd (pn_inputs n) (map (fun c => (c, (df_type, REQUIRED))) more) ->
    (k, td) ∈ pn_inputs n \/ k ∈ columns).
  { intros k td Hk. destruct (decide (k ∈ columns)) as [|Hkc]; [by right|]. left. assert (Hg : dget (dupd (pn_inputs n) (map (fun c => (c, (df_type, REQUIRED))) more)) k = Some td).
    { apply elem_dget; [by apply NoDup_dupd|done]. }
    apply dget_elem. rewrite dget_more, decide_False in Hg; [done|]. unfold more. rewrite elem_of_list_filter. tauto. }
  split; cbn [cf_name cf_reads cf_ext cf_call pn_name pn_inputs].
  - done.
  - intros k Hk _. apply dkeys_dupd. rewrite Hmore. destruct (decide (k ∈ dkeys (pn_inputs n))); tauto.
  - intros k dt Hk. apply elem_of_list_fmap in Hk as ([k' [t dt']] & [= -> ->] & Hk). apply elem_of_list_filter in Hk as [(H1 & H2 & H3) Hk]. cbn in H1, H2, H3.
    split_and!; [|done|done|done]. exists t. apply dget_elem. rewrite dget_more. rewrite decide_False; [by apply elem_dget|].
    unfold more. rewrite elem_of_list_filter. intros [_ Hcc]. by destruct (Hc _ Hcc).
  - intros k t dt Hk. destruct (decide (k = target)) as [|Hkt]; [by left|]. right. destruct (decide (k ∈ names)) as [|H2]; [by left|]. right.
    destruct (decide (k ∈ cols)) as [|H3]; [by left|]. right. apply Hin in Hk as [Hk | Hk]; [|by destruct (Hc _ Hk)].
    apply elem_of_list_fmap. exists (k, (t, dt)). split; [done|]. by apply elem_of_list_filter.
  - intros kw d Nk Hk. cbn [pn_call]. set (kw' := filter (fun kv : name * V => kv.1 ∈ dkeys (pn_inputs n)) kw).
    assert (Gk : forall k, dget kw' k = if decide (k ∈ dkeys (pn_inputs n)) then dget kw k else None).
    { intros k. unfold kw'. by rewrite (dget_filter _ (fun k => k ∈ dkeys (pn_inputs n))) by done. }
    assert (Nk' : NoDup (dkeys kw')) by by apply NoDup_dkeys_filter.
    specialize (Hcall kw' d Nk'). rewrite Gk, decide_True in Hcall by done. rewrite Hdx.
    assert (Hpe : pick (dkeys ext) kw' = pick (dkeys ext) kw).
    { apply map_eq. intros k. rewrite !lookup_pick. destruct (decide (k ∈ dkeys ext)) as [He|]; [|done]. rewrite Gk, decide_True; [done|].
      apply elem_of_list_fmap in He as (kt & -> & He). apply elem_of_list_filter in He as [_ He]. by apply elem_of_list_fmap_1. }
    rewrite <- Hpe. rewrite <- Hcall; [|intros k [w Hw]%dget_Some_key; rewrite Gk in Hw; by destruct (decide _)|done].
    unfold dataframe_of. destruct (pn_call n kw') as [o|e]; [|done]. rewrite Hk. destruct o as [d'|x|u]; [done| |done]. by destruct (x d).
Qed.
End Props.
Print Assumptions C71_value.
Print Assumptions C71_append.
Print Assumptions C71_nodes.
Print Assumptions C71_select_unknown.
Print Assumptions C71_frames.
Print Assumptions C71_require_columns.

(** ** Examples *)
Notation ev := (sval nat nat string).
Definition edf_type (t : string) : bool := bool_decide (t = "DataFrame").
Definition ecol_type (t : string) : bool := bool_decide (t = "Column").
Definition eser_type (t : string) : bool := bool_decide (t = "Series").
Definition eapply (_ : bool) (f : list ev -> res (nerr string) ev) (cols : list nat) : res (nerr string) nat :=
  match f (map SVal cols) with Ok (SVal u) => Ok u | Ok _ => Err (NUser "not a cell") | Err e => Err e end.
Definition ecap (kw : dict ev) : res (nerr string) ev := Err (NUser "captured").
Notation etransform := (spark_transform edf_type ecol_type eser_type "DataFrame" (fun _ => true) (fun _ => true) "ValueError" "AttributeError" "AnalysisException" (fun l => l) eapply ecap (fun l => l)).
Notation erequire := (require_columns edf_type ecol_type "DataFrame" "AttributeError").
Notation eprep := (prep_node edf_type ecol_type "DataFrame" "AttributeError").
Notation eimplements := (implements eser_type (fun _ => true) (fun _ => true) "ValueError" (fun l => l) eapply).
Notation eudf := (udf_fn eser_type (fun _ => true) (fun _ => true) "ValueError" (fun l => l) eapply).
Definition num (v : option ev) : nat := match v with Some (SVal n) => n | _ => 0 end.

(** def s(a: int, k: int), def t(s: int, b: int); @require_columns("s") def u(frame: DataFrame, k: int) -> Column *)
Definition fs : pnode ev string string := from_fn "s" "int" [("a", ("int", REQUIRED)); ("k", ("int", REQUIRED))] (fun kw => Ok (SVal (num (kw !! "a") + num (kw !! "k")))).
Definition ft : pnode ev string string := from_fn "t" "int" [("s", ("int", REQUIRED)); ("b", ("int", REQUIRED))] (fun kw => Ok (SVal (num (kw !! "s") * num (kw !! "b")))).
Definition fu : pnode ev string string := from_fn "u" "Column" [("frame", ("DataFrame", REQUIRED)); ("k", ("int", REQUIRED))]
  (fun kw => Ok (SCol (fun d => match dget d "s" with Some c => Ok (c + num (kw !! "k")) | None => Err "no column s" end))).
Definition su : snode nat nat string string := match erequire ["s"] fu with Some s => s | None => SNode fu None end.
Definition efns : list (snode nat nat string string) := [SNode ft None; su; SNode fs None].
(** def f(data, w) *)
Definition ff : pnode ev string string :=
  from_fn "f" "DataFrame" [("data", ("DataFrame", REQUIRED)); ("w", ("int", REQUIRED))]
    (fun kw => match kw !! "data" with Some d => Ok d | None => Err "no data" end).
Definition esig : dict string := [("data", "DataFrame"); ("w", "int")].
(** @with_columns(s, t, u, columns_to_pass=["a", "b"], select=["t", "u"]) *)
Definition est := SparkWC (Some ["a"; "b"]) None (Some ["t"; "u"]) None Append.
Definition er : res spark_err (list (pnode ev string string)) := etransform est "f" esig efns [ff].
Definition enodes : list (pnode ev string string) := match er with Ok nodes => nodes | Err _ => [] end.
Lemma er_ok : er = Ok enodes.
Proof.
  assert (C : match er with Ok _ => true | Err _ => false end = true) by by vm_compute. unfold enodes. by destruct er.
Qed.
Example ex_spark_nodes : map pn_name enodes = ["f"; "f.s"; "f.u"; "f.t"; "f._select"].
Proof. by vm_compute. Qed.
Definition ens : dict (pnode ev string string) := map (fun n => (pn_name n, n)) enodes.
(** A dataframe with a third column. *)
Definition ed0 (z : name) : dict nat := [("a", 2); ("b", 3); (z, 4)].
Definition eenv (z : name) : gmap name ev := {["data" := SDf (ed0 z); "k" := SVal 10; "w" := SVal 1]}.
Ltac by_dec := apply (bool_decide_unpack _); by vm_compute.
Lemma not_namespaced (s N : name) : has_dot s = false -> forall k, s <> assign_namespace k N.
Proof. intros H k ->. by rewrite has_dot_assign in H. Qed.
Lemma graph_in {V E T} (nodes : list (pnode V E T)) : NoDup (map pn_name nodes) ->
  forall m, m ∈ nodes -> dget (map (fun n => (pn_name n, n)) nodes) (pn_name m) = Some m.
Proof.
  intros N m Hm. apply elem_dget; [|apply elem_of_list_fmap; by exists m].
  unfold dkeys. change (@fmap list _ ?A ?B ?f ?l) with (map f l). by rewrite map_map.
Qed.
Lemma ens_wf : forall y n, dget ens y = Some n -> NoDup (dkeys (pn_inputs n)).
Proof.
  intros y n H. apply dget_elem in H. unfold ens in H. apply elem_of_list_fmap in H as (n' & [= -> ->] & Hn).
  assert (C : forallb (fun n => bool_decide (NoDup (dkeys (pn_inputs n)))) enodes = true) by by vm_compute.
  rewrite forallb_forall in C. apply elem_of_list_In, C in Hn. by apply bool_decide_eq_true in Hn.
Qed.
Lemma elem_efns s : s ∈ efns -> s = SNode ft None \/ s = su \/ s = SNode fs None.
Proof. unfold efns. rewrite !elem_of_cons, elem_of_nil. tauto. Qed.
Lemma e_fits : spark_fits efns ["a"; "b"] "data" "f".
Proof.
  split.
  - by_dec.
  - by_dec.
  - split_and!; [done|by_dec|]. by apply not_namespaced.
  - intros s [-> | [-> | ->]]%elem_efns; split_and!; first [done|by_dec].
  - intros s [-> | [-> | ->]]%elem_efns Hp; exfalso; revert Hp; by_dec.
  - intros s k Hs Hk H1 H2. assert (k = "k" \/ k = "frame") as Hk'.
    { apply elem_efns in Hs as [-> | [-> | ->]]; vm_compute in Hk; repeat (apply elem_of_cons in Hk as [-> | Hk]);
        first [by apply elem_of_nil in Hk|by left|by right|exfalso; apply H1; by_dec|exfalso; apply H2; by_dec]. }
    destruct Hk' as [-> | ->]; (split; [by_dec|]; by apply not_namespaced).
Qed.
Lemma e_apart z : z <> "k" -> udf_apart ens (eenv z) efns ["a"; "b"] (ed0 z).
Proof.
  intros Hz s k Hs Ht Hk H1 H2. assert (k = "k") as ->.
  { apply elem_efns in Hs as [-> | [-> | ->]]; [..|]; try (by vm_compute in Ht); vm_compute in Hk; repeat (apply elem_of_cons in Hk as [-> | Hk]);
      first [by apply elem_of_nil in Hk|done|exfalso; apply H1; by_dec|exfalso; apply H2; by_dec]. }
  split; [intros Hd; repeat (apply elem_of_cons in Hd as [Hd | Hd]; [by try subst z|]); by apply elem_of_nil in Hd|].
  intros d Hd. apply value_input_iff in Hd; [|by vm_compute]. by vm_compute in Hd.
Qed.
Lemma e_acyclic x : ~ tc (reads_fn efns) x x.
Proof.
  (* s is read by t and u, and nothing else of the group is read *)
  assert (S : forall a b, reads_fn efns a b -> b = "s" /\ a <> "s").
  { intros a b (s & Hs & <- & Hb & Hn). apply elem_efns in Hs as [-> | [-> | ->]]; vm_compute in Hb;
      repeat (apply elem_of_cons in Hb as [-> | Hb]); first [by apply elem_of_nil in Hb|by split|exfalso; revert Hn; by_dec]. }
  assert (G : forall a b, tc (reads_fn efns) a b -> b = "s" /\ a <> "s").
  { induction 1 as [a b H|a c b H _ [IH1 IH2]]; [by apply S|]. by apply S in H as [? _]. }
  intros H. by apply G in H as [? ?].
Qed.
Lemma e_placed z : z ∉ ["a"; "b"; "k"] -> spark_placed edf_type ecol_type eser_type "DataFrame" (fun _ => true) (fun _ => true) "ValueError" "AttributeError" "AnalysisException" (fun l => l) eapply ecap (fun l => l)
  ens (eenv z) est "f" esig efns [ff] enodes efns "data" (ed0 z) ff.
Proof.
  intros Hz. rewrite !not_elem_of_cons in Hz. destruct Hz as (Za & Zb & Zk & _). unfold spark_placed. split_and!.
  - exact ens_wf.
  - done.
  - done.
  - exact er_ok.
  - reflexivity.
  - reflexivity.
  - exact e_fits.
  - by apply e_apart.
  - exact e_acyclic.
  - apply graph_in. by_dec.
  - by left.
  - by left.
  - by_dec.
  - apply from_fn_keyword.
  - intros k Hk. apply elem_of_cons in Hk as [Hk | Hk]; [|apply elem_of_list_singleton in Hk]; symmetry in Hk; by apply not_namespaced in Hk.
  - by apply value_input.
  - unfold ed0. cbn. rewrite !NoDup_cons, !elem_of_cons, !elem_of_nil. split_and!; [naive_solver|naive_solver|naive_solver|apply NoDup_nil_2].
Qed.
Definition ucol (cm : gmap name nat) (ext : gmap name ev) : res (nerr string) nat :=
  match ext !! "k" with
  | None => Err (NMissing "k")
  | Some _ => match cm !! "s" with Some c => Ok (c + num (ext !! "k")) | None => Err (NUser "no column s") end
  end.
Definition ecolfns : list (colfn (C := nat) (U := nat) (E := string)) :=
  [eudf (map sn_name efns) ["a"; "b"] ft; ColFn "u" ["s"] [("k", REQUIRED)] ucol; eudf (map sn_name efns) ["a"; "b"] fs].
Lemma e_implements : Forall2 (eimplements (map sn_name efns) ["a"; "b"]) efns ecolfns.
Proof.
  apply Forall2_cons. split; [reflexivity|]. apply Forall2_cons. split; [|apply Forall2_cons; split; [reflexivity|apply Forall2_nil_2]].
  eapply (C71_require_columns edf_type ecol_type) with (columns := ["s"]) (n := fu) (target := "frame") (attribute_error := "AttributeError") (df_type := "DataFrame") (sort := fun l => l).
  - exact (fun l => l).
  - reflexivity.
  - intros c ->%elem_of_list_singleton. left. by_dec.
  - by_dec.
  - reflexivity.
  - reflexivity.
  - by_dec.
  - intros kw d Nk Hk Hf. set (e := dkeys _). assert (e = ["k"]) as -> by by vm_compute.
    assert (Hkk : pick ["k"] kw !! "k" = dget kw "k") by by rewrite lookup_pick.
    assert (Hs : pick ["s"] d !! "s" = dget d "s") by by rewrite lookup_pick.
    unfold ucol. rewrite Hkk, Hs. cbn [pn_call fu from_fn find fst snd]. rewrite Hf. cbn. destruct (dget kw "k") as [w|] eqn:Ek; cbn; [|by rewrite andb_false_r, bool_decide_eq_true_2].
    pose proof (list_to_map_dget kw "k" Nk) as Hl. rewrite Ek in Hl. rewrite !andb_false_r. destruct (dget d "s") as [c|]; [|done]. do 2 f_equal. by rewrite Hl.
Qed.
Lemma e_colvals z : let cv := colval ens (eenv z) ecolfns (ed0 z) in cv "s" 12 /\ cv "t" 36 /\ cv "u" 22.
Proof.
  cbv zeta. assert (Vk : given ens (eenv z) "k" REQUIRED (Some (SVal 10 : ev))) by by apply value_input.
  assert (Cs : colval ens (eenv z) ecolfns (ed0 z) "s" 12).
  { apply (cv_fn _ _ _ _ (eudf (map sn_name efns) ["a"; "b"] fs) {["a" := 2]} {["k" := SVal 10]}).
    - repeat first [apply elem_of_list_here|apply elem_of_list_further].
    - intros k u [<- <-]%lookup_singleton_Some. by_dec.
    - intros k u [<- <-]%lookup_singleton_Some. apply cv_orig; [by_dec|done].
    - intros k Hk Hn. vm_compute in Hk. apply elem_of_list_singleton in Hk as ->. by vm_compute in Hn.
    - split; [intros k w [<- <-]%lookup_singleton_Some; by_dec|]. intros k dt Hk. vm_compute in Hk. apply elem_of_list_singleton in Hk as [= -> ->]. exact Vk.
    - by vm_compute. }
  split_and!; [done| |].
  - apply (cv_fn _ _ _ _ (eudf (map sn_name efns) ["a"; "b"] ft) {["s" := 12; "b" := 3]} ∅).
    + by left.
    + intros k u Hk. apply lookup_insert_Some in Hk as [[<- _] | [_ [<- _]%lookup_singleton_Some]]; by_dec.
    + intros k u Hk. apply lookup_insert_Some in Hk as [[<- <-] | [_ [<- <-]%lookup_singleton_Some]]; [done|]. apply cv_orig; [by_dec|done].
    + intros k Hk Hn. vm_compute in Hk. repeat (apply elem_of_cons in Hk as [-> | Hk]; [by vm_compute in Hn|]). by apply elem_of_nil in Hk.
    + split; [by intros k w ?|]. intros k dt Hk. vm_compute in Hk. by apply elem_of_nil in Hk.
    + by vm_compute.
  - apply (cv_fn _ _ _ _ (ColFn "u" ["s"] [("k", REQUIRED)] ucol) {["s" := 12]} {["k" := SVal 10]}).
    + right. by left.
    + intros k u [<- <-]%lookup_singleton_Some. by left.
    + by intros k u [<- <-]%lookup_singleton_Some.
    + intros k Hk Hn. apply elem_of_list_singleton in Hk as ->. by vm_compute in Hn.
    + split; [intros k w [<- <-]%lookup_singleton_Some; by_dec|]. intros k dt Hk. apply elem_of_list_singleton in Hk as [= -> ->]. exact Vk.
    + by vm_compute.
Qed.
(** The columns 36 = (2 + 10) * 3 and 22 = (2 + 10) + 10 are added, that of s is not. *)
Example ex_spark z : z ∉ ["a"; "b"; "k"] -> exists d, value ens (eenv z) "f" (SDf d) /\ dget d "t" = Some 36 /\ dget d "u" = Some 22 /\ dget d "s" = None /\ dget d "a" = Some 2.
Proof.
  intros Hz. pose proof (e_placed z Hz) as P. assert (Nd : NoDup (dkeys (ed0 z))) by (unfold spark_placed in P; tauto).
  destruct (C71_value _ _ _ _ _ _ _ _ _ _ _ _ _ _ _ _ _ _ _ _ _ _ _ _ _ ecolfns P e_implements) as (run & (R1 & R2 & _) & VV).
  set (f := fun x => if decide (x = "t") then 36 else if decide (x = "u") then 22 else 12). set (new := map (fun x => (x, f x)) run).
  assert (Hk : dkeys new = run) by (unfold new, dkeys; change (@fmap list _ ?A ?B ?f ?l) with (map f l); rewrite map_map; by apply map_id).
  assert (Hr : forall x, x ∈ run <-> x = "s" \/ x = "t" \/ x = "u").
  { intros x. rewrite R2. cbn [sw_select est]. split.
    - intros [Hx _]. change (map sn_name efns) with ["t"; "u"; "s"] in Hx. rewrite !elem_of_cons, elem_of_nil in Hx. tauto.
    - assert (Ht : reads_fn efns "t" "s"). { exists (SNode ft None). split_and!; [by left|done|by_dec|by_dec]. }
      intros [-> | [-> | ->]]; (split; [by_dec|]).
      + exists "t". split_and!; [by_dec|by_dec|by apply rtc_once].
      + exists "t". split_and!; [by_dec|by_dec|done].
      + exists "u". split_and!; [by_dec|by_dec|done]. }
  assert (Hg : forall x, dget new x = if decide (x ∈ run) then Some (f x) else None).
  { intros x. destruct (decide (x ∈ run)) as [Hx|Hx]; [|apply dget_None_key; by rewrite Hk].
    apply elem_dget; [by rewrite Hk|]. apply elem_of_list_fmap. by exists x. }
  set (d := filter (fun kc : name * nat => kc.1 ∉ dkeys new \/ kc.1 ∈ default (dkeys new) (sw_select est)) (dupd (ed0 z) new)).
  assert (Hd : final Append (sw_select est) (ed0 z) new d) by (apply append_final; [done|by rewrite Hk|done]).
  exists d. split.
  - apply VV. exists [("data", SDf d); ("w", SVal 1)], new, d. split; [done|]. split; [by_dec|]. split; [intros k Hkk; exact Hkk|]. split; [|split; [exact Hd|split; [done|]]].
    + split; [done|]. intros x c Hx. rewrite Hg in Hx. destruct (decide (x ∈ run)) as [Hxr|]; [|done]. injection Hx as <-.
      apply Hr in Hxr as [-> | [-> | ->]]; apply e_colvals.
    + intros q t dt Hq Hn. repeat (apply elem_of_cons in Hq as [[= -> -> ->] | Hq]); [done| |by apply elem_of_nil in Hq]. cbn. by apply value_input.
  - destruct Hd as [_ Hd]. rewrite Hk in Hd. cbn [default sw_select est] in Hd. clear P Nd.
    assert (Ht : "t" ∈ run) by (apply Hr; tauto). assert (Hu : "u" ∈ run) by (apply Hr; tauto). assert (Hs : "s" ∈ run) by (apply Hr; tauto).
    split_and!; rewrite Hd, Hg.
    + rewrite decide_True by (right; by_dec). by rewrite decide_True.
    + rewrite decide_True by (right; by_dec). by rewrite decide_True.
    + rewrite decide_False; [done|]. intros [? | Hx]; [done|]. revert Hx. by_dec.
    + assert (Ha : "a" ∉ run) by (intros [? | [? | ?]]%Hr; done). rewrite decide_True by (by left). by rewrite decide_False.
Qed.

(** The hypotheses of [C71_append] hold of this graph. *)
Example ex_spark_append : sw_mode est = Append /\ (forall x, x ∈ map sn_name efns -> x ∉ dkeys (ed0 "z")) /\ exists d, value ens (eenv "z") "f" (SDf d).
Proof.
  split_and!; [done| |].
  - intros x Hx. change (map sn_name efns) with ["t"; "u"; "s"] in Hx. repeat (apply elem_of_cons in Hx as [-> | Hx]; [by_dec|]). by apply elem_of_nil in Hx.
  - destruct (ex_spark "z") as (d & Hv & _); [by_dec|]. by exists d.
Qed.
(** A function of a dataframe of the graph: [pass_dataframe_as] must name it. *)
Example ex_spark_frames :
  let g := SNode (from_fn (E := string) "g" "column" [("other", ("DataFrame", REQUIRED))] (fun _ => Ok (SVal 0 : ev))) None in
  validate_frames edf_type (SparkWC None (Some "other") None None Append) [g] = true /\ validate_frames edf_type (SparkWC None None None None Append) [g] = false.
Proof. done. Qed.
(** What the constructor rejects. *)
Theorem C71_constructor columns pass_as select namespace m :
  spark_with_columns columns pass_as select namespace m = None <-> (exists c, columns = Some c) /\ exists p, pass_as = Some p.
Proof. destruct columns, pass_as; cbn; split; try done; intros; naive_solver. Qed.
Print Assumptions C71_constructor.
Example ex_spark_constructor : spark_with_columns (Some ["a"]) None None None Append = Some (SparkWC (Some ["a"]) None None None Append) /\
  spark_with_columns (Some ["a"]) (Some "p") None None Append = None.
Proof. done. Qed.

(** ** Refutations *)
(** A function that reads the column that it replaces is not run. *)
Definition fa : pnode ev string string := from_fn "a" "int" [("a", ("int", REQUIRED))] (fun kw => Ok (SVal (S (num (kw !! "a"))))).
Theorem C71_all_run_refuted : exists st fns s out, s ∈ fns /\ sw_select st = None /\ etransform st "f" esig fns [ff] = Ok out /\
  "f.c" ∈ map pn_name out /\ assign_namespace (sn_name s) "f" ∉ map pn_name out.
Proof.
  set (fc := from_fn (E := string) "c" "int" [("x", ("int", REQUIRED))] (fun kw => Ok (SVal (num (kw !! "x")) : ev))).
  set (st := SparkWC (Some ["a"; "x"]) None None None Append). set (r := etransform st "f" esig [SNode fa None; SNode fc None] [ff]).
  assert (C : match r with Ok out => bool_decide ("f.c" ∈ map pn_name out) && bool_decide ("f.a" ∉ map pn_name out) | Err _ => false end = true) by by vm_compute.
  destruct r as [out|] eqn:H; [|done]. apply andb_true_iff in C as [C1 C2]. apply bool_decide_eq_true in C1. apply bool_decide_eq_true in C2.
  exists st, [SNode fa None; SNode fc None], (SNode fa None), out. split_and!; [by left|done|exact H|done|done].
Qed.
(** When there are no others, the decorated function depends on a variable that nothing provides. *)
Theorem C71_dangling_refuted : exists st fns out n, etransform st "f" esig fns [ff] = Ok out /\ n ∈ out /\ pn_name n = "f" /\
  "f.data" ∈ dkeys (pn_inputs n) /\ "f.data" ∉ map pn_name out.
Proof.
  set (st := SparkWC (Some ["a"]) None None None Append). set (r := etransform st "f" esig [SNode fa None] [ff]).
  assert (C : match r with Ok (n :: out) => bool_decide (pn_name n = "f" /\ "f.data" ∈ dkeys (pn_inputs n) /\ "f.data" ∉ map pn_name (n :: out)) | _ => false end = true) by by vm_compute.
  destruct r as [[|n out]|] eqn:H; [done| |done]. apply bool_decide_eq_true in C as (C1 & C2 & C3).
  exists st, [SNode fa None], (n :: out), n. split_and!; [exact H|by left|done|done|done].
Qed.
(** A parameter that is not among the columns passed is read from the dataframe all the same if that has such a column: what the graph provides is ignored. *)
Theorem C71_columns_to_pass_refuted : exists st fns out n d, etransform st "f" esig fns [ff] = Ok out /\ n ∈ out /\ pn_name n = "f.s" /\
  "k" ∉ default [] (sw_columns st) /\ dkeys (pn_inputs n) = ["k"; "data"] /\
  forall w, pn_call n [("k", SVal w); ("data", SDf d)] = Ok (SDf (dset d "s" 7)).
Proof.
  set (st := SparkWC (Some ["a"]) None None None Append). set (r := etransform st "f" esig [SNode fs None] [ff]).
  assert (C : match r with Ok [_; n] => bool_decide (pn_name n = "f.s") && bool_decide (dkeys (pn_inputs n) = ["k"; "data"]) | _ => false end = true) by by vm_compute.
  assert (G : match r with Ok [_; n] => forall w, pn_call n [("k", SVal w); ("data", SDf [("a", 2); ("k", 5)])] = Ok (SDf [("a", 2); ("k", 5); ("s", 7)]) | _ => True end).
  { vm_compute. reflexivity. }
  destruct r as [[|m [|n [|]]]|] eqn:H; try done. apply andb_true_iff in C as [C1 C2]. apply bool_decide_eq_true in C1. apply bool_decide_eq_true in C2.
  exists st, [SNode fs None], [m; n], n, [("a", 2); ("k", 5)]. split_and!; [exact H|right; by left|done|by_dec|done|exact G].
Qed.
(** A column of the dataframe is dropped when a function of that name is run that is not selected. *)
Theorem C71_originals_refuted : exists st ns env d0 d, sw_mode st = Append /\
  (exists sig fns orig out nodes n, spark_placed edf_type ecol_type eser_type "DataFrame" (fun _ => true) (fun _ => true) "ValueError" "AttributeError" "AnalysisException" (fun l => l) eapply ecap (fun l => l)
    ns env st "f" sig fns orig out nodes "data" d0 n /\ pn_name n = "f") /\
  value ns env "f" (SDf d) /\ dget d0 "s" = Some 4 /\ dget d "s" = None.
Proof.
  destruct (ex_spark "s") as (d & Hv & _ & _ & Hs & _); [by_dec|]. exists est, ens, (eenv "s"), (ed0 "s"), d. split_and!; [done| |done|done|done].
  exists esig, efns, [ff], enodes, efns, ff. split; [|done]. apply e_placed. by_dec.
Qed.
(** @select of a column of the dataframe is refused. *)
Theorem C71_select_column_refuted : exists st, sw_mode st = Select /\ sw_select st = Some ["t"; "a"] /\ sw_columns st = Some ["a"; "b"] /\
  etransform st "f" esig efns [ff] = Err SparkValueError.
Proof. exists (SparkWC (Some ["a"; "b"]) None (Some ["t"; "a"]) None Select). split_and!; [done|done|done|by vm_compute]. Qed.
Lemma own_input {V E T} (ns : dict (pnode V E T)) env y n t : dget ns y = Some n -> (y, (t, REQUIRED)) ∈ pn_inputs n -> forall v, ~ value ns env y v.
Proof.
  intros D Hi. assert (G : forall x v, value ns env x v -> x <> y); [|intros v Hv; by apply G in Hv].
  intros x v. induction 1 as [x v D' Hx|x n' m v D' Hd Hv IH Ho Hc]; intros ->; [congruence|]. rewrite D in D'. injection D' as <-.
  destruct (m !! y) as [w|] eqn:Em; [by apply (IH _ _ Em)|]. by destruct (Ho _ _ _ Hi Em) as [? _].
Qed.
(** A function with the name of the dataframe parameter is accepted, and its node depends on itself. *)
Theorem C71_parameter_name_refuted : exists st fns out (ns : dict (pnode ev string string)),
  etransform st "f" esig fns [ff] = Ok out /\ (forall m, m ∈ out -> dget ns (pn_name m) = Some m) /\ forall env v, ~ value ns env "f.data" v.
Proof.
  set (g := from_fn (E := string) "data" "int" [("a", ("int", REQUIRED))] (fun kw => Ok (SVal (num (kw !! "a")) : ev))).
  set (st := SparkWC (Some ["a"]) None None None Append). set (r := etransform st "f" esig [SNode g None] [ff]).
  assert (C : match r with
    | Ok out => bool_decide (NoDup (map pn_name out)) && match dget (map (fun n => (pn_name n, n)) out) "f.data" with
        | Some n => bool_decide (pn_inputs n = [("f.data", ("DataFrame", REQUIRED))]) | None => false end
    | Err _ => false end = true) by by vm_compute.
  destruct r as [out|] eqn:H; [|done]. apply andb_true_iff in C as [C1 C2]. apply bool_decide_eq_true in C1.
  exists st, [SNode g None], out, (map (fun n => (pn_name n, n)) out). split_and!; [exact H|by apply graph_in|].
  destruct (dget _ "f.data") as [n|] eqn:D; [|done]. apply bool_decide_eq_true in C2.
  intros env. apply (own_input _ _ _ n "DataFrame"); [done|]. rewrite C2. by left.
Qed.
Print Assumptions C71_all_run_refuted.
Print Assumptions C71_dangling_refuted.
Print Assumptions C71_columns_to_pass_refuted.
Print Assumptions C71_originals_refuted.
Print Assumptions C71_select_column_refuted.
Print Assumptions C71_parameter_name_refuted.
