(** C48: materializers and data loaders in a graph. *)
From Verif Require Import Base Dict NodeModel NodeSpec NodeProofs PipeModel PipeSpec PipeProofs ExtractProofs SubdagProofs AdapterModel AdapterSpec AdapterProofs AdapterProps MaterializeModel.

(** [x] depends, directly or not, on [y] (or is [y]). *)
Definition needs {V E T} (g : dict (pnode V E T)) : name -> name -> Prop :=
  rtc (fun x y => exists n, dget g x = Some n /\ y ∈ dkeys (pn_inputs n)).

Section Proofs.
Context {V E T : Type}.
Implicit Types (g : dict (pnode V E T)) (env : gmap name V).

Lemma value_agree g g' env x v : (forall y, needs g x y -> dget g' y = dget g y) -> value g env x v -> value g' env x v.
Proof.
  intros H Hv. induction Hv as [x v D Hx|x n m v D Hd Hv IH Ho Hc].
  - apply value_input; [|done]. rewrite H; [done|apply rtc_refl].
  - assert (Step : forall k, k ∈ dkeys (pn_inputs n) -> forall y, needs g k y -> needs g x y).
    { intros k Hk y Hy. eapply rtc_l; [|exact Hy]. by exists n. }
    apply (value_node g' env x n m v); [rewrite H; [done|apply rtc_refl]|done| | |done].
    + intros k w Hk. apply (IH k w Hk). intros y Hy. apply H. eapply Step; [by eapply Hd|done].
    + intros k t dt Hk Hm. destruct (Ho k t dt Hk Hm) as (H1 & H2 & H3). split_and!; [done| |done].
      rewrite H; [done|]. eapply Step; [by eapply PipeProofs.elem_dkeys|apply rtc_refl].
Qed.
Lemma needs_agree g g' x y : (forall y, needs g x y -> dget g' y = dget g y) -> needs g' x y -> needs g x y.
Proof.
  intros H Hy. induction Hy as [x|x z y (n & Hn & Hz) Hy IH]; [apply rtc_refl|].
  rewrite H in Hn by apply rtc_refl. assert (Hxz : needs g x z) by (apply rtc_once; by exists n).
  apply rtc_transitive with z; [done|]. apply IH. intros y' Hy'. apply H. by apply rtc_transitive with z.
Qed.
Lemma value_same g g' env x v : (forall y, needs g x y -> dget g' y = dget g y) -> value g' env x v <-> value g env x v.
Proof.
  intros H. split; [|by apply value_agree]. apply value_agree. intros y Hy. symmetry. apply H. by eapply needs_agree.
Qed.

Lemma needs_names g x y : x ∈ graph_names g -> needs g x y -> y ∈ graph_names g.
Proof.
  intros Hx Hy. induction Hy as [x|x z y (n & Hn & Hz) Hy IH]; [done|]. apply IH. unfold graph_names. apply elem_of_app. right.
  apply elem_of_concat. exists (dkeys (pn_inputs n)). split; [done|]. apply elem_of_list_fmap. exists (x, n). split; [done|]. by apply dget_elem.
Qed.

Lemma by_name_get (ns : list (pnode V E T)) : forall d x, dget (foldl (fun d n => dset d (pn_name n) n) d ns) x = None <-> dget d x = None /\ x ∉ map pn_name ns.
Proof.
  induction ns as [|n ns IH]; intros d x; cbn; [split; [intros H; split; [done|by intros []%elem_of_nil]|tauto]|].
  rewrite IH, dget_dset, not_elem_of_cons. destruct (decide (x = pn_name n)); [split; [by intros [? _]|by intros (_ & ? & _)]|tauto].
Qed.
Lemma by_name_other (ns : list (pnode V E T)) : forall d x, x ∉ map pn_name ns -> dget (foldl (fun d n => dset d (pn_name n) n) d ns) x = dget d x.
Proof.
  induction ns as [|n ns IH]; intros d x H; cbn in *; [done|]. apply not_elem_of_cons in H as [H1 H2]. rewrite IH by done. by apply dget_dset_ne.
Qed.
Lemma by_name_in (ns : list (pnode V E T)) : forall d n, NoDup (map pn_name ns) -> n ∈ ns -> dget (foldl (fun d n => dset d (pn_name n) n) d ns) (pn_name n) = Some n.
Proof.
  induction ns as [|n ns IH]; intros d n' N Hn; [by apply elem_of_nil in Hn|]. cbn in N |- *. apply NoDup_cons in N as [N1 N2].
  apply elem_of_cons in Hn as [-> | Hn]; [|by apply IH]. rewrite by_name_other by done. apply dget_dset_eq.
Qed.
Lemma NoDup_by_name (ns : list (pnode V E T)) : forall d, NoDup (dkeys d) -> NoDup (dkeys (foldl (fun d n => dset d (pn_name n) n) d ns)).
Proof. induction ns as [|n ns IH]; intros d N; cbn; [done|]. by apply IH, NoDup_dkeys_dset. Qed.
Lemma collect_elem {A} (f : A -> res (merr E) (list (pnode V E T))) l out : collect f l = Ok out ->
  (forall a, a ∈ l -> exists ns, f a = Ok ns) /\ forall n, n ∈ out <-> exists a ns, a ∈ l /\ f a = Ok ns /\ n ∈ ns.
Proof.
  revert out. induction l as [|a l IH]; cbn; intros out H.
  - injection H as <-. split; [by intros ? []%elem_of_nil|]. intros n. split; [by intros []%elem_of_nil|by intros (? & ? & []%elem_of_nil & _)].
  - destruct (f a) as [ns|] eqn:Ef; [|done]. cbn in H. destruct (collect f l) as [rest|]; [|done]. cbn in H. injection H as <-.
    destruct (IH rest eq_refl) as [I1 I2]. split.
    + intros b [-> | Hb]%elem_of_cons; eauto.
    + intros n. rewrite elem_of_app, I2. split.
      * intros [Hn|(b & ms & H1 & H2 & H3)]; [exists a, ns; split; [by left|done]|exists b, ms; split; [by right|done]].
      * intros (b & ms & [-> | H1]%elem_of_cons & H2 & H3); [left; congruence|right; by exists b, ms].
Qed.
End Proofs.

Section Graph.
Context {V E T : Type}.
Variable vpair : V -> V -> V.
Variable vfst : V -> option V.
Variable tuple_of : T -> T.
Variable dict_type : T.
Variable types_ok : dict (pnode V E T) -> bool.
Variable ext_type : dict (pnode V E T) -> name -> T.
Implicit Types (g : dict (pnode V E T)) (env : gmap name V) (m : mat V E T) (e : ext V E T).
Notation modify := (modify_graph vpair vfst tuple_of dict_type types_ok ext_type).

(** The two names a loader occupies. *)
Definition loads e (y : name) : Prop := y = ex_target e \/ y = ("load_data." ++ ex_target e)%string.
(** The names a materializer occupies. *)
Definition saves m (y : name) : Prop := y = mt_id m \/ (mt_combine m <> None /\ y = build_name (mt_id m)).

Lemma mat_nodes_names g m ns : mat_nodes dict_type ext_type g m = Ok ns -> forall y, y ∈ map pn_name ns <-> saves m y.
Proof.
  unfold mat_nodes, saves. destruct (forallb _ _); [|done]. destruct (mt_combine m) as [[t b]|]; [|destruct (mt_deps m) as [|x [|]]; [done| |done]];
    (unfold saver_node; destruct (resolve_class _ _) as [c|]; [|done]; cbn; destruct (validate c _) as [[]|]; [|done]; cbn;
     intros [= <-] y; cbn [map pn_name]; rewrite !elem_of_cons, elem_of_nil; cbn [pn_name join_node]).
  - split; [intros [-> | [-> | []]]; [by right|by left]|intros [-> | [_ ->]]; [right; by left|by left]].
  - split; [intros [-> | []]; by left|intros [-> | [? _]]; [by left|done]].
Qed.
Lemma ext_nodes_names g e ns : ext_nodes vpair vfst tuple_of ext_type g e = Ok ns -> forall y, y ∈ map pn_name ns <-> loads e y.
Proof.
  unfold ext_nodes, loads. destruct (decide _); [|done]. unfold loader_nodes. destruct (resolve_class _ _) as [c|]; [|done]. cbn.
  destruct (validate c _) as [[]|]; [|done]. cbn. intros [= <-] y. cbn [map pn_name]. rewrite !elem_of_cons, elem_of_nil. tauto.
Qed.

Record modified g (mats : list (mat V E T)) (exts : list (ext V E T)) g' := {
  md_ms : list (pnode V E T);
  md_ls : list (pnode V E T);
  md_mats : collect (mat_nodes dict_type ext_type g) mats = Ok md_ms;
  md_fresh : forall y, y ∈ map pn_name md_ms -> y ∉ graph_names g;
  md_exts : collect (ext_nodes vpair vfst tuple_of ext_type (dupd g (by_name md_ms))) exts = Ok md_ls;
  md_eq : g' = foldl (fun d n => dset d (pn_name n) n) (dupd g (by_name md_ms)) md_ls;
}.
Lemma modify_spec g mats exts g' : modify g mats exts = Ok g' -> inhabited (modified g mats exts g').
Proof.
  unfold modify_graph. destruct (collect _ mats) as [ms|] eqn:Em; [|done]. cbn. unfold with_nodes.
  destruct (existsb _ _) eqn:Ee; [done|]. destruct (types_ok _); [|done]. cbn.
  destruct (collect _ exts) as [ls|] eqn:El; [|done]. cbn. destruct (types_ok _); [|done]. intros [= <-]. constructor.
  refine (Build_modified _ _ _ _ ms ls Em _ El eq_refl). intros y Hy Hg. rewrite existsb_false in Ee.
  assert (Hk : y ∈ dkeys (by_name ms)).
  { apply dget_Some_key. destruct (dget (by_name ms) y) eqn:Ed; [by eexists|]. apply by_name_get in Ed as [_ ?]. done. }
  specialize (Ee y Hk). apply bool_decide_eq_false in Ee. done.
Qed.

Lemma dupd_new_get g (ms : list (pnode V E T)) y : dget (dupd g (by_name ms)) y = match dget (by_name ms) y with Some n => Some n | None => dget g y end.
Proof. apply dget_dupd, NoDup_by_name, NoDup_nil_2. Qed.

Lemma modified_names_m g mats exts g' (M : modified g mats exts g') y : y ∈ map pn_name (md_ms _ _ _ _ M) <-> exists m, m ∈ mats /\ saves m y.
Proof.
  destruct (collect_elem _ _ _ (md_mats _ _ _ _ M)) as [C1 C2]. split.
  - intros (n & -> & Hn)%elem_of_list_fmap. apply C2 in Hn as (m & ns & H1 & H2 & H3). exists m. split; [done|].
    eapply mat_nodes_names; [done|]. apply elem_of_list_fmap. by exists n.
  - intros (m & Hm & Hs). destruct (C1 m Hm) as [ns Hns]. eapply mat_nodes_names in Hs; [|done]. apply elem_of_list_fmap in Hs as (n & -> & Hn).
    apply elem_of_list_fmap. exists n. split; [done|]. apply C2. by exists m, ns.
Qed.
Lemma modified_names_l g mats exts g' (M : modified g mats exts g') y : y ∈ map pn_name (md_ls _ _ _ _ M) <-> exists e, e ∈ exts /\ loads e y.
Proof.
  destruct (collect_elem _ _ _ (md_exts _ _ _ _ M)) as [C1 C2]. split.
  - intros (n & -> & Hn)%elem_of_list_fmap. apply C2 in Hn as (m & ns & H1 & H2 & H3). exists m. split; [done|].
    eapply ext_nodes_names; [done|]. apply elem_of_list_fmap. by exists n.
  - intros (m & Hm & Hs). destruct (C1 m Hm) as [ns Hns]. eapply ext_nodes_names in Hs; [|done]. apply elem_of_list_fmap in Hs as (n & -> & Hn).
    apply elem_of_list_fmap. exists n. split; [done|]. apply C2. by exists m, ns.
Qed.

(** A variable of the graph that does not depend on what a loader replaces has the same
    values in the graph with the materializers and loaders. *)
Theorem C48_unaffected g mats exts g' env x v :
  modify g mats exts = Ok g' -> x ∈ graph_names g ->
  (forall y e, needs g x y -> e ∈ exts -> ~ loads e y) ->
  value g' env x v <-> value g env x v.
Proof.
  intros H Hx Hl. apply modify_spec in H as [M]. apply value_same. intros y Hy. rewrite (md_eq _ _ _ _ M).
  rewrite by_name_other.
  - rewrite dupd_new_get. destruct (dget (by_name (md_ms _ _ _ _ M)) y) eqn:Ed; [|done]. exfalso.
    assert (Hin : y ∈ map pn_name (md_ms _ _ _ _ M)).
    { destruct (decide (y ∈ map pn_name (md_ms _ _ _ _ M))) as [|Hn]; [done|]. assert (Hx2 : dget (by_name (md_ms _ _ _ _ M)) y = None) by (by apply by_name_get). congruence. }
    apply (md_fresh _ _ _ _ M y Hin). by eapply needs_names.
  - intros (e & He & Hle)%modified_names_l. by apply (Hl y e).
Qed.

(** Every variable keeps its value if there are only materializers. *)
Theorem C48_savers_only g mats g' env x v :
  modify g mats [] = Ok g' -> x ∈ graph_names g -> value g' env x v <-> value g env x v.
Proof. intros H Hx. eapply C48_unaffected; [done|done|]. by intros ? ? _ []%elem_of_nil. Qed.

(** The data a materializer saves: its only dependency, or what the result builder makes of all
    its dependencies, in their order. *)
Definition saved_data g env m (d : V) : Prop :=
  match mt_combine m with
  | None => exists x, mt_deps m = [x] /\ value g env x d
  | Some (_, build) => exists kw, build kw = Ok d /\ dkeys kw = mt_deps m /\ forall x w, (x, w) ∈ kw -> value g env x w
  end.
(** The name of the node whose value is saved. *)
Definition data_name m : name :=
  match mt_combine m, mt_deps m with None, [x] => x | _, _ => build_name (mt_id m) end.
(** All nodes of all materializers have different names, and no loader replaces them. *)
Definition ids_distinct (mats : list (mat V E T)) (exts : list (ext V E T)) : Prop :=
  NoDup (concat (map (fun m => match mt_combine m with Some _ => [build_name (mt_id m); mt_id m] | None => [mt_id m] end) mats)) /\
  forall m e y, m ∈ mats -> e ∈ exts -> saves m y -> ~ loads e y.

Lemma kwargs_all (ks : list name) (t : name -> T) (mm : gmap name V) : (forall k, k ∈ ks -> is_Some (mm !! k)) ->
  dkeys (kwargs (map (fun x => (x, (t x, REQUIRED))) ks) mm) = ks.
Proof.
  unfold kwargs, dkeys. induction ks as [|k ks IH]; intros H; [done|]. cbn. destruct (H k ltac:(by left)) as [w ->]. cbn. f_equal. apply IH. intros; apply H; by right.
Qed.
Lemma join_inputs g m : NoDup (mt_deps m) ->
  foldl (fun d x => dset d x (type_in ext_type g x, REQUIRED)) [] (mt_deps m) = map (fun x => (x, (type_in ext_type g x, REQUIRED))) (mt_deps m).
Proof. intros N. by rewrite (foldl_dset_map (fun x : name => x) (fun x => (type_in ext_type g x, REQUIRED))) by (cbn; by rewrite map_id). Qed.

Lemma join_value g0 g env m t build d : NoDup (mt_deps m) -> dget g (build_name (mt_id m)) = Some (join_node ext_type g0 m t build) ->
  value g env (build_name (mt_id m)) d <-> exists kw, build kw = Ok d /\ dkeys kw = mt_deps m /\ forall x w, (x, w) ∈ kw -> value g env x w.
Proof.
  intros N D. rewrite (value_node_iff g env _ _ d D). cbn [pn_inputs pn_call join_node]. rewrite join_inputs by done.
  set (ins := map (fun x => (x, (type_in ext_type g0 x, REQUIRED))) (mt_deps m)).
  assert (Ki : dkeys ins = mt_deps m) by (unfold ins, dkeys; rewrite <- list_fmap_compose; apply list_fmap_id).
  split.
  - intros (mm & [M1 M2] & Hc). exists (kwargs ins mm).
    assert (All : forall k, k ∈ mt_deps m -> is_Some (mm !! k)).
    { intros k Hk. destruct (mm !! k) eqn:Ek; [by eexists|]. destruct (M2 k (type_in ext_type g0 k) REQUIRED) as [? _]; [|done|done].
      apply elem_of_list_fmap. by exists k. }
    split_and!; [destruct (build _); cbn in Hc; congruence|by apply kwargs_all|].
    intros x w Hw. apply (proj2 (M1 x w ltac:(apply elem_dget in Hw; [rewrite dget_kwargs in Hw; by destruct (decide _)|apply NoDup_kwargs; by rewrite Ki]))).
  - intros (kw & Hb & Hk & Hv). exists (list_to_map kw).
    assert (Nk : NoDup (dkeys kw)) by by rewrite Hk. split.
    + split.
      * intros k w Hw. rewrite list_to_map_dget in Hw by done. split; [rewrite Ki, <- Hk; apply dget_Some_key; by eexists|]. apply Hv. by apply dget_elem.
      * intros k t' dt Hin Hn. exfalso. apply PipeProofs.elem_dkeys in Hin. rewrite Ki, <- Hk in Hin. rewrite list_to_map_dget in Hn by done.
        apply dget_Some_key in Hin as [? ?]. congruence.
    + assert (kwargs ins (list_to_map kw) = kw) as ->; [|by rewrite Hb].
      unfold ins. rewrite <- Hk. clear -Nk. unfold kwargs.
      assert (Gen : forall l : dict V, (forall k v, (k, v) ∈ l -> (list_to_map kw : gmap name V) !! k = Some v) ->
        omap (fun kt : name * (T * deptype) => (fun v => (kt.1, v)) <$> (list_to_map kw : gmap name V) !! kt.1) (map (fun x => (x, (type_in ext_type g0 x, REQUIRED))) (dkeys l)) = l).
      { induction l as [|[k v] l IH]; intros H; [done|]. cbn. rewrite (H k v) by by left. cbn. f_equal. apply IH. intros; apply H; by right. }
      apply Gen. intros k v Hkv. rewrite list_to_map_dget by done. by apply elem_dget.
Qed.

Lemma collect_names g mats ms : collect (mat_nodes dict_type ext_type g) mats = Ok ms ->
  map pn_name ms = concat (map (fun m => match mt_combine m with Some _ => [build_name (mt_id m); mt_id m] | None => [mt_id m] end) mats).
Proof.
  revert ms. induction mats as [|m mats IH]; cbn; intros ms H; [by injection H as <-|].
  destruct (mat_nodes dict_type ext_type g m) as [ns|] eqn:Em; [|done]. cbn in H. destruct (collect _ mats) as [rest|]; [|done]. cbn in H. injection H as <-.
  rewrite map_app, (IH rest eq_refl). f_equal. clear -Em. unfold mat_nodes in Em. destruct (forallb _ _); [|done].
  destruct (mt_combine m) as [[t b]|]; [|destruct (mt_deps m) as [|x [|]]; [done| |done]];
    (unfold saver_node in Em; destruct (resolve_class _ _) as [c|]; [|done]; cbn in Em; destruct (validate c _) as [[]|]; [|done]; cbn in Em; by injection Em as <-).
Qed.

(** The type of a variable: that of the node, or, if no node computes it, that of the external variable. *)
Definition has_type (g : dict (pnode V E T)) (x : name) (t : T) : Prop :=
  (exists n, dget g x = Some n /\ t = pn_type n) \/ (dget g x = None /\ t = ext_type g x).
Lemma type_in_has g x : has_type g x (type_in ext_type g x).
Proof. unfold has_type, type_in. destruct (dget g x) as [n|]; [left; by exists n|by right]. Qed.

(** The value of a materializer is the metadata that the chosen class returns when saving
    the data with the declared arguments. *)
Theorem C48_saved g mats exts g' m :
  modify g mats exts = Ok g' -> m ∈ mats -> ids_distinct mats exts -> NoDup (mt_deps m) ->
  (forall x, x ∈ mt_deps m -> x ∈ graph_names g) /\
  exists t c, chosen t (mt_savers m) c /\ accepted c (mt_kws m) /\
    match mt_combine m with Some (t', _) => t = t' | None => exists x, mt_deps m = [x] /\ has_type g x t end /\
    (well_formed c (mt_kws m) -> separate (mt_kws m) ->
     data_name m ∉ dkeys (mt_kws m) -> (forall k, dget (mt_kws m) k <> Some (DSource (data_name m))) ->
     forall env v, value g' env (mt_id m) v <->
       exists a d, adapter_args g' env c (mt_kws m) a /\ saved_data g' env m d /\ ac_save c a d = Ok v).
Proof.
  intros H Hm [Hid1 Hid2] Nd. apply modify_spec in H as [M].
  destruct (collect_elem _ _ _ (md_mats _ _ _ _ M)) as [C1 C2]. destruct (C1 m Hm) as [ns Hns].
  assert (Hget : forall n, n ∈ ns -> dget g' (pn_name n) = Some n).
  { intros n Hn. assert (Hs : saves m (pn_name n)) by (eapply mat_nodes_names; [done|]; apply elem_of_list_fmap; by exists n).
    rewrite (md_eq _ _ _ _ M), by_name_other by (intros (e & He & Hle)%modified_names_l; by apply (Hid2 m e (pn_name n))).
    rewrite dupd_new_get. unfold by_name. rewrite (by_name_in _ _ n); [done| |apply C2; by exists m, ns].
    by rewrite (collect_names _ _ _ (md_mats _ _ _ _ M)). }
  unfold mat_nodes in Hns. destruct (forallb _ _) eqn:Fa; [|done]. split.
  { intros x Hx. rewrite forallb_forall in Fa. apply (bool_decide_unpack _). specialize (Fa x). rewrite <- elem_of_list_In in Fa. by rewrite Fa. }
  unfold saved_data, data_name. destruct (mt_combine m) as [[t b]|].
  - unfold saver_node in Hns. cbn [pn_type pn_name join_node default] in Hns. destruct (resolve_class t _) as [c|] eqn:Rc; [|done].
    cbn in Hns. destruct (validate c _) as [[]|] eqn:Va; [|done]. cbn in Hns. injection Hns as <-. apply validate_accepted in Va.
    exists t, c. split; [by apply resolve_class_chosen|]. split; [done|]. split; [done|].
    intros W S Hk Hs env v.
    rewrite (saver_value c (mt_kws m) W Va S g' env (mt_id m) (build_name (mt_id m)) t dict_type v Hk); [|intros (k & ?); by apply (Hs k)|].
    + assert (J : forall d, value g' env (build_name (mt_id m)) d <-> _) by (intros d; apply (join_value g g' env m t b d Nd); apply (Hget (join_node ext_type g m t b)); by left).
      setoid_rewrite J. done.
    + match goal with |- dget g' _ = Some ?n => apply (Hget n) end. right. by left.
  - destruct (mt_deps m) as [|x [|]] eqn:Ed; [done| |done].
    unfold saver_node in Hns. cbn [pn_type pn_name data_node default] in Hns. destruct (resolve_class _ _) as [c|] eqn:Rc; [|done].
    cbn in Hns. destruct (validate c _) as [[]|] eqn:Va; [|done]. cbn in Hns. injection Hns as <-. apply validate_accepted in Va.
    exists (type_in ext_type g x), c. split; [by apply resolve_class_chosen|]. split; [done|]. split; [exists x; split; [done|apply type_in_has]|].
    intros W S Hk Hs env v.
    rewrite (saver_value c (mt_kws m) W Va S g' env (mt_id m) x (type_in ext_type g x) dict_type v Hk); [|intros (k & ?); by apply (Hs k)|].
    + split; intros (a & d & H1 & H2 & H3); exists a, d; split_and!; [done|by exists x|done|done| |done]. by destruct H2 as (x' & [= <-] & ?).
    + match goal with |- dget g' _ = Some ?n => apply (Hget n) end. by left.
Qed.

Lemma collect_lnames g exts ls : collect (ext_nodes vpair vfst tuple_of ext_type g) exts = Ok ls ->
  map pn_name ls = concat (map (fun e => [("load_data." ++ ex_target e)%string; ex_target e]) exts).
Proof.
  revert ls. induction exts as [|e exts IH]; cbn; intros ls H; [by injection H as <-|].
  destruct (ext_nodes _ _ _ _ g e) as [ns|] eqn:Ee; [|done]. cbn in H. destruct (collect _ exts) as [rest|]; [|done]. cbn in H. injection H as <-.
  rewrite map_app, (IH rest eq_refl). change (?a :: ?b :: ?l) with ([a; b] ++ l). f_equal. clear -Ee. unfold ext_nodes in Ee. destruct (decide _); [|done].
  unfold loader_nodes in Ee. destruct (resolve_class _ _) as [c|]; [|done]. cbn in Ee. destruct (validate c _) as [[]|]; [|done]. cbn in Ee. by injection Ee as <-.
Qed.

(** The target of a loader has the data that the chosen class loads with the declared
    arguments, whatever it was before. *)
Theorem C48_loaded g mats exts g' e :
  (forall a b, vfst (vpair a b) = Some a) ->
  modify g mats exts = Ok g' -> e ∈ exts ->
  NoDup (concat (map (fun e => [("load_data." ++ ex_target e)%string; ex_target e]) exts)) ->
  exists t c, (forall n, dget g (ex_target e) = Some n -> t = pn_type n) /\ chosen t (ex_loaders e) c /\ accepted c (ex_kws e) /\
    (well_formed c (ex_kws e) -> separate (ex_kws e) ->
     forall env v, value g' env (ex_target e) v <-> exists a meta, adapter_args g' env c (ex_kws e) a /\ ac_load c a = Ok (v, meta)).
Proof.
  intros Pf H He Hn. apply modify_spec in H as [M].
  destruct (collect_elem _ _ _ (md_exts _ _ _ _ M)) as [C1 C2]. destruct (C1 e He) as [ns Hns].
  assert (Hget : forall n, n ∈ ns -> dget g' (pn_name n) = Some n).
  { intros n Hin. rewrite (md_eq _ _ _ _ M). apply by_name_in; [|apply C2; by exists e, ns]. by rewrite (collect_lnames _ _ _ (md_exts _ _ _ _ M)). }
  unfold ext_nodes in Hns. destruct (decide _); [|done]. unfold loader_nodes in Hns.
  set (t := type_in _ _ _) in Hns. destruct (resolve_class t _) as [c|] eqn:Rc; [|done]. cbn in Hns.
  destruct (validate c _) as [[]|] eqn:Va; [|done]. cbn in Hns. injection Hns as <-. apply validate_accepted in Va.
  exists t, c. split.
  { intros n Hn'. unfold t, type_in. rewrite dupd_new_get.
    rewrite (by_name_other (md_ms _ _ _ _ M) []); cbn [dget]; [by rewrite Hn'|]. intros Hin. apply (md_fresh _ _ _ _ M) in Hin. apply Hin.
    apply elem_of_app. left. eapply PipeProofs.elem_dkeys, dget_elem, Hn'. }
  split; [by apply resolve_class_chosen|]. split; [done|]. intros W S env v.
  apply (selected_value vpair vfst c (ex_kws e) W Va S g' env Pf (ex_target e) ("load_data." ++ ex_target e)%string t (tuple_of t)).
  - match goal with |- dget g' _ = Some ?n => apply (Hget n) end. by left.
  - match goal with |- dget g' _ = Some ?n => apply (Hget n) end. right. by left.
Qed.

(** When the names of materializers and variables clash or are missing nothing is executed. *)
Theorem C48_rejected g mats exts m :
  m ∈ mats ->
  (exists x, x ∈ mt_deps m /\ x ∉ graph_names g) \/ (mt_combine m = None /\ length (mt_deps m) <> 1) \/ mt_id m ∈ graph_names g ->
  exists err, modify g mats exts = Err err.
Proof.
  intros Hm Hbad. destruct (modify g mats exts) as [g'|err] eqn:H; [|by exists err]. exfalso. apply modify_spec in H as [M].
  destruct (collect_elem _ _ _ (md_mats _ _ _ _ M)) as [C1 C2]. destruct (C1 m Hm) as [ns Hns].
  destruct Hbad as [(x & Hx & Hg)|[[Hc Hl]|Hid]].
  - unfold mat_nodes in Hns. destruct (forallb _ _) eqn:Fa; [|done]. rewrite forallb_forall in Fa. specialize (Fa x). rewrite <- elem_of_list_In in Fa.
    apply Hg. apply (bool_decide_unpack _). by rewrite Fa.
  - unfold mat_nodes in Hns. destruct (forallb _ _); [|done]. rewrite Hc in Hns. destruct (mt_deps m) as [|x [|]]; done.
  - apply (md_fresh _ _ _ _ M (mt_id m)); [|done]. apply modified_names_m. exists m. split; [done|]. by left.
Qed.

(** ** The results and the hook *)
Lemma take_results_spec (r : dict V) xs : forall acc,
  (forall x, x ∈ xs -> is_Some (dget r x)) ->
  exists d, foldl (fun acc x => bindr acc (fun d => match dget r x with Some v => Ok (dset d x v) | None => Err (MKey (E := E) x) end)) (Ok acc) xs = Ok d /\
    forall x, dget d x = if decide (x ∈ xs) then dget r x else dget acc x.
Proof.
  induction xs as [|x xs IH]; intros acc H; cbn.
  - exists acc. split; [done|]. done.
  - destruct (H x ltac:(by left)) as [v Hv]. rewrite Hv. destruct (IH (dset acc x v) ltac:(intros; apply H; by right)) as (d & H1 & H2).
    exists d. split; [done|]. intros y. rewrite H2, dget_dset. destruct (decide (y ∈ xs)) as [Hy|Hy].
    + rewrite decide_True; [done|by right].
    + destruct (decide (y = x)) as [-> | Hne]; [rewrite decide_True; [done|by left]|]. rewrite decide_False; [done|]. rewrite elem_of_cons. tauto.
Qed.

Lemma take_results_ok (r : dict V) xs : (forall x, x ∈ xs -> is_Some (dget r x)) ->
  exists d, take_results (E := E) r xs = Ok d /\ forall x, dget d x = if decide (x ∈ xs) then dget r x else None.
Proof. intros H. exact (take_results_spec r xs [] H). Qed.

(** On success the metadata and the additional variables are those of the execution in the modified
    graph, each exactly under the names that were asked for, and the hook sees the
    additional variables. *)
Theorem C48_results has_hook exec g mats exts vars g' raw :
  modify g mats exts = Ok g' -> mats <> [] \/ vars <> [] ->
  exec g' (vars ++ map mt_id mats) = Ok raw -> (forall x, x ∈ vars ++ map mt_id mats -> is_Some (dget raw x)) ->
  exists meta vals,
    materialize vpair vfst tuple_of dict_type types_ok ext_type has_hook exec g mats exts vars =
      (Ok (meta, vals), if has_hook then [(true, Some vals)] else []) /\
    (forall x, dget meta x = if decide (x ∈ map mt_id mats) then dget raw x else None) /\
    (forall x, dget vals x = if decide (x ∈ vars) then dget raw x else None).
Proof.
  intros H Hne Hx Hall. unfold materialize. rewrite decide_False by (intros [-> ->]; by destruct Hne). rewrite H. cbn zeta. rewrite Hx.
  destruct (take_results_ok raw (map mt_id mats) ltac:(intros; apply Hall; apply elem_of_app; by right)) as (meta & Em & Hmeta). rewrite Em. cbn [bindr].
  destruct (take_results_ok raw vars ltac:(intros; apply Hall; apply elem_of_app; by left)) as (vals & Ev & Hvals). rewrite Ev. cbn [bindr].
  exists meta, vals. done.
Qed.

(** If the graph could be modified, the hook is called exactly once, with the outcome. *)
Theorem C48_hook_partial exec g mats exts vars g' :
  modify g mats exts = Ok g' -> mats <> [] \/ vars <> [] ->
  let r := materialize vpair vfst tuple_of dict_type types_ok ext_type true exec g mats exts vars in
  r.2 = [match r.1 with Ok (_, a) => (true, Some a) | Err _ => (false, None) end] /\
  match exec g' (vars ++ map mt_id mats) with Err e => r.1 = Err (MRun e) | Ok _ => True end.
Proof.
  intros H Hne. unfold materialize. rewrite decide_False by (intros [-> ->]; by destruct Hne). rewrite H. cbn zeta.
  split; [done|]. by destruct (exec g' _).
Qed.
End Graph.
Print Assumptions C48_unaffected.
Print Assumptions C48_savers_only.
Print Assumptions C48_saved.
Print Assumptions C48_loaded.
Print Assumptions C48_rejected.
Print Assumptions C48_results.
Print Assumptions C48_hook_partial.

(** ** Examples and disagreements *)
Definition mg : dict (pnode tv unit unit) := [("f", fnode); ("h", from_fn "h" tt [("y", (tt, REQUIRED))] (fun m => match m !! "y" with Some a => Ok (TP a a) | None => Err tt end))].
(** [to.csv(id="s", dependencies=["f"], path=source("p"))],
    [to.csv(id="s2", dependencies=["y", "h"], combine=..., path=value(3))] and [from_.csv(target="data", path=value(5))]. *)
Definition m1 : mat tv unit unit := Mat "s" [anyc; csv] None ["f"] [("path", DSource "p")].
Definition m2 : mat tv unit unit :=
  Mat "s2" [anyc; csv] (Some (tt, fun kw => match kw with [(_, a); (_, b)] => Ok (TP a b) | _ => Err tt end)) ["y"; "h"] [("path", DValue (TN 3))].
Definition e1 : ext tv unit unit := Ext "data" [anyc; csv] [("path", DValue (TN 5))].
Notation tmod := (modify_graph TP tfst (fun t => t) tt (fun _ => true) (fun _ _ => tt)).

(** The hypotheses of the theorems above hold together, and the values are as expected. *)
Example C48_example : exists g',
  tmod mg [m1; m2] [e1] = Ok g' /\ ids_distinct [m1; m2] [e1] /\
  NoDup (concat (map (fun e : ext tv unit unit => [("load_data." ++ ex_target e)%string; ex_target e]) [e1])) /\
  (forall y e, needs mg "h" y -> e ∈ [e1] -> ~ loads e y) /\ "h" ∈ graph_names mg /\
  (forall m, m ∈ [m1; m2] -> well_formed csv (mt_kws m) /\ separate (mt_kws m) /\ data_name m ∉ dkeys (mt_kws m) /\
     (forall k, dget (mt_kws m) k <> Some (DSource (data_name m)))) /\
  value g' {["p" := TN 4; "y" := TN 6]} "data" (TN 512) /\
  value mg {["p" := TN 4; "y" := TN 6]} "h" (TP (TN 6) (TN 6)).
Proof.
  assert (S1 : separate (mt_kws m1)) by (split; [intros k k' s; cbn; repeat (destruct (decide _) as [-> | ]); done|intros k s w; cbn; repeat (destruct (decide _) as [-> | ]); done]).
  assert (S2 : separate (mt_kws m2)) by (split; [intros k k' s; cbn; repeat (destruct (decide _) as [-> | ]); done|intros k s w; cbn; repeat (destruct (decide _) as [-> | ]); done]).
  assert (S3 : separate (ex_kws e1)) by (split; [intros k k' s; cbn; repeat (destruct (decide _) as [-> | ]); done|intros k s w; cbn; repeat (destruct (decide _) as [-> | ]); done]).
  assert (Hy : forall y, needs mg "h" y -> y = "h" \/ y = "y").
  { assert (G : forall a y, needs mg a y -> a = "h" \/ a = "y" -> y = "h" \/ y = "y"); [|by eauto].
    intros a y Hn. induction Hn as [|a z y (n & H1 & H2) Hn IH]; [done|]. intros [-> | ->]; vm_compute in H1; [|done]. injection H1 as <-. apply IH. right.
    cbn in H2. apply elem_of_list_singleton in H2. done. }
  eexists. split; [reflexivity|]. split_and!.
  - split; [keyed|]. intros m e y Hm ->%elem_of_list_singleton Hs Hl.
    repeat (apply elem_of_cons in Hm as [-> | Hm]); [| |by apply elem_of_nil in Hm]; destruct Hs as [-> | [_ ->]]; destruct Hl as [?|?]; done.
  - keyed.
  - intros y e [-> | ->]%Hy ->%elem_of_list_singleton [?|?]; done.
  - keyed.
  - intros m Hm. repeat (apply elem_of_cons in Hm as [-> | Hm]); [| |by apply elem_of_nil in Hm]; (split_and!; [apply csv_well; cbn; keyed|done|keyed|intros k; cbn; repeat (destruct (decide _)); done]).
  - eapply (value_node _ _ "data" _ {["load_data.data" := TP (TN 512) (TN 7)]}); [reflexivity| | | |reflexivity].
    + intros k w Hk. apply lookup_singleton_Some in Hk as [<- _]. by left.
    + intros k w Hk. apply lookup_singleton_Some in Hk as [<- <-].
      eapply (value_node _ _ "load_data.data" _ ∅); [reflexivity| | | |reflexivity].
      * intros k w Hk. by rewrite lookup_empty in Hk.
      * intros k w Hk. by rewrite lookup_empty in Hk.
      * intros k t dt Hk. by apply elem_of_nil in Hk.
    + intros k t dt Hk Hn. cbn in Hk. apply elem_of_list_singleton in Hk as [= -> -> ->]. done.
  - eapply (value_node _ _ "h" _ {["y" := TN 6]}); [reflexivity| | | |reflexivity].
    + intros k w Hk. apply lookup_singleton_Some in Hk as [<- _]. by left.
    + intros k w Hk. apply lookup_singleton_Some in Hk as [<- <-]. by apply value_input.
    + intros k t dt Hk Hn. cbn in Hk. apply elem_of_list_singleton in Hk as [= -> -> ->]. done.
Qed.

(** The hypotheses of [C48_rejected]: a dependency that is not in the graph, several
    dependencies without a result builder, an id that is taken. *)
Example C48_rejected_example :
  tmod mg [Mat "s" [csv] None ["zz"] []] [] = Err (MDependency "s") /\
  tmod mg [Mat "s" [csv] None ["f"; "h"] [("path", DValue (TN 3))]] [] = Err (MCombine "s") /\
  tmod mg [Mat "y" [csv] None ["f"] [("path", DValue (TN 3))]] [] = Err MDuplicate.
Proof. done. Qed.
(** The hypotheses of [C48_results]. *)
Example C48_results_example : exists g' raw,
  tmod mg [m1] [] = Ok g' /\ (fun _ xs => Ok (map (fun x => (x, TN 1)) xs) : res unit (dict tv)) g' (["h"] ++ map mt_id [m1]) = Ok raw /\
  materialize TP tfst (fun t => t) tt (fun _ => true) (fun _ _ => tt) true (fun _ xs => Ok (map (fun x => (x, TN 1)) xs)) mg [m1] [] ["h"] =
    (Ok ([("s", TN 1)], [("h", TN 1)]), [(true, Some [("h", TN 1)])]).
Proof. do 2 eexists. split_and!; reflexivity. Qed.

(** With a hook, an invalid request is reported as UnboundLocalError instead of the
    error that describes it, and the hook is not called. *)
Theorem C48_error_masked_refuted : exists exec (g : dict (pnode tv unit unit)) mats exts vars,
  materialize TP tfst (fun t => t) tt (fun _ => true) (fun _ _ => tt) false exec g mats exts vars = (Err (MDependency "s"), []) /\
  materialize TP tfst (fun t => t) tt (fun _ => true) (fun _ _ => tt) true exec g mats exts vars = (Err MUnbound, []).
Proof. exists (fun _ _ => Ok []), mg, [Mat "s" [csv] None ["zz"] []], [], []. by vm_compute. Qed.
Print Assumptions C48_error_masked_refuted.

(** Two materializers with the same id are accepted; only the last is in the graph, so the first
    saves nothing. *)
Theorem C48_same_id_refuted : exists (g : dict (pnode tv unit unit)) (ma mb : mat tv unit unit) g' g'',
  mt_id ma = mt_id mb /\ mt_deps ma <> mt_deps mb /\ tmod g [ma; mb] [] = Ok g' /\ tmod g [mb] [] = Ok g'' /\ g' = g''.
Proof.
  exists mg, m1, (Mat "s" [anyc; csv] None ["h"] [("path", DSource "p")]). do 2 eexists. split_and!; [done|done|reflexivity|reflexivity|reflexivity].
Qed.
Print Assumptions C48_same_id_refuted.
