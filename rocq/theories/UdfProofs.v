(** Proofs about PySparkUDFGraphAdapter. *)
From Verif Require Import Base Dict NodeModel NodeSpec NodeProofs ExecModel ExecSpec ExecProofs ExecResults ExecCong ExecMap ConfigProofs SparkModel SparkSpec SparkProofs UdfModel UdfSpec.

Lemma dget_app {A} (a b : dict A) k : dget (a ++ b) k = match dget a k with Some v => Some v | None => dget b k end.
Proof. induction a as [|[k' v] a IH]; [done|]. cbn. by destruct (decide (k = k')). Qed.
Lemma dkeys_app {A} (a b : dict A) : dkeys (a ++ b) = dkeys a ++ dkeys b.
Proof. unfold dkeys. by rewrite fmap_app. Qed.

Section Udf.
Context {C U E T : Type}.
Notation V := (sval C U E).
Notation node := (pnode V E T).
Variable is_series : T -> bool.
Variable spark_type series_type : T -> bool.
Variable value_error attribute_error analysis_error : E.
Variable sort : list name -> list name.
Hypothesis sort_perm : forall l, sort l ≡ₚ l.
Variable spark_apply : bool -> (list V -> res (nerr E) V) -> list C -> res (nerr E) C.
Variable lit : option U -> option C.
Variable g : graph.
Variable fns : name -> node.
Variable d0 : dict C.
Variable config inputs overrides : gmap name V.
Variable fv : list name.
Hypothesis R : udf_request fns d0 g config inputs overrides fv.
Notation udf_call := (udf_call is_series spark_type series_type value_error analysis_error sort spark_apply fns).
Notation execute_node := (execute_node is_series spark_type series_type value_error analysis_error sort spark_apply).
Notation after := (after is_series spark_type series_type value_error analysis_error sort spark_apply fns).
Notation column_fn := (column_fn is_series spark_type series_type value_error sort spark_apply fns).
Notation udf_column := (udf_column is_series spark_type series_type value_error sort spark_apply).
Notation F := (udf_call ustart).
Notation all := (inputs ∪ config).
Notation ok_event := (ok_event F g all overrides (requested g fv)).
Notation good := (good F g all overrides (requested g fv)).
Notation trc := (list (event V (nerr E))).
Implicit Types t : trc.

(** ** Columns and values *)
Definition shown (d : dict C) (k : name) (v : V) : uval C U E :=
  match v, dget d k with SDf _, Some c => UCol c | _, _ => UVal v end.
Lemma seen_shown (m : gmap name V) : seen d0 m = amap (shown d0) m.
Proof. done. Qed.

Lemma first_none (ins : dict (T * deptype)) (kw : gmap name V) :
  first_frame (kwargs ins kw) = None <-> forall k d, k ∈ dkeys ins -> kw !! k <> Some (SDf d).
Proof.
  unfold first_frame, kwargs. induction ins as [|[k t] ins IH]; cbn [omap list_omap fst]; [split; [|done]; intros _ k d []%elem_of_nil|].
  destruct (kw !! k) as [v|] eqn:Ek; cbn [fmap option_fmap option_map omap list_omap fst snd].
  - destruct v as [d|h|u]; cbn [head].
    + split; [done|]. intros H. by apply (H k d ltac:(by left)) in Ek.
    + rewrite IH. split; [intros H i d [-> | Hi]%elem_of_cons; [cbn [fst]; by rewrite Ek|by apply H]|intros H i d Hi; apply H; by right].
    + rewrite IH. split; [intros H i d [-> | Hi]%elem_of_cons; [cbn [fst]; by rewrite Ek|by apply H]|intros H i d Hi; apply H; by right].
  - rewrite IH. split; [intros H i d [-> | Hi]%elem_of_cons; [cbn [fst]; by rewrite Ek|by apply H]|intros H i d Hi; apply H; by right].
Qed.
Lemma first_some (ins : dict (T * deptype)) (kw : gmap name V) d :
  first_frame (kwargs ins kw) = Some d -> exists k, k ∈ dkeys ins /\ kw !! k = Some (SDf d).
Proof.
  unfold first_frame, kwargs. induction ins as [|[k t] ins IH]; cbn [omap list_omap fst]; [done|].
  assert (Hr : (exists k, k ∈ dkeys ins /\ kw !! k = Some (SDf d)) -> exists k', k' ∈ dkeys ((k, t) :: ins) /\ kw !! k' = Some (SDf d)) by (intros (i & Hi & ?); exists i; split; [by right|done]).
  destruct (kw !! k) as [v|] eqn:Ek; cbn [fmap option_fmap option_map omap list_omap fst snd].
  - destruct v as [d'|h|u]; cbn [head]; [|by intros ?%IH; apply Hr|by intros ?%IH; apply Hr].
    intros [= ->]. exists k. split; [by left|done].
  - by intros ?%IH; apply Hr.
Qed.
(** The arguments that are no dataframes. *)
Definition plain (kw : gmap name V) : gmap name V := omap (fun v => if is_frame v then None else Some v) kw.
Lemma others_kwargs (ins : dict (T * deptype)) (kw : gmap name V) : others (kwargs ins kw) = kwargs ins (plain kw).
Proof.
  unfold others, kwargs. induction ins as [|[k t] ins IH]; cbn [omap list_omap fst]; [done|].
  unfold plain. rewrite lookup_omap. destruct (kw !! k) as [v|]; cbn [fmap option_fmap option_map mbind option_bind]; [|apply IH].
  unfold dict in *. rewrite (filter_cons (fun kv : name * V => is_frame kv.2 = false) (k, v)). cbn [fst snd].
  destruct v as [d|h|u]; cbn [is_frame]; [by rewrite decide_False|rewrite decide_True by done; by rewrite IH|rewrite decide_True by done; by rewrite IH].
Qed.

(** ** The dataframe of the adapter *)
Definition cur t : dict C := default d0 (us_df (after ustart t)).
Definition fits t (x : name) (v : V) : Prop :=
  match v with
  | SDf d => length d <= length (cur t) /\ x ∈ dkeys (cur t) /\ (us_df (after ustart t) = None -> d = d0)
  | _ => x ∉ dkeys (cur t)
  end.
Record uinv t : Prop := {
  ui_new : exists new, cur t = d0 ++ new /\ forall x, x ∈ dkeys new -> x ∈ calls_of t;
  ui_nodup : NoDup (dkeys (cur t));
  ui_schema : is_Some (us_df (after ustart t)) -> us_schema (after ustart t) = dkeys d0;
  ui_fits : forall x v, Store x v ∈ t \/ (exists kw, Call x kw (Ok v) ∈ t) -> fits t x v;
}.
Lemma uinv_nil : uinv [].
Proof.
  constructor.
  - exists []. split; [by rewrite app_nil_r|]. by intros x ?%elem_of_nil.
  - apply (ur_d0 _ _ _ _ _ _ _ R).
  - by intros [? ?].
  - intros x v [H | [kw H]]; by apply elem_of_nil in H.
Qed.

Lemma after_app t1 t2 : after ustart (t1 ++ t2) = after (after ustart t1) t2.
Proof. unfold UdfModel.after. by rewrite foldl_app. Qed.
Lemma after_quiet t ev : (forall x kw r, ev <> Call x kw r) -> after ustart (t ++ [ev]) = after ustart t.
Proof. intros H. rewrite after_app. destruct ev; [by edestruct H|done|done]. Qed.

Lemma all_columns k v : all !! k = Some v -> k ∈ dkeys d0 \/ (exists d, v = SDf d) -> k ∈ dkeys d0 /\ v = SDf d0.
Proof.
  intros H. apply lookup_union_Some_raw in H as [H | [_ H]]; [by apply (ur_inputs _ _ _ _ _ _ _ R)|by apply (ur_config _ _ _ _ _ _ _ R)].
Qed.
Lemma old_in t x : uinv t -> x ∈ dkeys d0 -> x ∈ dkeys (cur t).
Proof. intros I Hx. destruct (ui_new _ I) as (new & -> & _). rewrite dkeys_app. apply elem_of_app. by left. Qed.
Lemma cur_sources t x : uinv t -> x ∈ dkeys (cur t) -> x ∈ dkeys d0 \/ x ∈ calls_of t.
Proof. intros I Hx. destruct (ui_new _ I) as (new & Hc & Hn). rewrite Hc, dkeys_app in Hx. apply elem_of_app in Hx as [? | ?]; [by left|right; by apply Hn]. Qed.
Lemma d0_length t : uinv t -> length d0 <= length (cur t).
Proof. intros I. destruct (ui_new _ I) as (new & -> & _). rewrite app_length. lia. Qed.
Lemma calls_internal t x : good t -> x ∈ calls_of t -> exists nd, g !! x = Some nd /\ nd_ext nd = false.
Proof.
  intros G Hx. unfold calls_of in Hx. apply elem_of_list_omap in Hx as (ev & Hev & He). destruct ev as [y kw r| |]; [|done|done]. injection He as ->.
  destruct (good_elem _ _ _ _ _ _ _ G Hev) as (t1 & t2 & _ & _ & _ & _ & _ & _ & nd & ? & ? & _). by exists nd.
Qed.

(** Events other than calls. *)
Lemma uinv_store t x v : good t -> uinv t -> ok_event t (Store x v) -> uinv (t ++ [Store x v]).
Proof.
  intros G I Ho. assert (Ha : after ustart (t ++ [Store x v]) = after ustart t) by by apply after_quiet.
  assert (Hc : cur (t ++ [Store x v]) = cur t) by (unfold cur; by rewrite Ha).
  constructor.
  - rewrite Hc. destruct (ui_new _ I) as (new & H1 & H2). exists new. split; [done|]. intros y Hy. rewrite calls_of_app. apply elem_of_app. left. by apply H2.
  - rewrite Hc. apply I.
  - rewrite Ha. apply I.
  - intros y w Hy. assert (Hf : fits t y w).
    { assert (Hy' : (Store y w ∈ t \/ exists kw, Call y kw (Ok w) ∈ t) \/ (y = x /\ w = v)).
      { destruct Hy as [Hy | [kw Hy]]; apply elem_of_app in Hy as [Hy | Hy%elem_of_list_singleton]; [left; by left|right; by simplify_eq|left; right; by exists kw|done]. }
      destruct Hy' as [Hy' | [-> ->]]; [by apply I|].
      destruct Ho as (Hns & _ & _ & [Ho | (_ & _ & nd & Hg & [[Hx Hi] | [Hx (kw & t' & ->)]])]).
      - destruct v as [d|h|u]; cbn.
        + destruct (ur_overrides _ _ _ _ _ _ _ R x _ Ho) as [Hk [= ->]]; [right; by eexists|]. split_and!; [by apply d0_length|by apply old_in|done].
        + intros Hk. destruct (cur_sources _ _ I Hk) as [Hk' | Hk'].
          * by destruct (ur_overrides _ _ _ _ _ _ _ R x _ Ho) as [_ ?]; [by left|].
          * unfold calls_of in Hk'. apply elem_of_list_omap in Hk' as (ev & Hev & He). destruct ev as [y kw r| |]; [|done|done]. injection He as ->.
            destruct (good_elem _ _ _ _ _ _ _ G Hev) as (t1 & t2 & _ & Hn & _). inversion Hn; subst; congruence.
        + intros Hk. destruct (cur_sources _ _ I Hk) as [Hk' | Hk'].
          * by destruct (ur_overrides _ _ _ _ _ _ _ R x _ Ho) as [_ ?]; [by left|].
          * unfold calls_of in Hk'. apply elem_of_list_omap in Hk' as (ev & Hev & He). destruct ev as [y kw r| |]; [|done|done]. injection He as ->.
            destruct (good_elem _ _ _ _ _ _ _ G Hev) as (t1 & t2 & _ & Hn & _). inversion Hn; subst; congruence.
      - assert (Hnc : x ∉ calls_of t) by (intros (nd' & ? & ?)%calls_internal; [congruence|done]).
        destruct v as [d|h|u]; cbn.
        + destruct (all_columns x _ Hi) as [Hk [= ->]]; [right; by eexists|]. split_and!; [by apply d0_length|by apply old_in|done].
        + intros Hk. destruct (cur_sources _ _ I Hk) as [Hk' | Hk']; [|done]. by destruct (all_columns x _ Hi) as [_ ?]; [by left|].
        + intros Hk. destruct (cur_sources _ _ I Hk) as [Hk' | Hk']; [|done]. by destruct (all_columns x _ Hi) as [_ ?]; [by left|].
      - apply (ui_fits _ I). right. exists kw. apply elem_of_app. right. by left. }
    unfold fits in *. rewrite Hc, Ha. done.
Qed.
Lemma uinv_drop t x : uinv t -> uinv (t ++ [Drop x]).
Proof.
  intros I. assert (Ha : after ustart (t ++ [Drop x]) = after ustart t) by by apply after_quiet.
  assert (Hc : cur (t ++ [Drop x]) = cur t) by (unfold cur; by rewrite Ha).
  constructor.
  - rewrite Hc. destruct (ui_new _ I) as (new & H1 & H2). exists new. split; [done|]. intros y Hy. rewrite calls_of_app. apply elem_of_app. left. by apply H2.
  - rewrite Hc. apply I.
  - rewrite Ha. apply I.
  - intros y w Hy. assert (Hf : fits t y w); [|unfold fits in *; by rewrite Hc, Ha].
    apply (ui_fits _ I). destruct Hy as [Hy | [kw Hy]]; apply elem_of_app in Hy as [Hy | Hy%elem_of_list_singleton]; [by left|done|right; by exists kw|done].
Qed.

(** ** One call *)
Section Call.
Variable t : trc.
Variable x : name.
Variable kw : gmap name V.
Variable r : res (nerr E) V.
Hypothesis G : good t.
Hypothesis I : uinv t.
Hypothesis O : ok_event t (Call x kw r).
Notation n := (fns x).
Notation t' := (t ++ [Call x kw r]).

Lemma call_node : exists nd, g !! x = Some nd /\ nd_ext nd = false /\ pn_name n = x /\ dkeys (pn_inputs n) = dep_names nd /\
  NoDup (dkeys (pn_inputs n)) /\ (forall k dt, (k, dt) ∈ nd_deps nd <-> exists ty, (k, (ty, dt)) ∈ pn_inputs n).
Proof.
  destruct O as (_ & _ & _ & _ & _ & nd & Hg & Hx & _). exists nd. destruct (ur_node _ _ _ _ _ _ _ R x nd Hg Hx) as [H1 H2].
  assert (Hk : dkeys (pn_inputs n) = dep_names nd).
  { unfold dep_names, dkeys. rewrite <- H2. change (map ?f ?l) with (f <$> l). rewrite <- list_fmap_compose. done. }
  split_and!; try done.
  - rewrite Hk. apply (wf_nodup _ (ur_wf _ _ _ _ _ _ _ R) _ _ Hg).
  - intros k dt. rewrite <- H2. change (map ?f ?l) with (f <$> l). rewrite elem_of_list_fmap. split.
    + intros ([k' [ty dt']] & [= -> ->] & H). by exists ty.
    + intros [ty H]. by exists (k, (ty, dt)).
Qed.
Lemma x_new : x ∉ dkeys (cur t).
Proof.
  destruct O as (_ & _ & _ & Hc & _ & nd & Hg & Hx & _). intros [Hk | Hk]%cur_sources; [|done|done].
  by apply (ur_names _ _ _ _ _ _ _ R x nd Hg Hx).
Qed.
Lemma arg_fits k v : kw !! k = Some v -> k ∈ dkeys (pn_inputs n) /\ fits t k v.
Proof.
  intros Hk. destruct call_node as (nd & Hg & Hx & _ & Hd & _). destruct O as (_ & _ & _ & _ & _ & nd' & Hg' & _ & Ha & _).
  destruct (Ha k v Hk) as [H1 H2]. split; [rewrite Hd; congruence|]. apply (ui_fits _ I). by left.
Qed.
(** A parameter that is a column of the dataframe is a dataframe. *)
Lemma column_arg k : k ∈ dkeys (pn_inputs n) -> k ∈ dkeys (cur t) -> exists d, kw !! k = Some (SDf d).
Proof.
  intros Hk Hc. destruct (kw !! k) as [v|] eqn:Ek.
  - destruct (arg_fits k v Ek) as [_ Hf]. destruct v as [d|h|u]; [by exists d| |]; by cbn in Hf.
  - exfalso. destruct call_node as (nd & Hg & Hx & _ & Hd & _ & Ht). destruct O as (_ & _ & _ & _ & _ & nd' & Hg' & _ & _ & Ha).
    assert (nd' = nd) by congruence. subst nd'. rewrite Hd in Hk. unfold dep_names in Hk. apply elem_of_list_fmap in Hk as ([k' dt] & -> & Hk). cbn in *.
    destruct (Ha k' dt Hk) as [[w Hw] | (_ & (_ & Hi & nd2 & Hg2 & Hx2) & ->)]; [congruence|].
    destruct (cur_sources _ _ I Hc) as [Hc' | Hc'].
    + destruct (ur_optional _ _ _ _ _ _ _ R x nd k' Hg Hk Hc') as [w Hw]. congruence.
    + destruct (calls_internal _ _ G Hc') as (nd3 & ? & ?). congruence.
Qed.

Definition reads : list name := filter (fun k => k ∈ dkeys (cur t)) (dkeys (pn_inputs n)).
Lemma lambda_call : lambda_udf is_series spark_type series_type value_error analysis_error sort spark_apply n (cur t) (others (kwargs (pn_inputs n) kw)) =
  match udf_column n (pick reads (cur t)) (plain kw) with Ok c => Ok (SDf (cur t ++ [(x, c)])) | Err e => Err e end.
Proof.
  destruct call_node as (nd & Hg & Hx & Hn & Hd & N & Ht).
  rewrite (lambda_ok is_series is_series is_series (pn_type n) spark_type series_type value_error analysis_error sort sort_perm spark_apply n (cur t) _ reads (plain kw)); [|done| | |].
  - destruct (udf_column _ _ _); [|done]. rewrite Hn. by rewrite dset_new by apply x_new.
  - intros k Hk Hc. rewrite others_kwargs, dget_kwargs, decide_True by done. done.
  - intros k Hk Hc. destruct (column_arg k Hk Hc) as [d Hkd]. split.
    + unfold plain. by rewrite lookup_omap, Hkd.
    + by apply elem_of_list_filter.
  - intros k d. unfold plain. rewrite lookup_omap. destruct (kw !! k) as [[d'|h|u]|]; done.
Qed.

Lemma first_cur d : first_frame (kwargs (pn_inputs n) kw) = Some d ->
  length d <= length (cur t) /\ (match us_df (after ustart t) with None => UState (Some d) (dkeys d) | Some _ => after ustart t end) = UState (Some (cur t)) (dkeys d0).
Proof.
  intros (k & Hk & Hd)%first_some. destruct (arg_fits k _ Hd) as [_ (H1 & H2 & H3)]. split; [done|]. pose proof (ui_schema _ I) as Hs. unfold cur in *.
  destruct (after ustart t) as [[d'|] sc] eqn:Ea; cbn [us_df default] in *; [by rewrite <- Hs by by eexists|]. by rewrite H3.
Qed.

Lemma call_result : execute_node (after ustart t) n (kwargs (pn_inputs n) kw) =
  match first_frame (kwargs (pn_inputs n) kw) with
  | None => (after ustart t, pn_call n (kwargs (pn_inputs n) (plain kw)))
  | Some _ =>
      match udf_column n (pick reads (cur t)) (plain kw) with
      | Ok c => (UState (Some (cur t ++ [(x, c)])) (dkeys d0), Ok (SDf (cur t ++ [(x, c)])))
      | Err e => (UState (Some (cur t)) (dkeys d0), Err e)
      end
  end.
Proof.
  unfold UdfModel.execute_node. destruct (first_frame (kwargs (pn_inputs n) kw)) as [d|] eqn:Ef; [|by rewrite others_kwargs].
  destruct (first_cur d Ef) as [Hl ->]. cbn [us_df us_schema]. change (default d (Some (cur t))) with (cur t). rewrite lambda_call. destruct (udf_column _ _ _) as [c|e]; [|done].
  rewrite decide_False; [done|]. rewrite app_length. cbn [length]. lia.
Qed.

(** How the dataframe grows. *)
Lemma call_after : after ustart t' = (execute_node (after ustart t) n (kwargs (pn_inputs n) kw)).1 /\ r = (execute_node (after ustart t) n (kwargs (pn_inputs n) kw)).2.
Proof. rewrite after_app. cbn. split; [done|]. by destruct O as (_ & _ & _ & _ & -> & _). Qed.

Lemma call_cases :
  (first_frame (kwargs (pn_inputs n) kw) = None /\ after ustart t' = after ustart t /\ cur t' = cur t /\ r = pn_call n (kwargs (pn_inputs n) (plain kw))) \/
  (is_Some (first_frame (kwargs (pn_inputs n) kw)) /\ (exists c, udf_column n (pick reads (cur t)) (plain kw) = Ok c /\
     after ustart t' = UState (Some (cur t ++ [(x, c)])) (dkeys d0) /\ cur t' = cur t ++ [(x, c)] /\ r = Ok (SDf (cur t ++ [(x, c)])))) \/
  (is_Some (first_frame (kwargs (pn_inputs n) kw)) /\ (exists e, udf_column n (pick reads (cur t)) (plain kw) = Err e /\
     after ustart t' = UState (Some (cur t)) (dkeys d0) /\ cur t' = cur t /\ r = Err e)).
Proof.
  destruct call_after as [Ha Hr]. rewrite call_result in Ha, Hr.
  assert (Hc : cur t' = default d0 (us_df (after ustart t'))) by done. rewrite Ha in Hc. destruct (first_frame _) as [d|].
  - right. destruct (udf_column _ _ _) as [c|e]; cbn [fst snd us_df] in *; [left; split; [by eexists|by exists c]|right; split; [by eexists|by exists e]].
  - left. cbn [fst snd] in *. done.
Qed.

Lemma cur_grows : exists l, cur t' = cur t ++ l.
Proof.
  destruct call_cases as [(_ & _ & -> & _) | [(_ & c & _ & _ & -> & _) | (_ & e & _ & _ & -> & _)]]; [exists []|by eexists|exists []]; by rewrite app_nil_r.
Qed.

Lemma no_frames : (forall k d, (k, SDf d) ∉ kwargs (pn_inputs n) (plain kw)).
Proof.
  intros k d H. destruct call_node as (nd & Hg & Hx & Hn & Hd & N & Ht). apply elem_dget in H; [|by apply NoDup_kwargs].
  rewrite dget_kwargs in H. destruct (decide _); [|done]. unfold plain in H. rewrite lookup_omap in H. by destruct (kw !! k) as [[]|].
Qed.

Lemma uinv_call : uinv t'.
Proof.
  destruct call_node as (nd & Hg & Hx & Hn & Hd & N & Ht). pose proof O as (_ & _ & Hns & Hnc & _ & _).
  assert (Hold : forall y w, Store y w ∈ t' \/ (exists kw', Call y kw' (Ok w) ∈ t') -> (fits t y w /\ y <> x) \/ (y = x /\ r = Ok w)).
  { intros y w Hy. assert (Hy' : (Store y w ∈ t \/ exists kw', Call y kw' (Ok w) ∈ t) \/ (y = x /\ r = Ok w)).
    { destruct Hy as [Hy | [kw' Hy]]; apply elem_of_app in Hy as [Hy | Hy%elem_of_list_singleton]; [left; by left|done|left; right; by exists kw'|right; by simplify_eq]. }
    destruct Hy' as [Hy' | ?]; [left|by right]. split; [by apply I|]. intros ->. destruct Hy' as [Hy' | [kw' Hy']].
    - apply Hns. by exists w.
    - apply Hnc. unfold calls_of. apply elem_of_list_omap. by exists (Call x kw' (Ok w)). }
  assert (Hcx : x ∈ calls_of t') by (rewrite calls_of_app; apply elem_of_app; right; by left).
  assert (Hco : forall y, y ∈ calls_of t -> y ∈ calls_of t') by (intros; rewrite calls_of_app; apply elem_of_app; by left).
  destruct (ui_new _ I) as (new & Hnew & Hin).
  destruct call_cases as [(Hf & Ha & Hc & Hr) | [(_ & c & Hu & Ha & Hc & Hr) | (_ & e & Hu & Ha & Hc & Hr)]].
  - constructor.
    + rewrite Hc. exists new. split; [done|]. intros; by apply Hco, Hin.
    + rewrite Hc. apply I.
    + rewrite Ha. apply I.
    + intros y w [[Hw _] | [-> Hrw]]%Hold.
      * unfold fits in *. by rewrite Hc, Ha.
      * rewrite Hr in Hrw. assert (forall d, w <> SDf d) by (intros d; eapply (ur_values _ _ _ _ _ _ _ R x nd); [done|done|apply no_frames|done]).
        pose proof x_new. destruct w as [d|h|u]; [by edestruct H| |]; unfold fits; by rewrite Hc.
  - constructor.
    + rewrite Hc. exists (new ++ [(x, c)]). split; [by rewrite Hnew, app_assoc|]. intros y. rewrite dkeys_app. intros [Hy | ->%elem_of_list_singleton]%elem_of_app; [by apply Hco, Hin|done].
    + rewrite Hc, dkeys_app. apply NoDup_app. split_and!; [apply I| |apply NoDup_singleton]. intros y Hy ->%elem_of_list_singleton. by apply x_new.
    + rewrite Ha. done.
    + intros y w [[Hw Hyx] | [-> Hrw]]%Hold.
      * unfold fits in *. rewrite Hc, Ha, dkeys_app, app_length. destruct w as [d|h|u].
        -- destruct Hw as (H1 & H2 & H3). split_and!; [lia|apply elem_of_app; by left|done].
        -- intros [? | ?%elem_of_list_singleton]%elem_of_app; done.
        -- intros [? | ?%elem_of_list_singleton]%elem_of_app; done.
      * rewrite Hr in Hrw. injection Hrw as <-. unfold fits. rewrite Hc, Ha, dkeys_app. split_and!; [done|apply elem_of_app; right; by left|done].
  - constructor.
    + rewrite Hc. exists new. split; [done|]. intros; by apply Hco, Hin.
    + rewrite Hc. apply I.
    + rewrite Ha. done.
    + intros y w [[Hw _] | [-> Hrw]]%Hold; [|rewrite Hr in Hrw; done].
      unfold fits in *. rewrite Hc, Ha. destruct w as [d|h|u]; [|done|done]. by destruct Hw as (? & ? & _).
Qed.

(** The call as one of a function of columns, for any later dataframe. *)
Section Shown.
Variable fin : dict C.
Hypothesis fin_ext : exists l, fin = cur t' ++ l.
Lemma fin_old k : k ∈ dkeys (cur t) -> dget fin k = dget (cur t) k.
Proof.
  intros Hk. destruct fin_ext as [l ->]. destruct cur_grows as [l' ->]. rewrite <- app_assoc, dget_app. apply dget_Some_key in Hk as [c Hc]. by rewrite Hc.
Qed.
Lemma shown_cols k : cols (amap (shown fin) kw) !! k = pick reads (cur t) !! k.
Proof.
  unfold cols. rewrite lookup_omap, amap_get, lookup_pick. destruct (kw !! k) as [v|] eqn:Ek; cbn [fmap option_fmap option_map mbind option_bind].
  - destruct (arg_fits k v Ek) as [Hk Hf]. destruct v as [d|h|u]; cbn [shown].
    + destruct Hf as (_ & Hf & _). rewrite fin_old by done. rewrite decide_True by by apply elem_of_list_filter. apply dget_Some_key in Hf as [c ->]. done.
    + rewrite decide_False; [done|]. intros [? _]%elem_of_list_filter. done.
    + rewrite decide_False; [done|]. intros [? _]%elem_of_list_filter. done.
  - rewrite decide_False; [done|]. intros [Hc Hk]%elem_of_list_filter. destruct (column_arg k Hk Hc) as [d Hd]. congruence.
Qed.
Lemma shown_vals : vals (amap (shown fin) kw) = plain kw.
Proof.
  apply map_eq. intros k. unfold vals, plain. rewrite !lookup_omap, amap_get. destruct (kw !! k) as [v|] eqn:Ek; cbn [fmap option_fmap option_map mbind option_bind]; [|done].
  destruct (arg_fits k v Ek) as [Hk Hf]. destruct v as [d|h|u]; cbn [shown is_frame]; [|done|done].
  destruct Hf as (_ & Hf & _). rewrite fin_old by done. apply dget_Some_key in Hf as [c ->]. done.
Qed.
Lemma cols_none : cols (amap (shown fin) kw) = ∅ <-> first_frame (kwargs (pn_inputs n) kw) = None.
Proof.
  rewrite first_none, map_empty. split.
    - intros H k d Hk Hd'. specialize (H k). unfold cols in H. rewrite lookup_omap, amap_get, Hd' in H. cbn in H.
      destruct (arg_fits k _ Hd') as [_ (_ & Hf & _)]. rewrite fin_old in H by done. apply dget_Some_key in Hf as [c Hc]. by rewrite Hc in H.
    - intros H k. rewrite shown_cols, lookup_pick. rewrite decide_False; [done|]. intros [Hc Hk]%elem_of_list_filter.
      destruct (column_arg k Hk Hc) as [d Hd']. by apply (H k d).
Qed.
Lemma shown_call : column_fn x (amap (shown fin) kw) = ares (shown fin) x r.
Proof.
  destruct call_node as (nd & Hg & Hx & Hn & Hd & N & Ht).
  assert (Hcols : cols (amap (shown fin) kw) = pick reads (cur t)) by (apply map_eq; intros k; apply shown_cols).
  pose proof cols_none as He.
  unfold UdfSpec.column_fn. cbn zeta.
  destruct call_cases as [(Hf & Ha & Hc & Hr) | [(Hf & c & Hu & Ha & Hc & Hr) | (Hf & e & Hu & Ha & Hc & Hr)]].
  - rewrite decide_True by by apply He. rewrite shown_vals, Hr. destruct (pn_call n (kwargs (pn_inputs n) (plain kw))) as [v|e] eqn:Ep; [|done]. cbn [ares]. f_equal.
    assert (forall d, v <> SDf d) by (intros d; eapply (ur_values _ _ _ _ _ _ _ R x nd); [done|done|apply no_frames|done]).
    destruct v as [d|h|u]; [by edestruct H|done|done].
  - rewrite decide_False by (intros ?%He; destruct Hf; congruence). rewrite Hcols, shown_vals, Hu, Hr. cbn [ares shown].
    destruct fin_ext as [l Hl]. rewrite Hc in Hl. rewrite Hl. rewrite <- app_assoc, dget_app. pose proof x_new as Hxn. apply dget_None_key in Hxn. rewrite Hxn. cbn. by rewrite decide_True.
  - rewrite decide_False by (intros ?%He; destruct Hf; congruence). rewrite Hcols, shown_vals, Hu, Hr. done.
Qed.
End Shown.
End Call.

(** ** Whole runs *)
Lemma good_uinv t : good t -> uinv t.
Proof.
  induction t as [|ev t IH] using rev_ind; intros G; [apply uinv_nil|]. pose proof (good_app_inv _ _ _ _ _ _ _ G) as G1.
  pose proof (G t ev [] eq_refl) as Ho. specialize (IH G1). destruct ev as [x kw r|x v|x]; [by apply uinv_call|by apply uinv_store|by apply uinv_drop].
Qed.
Lemma cur_extends t1 t2 : good (t1 ++ t2) -> exists l, cur (t1 ++ t2) = cur t1 ++ l.
Proof.
  induction t2 as [|ev t2 IH] using rev_ind; intros G; [exists []; by rewrite !app_nil_r|]. rewrite app_assoc in G |- *. pose proof (good_app_inv _ _ _ _ _ _ _ G) as G1.
  destruct (IH G1) as [l Hl]. pose proof (G (t1 ++ t2) ev [] eq_refl) as Ho. destruct ev as [x kw r|x v|x].
  - destruct (cur_grows _ _ _ _ G1 (good_uinv _ G1) Ho) as [l' ->]. rewrite Hl, <- app_assoc. by eexists.
  - exists l. rewrite <- Hl. unfold cur. by rewrite after_quiet.
  - exists l. rewrite <- Hl. unfold cur. by rewrite after_quiet.
Qed.

Lemma after_some t1 t2 : is_Some (us_df (after ustart t1)) -> is_Some (us_df (after ustart (t1 ++ t2))).
Proof.
  rewrite after_app. generalize (after ustart t1). induction t2 as [|ev t2 IH]; intros s Hs; [done|]. cbn. apply IH. destruct ev as [x kw r|x v|x]; [|done|done].
  unfold UdfModel.execute_node. destruct (first_frame _) as [d|]; [|done]. destruct (us_df s) eqn:Es; [|by destruct Hs].
  destruct (lambda_udf _ _ _ _ _ _ _ _ _ _) as [[d'|h|u]|e]; cbn [fst]; rewrite ?Es; try by eexists. destruct (decide _); cbn [fst us_df]; rewrite ?Es; by eexists.
Qed.

Notation run := (default_execute F g config inputs overrides fv).
Notation tr := (trace_of run).
Lemma run_ok : good tr.
Proof. apply run_good; [apply (ur_wf _ _ _ _ _ _ _ R)|apply (ur_acyclic _ _ _ _ _ _ _ R)]. Qed.

Lemma seen_run (m : gmap name V) : gives_columns d0 m -> amap (shown (cur tr)) m = seen d0 m.
Proof.
  intros Hm. rewrite seen_shown. apply map_eq. intros k. rewrite !amap_get. destruct (m !! k) as [v|] eqn:Ek; [|done]. cbn. f_equal.
  destruct v as [d|h|u]; [|done|done]. destruct (Hm k _ Ek) as [Hk _]; [right; by eexists|]. cbn.
  destruct (ui_new _ (good_uinv _ run_ok)) as (new & -> & _). rewrite dget_app. apply dget_Some_key in Hk as [c ->]. done.
Qed.

(** The run is that of the functions of columns. *)
Lemma run_columns : default_execute (fun _ => column_fn) g (seen d0 config) (seen d0 inputs) (seen d0 overrides) fv = aanswer (shown (cur tr)) run.
Proof.
  rewrite <- !seen_run by apply R. apply default_map.
  - apply run_not_diverged; [apply (ur_wf _ _ _ _ _ _ _ R)|apply (ur_acyclic _ _ _ _ _ _ _ R)].
  - intros t1 x kw r t2 Htr. pose proof run_ok as G. rewrite Htr in G. pose proof (G t1 _ t2 eq_refl) as Ho.
    assert (G1 : good t1) by by eapply good_app_inv.
    apply (shown_call t1 x kw r G1 (good_uinv _ G1) Ho). rewrite Htr. change (t1 ++ Call x kw r :: t2) with (t1 ++ [Call x kw r] ++ t2). rewrite app_assoc. apply cur_extends. by rewrite <- app_assoc.
Qed.

Notation col_run := (default_execute (fun _ => column_fn) g (seen d0 config) (seen d0 inputs) (seen d0 overrides) fv).
Lemma call_frame x kw r : us_df (after ustart tr) = None -> Call x kw r ∈ trace_of col_run -> cols kw = ∅.
Proof.
  intros Hn Hc. rewrite run_columns in Hc. assert (Hc' : Call x kw r ∈ map (aevent (shown (cur tr))) tr) by by destruct run.
  apply elem_of_list_fmap in Hc' as ([y kw' r'|y v|y] & Hev & Hy); [|done|done]. injection Hev as -> -> ->. 
  pose proof run_ok as G. destruct (good_elem _ _ _ _ _ _ _ G Hy) as (t1 & t2 & Htr & Ho). assert (G1 : good t1) by (rewrite Htr in G; by eapply good_app_inv).
  assert (Htr' : tr = (t1 ++ [Call y kw' r']) ++ t2) by by rewrite <- app_assoc.
  assert (Hext : exists l, cur tr = cur (t1 ++ [Call y kw' r']) ++ l) by (rewrite Htr'; apply cur_extends; by rewrite <- Htr').
  apply (proj2 (cols_none t1 y kw' r' G1 (good_uinv _ G1) Ho (cur tr) Hext)).
  destruct (call_cases t1 y kw' r' G1 (good_uinv _ G1) Ho) as [(? & _) | [(_ & c & _ & Ha & _) | (_ & e & _ & Ha & _)]]; [done| |]; exfalso;
      assert (Hs : is_Some (us_df (after ustart (t1 ++ [Call y kw' r'])))) by (rewrite Ha; by eexists); apply (after_some _ t2) in Hs; rewrite <- Htr', Hn in Hs; by destruct Hs.
Qed.

(** ** The result *)
Lemma dkeys_firsts {A} (b : dict A) : forall a, dkeys (dupd a b) = dkeys a ++ filter (fun y => y ∉ dkeys a) (firsts (dkeys b)).
Proof.
  unfold dupd. induction b as [|[k v] b IH]; intros a; cbn [foldl]; [by rewrite app_nil_r|]. rewrite IH. cbn [fst snd]. change (dkeys ((k, v) :: b)) with (k :: dkeys b). cbn [firsts].
  rewrite (filter_cons (fun y => y ∉ dkeys a) k). destruct (decide (k ∉ dkeys a)) as [Hk|Hk].
  - rewrite dkeys_dset_notin by done. rewrite <- app_assoc. cbn. f_equal. f_equal. rewrite list_filter_filter. apply filter_ext_elem. intros y _. rewrite elem_of_app, elem_of_list_singleton. tauto.
  - apply dec_stable in Hk. rewrite dkeys_dset_in by done. f_equal. rewrite list_filter_filter. apply filter_ext_elem. intros y _. split; [|tauto]. intros Hy. split; [done|]. by intros ->.
Qed.
Lemma dupd_elem {A} (b : dict A) : forall a k v, (k, v) ∈ dupd a b -> (k, v) ∈ a \/ (k, v) ∈ b.
Proof.
  unfold dupd. induction b as [|[k' v'] b IH]; intros a k v; cbn [foldl fst snd]; [by left|]. intros [Hk | Hk]%IH; [|right; by right].
  assert (Hd : (k, v) ∈ a \/ (k, v) = (k', v')).
  { clear IH. induction a as [|[k2 v2] a IHa]; cbn in Hk; [apply elem_of_list_singleton in Hk; by right|].
    destruct (decide (k' = k2)) as [-> | Hne].
    - apply elem_of_cons in Hk as [Hk | Hk]; [by right|left; by right].
    - apply elem_of_cons in Hk as [-> | Hk]; [left; by left|]. destruct (IHa Hk) as [? | ?]; [left; by right|by right]. }
  destruct Hd as [? | ->]; [by left|right; by left].
Qed.
Lemma NoDup_dupd_keys {A} (b : dict A) : forall a, NoDup (dkeys a) -> NoDup (dkeys (dupd a b)).
Proof. unfold dupd. induction b as [|[k v] b IH]; intros a N; [done|]. cbn. by apply IH, NoDup_dkeys_dset. Qed.

Notation add_outputs := (add_outputs analysis_error lit).
Notation lit_column := (lit_column analysis_error lit).
Lemma add_outputs_ok outs : forall d schema schema' d', NoDup (dkeys outs) -> add_outputs d schema outs = (schema', Ok d') ->
  schema' = schema ++ filter (fun x => x ∉ schema) (dkeys outs) /\ (exists l, d' = d ++ l) /\
  forall x o, (x, o) ∈ outs -> x ∈ dkeys d' /\ (x ∉ dkeys d -> exists d2 c, lit_column d2 o = Ok c /\ dget d' x = Some c).
Proof.
  induction outs as [|[x o] outs IH]; intros d schema schema' d' N Ha; cbn [UdfModel.add_outputs] in Ha.
  - injection Ha as <- <-. split_and!; [by rewrite app_nil_r|exists []; by rewrite app_nil_r|]. by intros x o ?%elem_of_nil.
  - apply NoDup_cons in N as [N1 N2]. change (dkeys ((x, o) :: outs)) with (x :: dkeys outs).
    assert (Hsch : (if decide (x ∈ schema) then schema else schema ++ [x]) ++ filter (fun y => y ∉ (if decide (x ∈ schema) then schema else schema ++ [x])) (dkeys outs) =
      schema ++ filter (fun y => y ∉ schema) (x :: dkeys outs)).
    { rewrite filter_cons. destruct (decide (x ∈ schema)) as [Hx|Hx].
      - by rewrite decide_False by (intros ?; done).
      - rewrite decide_True by done. rewrite <- app_assoc. cbn. f_equal. f_equal. apply filter_ext_elem. intros y Hy. rewrite elem_of_app, elem_of_list_singleton. split; [tauto|]. intros ? [? | ->]; done. }
    destruct (decide (x ∈ dkeys d)) as [Hd|Hd].
    + destruct (IH _ _ _ _ N2 Ha) as (H1 & (l & H2) & H3). split_and!; [by rewrite H1, Hsch|by exists l|].
      intros y o' [[= -> ->] | Hy]%elem_of_cons; [|by apply H3]. split; [|done]. rewrite H2, dkeys_app. apply elem_of_app. by left.
    + destruct (lit_column d o) as [c|e] eqn:El; [|done]. unfold with_column in Ha. rewrite dset_new in Ha by done.
      destruct (IH _ _ _ _ N2 Ha) as (H1 & (l & H2) & H3). split_and!; [by rewrite H1, Hsch|exists ((x, c) :: l); by rewrite H2, <- app_assoc|].
      intros y o' [[= -> ->] | Hy]%elem_of_cons.
      * assert (Hg : dget d' x = Some c). { rewrite H2, <- app_assoc, dget_app. apply dget_None_key in Hd. rewrite Hd. cbn. by rewrite decide_True. }
        split; [apply dget_Some_key; by rewrite Hg|]. intros _. by exists d, c.
      * destruct (H3 y o' Hy) as [H4 H5]. split; [done|]. intros Hyd. apply H5. rewrite dkeys_app. intros [? | Hyx%elem_of_list_singleton]%elem_of_app; [done|].
        apply N1. cbn in Hyx; rewrite <- Hyx. apply elem_of_list_fmap. by exists (y, o').
Qed.
Lemma add_outputs_err outs : forall d schema schema' e, NoDup (dkeys outs) -> add_outputs d schema outs = (schema', Err e) ->
  exists x o d2, (x, o) ∈ outs /\ x ∉ dkeys d /\ lit_column d2 o = Err e.
Proof.
  induction outs as [|[x o] outs IH]; intros d schema schema' e N Ha; cbn [UdfModel.add_outputs] in Ha; [done|]. apply NoDup_cons in N as [N1 N2].
  destruct (decide (x ∈ dkeys d)) as [Hd|Hd].
  - destruct (IH _ _ _ _ N2 Ha) as (y & o' & d2 & ? & ? & ?). exists y, o', d2. split_and!; [by right|done|done].
  - destruct (lit_column d o) as [c|e'] eqn:El.
    + destruct (IH _ _ _ _ N2 Ha) as (y & o' & d2 & ? & Hy & ?). exists y, o', d2. split_and!; [by right| |done]. intros ?. apply Hy. apply dkeys_dset_elem. by right.
    + injection Ha as _ <-. exists x, o, d. split_and!; [by left|done|done].
Qed.
Lemma select_ok (l : list name) (d : dict C) : (forall x, x ∈ l -> x ∈ dkeys d) -> NoDup l ->
  exists r, select_columns l d = Some r /\ dkeys r = l /\ forall x, x ∈ l -> dget r x = dget d x.
Proof.
  unfold select_columns. induction l as [|x l IH]; intros H N; [exists []; split_and!; [done|done|by intros x ?%elem_of_nil]|].
  apply NoDup_cons in N as [N1 N2]. destruct IH as (r & Hr & Hk & Hg); [intros; apply H; by right|done|].
  destruct (proj2 (dget_Some_key d x) (H x ltac:(by left))) as [c Hc]. exists ((x, c) :: r). split_and!.
  - cbn. rewrite Hc. cbn. by rewrite Hr.
  - cbn. by rewrite <- Hk.
  - intros y Hy. cbn. destruct (decide (y = x)) as [-> | Hne]; [by rewrite Hc|]. apply Hg. by apply elem_of_cons in Hy as [? | ?].
Qed.

(** What is in the answer of a run. *)
Lemma answer_entry out t x o : run = Answer out t -> (x, o) ∈ out ->
  x ∈ fv /\ match o with Some v => fits t x v /\ eval column_fn g (seen d0 inputs ∪ seen d0 config) (seen d0 overrides) x (shown (cur t) x v)
  | None => absent g (seen d0 inputs ∪ seen d0 config) (seen d0 overrides) x /\ x ∉ dkeys (cur t) \/ x ∈ dkeys d0 end.
Proof.
  intros Hrun Hx. pose proof (ur_wf _ _ _ _ _ _ _ R) as Hwf. pose proof (ur_acyclic _ _ _ _ _ _ _ R) as Hac.
  pose proof run_columns as Hcr. rewrite Hrun in Hcr. cbn [aanswer trace_of] in Hcr.
  destruct (run_values g Hwf Hac _ _ _ _ _ _ _ Hcr) as [Hk Hv].
  assert (Hxf : x ∈ fv). { rewrite <- Hk, <- list_fmap_compose. apply elem_of_list_fmap. by exists (x, o). }
  destruct (ur_requested _ _ _ _ _ _ _ R x Hxf) as [nd Hg].
  specialize (Hv x (shown (cur t) x <$> o)). assert (Hin : (x, shown (cur t) x <$> o) ∈ map (fun p => (p.1, shown (cur t) p.1 <$> p.2)) out) by (apply elem_of_list_fmap; by exists (x, o)).
  specialize (Hv Hin). split; [done|].
  destruct (default_cases g Hwf Hac F config inputs overrides fv) as [(k & _ & _ & Heq) | [_ [(s & Hs & Heq) | (s & e & Hs & Heq)]]]; rewrite Heq in Hrun; try done. injection Hrun as <- <-.
  destruct (exec_done g Hwf Hac _ _ _ _ _ s Hs) as [Hi _]. pose proof (inv_good _ _ _ _ _ _ Hi) as G.
  change (x, o) with ((fun y => (y, o)) x) in Hx. apply elem_of_list_fmap in Hx as (y & [= <- Ho] & _).
  destruct o as [v|].
  - split.
    + destruct (root_in_memory g Hwf Hac _ _ _ _ fv s x Hs) as [(w & Hw & Hst) | [Hw Hab]]; [apply requested_elem; split; [done|by eexists]| |].
      * rewrite Hw in Ho. injection Ho as ->. apply (ui_fits _ (good_uinv _ G)). by left.
      * rewrite Hw in Ho. destruct Hab as (_ & Hab & _). apply lookup_union_None in Hab as [Hab _]. congruence.
    + destruct Hv as [[_ ?] | [? _]]; [done|congruence].
  - destruct Hv as [Hv | [? _]]; [|congruence]. destruct (decide (x ∈ dkeys d0)); [by right|left]. split; [done|].
    intros [? | Hc]%cur_sources; [done| |by apply good_uinv]. destruct (calls_internal _ _ G Hc) as (nd1 & ? & ?). destruct Hv as (_ & _ & nd2 & ? & ?). congruence.
Qed.
End Udf.
