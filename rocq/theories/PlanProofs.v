(** The task plan: dependencies and outputs. *)
From stdpp Require Import pretty.
From Verif Require Import Base Dict ExecModel TraverseModel TopoModel GroupModel StateModel StateProofs Strings.
From Coq Require Import Ascii.

Section Plan.
Context {V : Type}.
Variable g : graph.
Variable overrides : gmap name V.

Notation overridden := (overridden overrides).
Notation task_of := (task_of overrides).
Notation plan_deps_of := (plan_deps_of overrides).
Notation plan_deps := (plan_deps g overrides).
Notation plan_tasks := (plan_tasks g overrides).

(** A variable belongs to one group. *)
Definition disjoint_groups (groups : list ngroup) : Prop :=
  forall ng ng' x, ng ∈ groups -> ng' ∈ groups -> x ∈ ng_nodes ng -> x ∈ ng_nodes ng' -> ng_base ng = ng_base ng'.

Lemma overridden_false x : overridden x = false <-> overrides !! x = None.
Proof. unfold GroupModel.overridden. rewrite bool_decide_eq_false, eq_None_not_Some. done. Qed.
Lemma overridden_true x : overridden x = true <-> is_Some (overrides !! x).
Proof. unfold GroupModel.overridden. by rewrite bool_decide_eq_true. Qed.

Lemma task_of_elem groups x b : task_of groups x = Some b ->
  overrides !! x = None /\ exists ng, ng ∈ groups /\ x ∈ ng_nodes ng /\ ng_base ng = b.
Proof.
  induction groups as [|ng groups IH]; cbn [GroupModel.task_of]; [done|].
  destruct (task_of groups x) as [b'|].
  - intros [= ->]. destruct (IH eq_refl) as (Hn & ng' & ? & ?). split; [done|]. exists ng'. split; [by right|done].
  - destruct (bool_decide (x ∈ ng_nodes ng)) eqn:Hb; [|done]. destruct (overridden x) eqn:Ho; [done|].
    cbn. intros [= <-]. split; [by apply overridden_false|]. exists ng. apply bool_decide_eq_true in Hb. split; [by left|done].
Qed.
Lemma task_of_None groups x ng : task_of groups x = None -> overrides !! x = None -> ng ∈ groups -> x ∉ ng_nodes ng.
Proof.
  intros Ht Ho. induction groups as [|ng' groups IH]; [by intros ?%elem_of_nil|]. cbn [GroupModel.task_of] in Ht.
  destruct (task_of groups x) as [b'|]; [done|].
  intros [->|Hin]%elem_of_cons; [|by apply IH]. intros Hx.
  rewrite (bool_decide_true (x ∈ _)) in Ht by done. apply overridden_false in Ho. by rewrite Ho in Ht.
Qed.
Lemma task_of_iff groups x b : disjoint_groups groups ->
  task_of groups x = Some b <-> overrides !! x = None /\ exists ng, ng ∈ groups /\ x ∈ ng_nodes ng /\ ng_base ng = b.
Proof.
  intros Hd. split; [apply task_of_elem|]. intros (Ho & ng & Hin & Hx & Hb).
  destruct (task_of groups x) as [b'|] eqn:Ht.
  - apply task_of_elem in Ht as (_ & ng' & Hin' & Hx' & Hb'). f_equal. rewrite <-Hb, <-Hb'. by eapply (Hd ng' ng x).
  - exfalso. by eapply (task_of_None groups x ng).
Qed.

Lemma elem_add_once l b x : x ∈ add_once l b <-> x ∈ l \/ x = b.
Proof.
  unfold add_once. destruct (decide (b ∈ l)); [naive_solver|]. rewrite elem_of_app, elem_of_list_singleton. done.
Qed.
Lemma add_once_nodup l b : NoDup l -> NoDup (add_once l b).
Proof.
  unfold add_once. destruct (decide (b ∈ l)); [done|]. intros. apply NoDup_app. split_and!; [done| |apply NoDup_singleton].
  by intros x Hx ->%elem_of_list_singleton.
Qed.

(** A dependency outside the task that has to come from another task. *)
Definition outside (group_nodes : list name) (d : name) : Prop := overrides !! d = None /\ d ∉ group_nodes.

Lemma plan_deps_of_spec groups gn ds : forall acc acc', plan_deps_of groups gn acc ds = Some acc' ->
  (NoDup acc -> NoDup acc') /\
  (forall d, (d, REQUIRED) ∈ ds -> outside gn d -> is_Some (task_of groups d)) /\
  forall b, b ∈ acc' <-> b ∈ acc \/ exists d dt, (d, dt) ∈ ds /\ outside gn d /\ task_of groups d = Some b.
Proof.
  induction ds as [|[d dt] ds IH]; intros acc acc'; cbn [GroupModel.plan_deps_of].
  - intros [= <-]. split_and!; [done| |].
    + by intros d ?%elem_of_nil.
    + intros b. split; [by left|]. intros [?|(d & dt & ?%elem_of_nil & _)]; done.
  - destruct (overridden d || bool_decide (d ∈ gn)) eqn:Hc.
    + assert (Hnot : ~ outside gn d).
      { intros [Ho Hn]. apply orb_true_iff in Hc as [Hc|Hc]; [|by apply bool_decide_eq_true in Hc].
        apply overridden_true in Hc as [? ?]. congruence. }
      intros H. destruct (IH _ _ H) as (H1 & H2 & H3). split_and!; [done| |].
      * intros d' [[= -> <-]|Hin]%elem_of_cons; [done|by apply H2].
      * intros b. rewrite H3. split; (intros [?|(d' & dt' & Hin & ? & ?)]; [by left|right]).
        -- exists d', dt'. split; [by right|done].
        -- apply elem_of_cons in Hin as [[= -> ->]|Hin]; [done|]. by exists d', dt'.
    + apply orb_false_iff in Hc as [Ho Hn]. apply overridden_false in Ho. apply bool_decide_eq_false in Hn.
      destruct (task_of groups d) as [b0|] eqn:Ht.
      * intros H. destruct (IH _ _ H) as (H1 & H2 & H3). split_and!.
        -- intros Hnd. by apply H1, add_once_nodup.
        -- intros d' [[= -> <-]|Hin]%elem_of_cons; [by eexists|by apply H2].
        -- intros b. rewrite H3, elem_add_once. split.
           ++ intros [[?| ->]|(d' & dt' & Hin & ? & ?)]; [by left| |]; right.
              ** exists d, dt. split; [by left|done].
              ** exists d', dt'. split; [by right|done].
           ++ intros [?|(d' & dt' & Hin & ? & ?)]; [by left; left|].
              apply elem_of_cons in Hin as [[= -> ->]|Hin]; [left; right; congruence|]. right. by exists d', dt'.
      * destruct dt; [done|]. intros H. destruct (IH _ _ H) as (H1 & H2 & H3). split_and!; [done| |].
        -- intros d' [?|Hin]%elem_of_cons; [done|by apply H2].
        -- intros b. rewrite H3. split; (intros [?|(d' & dt' & Hin & ? & ?)]; [by left|right]).
           ++ exists d', dt'. split; [by right|done].
           ++ apply elem_of_cons in Hin as [[= -> ->]|Hin]; [congruence|]. by exists d', dt'.
Qed.

Lemma plan_deps_of_none groups gn ds : forall acc, plan_deps_of groups gn acc ds = None <->
  exists d, (d, REQUIRED) ∈ ds /\ outside gn d /\ task_of groups d = None.
Proof.
  induction ds as [|[d dt] ds IH]; intros acc; cbn [GroupModel.plan_deps_of].
  - split; [done|]. by intros (d & ?%elem_of_nil & _).
  - assert (Hex : forall P : Prop, (forall d', (d', REQUIRED) ∈ ds -> outside gn d' -> task_of groups d' = None -> P) ->
       (~ (dt = REQUIRED /\ outside gn d /\ task_of groups d = None)) ->
       (exists d', (d', REQUIRED) ∈ (d, dt) :: ds /\ outside gn d' /\ task_of groups d' = None) -> P).
    { intros P H Hn (d' & [[= -> <-]|Hin]%elem_of_cons & ? & ?); [by destruct Hn|by eapply H]. }
    assert (Hr : (exists d', (d', REQUIRED) ∈ ds /\ outside gn d' /\ task_of groups d' = None) ->
       exists d', (d', REQUIRED) ∈ (d, dt) :: ds /\ outside gn d' /\ task_of groups d' = None).
    { intros (d' & ? & ?). exists d'. split; [by right|done]. }
    destruct (overridden d || bool_decide (d ∈ gn)) eqn:Hc.
    + rewrite IH. split; [done|]. apply Hex; [naive_solver|]. intros (_ & [Ho Hn] & _).
      apply orb_true_iff in Hc as [Hc|Hc]; [|by apply bool_decide_eq_true in Hc]. apply overridden_true in Hc as [? ?]. congruence.
    + apply orb_false_iff in Hc as [Ho Hn]. apply overridden_false in Ho. apply bool_decide_eq_false in Hn.
      destruct (task_of groups d) as [b0|] eqn:Ht.
      * rewrite IH. split; [done|]. apply Hex; [naive_solver|]. intros (_ & _ & ?). congruence.
      * destruct dt.
        -- split; [|done]. intros _. exists d. split; [by left|done].
        -- rewrite IH. split; [done|]. apply Hex; [naive_solver|]. by intros [? _].
Qed.

Lemma plan_deps_spec groups gn xs : forall acc acc', plan_deps groups gn acc xs = Some acc' ->
  (NoDup acc -> NoDup acc') /\
  (forall x d, x ∈ xs -> overrides !! x = None -> (d, REQUIRED) ∈ deps_of g x -> outside gn d -> is_Some (task_of groups d)) /\
  forall b, b ∈ acc' <-> b ∈ acc \/ exists x d dt, x ∈ xs /\ overrides !! x = None /\ (d, dt) ∈ deps_of g x /\
    outside gn d /\ task_of groups d = Some b.
Proof.
  induction xs as [|x xs IH]; intros acc acc'; cbn [GroupModel.plan_deps].
  - intros [= <-]. split_and!; [done| |].
    + by intros x d ?%elem_of_nil.
    + intros b. split; [by left|]. by intros [?|(x & d & dt & ?%elem_of_nil & _)].
  - destruct (overridden x) eqn:Ho.
    + apply overridden_true in Ho as [v Ho]. intros H. destruct (IH _ _ H) as (H1 & H2 & H3). split_and!; [done| |].
      * intros x' d [->|Hin]%elem_of_cons; [congruence|by apply H2].
      * intros b. rewrite H3. split; (intros [?|(x' & d & dt & Hin & ? & ?)]; [by left|right]).
        -- exists x', d, dt. split; [by right|done].
        -- apply elem_of_cons in Hin as [->|Hin]; [congruence|]. by exists x', d, dt.
    + apply overridden_false in Ho. destruct (plan_deps_of groups gn acc (deps_of g x)) as [acc1|] eqn:H1; [|done].
      intros H. destruct (plan_deps_of_spec _ _ _ _ _ H1) as (A1 & A2 & A3). destruct (IH _ _ H) as (B1 & B2 & B3).
      split_and!.
      * intros. by apply B1, A1.
      * intros x' d [->|Hin]%elem_of_cons; [intros _; by apply A2|by apply B2].
      * intros b. rewrite B3, A3. split.
        -- intros [[?|(d & dt & ? & ?)]|(x' & d & dt & Hin & ? & ?)]; [by left| |]; right.
           ++ exists x, d, dt. split; [by left|done].
           ++ exists x', d, dt. split; [by right|done].
        -- intros [?|(x' & d & dt & Hin & ? & ? & ?)]; [by left; left|].
           apply elem_of_cons in Hin as [->|Hin]; [left; right; by exists d, dt|right]. by exists x', d, dt.
Qed.

Lemma plan_deps_none groups gn xs : forall acc, plan_deps groups gn acc xs = None <->
  exists x d, x ∈ xs /\ overrides !! x = None /\ (d, REQUIRED) ∈ deps_of g x /\ outside gn d /\ task_of groups d = None.
Proof.
  induction xs as [|x xs IH]; intros acc; cbn [GroupModel.plan_deps].
  - split; [done|]. by intros (x & d & ?%elem_of_nil & _).
  - destruct (overridden x) eqn:Ho.
    + apply overridden_true in Ho as [v Ho]. rewrite IH. split.
      * intros (x' & d & ? & ?). exists x', d. split; [by right|done].
      * intros (x' & d & [->|Hin]%elem_of_cons & ? & ?); [congruence|]. by exists x', d.
    + apply overridden_false in Ho. destruct (plan_deps_of groups gn acc (deps_of g x)) as [acc1|] eqn:H1.
      * rewrite IH. split.
        -- intros (x' & d & ? & ?). exists x', d. split; [by right|done].
        -- intros (x' & d & [->|Hin]%elem_of_cons & ? & ? & ? & ?); [|by exists x', d].
           exfalso. assert (Hn : plan_deps_of groups gn acc (deps_of g x) = None) by (apply plan_deps_of_none; by exists d). congruence.
      * split; [|done]. intros _. apply plan_deps_of_none in H1 as (d & ? & ? & ?). exists x, d. split; [by left|done].
Qed.

Lemma plan_tasks_spec groups outputs l : forall plan, plan_tasks groups outputs l = Some plan ->
  Forall2 (fun ng t => ts_base t = ng_base ng /\ ts_spawn t = ng_spawn ng /\ ts_nodes t = ng_nodes ng /\
      ts_purpose t = ng_purpose ng /\ ts_outputs t = ts_outputs (plan_group g overrides outputs ng) /\
      ts_overrides t = ts_overrides (plan_group g overrides outputs ng) /\
      plan_deps groups (ng_nodes ng) [] (ng_nodes ng) = Some (ts_deps t)) l plan.
Proof.
  induction l as [|ng l IH]; intros plan; cbn [GroupModel.plan_tasks]; [intros [= <-]; constructor|].
  destruct (plan_deps groups (ng_nodes ng) [] (ng_nodes ng)) as [ds|] eqn:Hd; [|done].
  destruct (plan_tasks groups outputs l) as [ts|]; [|done]. intros [= <-]. constructor; [done|by apply IH].
Qed.
Lemma plan_tasks_none groups outputs l : plan_tasks groups outputs l = None <->
  exists ng, ng ∈ l /\ plan_deps groups (ng_nodes ng) [] (ng_nodes ng) = None.
Proof.
  induction l as [|ng l IH]; cbn [GroupModel.plan_tasks].
  - split; [done|]. by intros (ng & ?%elem_of_nil & _).
  - destruct (plan_deps groups (ng_nodes ng) [] (ng_nodes ng)) as [ds|] eqn:Hd.
    + destruct (plan_tasks groups outputs l) as [ts|] eqn:Ht.
      * split; [done|]. intros (ng' & [->|Hin]%elem_of_cons & Hn); [congruence|].
        assert (Some ts = None) by (apply IH; by exists ng'). done.
      * split; [|done]. intros _. destruct (proj1 IH eq_refl) as (ng' & ? & ?). exists ng'. split; [by right|done].
    + split; [|done]. intros _. exists ng. split; [by left|done].
Qed.

Lemma is_output_true outputs gn x : is_output g overrides outputs gn x = true <->
  x ∈ outputs \/ exists w, w ∈ rdeps_of g x /\ overrides !! w = None /\ w ∉ gn.
Proof.
  unfold is_output. rewrite orb_true_iff, bool_decide_eq_true, existsb_exists. f_equiv.
  split; intros (w & Hin & Hw); exists w.
  - apply andb_true_iff in Hw as [H1 H2]. apply negb_true_iff in H1, H2. apply overridden_false in H1.
    apply bool_decide_eq_false in H2. by apply elem_of_list_In in Hin.
  - destruct Hw as [H1 H2]. split; [by apply elem_of_list_In|]. apply andb_true_iff. rewrite !negb_true_iff.
    split; [by apply overridden_false|by apply bool_decide_eq_false].
Qed.

(** The plan in terms of the dataflow. *)
Lemma plan_spec groups outputs plan : wf_graph g -> disjoint_groups groups ->
  create_task_plan g overrides groups outputs = Some plan ->
  map ts_base plan = map ng_base groups /\
  (forall t, t ∈ plan -> exists ng, ng ∈ groups /\ ts_base t = ng_base ng /\ ts_spawn t = ng_spawn ng /\
     ts_nodes t = ng_nodes ng /\ ts_purpose t = ng_purpose ng /\
     NoDup (ts_deps t) /\
     (forall u, u ∈ ts_deps t <-> exists x d ng', ng' ∈ groups /\ ng_base ng' = u /\ x ∈ ng_nodes ng /\ edge g x d /\
        d ∈ ng_nodes ng' /\ d ∉ ng_nodes ng /\ overrides !! x = None /\ overrides !! d = None) /\
     (forall x, x ∈ ts_outputs t <-> x ∈ ng_nodes ng /\ overrides !! x = None /\
        (x ∈ outputs \/ exists w, is_Some (g !! x) /\ edge g w x /\ overrides !! w = None /\ w ∉ ng_nodes ng)) /\
     (forall x, ts_overrides t !! x = if bool_decide (x ∈ ng_nodes ng) then overrides !! x else None)) /\
  (forall ng, ng ∈ groups -> exists t, t ∈ plan /\ ts_base t = ng_base ng /\ ts_nodes t = ng_nodes ng /\
     ts_spawn t = ng_spawn ng /\ ts_purpose t = ng_purpose ng).
Proof.
  intros Hwf Hdis Hp. apply plan_tasks_spec in Hp. split_and!.
  - induction Hp as [|ng t l plan H1 H2 IH]; cbn; [done|]. destruct H1 as (-> & _). by f_equal.
  - intros t Ht. apply elem_of_list_lookup in Ht as [i Hi].
    destruct (Forall2_lookup_r _ _ _ _ _ Hp Hi) as (ng & Hng & (H1 & H2 & H3 & H4 & H5 & H6 & H7)).
    exists ng. split; [by eapply elem_of_list_lookup_2|]. split_and!; try done.
    + apply plan_deps_spec in H7 as (Hnd & _). apply Hnd. constructor.
    + intros u. apply plan_deps_spec in H7 as (_ & _ & Hiff). rewrite Hiff. split.
      * intros [?%elem_of_nil|(x & d & dt & Hx & Ho & Hd & [Hod Hnin] & Ht)]; [done|].
        apply task_of_iff in Ht as (_ & ng' & ? & ? & ?); [|done]. exists x, d, ng'. split_and!; try done.
        unfold deps_of in Hd. destruct (g !! x) as [nd|] eqn:Hg; [|by apply elem_of_nil in Hd].
        exists nd. split; [done|]. apply elem_of_list_fmap. by exists (d, dt).
      * intros (x & d & ng' & ? & ? & ? & (nd & Hg & Hd) & ? & ? & ? & ?). right.
        apply elem_of_list_fmap in Hd as ([d' dt] & Heq & Hd). cbn in Heq. subst d'.
        exists x, d, dt. split_and!; try done; [unfold deps_of; by rewrite Hg|]. apply task_of_iff; [done|]. split; [done|]. by exists ng'.
    + intros x. rewrite H5. cbn. rewrite elem_of_list_filter, overridden_false, is_output_true. split.
      * intros ([Ho Hor] & Hin). split_and!; [done|done|]. destruct Hor as [?|(w & Hw & ? & ?)]; [by left|right].
        unfold rdeps_of in Hw. destruct (g !! x) as [nd|] eqn:Hg; [|by apply elem_of_nil in Hw].
        exists w. split_and!; try done. by eapply wf_rdeps_back.
      * intros (Hin & Ho & Hor). split_and!; [done| |done]. destruct Hor as [?|(w & [nd Hg] & Hw & ? & ?)]; [by left|right].
        exists w. split_and!; try done. unfold rdeps_of. rewrite Hg. by eapply wf_rdeps.
    + intros x. rewrite H6. cbn. case_bool_decide as Hx.
      * destruct (overrides !! x) as [v|] eqn:Hv.
        -- by apply map_filter_lookup_Some.
        -- apply map_filter_lookup_None. by left.
      * apply map_filter_lookup_None. right. done.
  - intros ng Hng. apply elem_of_list_lookup in Hng as [i Hi].
    destruct (Forall2_lookup_l _ _ _ _ _ Hp Hi) as (t & Ht & (H1 & H2 & H3 & H4 & _)).
    exists t. split; [by eapply elem_of_list_lookup_2|done].
Qed.

(** The ValueError of grouping.py 398-402. *)
Lemma plan_fails groups outputs : disjoint_groups groups ->
  create_task_plan g overrides groups outputs = None <->
  exists ng x d, ng ∈ groups /\ x ∈ ng_nodes ng /\ overrides !! x = None /\
    (exists nd, g !! x = Some nd /\ (d, REQUIRED) ∈ nd_deps nd) /\ overrides !! d = None /\
    forall ng', ng' ∈ groups -> d ∉ ng_nodes ng'.
Proof.
  intros Hdis. unfold create_task_plan. rewrite plan_tasks_none. setoid_rewrite plan_deps_none. split.
  - intros (ng & Hng & x & d & Hx & Ho & Hd & [Hod Hn] & Ht). exists ng, x, d. split_and!; try done.
    + unfold deps_of in Hd. destruct (g !! x) as [nd|]; [|by apply elem_of_nil in Hd]. by exists nd.
    + intros ng' Hng'. by eapply task_of_None.
  - intros (ng & x & d & Hng & Hx & Ho & (nd & Hg & Hd) & Hod & Hno). exists ng. split; [done|]. exists x, d.
    split_and!; try done; [unfold deps_of; by rewrite Hg|split; [done|by apply Hno]|].
    destruct (task_of groups d) as [b|] eqn:Ht; [|done]. apply task_of_elem in Ht as (_ & ng' & Hin & Hd' & _). by apply Hno in Hd'.
Qed.
End Plan.

(** ** Ids *)
(** [expand-e.i.block-e] and the like. *)
Lemma branch_id_eq e i b : mk_task_id b (Some ("expand-" +:+ e)) (Some i) = "expand" +:+ String "-"%char (e +:+ "." +:+ i +:+ "." +:+ b).
Proof.
  unfold mk_task_id. cbn [opt_list app String.concat].
  change ("expand-" +:+ e) with ("expand" +:+ String "-"%char e). rewrite app_assoc_s. done.
Qed.

Lemma wf_plan_ids {V} (tasks : list (tspec V)) :
  NoDup (map ts_base tasks) ->
  (forall t, t ∈ tasks -> ts_purpose t = EXPAND -> ts_spawn t = None) ->
  (forall t T, t ∈ tasks -> ts_spawn t = Some T -> ts_deps t <> []) ->
  (forall t T, t ∈ tasks -> ts_spawn t = Some T -> exists e p, lacks "-" e /\ lacks "-" p /\ lacks "." p /\
      T = "expand-" +:+ e /\ ts_base t = p +:+ String "-"%char e) ->
  (forall t, t ∈ tasks -> exists e, lacks "-" e /\ (ts_base t = e \/ exists p, lacks "-" p /\ ts_base t = p +:+ String "-"%char e)) ->
  wf_plan tasks.
Proof.
  intros Hnd Hexp Hsp Hids Hbase. constructor; try done.
  - intros t T i t' Ht HT Ht' Heq. destruct (Hids _ _ Ht HT) as (e & p & He & Hp & _ & -> & Hb).
    rewrite branch_id_eq, Hb in Heq. destruct (Hbase _ Ht') as (e' & He' & [Hb'|(p' & Hp' & Hb')]).
    + rewrite Hb' in Heq. rewrite <-Heq in He'. rewrite lacks_app in He'. destruct He' as [_ [He' _]]. done.
    + rewrite Hb' in Heq. apply split_unique in Heq as [_ Heq]; [|by cbn|done].
      rewrite <-Heq in He'. rewrite !lacks_app in He'. destruct He' as (_ & _ & _ & _ & _ & [He' _]). done.
  - intros t T i t' T' i' Ht HT Ht' HT' Heq.
    destruct (Hids _ _ Ht HT) as (e & p & He & Hp & Hpd & -> & Hb), (Hids _ _ Ht' HT') as (e' & p' & He' & Hp' & Hpd' & -> & Hb').
    rewrite !branch_id_eq, Hb, Hb' in Heq. apply split_unique in Heq as [_ Heq]; [|by cbn|by cbn].
    assert (Hre : forall a b c d : string, a +:+ "." +:+ b +:+ "." +:+ c +:+ String "-"%char d = (a +:+ "." +:+ b +:+ "." +:+ c) +:+ String "-"%char d).
    { intros. by rewrite !app_assoc_s. }
    rewrite !Hre in Heq. apply split_unique in Heq as [Heq ->].
    2-3: rewrite !lacks_app; split_and!; try done; by apply pretty_no_dash.
    apply app_inj_l in Heq. change ("." +:+ (pretty i +:+ "." +:+ p)) with (String "."%char (pretty i +:+ String "."%char p)) in Heq.
    change ("." +:+ (pretty i' +:+ "." +:+ p')) with (String "."%char (pretty i' +:+ String "."%char p')) in Heq.
    injection Heq as Heq. apply split_unique in Heq as [Hi ->]; [|apply pretty_no_dot|apply pretty_no_dot].
    split_and!; [done|by eapply (inj pretty)|congruence].
Qed.

(** ** Keys of the result cache *)
Lemma branch_key_eq T i x : format_key (Some i) (Some T) x = T +:+ String ":"%char (i +:+ String ":"%char x).
Proof. unfold format_key. cbn [opt_list app String.concat]. done. Qed.
Lemma branch_key_inj T (i : nat) x T' (i' : nat) x' : lacks ":" T -> lacks ":" T' ->
  format_key (Some (pretty i)) (Some T) x = format_key (Some (pretty i')) (Some T') x' -> T = T' /\ i = i' /\ x = x'.
Proof.
  intros H1 H2. rewrite !branch_key_eq. intros Heq. apply split_unique in Heq as [-> Heq]; [|done|done].
  apply split_unique in Heq as [Hi ->]; [|apply pretty_no_colon|apply pretty_no_colon].
  split_and!; [done|by eapply (inj pretty)|done].
Qed.
Lemma branch_key_plain T i x x' : lacks ":" x' -> format_key (Some i) (Some T) x <> format_key None None x'.
Proof.
  intros H Heq. rewrite branch_key_eq in Heq. unfold format_key in Heq. cbn in Heq. rewrite <-Heq in H.
  apply lacks_app in H as [_ [H _]]. done.
Qed.
Lemma cache_write_other {V} (c : gmap string V) (results : gmap name V) grp sp k :
  (forall x v, results !! x = Some v -> format_key grp sp x <> k) -> cache_write c results grp sp !! k = c !! k.
Proof.
  intros H. unfold cache_write. apply lookup_union_r. apply not_elem_of_list_to_map_1.
  intros Hin. apply elem_of_list_fmap in Hin as ([k' v] & -> & Hin).
  apply elem_of_list_fmap in Hin as ([x v'] & Heq & Hin). cbn in *. injection Heq as -> ->.
  apply elem_of_map_to_list in Hin. by eapply H.
Qed.
Lemma cache_write_own {V} (c : gmap string V) (results : gmap name V) grp sp x v :
  (forall y, format_key grp sp y = format_key grp sp x -> y = x) -> results !! x = Some v ->
  cache_write c results grp sp !! format_key grp sp x = Some v.
Proof.
  intros Hinj Hx. unfold cache_write. apply lookup_union_Some_l. apply elem_of_list_to_map_1'.
  - intros v' Hin. apply elem_of_list_fmap in Hin as ([y w] & Heq & Hin). cbn in Heq. injection Heq as Hk ->.
    symmetry in Hk. apply Hinj in Hk as ->. apply elem_of_map_to_list in Hin. congruence.
  - apply elem_of_list_fmap. exists (x, v). split; [done|]. by apply elem_of_map_to_list.
Qed.
Lemma cache_branches (V : Type) (c : gmap string V) (results : gmap name V) (T T' : string) (i i' : nat) (x : name) :
  lacks ":" T -> lacks ":" T' ->
  ((T, i) <> (T', i') ->
     cache_write c results (Some (pretty i)) (Some T) !! format_key (Some (pretty i')) (Some T') x =
     c !! format_key (Some (pretty i')) (Some T') x) /\
  (lacks ":" x -> cache_write c results (Some (pretty i)) (Some T) !! format_key None None x = c !! format_key None None x) /\
  (forall v, results !! x = Some v -> cache_write c results (Some (pretty i)) (Some T) !! format_key (Some (pretty i)) (Some T) x = Some v).
Proof.
  intros HT HT'. split_and!.
  - intros Hne. apply cache_write_other. intros y v _ Heq. apply branch_key_inj in Heq as (-> & -> & _); [done|done|done].
  - intros Hx. apply cache_write_other. intros y v _. by apply branch_key_plain.
  - intros v Hv. apply cache_write_own; [|done]. intros y Heq. by apply branch_key_inj in Heq as (_ & _ & ?).
Qed.
