From stdpp Require Import pretty.
From Verif Require Import Base Dict ExecModel TraverseModel GroupModel StateModel.

Lemma sublist_nodup {A} (l k : list A) : l `sublist_of` k -> NoDup k -> NoDup l.
Proof.
  induction 1 as [|x l k Hs IH|x l k Hs IH]; intros Hnd; [done| |].
  - apply NoDup_cons in Hnd as [Hn Hnd]. constructor; [|by apply IH]. intros Hin. apply Hn.
    by eapply elem_of_submseteq; [|apply sublist_submseteq].
  - apply NoDup_cons in Hnd as [_ Hnd]. by apply IH.
Qed.

(** ** Plans the scheduler is meant for *)
Section Plans.
Context {V : Type}.

(** Ids of the tasks of a parallel branch are distinct from each other and from base ids. *)
Record wf_plan (tasks : list (tspec V)) : Prop := {
  wp_nodup : NoDup (map ts_base tasks);
  wp_expand : forall t, t ∈ tasks -> ts_purpose t = EXPAND -> ts_spawn t = None;
  wp_spawned : forall t T, t ∈ tasks -> ts_spawn t = Some T -> ts_deps t <> [];
  wp_ids : forall t T i t', t ∈ tasks -> ts_spawn t = Some T -> t' ∈ tasks ->
    mk_task_id (ts_base t) (Some T) (Some (pretty (i : nat))) <> ts_base t';
  wp_ids_inj : forall t T i t' T' i', t ∈ tasks -> ts_spawn t = Some T -> t' ∈ tasks -> ts_spawn t' = Some T' ->
    mk_task_id (ts_base t) (Some T) (Some (pretty (i : nat))) =
    mk_task_id (ts_base t') (Some T') (Some (pretty (i' : nat))) ->
    T = T' /\ i = i' /\ ts_base t = ts_base t';
}.

Lemma base_pool_eq (tasks : list (tspec V)) : NoDup (map ts_base tasks) -> base_pool tasks = tasks.
Proof.
  unfold base_pool. intros Hnd.
  assert (H : forall (d : dict (tspec V)) l, NoDup (dkeys d ++ map ts_base l) ->
     foldl (fun d t => dset d (ts_base t) t) d l = d ++ map (fun t => (ts_base t, t)) l).
  { intros d l. revert d. induction l as [|t l IH]; intros d Hd; cbn [foldl map].
    - by rewrite app_nil_r.
    - assert (Hnt : ts_base t ∉ dkeys d).
      { apply NoDup_app in Hd as (_ & Hd & _). intros Hin. eapply Hd; [done|]. by left. }
      assert (Hds : forall d0 : dict (tspec V), ts_base t ∉ dkeys d0 -> dset d0 (ts_base t) t = d0 ++ [(ts_base t, t)]).
      { clear. intros d0; induction d0 as [|[k a] d0 IH]; intros Hn; [done|]. unfold dkeys in *. cbn in *.
        rewrite not_elem_of_cons in Hn. destruct Hn as [Hne Hn]. rewrite decide_False by done. f_equal. by apply IH. }
      rewrite Hds by done. rewrite IH.
      + by rewrite <-app_assoc.
      + unfold dkeys in *. rewrite fmap_app, <-app_assoc. cbn. done. }
  rewrite H; [|done]. cbn. rewrite <-list_fmap_compose. cbn. clear. induction tasks as [|t l IH]; [done|]. cbn. by f_equal.
Qed.

Variable tasks : list (tspec V).
Hypothesis Hplan : wf_plan tasks.

Lemma elem_to_repeat T t : t ∈ to_repeat tasks T <-> t ∈ tasks /\ ts_spawn t = Some T /\ ts_purpose t <> EXPAND /\ ts_purpose t <> GATHER.
Proof.
  unfold StateModel.to_repeat. rewrite elem_of_list_filter, base_pool_eq by apply Hplan.
  unfold is_spawned_by. rewrite bool_decide_eq_true. tauto.
Qed.
Lemma elem_to_collect T t : t ∈ to_collect tasks T <-> t ∈ tasks /\ ts_spawn t = Some T /\ ts_purpose t = GATHER.
Proof.
  unfold StateModel.to_collect. rewrite elem_of_list_filter, base_pool_eq by apply Hplan.
  unfold is_spawned_by. rewrite bool_decide_eq_true. tauto.
Qed.
Lemma base_inj t t' : t ∈ tasks -> t' ∈ tasks -> ts_base t = ts_base t' -> t = t'.
Proof.
  intros Ht Ht' Heq. apply elem_of_list_lookup in Ht as [i Hi], Ht' as [j Hj].
  assert (i = j) as ->; [|congruence].
  eapply (NoDup_lookup (map ts_base tasks)); [apply Hplan| |].
  - by rewrite list_lookup_fmap, Hi.
  - rewrite list_lookup_fmap, Hj. cbn. congruence.
Qed.

End Plans.

Section Sched.
Context {V E : Type}.
Variable g : graph.
Variable role_of : name -> role.
Variable carg : name -> name.
Variable as_list : V -> option (list V).
Variable mk_list : list V -> V.
Variable f : name -> gmap name V -> res E V.
Variable not_iterable : E.
Variable tasks : list (tspec V).
Variable which : timpl V -> nat.
Variable limit : nat -> option nat.
Variable fin : nat -> string -> bool.
Hypothesis Hlist : forall l, as_list (mk_list l) = Some l.
Hypothesis Hplan : wf_plan tasks.
Variable cache0 : gmap string V.

Notation timpl := (timpl V).
Notation estate := (estate V).
Notation rstate := (rstate V E).
Notation tevent := (tevent V E).
Notation realize_task := (realize_task (V:=V)).
Notation bind_task := (bind_task (E:=E) g role_of carg mk_list).
Notation base_execute_task := (base_execute_task g role_of as_list mk_list f not_iterable).
Notation update_task_state := (update_task_state (E:=E) role_of as_list mk_list tasks).
Notation write_results := (write_results (E:=E) role_of as_list mk_list).
Notation submit_next := (submit_next g role_of carg as_list mk_list f not_iterable which limit fin).
Notation poll := (poll role_of as_list mk_list tasks fin).
Notation iteration := (iteration g role_of carg as_list mk_list f not_iterable tasks which limit fin).
Notation run_loop := (run_loop g role_of carg as_list mk_list f not_iterable tasks which limit fin).
Notation to_repeat := (to_repeat tasks).
Notation to_collect := (to_collect tasks).
Notation branch_task := (branch_task tasks).
Notation collect_task := (collect_task tasks).

(** ** Traces *)
Definition core (t : timpl) := (ti_spec t, ti_spawner t, ti_group t).
Lemma core_id t t' : core t = core t' -> task_id t = task_id t'.
Proof. unfold core, task_id. intros [= -> -> ->]. done. Qed.

Definition run_ids (tr : list tevent) : list string :=
  omap (fun e => match e with TRun t _ _ => Some (task_id t) | _ => None end) tr.
Definition finished (tr : list tevent) (id : string) : Prop := TFinish id ∈ tr.

(** Expander task [T] has finished, its node [X] having produced the items [l]. *)
Definition expanded (tr : list tevent) (T : string) (X : name) (l : list V) : Prop :=
  finished tr T /\
  exists t calls results v, TRun t calls (Ok results) ∈ tr /\ task_id t = T /\ ti_spec t ∈ tasks /\ T = ts_base (ti_spec t) /\
    ts_purpose (ti_spec t) = EXPAND /\ expander_node role_of (ti_spec t) = Some X /\
    results !! X = Some v /\ as_list v = Some l.

(** What the tasks in the pool look like. *)
Inductive form (tr : list tevent) : timpl -> Prop :=
| form_static sp : sp ∈ tasks -> ts_spawn sp = None -> form tr (TImpl sp None None (base_rdeps sp) ∅)
| form_branch T X l i v sp : expanded tr T X l -> l !! i = Some v -> sp ∈ to_repeat T ->
    form tr (branch_task T (pretty (i : nat)) X v sp)
| form_collect T X l sp : expanded tr T X l -> sp ∈ to_collect T ->
    form tr (collect_task T (length l) sp).

Lemma expanded_app tr tr' T X l : expanded tr T X l -> expanded (tr ++ tr') T X l.
Proof.
  intros (Hf & t & calls & results & v & Hin & Hrest). split.
  - unfold finished in *. apply elem_of_app. by left.
  - exists t, calls, results, v. split; [|done]. apply elem_of_app. by left.
Qed.
Lemma form_app tr tr' t : form tr t -> form (tr ++ tr') t.
Proof.
  intros [sp|T X l i v sp|T X l sp]; [by apply form_static| |].
  - eapply form_branch; [by apply expanded_app|done|done].
  - eapply form_collect; [by apply expanded_app|done].
Qed.

Definition ready (m : gmap string tstate) (t : timpl) : Prop :=
  forall b ids id, (b, ids) ∈ ti_rdeps t -> id ∈ ids -> m !! id = Some SUCCESSFUL.

(** ** The invariant, for the execution state, the futures and the trace. *)
Record inv0 (s : estate) (fu : dict (option nat * res (texn E) (gmap name V))) (tr : list tevent) : Prop := {
  i_ids : forall id t, dget (es_pool s) id = Some t -> task_id t = id;
  i_keys : NoDup (dkeys (es_pool s));
  i_form : forall id t, dget (es_pool s) id = Some t -> form tr t;
  i_pool_state : forall id t, dget (es_pool s) id = Some t ->
     exists x, es_states s !! id = Some x /\ x <> UNINITIALIZED /\ x <> FAILED;
  i_state_pool : forall id x, es_states s !! id = Some x -> x <> UNINITIALIZED -> is_Some (dget (es_pool s) id);
  i_queue_nodup : NoDup (map task_id (es_queue s));
  i_queue : forall t, t ∈ es_queue s -> es_states s !! task_id t = Some QUEUED /\
     exists t0, dget (es_pool s) (task_id t) = Some t0 /\ core t = core t0;
  i_fut_nodup : NoDup (dkeys fu);
  i_fut : forall id, id ∈ dkeys fu ->
     (es_states s !! id = Some QUEUED \/ es_states s !! id = Some RUNNING) /\ id ∉ map task_id (es_queue s);
  i_fut_run : forall id p o, dget fu id = Some (p, o) ->
     exists t calls t0, TRun t calls o ∈ tr /\ task_id t = id /\ dget (es_pool s) id = Some t0 /\ core t = core t0;
  i_queued : forall id, es_states s !! id = Some QUEUED -> id ∈ map task_id (es_queue s) \/ id ∈ dkeys fu;
  i_running : forall id, es_states s !! id = Some RUNNING -> id ∈ dkeys fu;
  i_runs_nodup : NoDup (run_ids tr);
  i_runs : forall id, id ∈ run_ids tr <-> id ∈ dkeys fu \/ es_states s !! id = Some SUCCESSFUL;
  i_fin : forall id, finished tr id <-> es_states s !! id = Some SUCCESSFUL;
  i_launched : forall id t, dget (es_pool s) id = Some t -> es_states s !! id <> Some INITIALIZED -> ready (es_states s) t;
  i_uninit : forall id, es_states s !! id = Some UNINITIALIZED ->
     exists id' t b ids, dget (es_pool s) id' = Some t /\ (b, ids) ∈ ti_rdeps t /\ id ∈ ids;
}.
(** Between two operations no initialized task is left that could be queued. *)
Definition settled (s : estate) : Prop :=
  forall id t, dget (es_pool s) id = Some t -> es_states s !! id = Some INITIALIZED -> ~ ready (es_states s) t.

(** ** Realizing fresh tasks *)
Lemma realize_inv s fu tr t :
  inv0 s fu tr -> dget (es_pool s) (task_id t) = None -> form tr t ->
  inv0 (realize_task s t) fu tr /\ es_cache (realize_task s t) = es_cache s.
Proof.
  intros HI Hfresh Hform. split; [|done].
  assert (Hst : es_states s !! task_id t = None \/ es_states s !! task_id t = Some UNINITIALIZED).
  { destruct (es_states s !! task_id t) as [x|] eqn:Hx; [|by left]. right.
    destruct (decide (x = UNINITIALIZED)) as [->|Hne]; [done|].
    destruct (i_state_pool _ _ _ HI _ _ Hx Hne) as [? ?]. congruence. }
  assert (Hnq : task_id t ∉ map task_id (es_queue s)).
  { intros Hin. apply elem_of_list_In, in_map_iff in Hin as (t' & Heq & Hin). apply elem_of_list_In in Hin.
    destruct (i_queue _ _ _ HI _ Hin) as [Hq _]. rewrite Heq in Hq. destruct Hst; congruence. }
  assert (Hnf : task_id t ∉ dkeys fu).
  { intros Hin. destruct (i_fut _ _ _ HI _ Hin) as [[?|?] _]; destruct Hst; congruence. }
  assert (Hsucc : forall id, <[task_id t := INITIALIZED]> (es_states s) !! id = Some SUCCESSFUL <-> es_states s !! id = Some SUCCESSFUL).
  { intros id. destruct (decide (id = task_id t)) as [->|Hne].
    - rewrite lookup_insert. split; [done|]. destruct Hst; congruence.
    - by rewrite lookup_insert_ne. }
  assert (Hready : forall t', ready (<[task_id t := INITIALIZED]> (es_states s)) t' <-> ready (es_states s) t').
  { intros t'. unfold ready. setoid_rewrite Hsucc. done. }
  constructor; cbn.
  - intros id t'. rewrite dget_dset. destruct (decide (id = task_id t)) as [->|]; [by intros [= <-]|]. apply HI.
  - apply NoDup_dkeys_dset, HI.
  - intros id t'. rewrite dget_dset. destruct (decide (id = task_id t)) as [->|]; [by intros [= <-]|]. apply HI.
  - intros id t'. rewrite dget_dset. destruct (decide (id = task_id t)) as [->|].
    + intros _. rewrite lookup_insert. by exists INITIALIZED.
    + rewrite lookup_insert_ne by done. apply HI.
  - intros id x. rewrite dget_dset. destruct (decide (id = task_id t)) as [->|]; [by eexists|].
    rewrite lookup_insert_ne by done. apply HI.
  - apply HI.
  - intros t' Hin. destruct (i_queue _ _ _ HI _ Hin) as [Hq (t0 & Hp & Hc)].
    assert (task_id t' <> task_id t) by (intros Heq; rewrite Heq in *; congruence).
    rewrite lookup_insert_ne by done. split; [done|]. exists t0. by rewrite dget_dset_ne.
  - apply HI.
  - intros id Hin. assert (id <> task_id t) by (intros ->; done). rewrite lookup_insert_ne by done. by apply HI.
  - intros id p o Hin. destruct (i_fut_run _ _ _ HI _ _ _ Hin) as (t1 & calls & t0 & ? & ? & Hp & ?).
    exists t1, calls, t0. split_and!; try done. rewrite dget_dset_ne; [done|]. intros ->. congruence.
  - intros id. destruct (decide (id = task_id t)) as [->|]; [by rewrite lookup_insert|].
    rewrite lookup_insert_ne by done. apply HI.
  - intros id. destruct (decide (id = task_id t)) as [->|]; [by rewrite lookup_insert|].
    rewrite lookup_insert_ne by done. apply HI.
  - apply HI.
  - intros id. rewrite Hsucc. apply HI.
  - intros id. rewrite Hsucc. apply HI.
  - intros id t'. rewrite dget_dset. destruct (decide (id = task_id t)) as [->|].
    + by rewrite lookup_insert.
    + rewrite lookup_insert_ne by done. rewrite Hready. apply HI.
  - intros id. destruct (decide (id = task_id t)) as [->|]; [by rewrite lookup_insert|].
    rewrite lookup_insert_ne by done. intros Hu. destruct (i_uninit _ _ _ HI _ Hu) as (id' & t' & b & ids & Hd & Hr).
    exists id', t', b, ids. split; [|done]. rewrite dget_dset_ne; [done|]. intros ->. congruence.
Qed.

Lemma realize_all_inv ts : forall s fu tr,
  inv0 s fu tr -> NoDup (map task_id ts) -> (forall t, t ∈ ts -> dget (es_pool s) (task_id t) = None /\ form tr t) ->
  inv0 (foldl realize_task s ts) fu tr /\ es_cache (foldl realize_task s ts) = es_cache s /\
  (forall id, dget (es_pool (foldl realize_task s ts)) id =
     match dget (es_pool s) id with Some t => Some t | None => list_find (fun t => task_id t = id) ts ≫= (fun p => Some p.2) end).
Proof.
  induction ts as [|t ts IH]; intros s fu tr HI Hnd Hts; cbn [foldl].
  - split_and!; [done|done|]. intros id. by destruct (dget _ id).
  - cbn in Hnd. apply NoDup_cons in Hnd as [Hn Hnd].
    destruct (Hts t) as [Hf Hform]; [by left|].
    destruct (realize_inv s fu tr t HI Hf Hform) as [HI' Hc].
    destruct (IH (realize_task s t) fu tr HI' Hnd) as (HI'' & Hc' & Hp).
    { intros t' Hin. destruct (Hts t') as [Hf' Hform']; [by right|]. split; [|done]. cbn.
      rewrite dget_dset_ne; [done|]. intros Heq. apply Hn. rewrite <-Heq. apply elem_of_list_In, in_map, elem_of_list_In, Hin. }
    split_and!; [done|by rewrite Hc'|]. intros id. rewrite Hp. cbn.
    rewrite dget_dset. destruct (decide (id = task_id t)) as [->|Hne].
    + rewrite Hf. by destruct (decide (task_id t = task_id t)).
    + destruct (dget (es_pool s) id) eqn:Hd; [done|]. destruct (decide (task_id t = id)); [congruence|].
      by destruct (list_find _ ts) as [[? ?]|].
Qed.

(** ** Launching *)
Definition grows (m m' : gmap string tstate) : Prop :=
  forall id, m' !! id = m !! id \/ (m !! id = None /\ m' !! id = Some UNINITIALIZED).
Lemma grows_refl m : grows m m.
Proof. intros id. by left. Qed.
Lemma grows_trans m1 m2 m3 : grows m1 m2 -> grows m2 m3 -> grows m1 m3.
Proof.
  intros H1 H2 id. destruct (H1 id) as [He|[Hn Hu]], (H2 id) as [He'|[Hn' Hu']]; try congruence.
  - left. congruence.
  - right. split; congruence.
  - right. split; congruence.
Qed.
Lemma touch_grows m id : grows m (touch m id).
Proof.
  intros id'. unfold touch. destruct (m !! id) eqn:Hm; [by left|].
  destruct (decide (id' = id)) as [->|]; [right; by rewrite lookup_insert|left; by rewrite lookup_insert_ne].
Qed.
Lemma foldl_touch_grows ids : forall m, grows m (foldl touch m ids).
Proof.
  induction ids as [|id ids IH]; intros m; cbn; [apply grows_refl|]. eapply grows_trans; [apply touch_grows|apply IH].
Qed.
Lemma foldl_touch_new ids : forall m id, m !! id = None -> foldl touch m ids !! id <> None -> id ∈ ids.
Proof.
  induction ids as [|i ids IH]; intros m id Hn Hs; cbn in *; [done|].
  destruct (decide (id = i)) as [->|Hne]; [by left|]. right. apply (IH (touch m i)); [|done].
  unfold touch. destruct (m !! i); [done|]. by rewrite lookup_insert_ne.
Qed.
Lemma grows_state m m' id x : grows m m' -> x <> UNINITIALIZED -> m' !! id = Some x <-> m !! id = Some x.
Proof. intros Hg Hx. destruct (Hg id) as [->|[Hn ->]]; [done|]. rewrite Hn. split; congruence. Qed.
Lemma grows_ready m m' t : grows m m' -> ready m' t <-> ready m t.
Proof. intros Hg. unfold ready. split; intros H b ids id H1 H2; [rewrite <-(grows_state m m')|rewrite (grows_state m m')]; eauto. Qed.

Lemma ready_forallb m m1 t : grows m m1 ->
  forallb (fun d => bool_decide (m1 !! d = Some SUCCESSFUL)) (concat (map snd (ti_rdeps t))) = true <-> ready m t.
Proof.
  intros Hg. rewrite forallb_forall. unfold ready. split.
  - intros H b ids id Hin Hid. rewrite <-(grows_state m m1) by done. eapply bool_decide_eq_true, H.
    apply in_concat. exists ids. split; [|by apply elem_of_list_In]. apply in_map_iff. exists (b, ids). split; [done|by apply elem_of_list_In].
  - intros H id (ids & Hids & Hid)%in_concat. apply in_map_iff in Hids as ([b ids'] & Heq & Hin). cbn in Heq. subst ids'.
    apply bool_decide_eq_true. rewrite (grows_state m m1) by done. apply elem_of_list_In in Hin, Hid. eauto.
Qed.

Lemma scan_ok pool : forall m,
  (forall id t, (id, t) ∈ pool -> is_Some (m !! task_id t)) ->
  exists m' l, scan m pool = (m', l) /\ grows m m' /\
    l `sublist_of` pool.*2 /\
    (forall t, t ∈ l <-> (exists id, (id, t) ∈ pool) /\ m !! task_id t = Some INITIALIZED /\ ready m t) /\
    (forall id, m !! id = None -> m' !! id <> None -> exists id' t b ids, (id', t) ∈ pool /\ (b, ids) ∈ ti_rdeps t /\ id ∈ ids).
Proof.
  induction pool as [|[id0 t0] pool IH]; intros m Hm; cbn [scan].
  - exists m, []. split_and!; [done|apply grows_refl|constructor| |done].
    intros t. rewrite elem_of_nil. split; [done|]. intros ((id & Hin%elem_of_nil) & _). done.
  - destruct (Hm id0 t0) as [x0 Hx0]; [by left|].
    assert (Htouch : touch m (task_id t0) = m) by (unfold touch; by rewrite Hx0). rewrite Htouch.
    destruct (bool_decide (m !! task_id t0 = Some INITIALIZED)) eqn:Hb.
    + apply bool_decide_eq_true in Hb.
      set (m1 := foldl touch m (concat (map snd (ti_rdeps t0)))).
      assert (Hg1 : grows m m1) by apply foldl_touch_grows.
      destruct (IH m1) as (m' & l & -> & Hg & Hsub & Hl & Hnew).
      { intros id t Hin. destruct (Hm id t) as [y Hy]; [by right|]. destruct (Hg1 (task_id t)) as [Heq|[? ?]]; [|congruence].
        rewrite Heq. by exists y. }
      eexists m', _. split; [done|]. split; [by eapply grows_trans|].
      assert (Hnew' : forall id, m !! id = None -> m' !! id <> None ->
         exists id' t b ids, (id', t) ∈ (id0, t0) :: pool /\ (b, ids) ∈ ti_rdeps t /\ id ∈ ids).
      { intros id Hn Hs. destruct (m1 !! id) as [y|] eqn:Hy.
        - assert (Hin : id ∈ concat (map snd (ti_rdeps t0))).
          { apply (foldl_touch_new (concat (map snd (ti_rdeps t0))) m); [done|]. fold m1. by rewrite Hy. }
          apply elem_of_concat in Hin as (ids & Hin & Hids).
          apply elem_of_list_In, in_map_iff in Hids as ([b ids'] & Heq & Hbb). cbn in Heq. subst ids'.
          exists id0, t0, b, ids. split_and!; [by left|by apply elem_of_list_In|done].
        - destruct (Hnew id Hy Hs) as (id' & t & b & ids & ? & ?). exists id', t, b, ids. split; [by right|done]. }
      assert (Hl' : forall t, t ∈ l <-> (exists id, (id, t) ∈ pool) /\ m !! task_id t = Some INITIALIZED /\ ready m t).
      { intros t. rewrite Hl, (grows_state m m1), (grows_ready m m1) by done. done. }
      destruct (forallb _ _) eqn:Hfb.
      * apply (ready_forallb m m1 t0 Hg1) in Hfb. split; [by apply sublist_skip|]. split; [|done].
        intros t. rewrite elem_of_cons, Hl'. split.
        -- intros [->|((id & ?) & ? & ?)]; [split_and!; [|done|done]; exists id0; by left|].
           split_and!; [exists id; by right|done|done].
        -- intros ((id & [[= -> ->]|Hin]%elem_of_cons) & Hi & Hr); [by left|]. right. split_and!; [by exists id|done|done].
      * split; [by apply sublist_cons|]. split; [|done]. intros t. rewrite Hl'. split.
        -- intros ((id & ?) & ? & ?). split_and!; [exists id; by right|done|done].
        -- intros ((id & [[= -> ->]|Hin]%elem_of_cons) & Hi & Hr); [|split_and!; [by exists id|done|done]].
           exfalso. apply (ready_forallb m m1 t0 Hg1) in Hr. congruence.
    + apply bool_decide_eq_false in Hb.
      destruct (IH m) as (m' & l & -> & Hg & Hsub & Hl & Hnew); [intros id t Hin; eapply Hm; by right|].
      exists m', l. split_and!; [done|done|by apply sublist_cons| |].
      2: { intros id Hn Hs. destruct (Hnew id Hn Hs) as (id' & t & b & ids & ? & ?). exists id', t, b, ids. split; [by right|done]. }
      intros t. rewrite Hl. split.
      * intros ((id & ?) & ? & ?). split_and!; [exists id; by right|done|done].
      * intros ((id & [[= -> ->]|Hin]%elem_of_cons) & Hi & Hr); [done|split_and!; [by exists id|done|done]].
Qed.

Lemma enqueue_all_lookup ts : forall (s : estate),
  es_pool (foldl enqueue s ts) = es_pool s /\ es_cache (foldl enqueue s ts) = es_cache s /\
  es_queue (foldl enqueue s ts) = es_queue s ++ ts /\
  (forall id, es_states (foldl enqueue s ts) !! id =
     if bool_decide (id ∈ map task_id ts) then Some QUEUED else es_states s !! id).
Proof.
  induction ts as [|t ts IH]; intros s; cbn [foldl].
  - split_and!; [done|done|by rewrite app_nil_r|]. intros id. cbn. case_bool_decide as Hb; [by apply elem_of_nil in Hb|done].
  - destruct (IH (enqueue s t)) as (-> & -> & -> & Hst). split_and!; [done|done|cbn; by rewrite <-app_assoc|].
    intros id. rewrite Hst. cbn [map]. destruct (decide (id ∈ map task_id ts)) as [Hin|Hn].
    + rewrite !bool_decide_true; [done|apply elem_of_cons; by right|done].
    + rewrite (bool_decide_false (id ∈ map task_id ts)) by done. cbn. destruct (decide (id = task_id t)) as [->|Hne].
      * rewrite lookup_insert, bool_decide_true; [done|by left].
      * rewrite lookup_insert_ne by done. rewrite bool_decide_false; [done|]. intros [?|?]%elem_of_cons; done.
Qed.

Lemma enqueue_ready_inv s fu tr :
  inv0 s fu tr -> inv0 (enqueue_ready s) fu tr /\ settled (enqueue_ready s) /\
    es_cache (enqueue_ready s) = es_cache s /\ es_pool (enqueue_ready s) = es_pool s /\
    (forall t, t ∈ es_queue (enqueue_ready s) -> t ∈ es_queue s \/ dget (es_pool s) (task_id t) = Some t).
Proof.
  intros HI. unfold enqueue_ready.
  assert (Hpoolid : forall id t, (id, t) ∈ es_pool s -> task_id t = id /\ dget (es_pool s) id = Some t).
  { intros id t Hin. apply elem_dget in Hin; [|apply HI]. split; [by eapply i_ids|done]. }
  destruct (scan_ok (es_pool s) (es_states s)) as (m & l & Heq & Hg & Hsub & Hl & Hnew).
  { intros id t Hin. destruct (Hpoolid _ _ Hin) as [-> Hd]. destruct (i_pool_state _ _ _ HI _ _ Hd) as (x & -> & _). by eexists. }
  rewrite Heq.
  destruct (enqueue_all_lookup l (EState (es_pool s) m (es_queue s) (es_cache s))) as (Hp & Hc & Hq & Hst).
  cbn in Hp, Hc, Hq. set (s' := foldl enqueue _ l) in *.
  assert (Hlid : forall id, id ∈ map task_id l -> exists t, t ∈ l /\ task_id t = id /\ dget (es_pool s) id = Some t /\
      es_states s !! id = Some INITIALIZED /\ ready (es_states s) t).
  { intros id Hin. apply elem_of_list_In, in_map_iff in Hin as (t & <- & Hin). apply elem_of_list_In in Hin.
    apply Hl in Hin as Hin'. destruct Hin' as ((id & Hid) & Hi & Hr). destruct (Hpoolid _ _ Hid) as [<- Hd]. by exists t. }
  assert (Hst' : forall id x, x <> UNINITIALIZED -> x <> INITIALIZED -> x <> QUEUED -> es_states s' !! id = Some x <-> es_states s !! id = Some x).
  { intros id x H1 H2 H3. cbn in Hst. rewrite Hst. destruct (decide (id ∈ map task_id l)) as [Hin|Hn].
    - rewrite bool_decide_true by done. destruct (Hlid _ Hin) as (? & _ & _ & _ & -> & _). split; congruence.
    - rewrite bool_decide_false by done. by apply grows_state. }
  assert (Hready : forall t, ready (es_states s') t <-> ready (es_states s) t).
  { intros t. unfold ready. split; intros H b ids id ? ?.
    - apply Hst'; [done|done|done|]. eauto.
    - apply Hst'; [done|done|done|]. eauto. }
  assert (HstQ : forall id, es_states s' !! id = Some QUEUED <-> id ∈ map task_id l \/ es_states s !! id = Some QUEUED).
  { intros id. cbn in Hst. rewrite Hst. destruct (decide (id ∈ map task_id l)) as [Hin|Hn].
    - rewrite bool_decide_true by done. split; [by left|done].
    - rewrite bool_decide_false by done. rewrite (grows_state (es_states s) m) by done. split; [by right|]. by intros [?|?]. }
  assert (HstI : forall id, es_states s' !! id = Some INITIALIZED <-> id ∉ map task_id l /\ es_states s !! id = Some INITIALIZED).
  { intros id. cbn in Hst. rewrite Hst. destruct (decide (id ∈ map task_id l)) as [Hin|Hn].
    - rewrite bool_decide_true by done. split; [done|]. by intros [? _].
    - rewrite bool_decide_false by done. rewrite (grows_state (es_states s) m) by done. tauto. }
  assert (Hlnodup : NoDup (map task_id l)).
  { assert (Hk : map task_id (es_pool s).*2 = dkeys (es_pool s)).
    { unfold dkeys. clear -Hpoolid. induction (es_pool s) as [|[id t] p IH]; [done|]. cbn.
      destruct (Hpoolid id t) as [-> _]; [by left|]. f_equal.
      assert (Hp : forall id t, (id, t) ∈ p -> task_id t = id).
      { intros id' t' Hin. apply (Hpoolid id' t'). by right. }
      clear -Hp. induction p as [|[id t] p IH]; [done|]. cbn. rewrite (Hp id t) by (by left). f_equal. apply IH.
      intros id' t' Hin. apply Hp. by right. }
    eapply sublist_nodup; [exact (fmap_sublist task_id _ _ Hsub)|]. change (NoDup (map task_id (es_pool s).*2)). rewrite Hk. apply HI. }
  split_and!.
  - constructor; rewrite ?Hp.
    + apply HI.
    + apply HI.
    + apply HI.
    + intros id t Hd. destruct (i_pool_state _ _ _ HI _ _ Hd) as (x & Hx & Hne & Hnf).
      destruct (decide (id ∈ map task_id l)).
      * exists QUEUED. split; [apply HstQ; by left|done].
      * exists x. split; [|done]. cbn in Hst. rewrite Hst, bool_decide_false by done. by rewrite (grows_state (es_states s) m).
    + intros id x Hx Hne. cbn in Hst. rewrite Hst in Hx. destruct (decide (id ∈ map task_id l)) as [Hin|Hn].
      * destruct (Hlid _ Hin) as (t & _ & _ & -> & _). by eexists.
      * rewrite bool_decide_false in Hx by done. rewrite (grows_state (es_states s) m) in Hx by done. by eapply i_state_pool.
    + rewrite Hq, map_app. apply NoDup_app. split_and!; [apply HI| |done].
      intros id Hin Hin2. destruct (Hlid _ Hin2) as (t & _ & _ & _ & Hi & _).
      apply elem_of_list_In, in_map_iff in Hin as (t' & <- & Hin). apply elem_of_list_In in Hin.
      destruct (i_queue _ _ _ HI _ Hin). congruence.
    + intros t. rewrite Hq. intros [Hin|Hin]%elem_of_app.
      * destruct (i_queue _ _ _ HI _ Hin) as [? ?]. split; [|done]. apply HstQ. by right.
      * assert (Hin' : task_id t ∈ map task_id l) by (apply elem_of_list_In, in_map, elem_of_list_In, Hin).
        split; [apply HstQ; by left|]. apply Hl in Hin as ((id & Hid) & _ & _). destruct (Hpoolid _ _ Hid) as [<- Hd]. by exists t.
    + apply HI.
    + intros id Hin. destruct (i_fut _ _ _ HI _ Hin) as [Hs Hnq].
      assert (Hnl : id ∉ map task_id l).
      { intros Hcc. destruct (Hlid _ Hcc) as (? & _ & _ & _ & ? & _). destruct Hs; congruence. }
      split.
      * destruct Hs as [Hs|Hs]; [left; apply HstQ; by right|right]. by apply Hst'.
      * rewrite Hq, map_app. by intros [?|?]%elem_of_app.
    + apply HI.
    + intros id [Hin|Hs]%HstQ; [left; rewrite Hq, map_app; apply elem_of_app; by right|].
      destruct (i_queued _ _ _ HI _ Hs); [left|by right]. rewrite Hq, map_app. apply elem_of_app. by left.
    + intros id Hr. apply Hst' in Hr; [|done|done|done]. by eapply i_running.
    + apply HI.
    + intros id. rewrite Hst' by done. apply HI.
    + intros id. rewrite Hst' by done. apply HI.
    + intros id t Hd Hni. rewrite Hready. destruct (decide (id ∈ map task_id l)) as [Hin|Hn].
      * destruct (Hlid _ Hin) as (t' & _ & _ & Hd' & _ & Hr). rewrite Hd in Hd'. by injection Hd' as <-.
      * eapply (i_launched _ _ _ HI); [done|]. intros Hi. apply Hni. apply HstI. done.
    + intros id Hu. assert (Hm : m !! id = Some UNINITIALIZED).
      { cbn in Hst. rewrite Hst in Hu. by destruct (bool_decide _). }
      destruct (es_states s !! id) as [y|] eqn:Hy.
      * destruct (Hg id) as [Hgi|[? _]]; [|congruence]. apply (i_uninit _ _ _ HI). congruence.
      * destruct (Hnew id Hy) as (id' & t & b & ids & Hin & Hb & Hid); [by rewrite Hm|].
        exists id', t, b, ids. split; [|done]. by apply Hpoolid.
  - intros id t Hd Hi Hr. rewrite Hp in Hd. apply HstI in Hi as [Hn Hi]. rewrite Hready in Hr. apply Hn.
    apply elem_of_list_In, in_map_iff. exists t. split; [by eapply i_ids|]. apply elem_of_list_In, Hl.
    split_and!; [exists id; by apply dget_elem| |done]. by rewrite (i_ids _ _ _ HI _ _ Hd).
  - done.
  - done.
  - intros t. rewrite Hq. intros [Hin|Hin]%elem_of_app; [by left|right].
    apply Hl in Hin as ((id & Hid) & _ & _). destruct (Hpoolid _ _ Hid) as [<- Hd]. done.
Qed.

Lemma realize_all_queue ts : forall s, es_queue (foldl realize_task s ts) = es_queue s.
Proof. induction ts as [|t ts IH]; intros s; cbn [foldl]; [done|]. by rewrite IH. Qed.
Lemma spawn_all_queue l : forall s : estate, es_queue (foldl spawn_candidate s l) = es_queue s.
Proof.
  induction l as [|t l IH]; intros s; cbn [foldl]; [done|]. rewrite IH. unfold spawn_candidate.
  destruct (_ || _); [|done]. by destruct (dget _ _).
Qed.

Definition pool_le (s s' : estate) : Prop := forall id t, dget (es_pool s) id = Some t -> dget (es_pool s') id = Some t.
Lemma pool_le_refl s : pool_le s s.
Proof. by intros ??. Qed.
Lemma pool_le_trans s1 s2 s3 : pool_le s1 s2 -> pool_le s2 s3 -> pool_le s1 s3.
Proof. intros H1 H2 id t ?. by apply H2, H1. Qed.

(** ** The tasks of a parallel group *)
Definition branches (T : string) (X : name) (k : nat) (l : list V) : list timpl :=
  concat (imap (fun i v => map (branch_task T (pretty (k + i)) X v) (to_repeat T)) l).
Definition group_tasks (T : string) (X : name) (l : list V) : list timpl :=
  branches T X 0 l ++ map (collect_task T (length l)) (to_collect T).

Lemma branches_cons T X k v l :
  branches T X k (v :: l) = map (branch_task T (pretty k) X v) (to_repeat T) ++ branches T X (S k) l.
Proof.
  unfold branches. rewrite imap_cons. cbn [concat]. f_equal.
  - by rewrite Nat.add_0_r.
  - f_equal. apply imap_ext. intros i x _. cbn. f_equal. f_equal. f_equal. lia.
Qed.

Lemma elem_branches T X l : forall k t,
  t ∈ branches T X k l <-> exists i v sp, l !! i = Some v /\ sp ∈ to_repeat T /\ t = branch_task T (pretty (k + i)) X v sp.
Proof.
  induction l as [|v l IH]; intros k t.
  - cbn. rewrite elem_of_nil. split; [done|]. by intros (? & ? & ? & ? & _).
  - rewrite branches_cons, elem_of_app, IH. split.
    + intros [Hin|(i & v' & sp & Hi & Hsp & ->)].
      * apply elem_of_list_In, in_map_iff in Hin as (sp & <- & Hin). apply elem_of_list_In in Hin.
        exists 0, v, sp. split_and!; [done|done|]. by rewrite Nat.add_0_r.
      * exists (S i), v', sp. split_and!; [done|done|]. by replace (k + S i) with (S k + i) by lia.
    + intros ([|i] & v' & sp & Hi & Hsp & ->).
      * left. cbn in Hi. injection Hi as ->. rewrite Nat.add_0_r. apply elem_of_list_In, in_map, elem_of_list_In, Hsp.
      * right. exists i, v', sp. split_and!; [done|done|]. by replace (S k + i) with (k + S i) by lia.
Qed.

Lemma foldl_concat {A B C} (h : C -> B -> C) (F : A -> list B) l : forall c,
  foldl (fun c a => foldl h c (F a)) c l = foldl h c (concat (map F l)).
Proof. induction l as [|a l IH]; intros c; cbn; [done|]. by rewrite foldl_app, IH. Qed.
Lemma foldl_map' {A B C} (h : C -> B -> C) (F : A -> B) l : forall c,
  foldl (fun c a => h c (F a)) c l = foldl h c (map F l).
Proof. induction l as [|a l IH]; intros c; cbn; [done|]. by rewrite IH. Qed.
Lemma foldl_ext' {A C} (h h' : C -> A -> C) l : (forall c a, h c a = h' c a) -> forall c, foldl h c l = foldl h' c l.
Proof. intros H. induction l as [|a l IH]; intros c; cbn; [done|]. by rewrite IH, H. Qed.

Lemma realize_group_eq s T X l : realize_group tasks s T X l = foldl realize_task s (group_tasks T X l).
Proof.
  unfold realize_group, group_tasks. rewrite foldl_app, foldl_map'. f_equal.
  unfold realize_branch.
  rewrite (foldl_ext' _ (fun s p => foldl realize_task s (map (branch_task T (pretty p.1) X p.2) (to_repeat T)))).
  2: { intros c a. apply foldl_map'. }
  rewrite (foldl_concat realize_task (fun p : nat * V => map (branch_task T (pretty p.1) X p.2) (to_repeat T))).
  f_equal. unfold branches. f_equal.
  change (map (fun p : nat * V => map (branch_task T (pretty p.1) X p.2) (to_repeat T)) (imap pair l))
    with ((fun p : nat * V => map (branch_task T (pretty p.1) X p.2) (to_repeat T)) <$> (imap pair l)).
  by rewrite fmap_imap.
Qed.

Lemma tasks_nodup : NoDup tasks.
Proof. eapply NoDup_fmap_1, (wp_nodup _ Hplan). Qed.
Lemma to_repeat_nodup T : NoDup (to_repeat T).
Proof. unfold StateModel.to_repeat. apply NoDup_filter. rewrite base_pool_eq by apply Hplan. apply tasks_nodup. Qed.
Lemma to_collect_nodup T : NoDup (to_collect T).
Proof. unfold StateModel.to_collect. apply NoDup_filter. rewrite base_pool_eq by apply Hplan. apply tasks_nodup. Qed.

Lemma branches_nodup T X l : forall k, NoDup (map task_id (branches T X k l)).
Proof.
  induction l as [|v l IH]; intros k; [constructor|].
  rewrite branches_cons, map_app. apply NoDup_app. split_and!; [| |apply IH].
  - rewrite map_map. apply (NoDup_fmap_2_strong (fun x => task_id (branch_task T (pretty k) X v x))); [|apply to_repeat_nodup].
    intros sp sp' H1 H2 Heq. apply (elem_to_repeat tasks Hplan) in H1 as (? & ? & _), H2 as (? & ? & _).
    apply (base_inj tasks Hplan); [done|done|]. eapply (wp_ids_inj _ Hplan sp T k sp' T k); done.
  - intros id Hin Hin'. apply elem_of_list_In, in_map_iff in Hin as (t & <- & Hin), Hin' as (t' & Heq & Hin').
    apply in_map_iff in Hin as (sp & <- & Hin). apply elem_of_list_In in Hin, Hin'.
    apply elem_branches in Hin' as (i & v' & sp' & _ & Hsp' & ->).
    apply (elem_to_repeat tasks Hplan) in Hin as (? & ? & _), Hsp' as (? & ? & _).
    destruct (wp_ids_inj _ Hplan sp' T (S k + i) sp T k) as (_ & Hk & _); [done..|]. lia.
Qed.

Lemma group_tasks_nodup T X l : NoDup (map task_id (group_tasks T X l)).
Proof.
  unfold group_tasks. rewrite map_app. apply NoDup_app. split_and!.
  - apply branches_nodup.
  - intros id Hin Hin'. apply elem_of_list_In, in_map_iff in Hin as (t & <- & Hin), Hin' as (t' & Heq & Hin').
    apply in_map_iff in Hin' as (sp' & <- & Hin'). apply elem_of_list_In in Hin, Hin'.
    apply elem_branches in Hin as (i & v & sp & _ & Hsp & ->).
    apply (elem_to_repeat tasks Hplan) in Hsp as (? & ? & _). apply (elem_to_collect tasks Hplan) in Hin' as (? & ? & _).
    eapply (wp_ids _ Hplan sp T i sp'); done.
  - rewrite map_map. apply (NoDup_fmap_2_strong (fun x => task_id (collect_task T (length l) x))); [|apply to_collect_nodup].
    intros sp sp' H1 H2 Heq. apply (elem_to_collect tasks Hplan) in H1 as (? & ? & _), H2 as (? & ? & _). by apply (base_inj tasks Hplan).
Qed.

Lemma form_spec tr t : form tr t -> ti_spec t ∈ tasks.
Proof.
  intros [sp|T X l i v sp ? ? Hin|T X l sp ? Hin]; cbn; [done| |].
  - by apply (elem_to_repeat tasks Hplan) in Hin as [? _].
  - by apply (elem_to_collect tasks Hplan) in Hin as [? _].
Qed.

Lemma group_tasks_fresh s fu tr T X l t :
  inv0 s fu tr -> ~ finished tr T -> t ∈ group_tasks T X l -> dget (es_pool s) (task_id t) = None.
Proof.
  intros HI Hnf Hin. destruct (dget (es_pool s) (task_id t)) as [t'|] eqn:Hd; [exfalso|done].
  pose proof (i_ids _ _ _ HI _ _ Hd) as Hid. pose proof (i_form _ _ _ HI _ _ Hd) as Hf.
  unfold group_tasks in Hin. apply elem_of_app in Hin as [Hin|Hin].
  - apply elem_branches in Hin as (i & v & sp & Hi & Hsp & ->).
    apply (elem_to_repeat tasks Hplan) in Hsp as (Hsp & Hspawn & _).
    destruct Hf as [sp'|T' X' l' i' v' sp' Hexp Hi' Hsp'|T' X' l' sp' Hexp Hsp'].
    + symmetry in Hid. by eapply (wp_ids _ Hplan sp T i sp').
    + apply (elem_to_repeat tasks Hplan) in Hsp' as (? & ? & _).
      destruct (wp_ids_inj _ Hplan sp' T' i' sp T i) as (-> & _ & _); [done..|]. by destruct Hexp.
    + apply (elem_to_collect tasks Hplan) in Hsp' as (? & ? & _). symmetry in Hid. by eapply (wp_ids _ Hplan sp T i sp').
  - apply elem_of_list_In, in_map_iff in Hin as (sp & <- & Hin). apply elem_of_list_In in Hin.
    apply (elem_to_collect tasks Hplan) in Hin as (Hsp & Hspawn & _).
    destruct Hf as [sp'|T' X' l' i' v' sp' Hexp Hi' Hsp'|T' X' l' sp' Hexp Hsp'].
    + assert (sp' = sp) as -> by (by apply (base_inj tasks Hplan)). congruence.
    + apply (elem_to_repeat tasks Hplan) in Hsp' as (? & ? & _). by eapply (wp_ids _ Hplan sp' T' i' sp).
    + apply (elem_to_collect tasks Hplan) in Hsp' as (? & ? & _). assert (sp' = sp) as -> by (by apply (base_inj tasks Hplan)).
      assert (T' = T) as -> by congruence. by destruct Hexp.
Qed.

Lemma group_tasks_form tr T X l t : expanded tr T X l -> t ∈ group_tasks T X l -> form tr t.
Proof.
  intros Hexp [Hin|Hin]%elem_of_app.
  - apply elem_branches in Hin as (i & v & sp & Hi & Hsp & ->). by eapply form_branch.
  - apply elem_of_list_In, in_map_iff in Hin as (sp & <- & Hin). apply elem_of_list_In in Hin. by eapply form_collect.
Qed.

(** ** Static successors *)
Definition static_task (sp : tspec V) : timpl := TImpl sp None None (base_rdeps sp) ∅.

Lemma spawn_all_inv l : forall s fu tr,
  inv0 s fu tr -> (forall t, t ∈ l -> t ∈ tasks) ->
  inv0 (foldl spawn_candidate s l) fu tr /\ es_cache (foldl spawn_candidate s l) = es_cache s /\
  pool_le s (foldl spawn_candidate s l) /\
  (forall t, t ∈ l -> ts_spawn t = None -> is_Some (dget (es_pool (foldl spawn_candidate s l)) (ts_base t))) /\
  (forall id, is_Some (dget (es_pool (foldl spawn_candidate s l)) id) -> is_Some (dget (es_pool s) id) \/ id ∈ map ts_base tasks).
Proof.
  induction l as [|t l IH]; intros s fu tr HI Hl; cbn [foldl].
  - split_and!; [done|done|apply pool_le_refl| |by left]. by intros t ?%elem_of_nil.
  - assert (Hstep : inv0 (spawn_candidate s t) fu tr /\ es_cache (spawn_candidate s t) = es_cache s /\ pool_le s (spawn_candidate s t) /\
       (ts_spawn t = None -> is_Some (dget (es_pool (spawn_candidate s t)) (ts_base t))) /\
       (forall id, is_Some (dget (es_pool (spawn_candidate s t)) id) -> is_Some (dget (es_pool s) id) \/ id ∈ map ts_base tasks)).
    { unfold spawn_candidate. destruct (bool_decide (ts_spawn t = None) || bool_decide (ts_purpose t = EXPAND)) eqn:Hb.
      - destruct (dget (es_pool s) (ts_base t)) as [t'|] eqn:Hd.
        + split_and!; [done|done|apply pool_le_refl| |by left]. intros _. rewrite Hd. by eexists.
        + assert (Hn : ts_spawn t = None).
          { apply orb_true_iff in Hb as [Hb%bool_decide_eq_true|Hb%bool_decide_eq_true]; [done|].
            eapply (wp_expand _ Hplan); [|done]. apply Hl. by left. }
          destruct (realize_inv s fu tr (static_task t) HI) as [HI' Hc].
          { done. } { apply form_static; [|done]. apply Hl. by left. }
          split_and!; [done|done| | |].
          3: { intros id. cbn. unfold task_id. cbn. rewrite dget_dset. destruct (decide (id = ts_base t)) as [->|]; [|by left].
               intros _. right. apply elem_of_list_In, in_map, elem_of_list_In, Hl. by left. }
          * intros id t' Hd'. cbn. rewrite dget_dset_ne; [done|]. intros ->. unfold task_id in Hd'. cbn in Hd'. congruence.
          * intros _. cbn. unfold task_id. cbn. rewrite dget_dset_eq. by eexists.
      - split_and!; [done|done|apply pool_le_refl| |by left]. intros Hn. rewrite (bool_decide_true (ts_spawn t = None)) in Hb by done. done. }
    destruct Hstep as (HI' & Hc & Hle & Hin & Hnew).
    destruct (IH (spawn_candidate s t) fu tr HI') as (HI'' & Hc' & Hle' & Hin' & Hnew'); [intros t' ?; apply Hl; by right|].
    split_and!; [done|congruence|by eapply pool_le_trans| |].
    2: { intros id Hid. apply Hnew' in Hid as [Hid|?]; [by apply Hnew|by right]. }
    intros t' [->|Ht']%elem_of_cons Hn; [|by apply Hin'].
    destruct (Hin Hn) as [t0 H0]. exists t0. by apply Hle'.
Qed.

(** ** Single state changes *)
Lemma run_ids_app tr tr' : run_ids (tr ++ tr') = run_ids tr ++ run_ids tr'.
Proof. unfold run_ids. apply omap_app. Qed.

Lemma mark_running_inv s fu tr id :
  inv0 s fu tr -> id ∈ dkeys fu -> inv0 (set_state s id RUNNING) fu tr /\ (settled s -> settled (set_state s id RUNNING)).
Proof.
  intros HI Hin. destruct (i_fut _ _ _ HI _ Hin) as [Hs Hnq].
  assert (Hx : forall id' x, x <> QUEUED -> x <> RUNNING -> <[id := RUNNING]> (es_states s) !! id' = Some x <-> es_states s !! id' = Some x).
  { intros id' x H1 H2. destruct (decide (id' = id)) as [->|]; [|by rewrite lookup_insert_ne].
    rewrite lookup_insert. split; [congruence|]. destruct Hs; congruence. }
  assert (Hready : forall t', ready (<[id := RUNNING]> (es_states s)) t' <-> ready (es_states s) t').
  { intros t'. unfold ready. split; intros H b ids id' ? ?; [rewrite <-Hx by done|rewrite Hx by done]; eauto. }
  split; [constructor; cbn|].
  - apply HI.
  - apply HI.
  - apply HI.
  - intros id' t Hd. destruct (decide (id' = id)) as [->|]; [rewrite lookup_insert; by eexists|].
    rewrite lookup_insert_ne by done. by eapply i_pool_state.
  - intros id' x. destruct (decide (id' = id)) as [->|]; [|rewrite lookup_insert_ne by done; by eapply i_state_pool].
    intros _ _. destruct Hs as [Hs|Hs]; by eapply (i_state_pool _ _ _ HI).
  - apply HI.
  - intros t Ht. destruct (i_queue _ _ _ HI _ Ht) as [Hq ?]. split; [|done]. rewrite lookup_insert_ne; [done|].
    intros ->. apply Hnq. apply elem_of_list_In, in_map, elem_of_list_In, Ht.
  - apply HI.
  - intros id' Hin'. destruct (decide (id' = id)) as [->|]; [rewrite lookup_insert; split; [by right|done]|].
    rewrite lookup_insert_ne by done. by apply HI.
  - apply HI.
  - intros id'. destruct (decide (id' = id)) as [->|]; [by rewrite lookup_insert|].
    rewrite lookup_insert_ne by done. apply HI.
  - intros id'. destruct (decide (id' = id)) as [->|]; [done|].
    rewrite lookup_insert_ne by done. apply HI.
  - apply HI.
  - intros id'. rewrite Hx by done. apply HI.
  - intros id'. rewrite Hx by done. apply HI.
  - intros id' t Hd Hni. rewrite Hready. eapply (i_launched _ _ _ HI); [done|]. rewrite <-Hx by done. done.
  - intros id'. rewrite Hx by done. apply HI.
  - intros Hset id' t Hd Hi. rewrite Hready. eapply Hset; [done|]. by rewrite <-Hx.
Qed.

Lemma mark_done_inv s fu tr id :
  inv0 s fu tr -> id ∈ dkeys fu -> inv0 (set_state s id SUCCESSFUL) (ddel fu id) (tr ++ [TFinish id]).
Proof.
  intros HI Hin. destruct (i_fut _ _ _ HI _ Hin) as [Hs Hnq].
  assert (Hx : forall id' x, x <> QUEUED -> x <> RUNNING -> x <> SUCCESSFUL -> <[id := SUCCESSFUL]> (es_states s) !! id' = Some x <-> es_states s !! id' = Some x).
  { intros id' x H1 H2 H3. destruct (decide (id' = id)) as [->|]; [|by rewrite lookup_insert_ne].
    rewrite lookup_insert. split; [congruence|]. destruct Hs; congruence. }
  assert (Hsucc : forall id', <[id := SUCCESSFUL]> (es_states s) !! id' = Some SUCCESSFUL <-> id' = id \/ es_states s !! id' = Some SUCCESSFUL).
  { intros id'. destruct (decide (id' = id)) as [->|]; [rewrite lookup_insert; tauto|]. rewrite lookup_insert_ne by done. tauto. }
  assert (Hdel : forall id', id' ∈ dkeys (ddel fu id) <-> id' <> id /\ id' ∈ dkeys fu).
  { intros id'. rewrite <-!dget_Some_key, dget_ddel by apply HI. destruct (decide (id' = id)) as [->|].
    - split; [by intros [? ?]|by intros [? _]].
    - tauto. }
  assert (Hfin : forall id', finished (tr ++ [TFinish id]) id' <-> id' = id \/ finished tr id').
  { intros id'. unfold finished. rewrite elem_of_app, elem_of_list_singleton. split; [intros [?|[= ->]]; auto|intros [->|?]; auto]. }
  constructor; cbn.
  - apply HI.
  - apply HI.
  - intros id' t Hd. apply form_app. by eapply i_form.
  - intros id' t Hd. destruct (decide (id' = id)) as [->|]; [rewrite lookup_insert; by eexists|].
    rewrite lookup_insert_ne by done. by eapply i_pool_state.
  - intros id' x. destruct (decide (id' = id)) as [->|]; [|rewrite lookup_insert_ne by done; by eapply i_state_pool].
    intros _ _. destruct Hs as [Hs|Hs]; by eapply (i_state_pool _ _ _ HI).
  - apply HI.
  - intros t Ht. destruct (i_queue _ _ _ HI _ Ht) as [Hq ?]. split; [|done]. rewrite lookup_insert_ne; [done|].
    intros ->. apply Hnq. apply elem_of_list_In, in_map, elem_of_list_In, Ht.
  - apply NoDup_dkeys_ddel, HI.
  - intros id' [Hne Hin']%Hdel. rewrite lookup_insert_ne by done. by apply HI.
  - intros id' p o Hd. rewrite dget_ddel in Hd by apply HI. destruct (decide (id' = id)); [done|].
    destruct (i_fut_run _ _ _ HI _ _ _ Hd) as (t & calls & t0 & Hr & Hrest). exists t, calls, t0.
    split; [|done]. apply elem_of_app. by left.
  - intros id' Hq. destruct (decide (id' = id)) as [->|]; [by rewrite lookup_insert in Hq|].
    rewrite lookup_insert_ne in Hq by done. destruct (i_queued _ _ _ HI _ Hq); [by left|right]. by apply Hdel.
  - intros id' Hq. destruct (decide (id' = id)) as [->|]; [by rewrite lookup_insert in Hq|].
    rewrite lookup_insert_ne in Hq by done. apply Hdel. split; [done|]. by eapply i_running.
  - rewrite run_ids_app. cbn. rewrite app_nil_r. apply HI.
  - intros id'. rewrite run_ids_app. cbn. rewrite app_nil_r, Hsucc, Hdel, (i_runs _ _ _ HI id').
    destruct (decide (id' = id)) as [->|]; [|tauto]. split; [tauto|]. intros _. by left.
  - intros id'. rewrite Hfin, Hsucc, (i_fin _ _ _ HI id'). done.
  - intros id' t Hd Hni b ids i H1 H2. apply Hsucc. right. eapply (i_launched _ _ _ HI); [done| |done|done].
    rewrite <-Hx by done. done.
  - intros id'. rewrite Hx by done. apply HI.
Qed.

(** Taking the head of the queue and running it. *)
Lemma run_inv s fu tr t0 q t p calls o :
  inv0 s fu tr -> es_queue s = t0 :: q -> core t = core t0 ->
  inv0 (EState (es_pool s) (es_states s) q (es_cache s)) (dset fu (task_id t) (p, o)) (tr ++ [TRun t calls o]).
Proof.
  intros HI Hq Hc. pose proof (core_id _ _ Hc) as Hid.
  assert (Ht0 : t0 ∈ es_queue s) by (rewrite Hq; by left).
  destruct (i_queue _ _ _ HI _ Ht0) as (Hst & tp & Hp & Hcp).
  pose proof (i_queue_nodup _ _ _ HI) as Hnd. rewrite Hq in Hnd. cbn in Hnd. apply NoDup_cons in Hnd as [Hnin Hnd].
  assert (Hnf : task_id t ∉ dkeys fu).
  { intros Hin. destruct (i_fut _ _ _ HI _ Hin) as [_ Hn]. apply Hn. rewrite Hq, Hid. cbn. by left. }
  assert (Hfin : forall id', finished (tr ++ [TRun t calls o]) id' <-> finished tr id').
  { intros id'. unfold finished. rewrite elem_of_app, elem_of_list_singleton. naive_solver. }
  constructor; cbn.
  - apply HI.
  - apply HI.
  - intros id' t' Hd. apply form_app. by eapply i_form.
  - apply HI.
  - apply HI.
  - done.
  - intros t' Ht'. apply (i_queue _ _ _ HI). rewrite Hq. by right.
  - apply NoDup_dkeys_dset, HI.
  - intros id' [->|Hin]%dkeys_dset_elem.
    + rewrite Hid. split; [by left|done].
    + destruct (i_fut _ _ _ HI _ Hin) as [? Hn]. split; [done|]. intros Hc'. apply Hn. rewrite Hq. cbn. by right.
  - intros id' p' o' Hd. rewrite dget_dset in Hd. destruct (decide (id' = task_id t)) as [->|].
    + injection Hd as <- <-. exists t, calls, tp. split_and!; [|done|by rewrite Hid|congruence].
      apply elem_of_app. right. by left.
    + destruct (i_fut_run _ _ _ HI _ _ _ Hd) as (t1 & calls' & t2 & Hr & Hrest). exists t1, calls', t2.
      split; [|done]. apply elem_of_app. by left.
  - intros id' Hs. destruct (i_queued _ _ _ HI _ Hs) as [Hin|Hin].
    + rewrite Hq in Hin. cbn in Hin. apply elem_of_cons in Hin as [->|Hin]; [|by left].
      right. apply dkeys_dset_elem. left. done.
    + right. apply dkeys_dset_elem. by right.
  - intros id' Hs. apply dkeys_dset_elem. right. by eapply i_running.
  - rewrite run_ids_app. cbn. apply NoDup_app. split_and!; [apply HI| |apply NoDup_singleton].
    intros id' Hin ->%elem_of_list_singleton. apply (i_runs _ _ _ HI) in Hin as [?|?]; [done|]. rewrite Hid in *. congruence.
  - intros id'. rewrite run_ids_app. cbn. rewrite elem_of_app, elem_of_list_singleton, dkeys_dset_elem, (i_runs _ _ _ HI id').
    tauto.
  - intros id'. rewrite Hfin. apply HI.
  - apply HI.
  - apply HI.
Qed.

(** Taking the head of the queue and putting it back. *)
Lemma reject_inv s fu tr t0 q t :
  inv0 s fu tr -> es_queue s = t0 :: q -> core t = core t0 ->
  inv0 (EState (es_pool s) (es_states s) (t :: q) (es_cache s)) fu (tr ++ [TReject t]).
Proof.
  intros HI Hq Hc. pose proof (core_id _ _ Hc) as Hid.
  assert (Hids : map task_id (t :: q) = map task_id (es_queue s)) by (rewrite Hq; cbn; by rewrite Hid).
  assert (Hfin : forall id', finished (tr ++ [TReject t]) id' <-> finished tr id').
  { intros id'. unfold finished. rewrite elem_of_app, elem_of_list_singleton. naive_solver. }
  constructor; cbn [es_pool es_states es_queue es_cache]; rewrite ?Hids.
  - apply HI.
  - apply HI.
  - intros id' t' Hd. apply form_app. by eapply i_form.
  - apply HI.
  - apply HI.
  - apply HI.
  - intros t' [->|Ht']%elem_of_cons; [|apply (i_queue _ _ _ HI); rewrite Hq; by right].
    destruct (i_queue _ _ _ HI t0) as (Hst & tp & Hp & Hcp); [rewrite Hq; by left|]. rewrite Hid. split; [done|].
    exists tp. split; [done|congruence].
  - apply HI.
  - intros id'. apply HI.
  - intros id' p' o' Hd. destruct (i_fut_run _ _ _ HI _ _ _ Hd) as (t1 & calls' & t2 & Hr & Hrest). exists t1, calls', t2.
    split; [|done]. apply elem_of_app. by left.
  - intros id'. apply HI.
  - apply HI.
  - rewrite run_ids_app. cbn. rewrite app_nil_r. apply HI.
  - intros id'. rewrite run_ids_app. cbn. rewrite app_nil_r. apply HI.
  - intros id'. rewrite Hfin. apply HI.
  - apply HI.
  - apply HI.
Qed.

Lemma cache_inv s fu tr c : inv0 s fu tr -> inv0 (EState (es_pool s) (es_states s) (es_queue s) c) fu tr.
Proof. intros HI. destruct HI. by constructor. Qed.

(** ** The result cache as a function of the trace *)
Definition written (c : gmap string V) (t : timpl) (results : gmap name V) : gmap string V :=
  match (if bool_decide (ts_purpose (ti_spec t) = EXPAND) then expander_node role_of (ti_spec t) else None) with
  | Some x =>
      match results !! x ≫= as_list with
      | Some l => cache_write (cache_write c {[x := mk_list l]} None None) (delete x results) (ti_group t) (ti_spawner t)
      | None => c
      end
  | None => cache_write c results (ti_group t) (ti_spawner t)
  end.
Definition replay1 (a : dict (timpl * gmap name V) * gmap string V) (e : tevent) :=
  match e with
  | TRun t _ (Ok r) => (dset a.1 (task_id t) (t, r), a.2)
  | TFinish id => match dget a.1 id with Some (t, r) => (a.1, written a.2 t r) | None => a end
  | _ => a
  end.
Definition replay (tr : list tevent) := foldl replay1 ([], cache0) tr.
Definition cache_at (tr : list tevent) : gmap string V := (replay tr).2.

Lemma replay_snoc tr e : replay (tr ++ [e]) = replay1 (replay tr) e.
Proof. unfold replay. by rewrite foldl_app. Qed.
Lemma replay_run tr t calls r : NoDup (run_ids tr) -> TRun t calls (Ok r) ∈ tr -> dget (replay tr).1 (task_id t) = Some (t, r).
Proof.
  induction tr as [|e tr IH] using rev_ind; intros Hnd Hin; [by apply elem_of_nil in Hin|].
  rewrite replay_snoc. rewrite run_ids_app in Hnd. apply NoDup_app in Hnd as (Hnd & Hdis & _).
  apply elem_of_app in Hin as [Hin|Hin%elem_of_list_singleton].
  - specialize (IH Hnd Hin). destruct e as [t' calls' [r'|e']|t'|id]; cbn; try done.
    + rewrite dget_dset_ne; [done|]. intros Heq. apply (Hdis (task_id t)); [|cbn; rewrite Heq; by left].
      apply elem_of_list_omap. by exists (TRun t calls (Ok r)).
    + by destruct (dget _ id) as [[? ?]|].
  - subst e. cbn. by rewrite dget_dset_eq.
Qed.

(** [t] is [t0] bound (possibly several times, when rejected) with what was in the cache. *)
Inductive bound : list tevent -> timpl -> timpl -> Prop :=
| bound_refl tr t0 : bound tr t0 t0
| bound_bind tr1 tr2 t0 t s fu t' : bound tr1 t0 t -> inv0 s fu tr1 -> es_cache s = cache_at tr1 ->
    ready (es_states s) t0 ->
    bind_task s t = Ok t' -> bound (tr1 ++ tr2) t0 t'.

Lemma bound_app tr tr' t0 t : bound tr t0 t -> bound (tr ++ tr') t0 t.
Proof. intros [?|]; [constructor|]. rewrite <-app_assoc. by eapply bound_bind. Qed.
Lemma bind_core s t t' : bind_task s t = Ok t' -> core t' = core t.
Proof.
  unfold StateModel.bind_task. destruct (get_input_vars g (ti_spec t)) as [req opt].
  intros H. repeat (match goal with H : context [match ?x with _ => _ end] |- _ => destruct x end; try discriminate).
  all: by injection H as <-.
Qed.
Lemma bound_core tr t0 t : bound tr t0 t -> core t = core t0.
Proof. induction 1 as [|??????? ? IH ? ? ? Hb]; [done|]. apply bind_core in Hb. congruence. Qed.

Record hist (s : estate) (tr : list tevent) : Prop := {
  h_cache : es_cache s = cache_at tr;
  h_queue : forall t, t ∈ es_queue s -> exists t0, dget (es_pool s) (task_id t) = Some t0 /\ bound tr t0 t;
  h_runs : forall tr1 t calls o tr2, tr = tr1 ++ TRun t calls o :: tr2 ->
     base_execute_task t = (calls, o) /\
     exists t0 tb s fu, form tr1 t0 /\ bound tr1 t0 tb /\ inv0 s fu tr1 /\ es_cache s = cache_at tr1 /\
       ready (es_states s) t0 /\ bind_task s tb = Ok t;
}.

(** ** Completing a task *)
Lemma cache_write_plain (c : gmap string V) (r : gmap name V) : cache_write c r None None = r ∪ c.
Proof.
  unfold cache_write. f_equal. transitivity (list_to_map (map_to_list r) : gmap string V); [|apply list_to_map_to_list].
  f_equal. unfold format_key. cbn. induction (map_to_list r) as [|[k v] l IH]; cbn; [done|]. by f_equal.
Qed.

Lemma write_ok s t results s' : write_results s t results = Ok s' ->
  s' = EState (es_pool s) (es_states s) (es_queue s) (written (es_cache s) t results) /\
  (ts_purpose (ti_spec t) = EXPAND -> exists x v l, expander_node role_of (ti_spec t) = Some x /\ results !! x = Some v /\
     as_list v = Some l).
Proof.
  unfold StateModel.write_results, written. destruct (bool_decide (ts_purpose (ti_spec t) = EXPAND)) eqn:Hb.
  - destruct (expander_node role_of (ti_spec t)) as [x|]; [|done]. destruct (results !! x) as [v|] eqn:Hv; [|done]. cbn.
    destruct (as_list v) as [l|] eqn:Hl; [|done]. intros [= <-]. split; [done|]. intros _. by exists x, v, l.
  - intros [= <-]. split; [done|]. apply bool_decide_eq_false in Hb. done.
Qed.

Lemma expand_static tr t : form tr t -> ts_purpose (ti_spec t) = EXPAND -> t = static_task (ti_spec t) /\ ts_spawn (ti_spec t) = None.
Proof.
  intros [sp|T X l i v sp ? ? Hin|T X l sp ? Hin]; cbn; [done| |].
  - apply (elem_to_repeat tasks Hplan) in Hin as (_ & _ & ? & _). done.
  - apply (elem_to_collect tasks Hplan) in Hin as (_ & _ & ?). intros. congruence.
Qed.

Definition succ_ready (s0 s : estate) (t : timpl) (results : gmap name V) : Prop :=
  if bool_decide (ts_purpose (ti_spec t) = EXPAND)
  then exists x v l, expander_node role_of (ti_spec t) = Some x /\ results !! x = Some v /\ as_list v = Some l /\
         forall t', t' ∈ group_tasks (task_id t) x l -> dget (es_pool s) (task_id t') = Some t'
  else (forall sp, sp ∈ tasks -> ts_base (ti_spec t) ∈ ts_deps sp -> ts_spawn sp = None -> is_Some (dget (es_pool s) (ts_base sp))) /\
       (forall id, is_Some (dget (es_pool s) id) -> is_Some (dget (es_pool s0) id) \/ id ∈ map ts_base tasks).

Lemma elem_reverse_deps b sp : sp ∈ reverse_deps tasks b <-> sp ∈ tasks /\ b ∈ ts_deps sp.
Proof.
  unfold reverse_deps. rewrite elem_of_list_In, in_concat. split.
  - intros (l & Hl & Hin). apply in_map_iff in Hl as (t & <- & Ht). apply in_map_iff in Hin as (d & <- & Hd).
    apply elem_of_list_In, elem_of_list_filter in Hd as [-> Hd]. apply elem_of_list_In in Ht. done.
  - intros [Ht Hb]. eexists. split; [apply in_map_iff; exists sp; split; [done|by apply elem_of_list_In]|].
    apply in_map_iff. exists b. split; [done|]. apply elem_of_list_In, elem_of_list_filter. done.
Qed.

Lemma finish_inv s fu tr id p results :
  inv0 s fu tr -> hist s tr -> dget fu id = Some (p, Ok results) ->
  (exists t0, dget (es_pool s) id = Some t0 /\ 
     match update_task_state s id SUCCESSFUL results with
     | Ok s' => inv0 s' (ddel fu id) (tr ++ [TFinish id]) /\ settled s' /\ hist s' (tr ++ [TFinish id]) /\
                pool_le s s' /\ succ_ready s s' t0 results
     | Err e => e <> XAssert /\ ts_purpose (ti_spec t0) = EXPAND /\
                (forall x v l, expander_node role_of (ti_spec t0) = Some x -> results !! x = Some v -> as_list v = Some l -> False)
     end).
Proof.
  intros HI HH Hfu.
  assert (Hin : id ∈ dkeys fu) by (apply dget_Some_key; by eexists).
  destruct (i_fut_run _ _ _ HI _ _ _ Hfu) as (tx & calls & t & Hrun & Hidx & Hpool & Hcore).
  exists t. split; [done|].
  pose proof (i_form _ _ _ HI _ _ Hpool) as Hform. pose proof (i_ids _ _ _ HI _ _ Hpool) as Hid.
  pose proof (mark_done_inv s fu tr id HI Hin) as HI1.
  assert (Hnfin : ~ finished tr id).
  { intros Hf. apply (i_fin _ _ _ HI) in Hf. destruct (i_fut _ _ _ HI _ Hin) as [[?|?] _]; congruence. }
  unfold StateModel.update_task_state. cbn [is_terminal].
  assert (Hq : forallb (fun t => bool_decide (es_states (set_state s id SUCCESSFUL) !! task_id t = Some QUEUED)) (es_queue (set_state s id SUCCESSFUL)) = true).
  { apply forallb_forall. intros t' Ht'%elem_of_list_In. apply bool_decide_eq_true. apply (i_queue _ _ _ HI1). done. }
  rewrite Hq. cbn [set_state es_pool]. rewrite Hpool, bool_decide_true by done.
  assert (Hcache1 : forall s1, write_results (set_state s id SUCCESSFUL) t results = Ok s1 -> es_cache s1 = cache_at (tr ++ [TFinish id])).
  { intros s1 Hw. apply write_ok in Hw as [-> _]. cbn. unfold cache_at. rewrite replay_snoc. cbn.
    rewrite <-Hidx. rewrite (replay_run tr tx calls results) by (done || apply HI). cbn.
    assert (Hwr : forall c, written c tx results = written c t results).
    { intros c. unfold written. unfold core in Hcore. injection Hcore as -> -> ->. done. }
    rewrite Hwr. f_equal. apply HH. }
  assert (Hrun_hist : forall tr1 t calls o tr2, tr ++ [TFinish id] = tr1 ++ TRun t calls o :: tr2 ->
     base_execute_task t = (calls, o) /\
     exists t0 tb s fu, form tr1 t0 /\ bound tr1 t0 tb /\ inv0 s fu tr1 /\ es_cache s = cache_at tr1 /\
       ready (es_states s) t0 /\ bind_task s tb = Ok t).
  { intros tr1 t' calls' o tr2 Heq. destruct tr2 as [|e tr2 _] using rev_ind.
    - apply app_inj_tail in Heq as [_ Heq]. done.
    - rewrite app_comm_cons, app_assoc in Heq. apply app_inj_tail in Heq as [-> _]. by eapply h_runs. }
  destruct (write_results (set_state s id SUCCESSFUL) t results) as [s1|e] eqn:Hw.
  - specialize (Hcache1 s1 eq_refl). apply write_ok in Hw as [Hs1 Hexp].
    assert (HI2 : inv0 s1 (ddel fu id) (tr ++ [TFinish id])) by (rewrite Hs1; by apply cache_inv).
    assert (Hle1 : pool_le s s1) by (rewrite Hs1; by intros ??).
    assert (Hq1 : es_queue s1 = es_queue s) by (by rewrite Hs1).
    assert (Hhist : forall s3 s4, pool_le s1 s3 -> es_queue s3 = es_queue s1 -> es_cache s3 = es_cache s1 ->
       es_cache s4 = es_cache s3 -> es_pool s4 = es_pool s3 ->
       (forall t, t ∈ es_queue s4 -> t ∈ es_queue s3 \/ dget (es_pool s3) (task_id t) = Some t) ->
       hist s4 (tr ++ [TFinish id])).
    { intros s3 s4 H1 H2 H3 H4 H5 H6. constructor; [congruence| |done].
      intros t' Ht'. rewrite H5. apply H6 in Ht' as [Ht'|Ht'].
      - rewrite H2, Hq1 in Ht'. destruct (h_queue _ _ HH _ Ht') as (t0 & H0 & Hb). exists t0.
        split; [by apply H1, Hle1|by apply bound_app].
      - exists t'. split; [done|constructor]. }
    unfold succ_ready. destruct (bool_decide (ts_purpose (ti_spec t) = EXPAND)) eqn:Hbe.
    + apply bool_decide_eq_true in Hbe. destruct (Hexp Hbe) as (x & v & l & Hx & Hv & Hl). rewrite Hx.
      destruct (expand_static _ _ Hform Hbe) as [Hstat Hspn].
      assert (Hxc : es_cache s1 !! format_key None None x = Some (mk_list l)).
      { rewrite Hs1. cbn. unfold written. rewrite bool_decide_true, Hx, Hv by done. cbn. rewrite Hl. rewrite Hstat. cbn.
        rewrite !cache_write_plain. unfold format_key. cbn. rewrite lookup_union_r by apply lookup_delete.
        rewrite lookup_union, lookup_singleton. by destruct (es_cache s !! x). }
      rewrite Hxc, Hlist, Hid, realize_group_eq.
      assert (Hexpd : expanded (tr ++ [TFinish id]) id x l).
      { split; [unfold finished; apply elem_of_app; right; by left|].
        exists tx, calls, results, v.
        assert (Hspec : ti_spec tx = ti_spec t) by (unfold core in Hcore; congruence). rewrite Hspec.
        split_and!; try done; [apply elem_of_app; by left|by eapply form_spec|]. rewrite <-Hid, Hstat. done. }
      destruct (realize_all_inv (group_tasks id x l) s1 (ddel fu id) (tr ++ [TFinish id]) HI2) as (HI3 & Hc3 & Hp3).
      { apply group_tasks_nodup. }
      { intros t' Ht'. split; [|by eapply group_tasks_form]. rewrite Hs1. cbn. by eapply group_tasks_fresh. }
      destruct (enqueue_ready_inv _ _ _ HI3) as (HI4 & Hset & Hc4 & Hp4 & Hq4).
      assert (Hle3 : pool_le s1 (foldl realize_task s1 (group_tasks id x l))).
      { intros id' t' Hd'. rewrite Hp3, Hd'. done. }
      split_and!; [done|done| | |].
      * eapply Hhist; [exact Hle3|apply realize_all_queue|done|done|done|done].
      * intros id' t' Hd'. rewrite Hp4. by apply Hle3, Hle1.
      * exists x, v, l. split_and!; [done|done|done|]. intros t' Ht'. rewrite Hp4, Hp3.
        assert (Hfr : dget (es_pool s1) (task_id t') = None) by (rewrite Hs1; by eapply (group_tasks_fresh s fu tr)).
        rewrite Hfr. pose proof (group_tasks_nodup id x l) as Hnd.
        apply elem_of_list_lookup in Ht' as [i Hi].
        assert (Hf : list_find (fun t => task_id t = task_id t') (group_tasks id x l) = Some (i, t')).
        { apply list_find_Some. split_and!; [done|done|]. intros j y Hj Hlt Heq.
          assert (i = j); [|lia]. eapply (NoDup_lookup (map task_id (group_tasks id x l))); [done| |].
          - rewrite list_lookup_fmap, Hi. done.
          - rewrite list_lookup_fmap, Hj. cbn. by rewrite Heq. }
        by rewrite Hf.
    + destruct (spawn_all_inv (reverse_deps tasks (ts_base (ti_spec t))) s1 (ddel fu id) (tr ++ [TFinish id]) HI2) as (HI3 & Hc3 & Hle3 & Hin3 & Hnew3).
      { intros t' Ht'. by apply elem_reverse_deps in Ht' as [? _]. }
      destruct (enqueue_ready_inv _ _ _ HI3) as (HI4 & Hset & Hc4 & Hp4 & Hq4).
      split_and!; [done|done| | | |].
      * eapply Hhist; [exact Hle3|apply spawn_all_queue|done|done|done|done].
      * intros id' t' Hd'. rewrite Hp4. by apply Hle3, Hle1.
      * intros sp Hsp Hd Hn. rewrite Hp4. apply Hin3; [|done]. by apply elem_reverse_deps.
      * intros id'. rewrite Hp4. intros Hid'. apply Hnew3 in Hid'. by rewrite Hs1 in Hid'.
  - revert Hw. unfold StateModel.write_results. destruct (bool_decide (ts_purpose (ti_spec t) = EXPAND)) eqn:Hbe; [|done].
    apply bool_decide_eq_true in Hbe.
    destruct (expander_node role_of (ti_spec t)) as [x|] eqn:Hx; [|by intros [= <-]].
    destruct (results !! x) as [v|] eqn:Hv; [|intros [= <-]; split_and!; [done|done|]; intros; congruence].
    destruct (as_list v) as [l|] eqn:Hl; [done|]. intros [= <-]. split_and!; [done|done|]. intros; congruence.
Qed.

Definition runs_ok (tr : list tevent) : Prop :=
  forall tr1 t calls o tr2, tr = tr1 ++ TRun t calls o :: tr2 ->
     base_execute_task t = (calls, o) /\
     exists t0 tb s fu, form tr1 t0 /\ bound tr1 t0 tb /\ inv0 s fu tr1 /\ es_cache s = cache_at tr1 /\
       ready (es_states s) t0 /\ bind_task s tb = Ok t.
Lemma runs_ok_other tr e : runs_ok tr -> (forall t calls o, e <> TRun t calls o) -> runs_ok (tr ++ [e]).
Proof.
  intros H He tr1 t' calls' o tr2 Heq. destruct tr2 as [|e' tr2 _] using rev_ind.
  - apply app_inj_tail in Heq as [_ Heq]. by apply He in Heq.
  - rewrite app_comm_cons, app_assoc in Heq. apply app_inj_tail in Heq as [-> _]. by eapply H.
Qed.

(** ** Everything that can be realized has been realized *)
Record prog (s : estate) (tr : list tevent) : Prop := {
  p_init : forall sp, sp ∈ tasks -> ts_deps sp = [] -> is_Some (dget (es_pool s) (ts_base sp));
  p_succ : forall sp id t, sp ∈ tasks -> ts_spawn sp = None -> finished tr id -> dget (es_pool s) id = Some t ->
     ts_purpose (ti_spec t) <> EXPAND -> ts_base (ti_spec t) ∈ ts_deps sp -> is_Some (dget (es_pool s) (ts_base sp));
  p_exp : forall id t, finished tr id -> dget (es_pool s) id = Some t -> ts_purpose (ti_spec t) = EXPAND ->
     exists X l, expanded tr id X l;
  p_group : forall T X l t, expanded tr T X l -> t ∈ group_tasks T X l -> dget (es_pool s) (task_id t) = Some t;
}.

Lemma run_unique tr t calls o t' calls' o' :
  NoDup (run_ids tr) -> TRun t calls o ∈ tr -> TRun t' calls' o' ∈ tr -> task_id t = task_id t' ->
  t = t' /\ calls = calls' /\ o = o'.
Proof.
  induction tr as [|e tr IH]; intros Hnd H1 H2 Heq; [by apply elem_of_nil in H1|].
  assert (Hin : forall t calls o, TRun t calls o ∈ tr -> task_id t ∈ run_ids tr).
  { intros u c w Hu. apply elem_of_list_omap. by exists (TRun u c w). }
  apply elem_of_cons in H1 as [<-|H1], H2 as [Heq2|H2].
  - by injection Heq2 as <- <- <-.
  - cbn in Hnd. apply NoDup_cons in Hnd as [Hn _]. exfalso. apply Hn. rewrite Heq. by eapply Hin.
  - subst e. cbn in Hnd. apply NoDup_cons in Hnd as [Hn _]. exfalso. apply Hn. rewrite <-Heq. by eapply Hin.
  - apply IH; try done. destruct e; cbn in Hnd; try done. by apply NoDup_cons in Hnd as [_ ?].
Qed.

Lemma run_ids_elem tr t calls o : TRun t calls o ∈ tr -> task_id t ∈ run_ids tr.
Proof. intros Hu. apply elem_of_list_omap. by exists (TRun t calls o). Qed.

Record rinv (r : rstate) : Prop := {
  ri_inv : inv0 (r_es r) (r_futures r) (r_trace r);
  ri_settled : settled (r_es r);
  ri_hist : hist (r_es r) (r_trace r);
  ri_prog : prog (r_es r) (r_trace r);
}.
(** What holds of a trace, however the run ended. *)
Definition trace_ok (tr : list tevent) : Prop := runs_ok tr /\ exists s fu, inv0 s fu tr.

Lemma rinv_trace r : rinv r -> trace_ok (r_trace r).
Proof. intros HR. split; [intros ??????; by eapply (h_runs _ _ (ri_hist _ HR))|]. eexists _, _. apply HR. Qed.

Lemma submit_inv k r : rinv r ->
  match submit_next k r with
  | SNext r' => rinv r' /\ es_cache (r_es r') = es_cache (r_es r)
  | SRaise e tr => trace_ok tr /\ e <> XAssert
  end.
Proof.
  intros HR. pose proof (ri_inv _ HR) as HI. pose proof (ri_hist _ HR) as HH. pose proof (ri_prog _ HR) as HP.
  unfold StateModel.submit_next.
  destruct (es_queue (r_es r)) as [|t0 q] eqn:Hq; [done|].
  destruct (bind_task (r_es r) t0) as [t|e] eqn:Hb.
  2: { split; [by apply rinv_trace|]. intros ->. revert Hb. unfold StateModel.bind_task.
       destruct (get_input_vars g (ti_spec t0)) as [req opt].
       assert (Hcv : forall arg ids, collect_values (E:=E) (r_es r) arg ids <> Err XAssert).
       { intros arg. induction ids as [|id ids IH]; cbn; [done|]. destruct (dget _ _); [|done].
         destruct (_ !! _); [|done]. destruct (collect_values _ _ ids); [done|]. congruence. }
       assert (Hcd : forall arg rd acc, collect_deps (E:=E) (r_es r) arg acc rd <> Err XAssert).
       { intros arg. induction rd as [|[b ids] rd IH]; intros acc; cbn [collect_deps]; [done|]. destruct ids as [|id ids].
         - specialize (IH acc). destruct (collect_deps _ _ _ rd) as [[? ?]|]; [done|]. congruence.
         - destruct (dget _ _); [|done]. destruct (bool_decide _).
           + destruct (collect_values _ _ _) as [vs|] eqn:Hv; [apply IH|]. intros [= ->]. by apply Hcv in Hv.
           + specialize (IH acc). destruct (collect_deps _ _ _ rd) as [[? ?]|]; [done|]. congruence. }
       destruct (bool_decide (ts_purpose (ti_spec t0) = GATHER)).
       - destruct (collector_node role_of (ti_spec t0)) as [c|]; [|done].
         destruct (collect_deps _ _ _ _) as [[? ?]|e] eqn:Hc; [by destruct (cache_read _ _)|].
         intros [= ->]. by apply Hcd in Hc.
       - by destruct (cache_read _ _). }
  pose proof (bind_core _ _ _ Hb) as Hc.
  assert (Ht0 : t0 ∈ es_queue (r_es r)) by (rewrite Hq; by left).
  destruct (h_queue _ _ HH _ Ht0) as (tp & Hp & Hbd).
  assert (Hrdy : ready (es_states (r_es r)) tp).
  { eapply (i_launched _ _ _ HI); [done|]. destruct (i_queue _ _ _ HI _ Ht0) as [-> _]. done. }
  assert (Hrun : forall p calls o, base_execute_task t = (calls, o) ->
    let r' s' act := RState s' (dset (r_futures r) (task_id t) (p, o)) act (r_trace r ++ [TRun t calls o]) in
    forall act, rinv (r' (EState (es_pool (r_es r)) (es_states (r_es r)) q (es_cache (r_es r))) act)).
  { intros p calls o Hexec r' act. pose proof (run_inv _ _ _ t0 q t p calls o HI Hq Hc) as HI'. constructor; cbn.
    - done.
    - apply HR.
    - constructor; cbn.
      + unfold cache_at. rewrite replay_snoc. destruct o; cbn; apply HH.
      + intros t' Ht'. destruct (h_queue _ _ HH t') as (t1 & H1 & Hb1); [rewrite Hq; by right|].
        exists t1. split; [done|by apply bound_app].
      + intros tr1 t' calls' o' tr2 Heq. destruct tr2 as [|e' tr2 _] using rev_ind.
        * apply app_inj_tail in Heq as [<- [= <- <- <-]]. split; [done|].
          exists tp, t0, (r_es r), (r_futures r). split_and!; [by eapply i_form|done|done|apply HH|done|done].
        * rewrite app_comm_cons, app_assoc in Heq. apply app_inj_tail in Heq as [Heq _]. by eapply h_runs.
    - assert (Hfin : forall id', finished (r_trace r ++ [TRun t calls o]) id' -> finished (r_trace r) id').
      { intros id'. unfold finished. rewrite elem_of_app, elem_of_list_singleton. naive_solver. }
      constructor; cbn.
      + apply HP.
      + intros. eapply (p_succ _ _ HP); eauto.
      + intros id' t' Hf Hp' He. apply Hfin in Hf. destruct (p_exp _ _ HP _ _ Hf Hp' He) as (X & l & Hx).
        exists X, l. by apply expanded_app.
      + intros T X l t' (Hf & u & c & res & v & Hu & Hid & Hrest). apply Hfin in Hf.
        apply (p_group _ _ HP T X l). split; [done|]. exists u, c, res, v. split_and!; try apply Hrest; try done.
        apply elem_of_app in Hu as [Hu|Hu%elem_of_list_singleton]; [done|]. exfalso. injection Hu as <- <- <-.
        pose proof (i_runs_nodup _ _ _ HI') as Hnd. rewrite run_ids_app in Hnd. apply NoDup_app in Hnd as (_ & Hd & _).
        apply (Hd T); [|cbn; rewrite Hid; by left]. apply (i_runs _ _ _ HI). right. by apply (i_fin _ _ _ HI). }
  destruct (limit (which t)) as [n|] eqn:Hlim.
  - destruct (count_active _ _ <? n).
    + destruct (base_execute_task t) as [calls o] eqn:Hexec. split; [|done]. by apply Hrun.
    + split; [|done]. pose proof (reject_inv _ _ _ t0 q t HI Hq Hc) as HI'.
      assert (Hfin : forall id', finished (r_trace r ++ [TReject t]) id' -> finished (r_trace r) id').
      { intros id'. unfold finished. rewrite elem_of_app, elem_of_list_singleton. naive_solver. }
      constructor; cbn.
      * done.
      * apply HR.
      * constructor; cbn.
        -- unfold cache_at. rewrite replay_snoc. cbn. apply HH.
        -- intros t' [->|Ht']%elem_of_cons.
           ++ exists tp. rewrite (core_id _ _ Hc). split; [done|]. eapply (bound_bind _ [TReject t]); [done|done|apply HH|done|done].
           ++ destruct (h_queue _ _ HH t') as (t1 & H1 & Hb1); [rewrite Hq; by right|].
              exists t1. split; [done|by apply bound_app].
        -- apply runs_ok_other; [|done]. intros ??????. by eapply h_runs.
      * constructor; cbn.
        -- apply HP.
        -- intros. eapply (p_succ _ _ HP); eauto.
        -- intros id' t' Hf Hp' He. apply Hfin in Hf. destruct (p_exp _ _ HP _ _ Hf Hp' He) as (X & l & Hx).
           exists X, l. by apply expanded_app.
        -- intros T X l t' (Hf & u & c & res & v & Hu & Hrest). apply Hfin in Hf.
           apply (p_group _ _ HP T X l). split; [done|]. exists u, c, res, v. split; [|done].
           apply elem_of_app in Hu as [Hu|Hu%elem_of_list_singleton]; done.
  - destruct (base_execute_task t) as [calls o] eqn:Hexec.
    specialize (Hrun None calls o eq_refl (r_active r)). cbn in Hrun.
    destruct o as [results|e]; [split; [by apply Hrun|done]|].
    split; [apply (rinv_trace _ Hrun)|].
    intros ->. unfold StateModel.base_execute_task in Hexec. destruct (execute_subdag _ _ _ _ _); congruence.
Qed.

Lemma poll_inv k fl : forall r, rinv r -> NoDup (dkeys fl) -> (forall id a, (id, a) ∈ fl -> dget (r_futures r) id = Some a) ->
  match poll k r fl with
  | SNext r' => rinv r'
  | SRaise e tr => trace_ok tr /\ e <> XAssert
  end.
Proof.
  induction fl as [|[id [p o]] fl IH]; intros r HR Hnd Hfl; cbn [StateModel.poll]; [done|].
  cbn in Hnd. apply NoDup_cons in Hnd as [Hn Hnd].
  pose proof (ri_inv _ HR) as HI. pose proof (ri_hist _ HR) as HH. pose proof (ri_prog _ HR) as HP.
  assert (Hid : dget (r_futures r) id = Some (p, o)) by (apply Hfl; by left).
  assert (Hkey : id ∈ dkeys (r_futures r)) by (apply dget_Some_key; by eexists).
  destruct (match p with None => true | Some _ => fin k id end).
  - destruct o as [results|e].
    + destruct (finish_inv _ _ _ _ _ _ HI HH Hid) as (t0 & Hp0 & Hfinish).
      destruct (update_task_state (r_es r) id SUCCESSFUL results) as [s'|e] eqn:Hupd.
      * destruct Hfinish as (HI' & Hset & HH' & Hle & Hsucc). apply IH.
        -- constructor; cbn; [done|done|done|].
           assert (Hfin : forall id', finished (r_trace r ++ [TFinish id]) id' -> id' = id \/ finished (r_trace r) id').
           { intros id'. unfold finished. rewrite elem_of_app, elem_of_list_singleton. naive_solver. }
           assert (Hmono : forall id', is_Some (dget (es_pool (r_es r)) id') -> is_Some (dget (es_pool s') id')).
           { intros id' [t' Ht']. exists t'. by apply Hle. }
           constructor.
           ++ intros sp Hsp Hd. by apply Hmono, (p_init _ _ HP).
           ++ intros sp id' t' Hsp Hspn Hf Hp' Hne Hin. apply Hfin in Hf as [->|Hf].
              ** apply Hle in Hp0. assert (t' = t0) as -> by congruence.
                 unfold succ_ready in Hsucc. rewrite bool_decide_false in Hsucc by done. by apply (proj1 Hsucc).
              ** assert (Hold : exists told, dget (es_pool (r_es r)) id' = Some told).
                 { apply (i_fin _ _ _ HI) in Hf. by eapply (i_state_pool _ _ _ HI). }
                 destruct Hold as [told Hold]. pose proof (Hle _ _ Hold) as Hold'. assert (told = t') as -> by congruence.
                 apply Hmono. by eapply (p_succ _ _ HP).
           ++ intros id' t' Hf Hp' He. apply Hfin in Hf as [->|Hf].
              ** apply Hle in Hp0 as Hp0'. assert (t' = t0) as -> by congruence.
                 unfold succ_ready in Hsucc. rewrite bool_decide_true in Hsucc by done.
                 destruct Hsucc as (x & v & l & Hx & Hv & Hl & _).
                 destruct (i_fut_run _ _ _ HI _ _ _ Hid) as (tx & cx & t1 & Hrx & Hix & Hpx & Hcx).
                 assert (t1 = t0) as -> by congruence.
                 assert (Hspeq : ti_spec tx = ti_spec t0) by (unfold core in Hcx; congruence).
                 destruct (expand_static _ _ (i_form _ _ _ HI _ _ Hp0) He) as [Hst _].
                 exists x, l. split; [unfold finished; apply elem_of_app; right; by left|].
                 exists tx, cx, results, v. rewrite Hspeq. split_and!; try done.
                 --- apply elem_of_app. by left.
                 --- by eapply form_spec, (i_form _ _ _ HI).
                 --- rewrite <-(i_ids _ _ _ HI _ _ Hp0). by rewrite Hst.
              ** assert (Hold : exists told, dget (es_pool (r_es r)) id' = Some told).
                 { apply (i_fin _ _ _ HI) in Hf. by eapply (i_state_pool _ _ _ HI). }
                 destruct Hold as [told Hold]. pose proof (Hle _ _ Hold) as Hold'. assert (told = t') as -> by congruence.
                 destruct (p_exp _ _ HP _ _ Hf Hold He) as (X & l & Hx). exists X, l. by apply expanded_app.
           ++ intros T X l t' (Hf & u & c & res & v & Hu & Hidu & Hspec & HT & Hpu & Hex & Hres & Hal) Hin.
              apply elem_of_app in Hu as [Hu|Hu%elem_of_list_singleton]; [|done].
              apply Hfin in Hf as [->|Hf].
              ** destruct (i_fut_run _ _ _ HI _ _ _ Hid) as (tx & cx & t1 & Hrx & Hix & Hpx & Hcx).
                 assert (t1 = t0) as -> by congruence.
                 destruct (run_unique (r_trace r) u c (Ok res) tx cx (Ok results)) as (-> & -> & [= ->]);
                   [apply HI|done|done|congruence|].
                 assert (Hspeq : ti_spec tx = ti_spec t0) by (unfold core in Hcx; congruence). rewrite Hspeq in *.
                 unfold succ_ready in Hsucc. rewrite bool_decide_true in Hsucc by done.
                 destruct Hsucc as (x & v' & l' & Hx & Hv' & Hl' & Hall).
                 assert (x = X) as -> by congruence. assert (v' = v) as -> by congruence. assert (l' = l) as -> by congruence.
                 apply Hall. by rewrite (i_ids _ _ _ HI _ _ Hp0).
              ** apply Hle, (p_group _ _ HP T X l); [|done]. split; [done|]. by exists u, c, res, v.
        -- done.
        -- intros id' a Hin. cbn. rewrite dget_ddel by apply HI. rewrite decide_False; [apply Hfl; by right|].
           intros ->. apply Hn. apply elem_of_list_fmap. by exists (id, a).
      * split; [|apply Hfinish]. split.
        -- apply runs_ok_other; [|done]. intros ??????. by eapply h_runs.
        -- eexists _, _. by apply (mark_done_inv _ _ _ _ HI).
    + split; [by apply rinv_trace|]. intros ->.
      destruct (i_fut_run _ _ _ HI _ _ _ Hid) as (tx & cx & t1 & Hrx & _).
      apply elem_of_list_split in Hrx as (tr1 & tr2 & Heq).
      destruct (h_runs _ _ HH _ _ _ _ _ Heq) as [Hexec _].
      unfold StateModel.base_execute_task in Hexec. destruct (execute_subdag _ _ _ _ _); congruence.
  - cbn. destruct (mark_running_inv _ _ _ _ HI Hkey) as [HI' Hset]. apply IH.
    + constructor; cbn; [done|by apply Hset, HR| |].
      * constructor; [apply HH|apply HH|]. intros ??????. by eapply (h_runs _ _ HH).
      * constructor; [apply HP|apply HP|apply HP|apply HP].
    + done.
    + intros id' a Hin. cbn. apply Hfl. by right.
Qed.

Lemma iteration_inv k r : rinv r ->
  match iteration k r with
  | SNext r' => rinv r'
  | SRaise e tr => trace_ok tr /\ e <> XAssert
  end.
Proof.
  intros HR. unfold StateModel.iteration. pose proof (submit_inv (2 * k) r HR) as Hs.
  destruct (submit_next (2 * k) r) as [r1|e tr]; [|done]. destruct Hs as [HR1 _].
  apply poll_inv; [done|apply HR1|]. intros id a Hin. apply elem_dget; [apply HR1|done].
Qed.

Lemma loop_inv n : forall k r, rinv r ->
  match run_loop n k r with
  | LDone r' => rinv r' /\ is_terminal (graph_state (r_es r')) = true
  | LRunning r' => rinv r'
  | LRaise e tr => trace_ok tr /\ e <> XAssert
  end.
Proof.
  induction n as [|n IH]; intros k r HR; cbn [StateModel.run_loop];
    (destruct (is_terminal (graph_state (r_es r))) eqn:Ht; [done|]); [done|].
  pose proof (iteration_inv k r HR) as Hi. destruct (iteration k r) as [r'|e tr]; [|done]. by apply IH.
Qed.

(** ** The initial state *)
Lemma empty_inv : inv0 (EState [] ∅ [] cache0) [] [].
Proof.
  constructor; cbn; intros.
  all: repeat match goal with
    | H : _ ∈ [] |- _ => by apply elem_of_nil in H
    | H : dget [] _ = Some _ |- _ => discriminate H
    | H : ∅ !! _ = Some _ |- _ => by rewrite lookup_empty in H
    end.
  all: try constructor; intros.
  all: repeat match goal with
    | H : _ \/ _ |- _ => destruct H
    | H : _ ∈ [] |- _ => by apply elem_of_nil in H
    | H : ∅ !! _ = Some _ |- _ => by rewrite lookup_empty in H
    | H : finished [] _ |- _ => by apply elem_of_nil in H
    end.
  all: discriminate.
Qed.

Lemma init_fold l : forall s : estate, foldl init_task s l = foldl realize_task s (map static_task (filter (fun t => ts_deps t = []) l)).
Proof.
  induction l as [|t l IH]; intros s; cbn [foldl filter]; [done|]. rewrite IH. unfold init_task. cbn.
  destruct (decide (ts_deps t = [])) as [H|H].
  - rewrite bool_decide_true by done. done.
  - rewrite bool_decide_false by done. done.
Qed.

Lemma realize_all_pool ts : forall s : estate, NoDup (map task_id ts) -> (forall t, t ∈ ts -> dget (es_pool s) (task_id t) = None) ->
  es_pool (foldl realize_task s ts) = es_pool s ++ map (fun t => (task_id t, t)) ts.
Proof.
  induction ts as [|t ts IH]; intros s Hnd Hf; cbn [foldl map]; [by rewrite app_nil_r|].
  cbn in Hnd. apply NoDup_cons in Hnd as [Hn Hnd].
  assert (Hd : forall d : dict timpl, dget d (task_id t) = None -> dset d (task_id t) t = d ++ [(task_id t, t)]).
  { induction d as [|[k a] d IHd]; cbn; [done|]. destruct (decide (task_id t = k)); [done|]. intros H. f_equal. by apply IHd. }
  rewrite IH; [|done|].
  - cbn. rewrite Hd by (apply Hf; by left). by rewrite <-app_assoc.
  - intros t' Ht'. cbn. rewrite dget_dset_ne; [apply Hf; by right|]. intros Heq. apply Hn. rewrite <-Heq.
    apply elem_of_list_In, in_map, elem_of_list_In, Ht'.
Qed.

Lemma scan_all (pool : dict timpl) : forall m,
  (forall id t, (id, t) ∈ pool -> m !! task_id t = Some INITIALIZED /\ ti_rdeps t = []) -> scan m pool = (m, pool.*2).
Proof.
  induction pool as [|[id t] pool IH]; intros m Hm; cbn [scan]; [done|].
  destruct (Hm id t) as [Hs Hr]; [by left|].
  assert (Htouch : touch m (task_id t) = m) by (unfold touch; by rewrite Hs). rewrite Htouch, Hr, bool_decide_true by done.
  cbn. rewrite IH; [done|]. intros id' t' Hin. eapply Hm. by right.
Qed.

Lemma init_enqueue : init_state tasks cache0 = enqueue_ready (foldl init_task (EState [] ∅ [] cache0) tasks) /\
  inv0 (foldl init_task (EState [] ∅ [] cache0) tasks) [] [] /\
  es_cache (foldl init_task (EState [] ∅ [] cache0) tasks) = cache0 /\
  es_queue (foldl init_task (EState [] ∅ [] cache0) tasks) = [] /\
  (forall sp, sp ∈ tasks -> ts_deps sp = [] -> dget (es_pool (foldl init_task (EState [] ∅ [] cache0) tasks)) (ts_base sp) = Some (static_task sp)).
Proof.
  unfold init_state. rewrite init_fold.
  set (ts := map static_task (filter (fun t => ts_deps t = []) tasks)).
  assert (Hts : forall t, t ∈ ts <-> exists sp, t = static_task sp /\ sp ∈ tasks /\ ts_deps sp = []).
  { intros t. unfold ts. rewrite elem_of_list_In, in_map_iff. split.
    - intros (sp & <- & Hin). apply elem_of_list_In, elem_of_list_filter in Hin as [? ?]. by exists sp.
    - intros (sp & -> & ? & ?). exists sp. split; [done|]. by apply elem_of_list_In, elem_of_list_filter. }
  assert (Hnd : NoDup (map task_id ts)).
  { unfold ts. rewrite map_map. apply (NoDup_fmap_2_strong (fun x => task_id (static_task x))).
    - intros sp sp' [_ H1]%elem_of_list_filter [_ H2]%elem_of_list_filter Heq. by apply (base_inj tasks Hplan).
    - apply NoDup_filter, tasks_nodup. }
  destruct (realize_all_inv ts (EState [] ∅ [] cache0) [] [] empty_inv Hnd) as (HI & Hc & Hp).
  { intros t (sp & -> & Hin & Hd)%Hts. split; [done|]. apply form_static; [done|].
    destruct (ts_spawn sp) as [T|] eqn:HT; [|done]. by apply (wp_spawned _ Hplan _ _ Hin) in HT. }
  pose proof (realize_all_pool ts (EState [] ∅ [] cache0) Hnd) as Hpool. cbn in Hpool.
  set (s1 := foldl realize_task (EState [] ∅ [] cache0) ts) in *. rewrite app_nil_l in Hpool || cbn in Hpool.
  assert (Hpe : forall id t, (id, t) ∈ es_pool s1 -> id = task_id t /\ t ∈ ts).
  { intros id t. rewrite Hpool by done. intros Hin. apply elem_of_list_In, in_map_iff in Hin as (t' & [= <- <-] & Hin).
    split; [done|by apply elem_of_list_In]. }
  assert (Hinit : forall id t, (id, t) ∈ es_pool s1 -> es_states s1 !! task_id t = Some INITIALIZED).
  { intros id t Hin. destruct (Hpe _ _ Hin) as [-> _]. apply elem_dget in Hin; [|apply HI].
    destruct (i_pool_state _ _ _ HI _ _ Hin) as (x & Hx & H1 & H2). rewrite Hx. f_equal.
    destruct x; try done; exfalso.
    - apply (i_queued _ _ _ HI) in Hx as [Hx|Hx]; [|by apply elem_of_nil in Hx]. unfold s1 in Hx. rewrite realize_all_queue in Hx. by apply elem_of_nil in Hx.
    - apply (i_running _ _ _ HI) in Hx. by apply elem_of_nil in Hx.
    - apply (i_fin _ _ _ HI) in Hx. by apply elem_of_nil in Hx. }
  split_and!.
  - unfold enqueue_ready. rewrite scan_all.
    2: { intros id t Hin. split; [by eapply Hinit|]. apply Hpe in Hin as [_ (sp & -> & _ & Hd)%Hts]. cbn. unfold base_rdeps. by rewrite Hd. }
    assert (Hall : forall t, t ∈ (es_pool s1).*2 -> ts_deps (ti_spec t) = []).
    { intros t ([id t'] & -> & Hin)%elem_of_list_fmap. apply Hpe in Hin as [_ (sp & -> & _ & Hd)%Hts]. done. }
    assert (Hs1 : EState (es_pool s1) (es_states s1) (es_queue s1) (es_cache s1) = s1) by (by destruct s1). rewrite Hs1.
    revert Hall. generalize (es_pool s1).*2. generalize s1. clear. intros s1 l. revert s1. induction l as [|t l IH]; intros s1 Hall; cbn; [done|].
    rewrite bool_decide_true by (apply Hall; by left). apply IH. intros t' Ht'. apply Hall. by right.
  - done.
  - done.
  - apply realize_all_queue.
  - intros sp Hsp Hd. rewrite Hp. cbn.
    assert (Hin : static_task sp ∈ ts) by (apply Hts; by exists sp). apply elem_of_list_lookup in Hin as [i Hi].
    assert (Hf : list_find (fun t => task_id t = ts_base sp) ts = Some (i, static_task sp)).
    { apply list_find_Some. split_and!; [done|done|]. intros j y Hj Hlt Heq.
      assert (i = j); [|lia]. eapply (NoDup_lookup (map task_id ts)); [done| |].
      - rewrite list_lookup_fmap, Hi. done.
      - rewrite list_lookup_fmap, Hj. cbn. by rewrite Heq. }
    by rewrite Hf.
Qed.

Lemma init_inv : rinv (RState (init_state tasks cache0) [] [] []).
Proof.
  destruct init_enqueue as (-> & HI & Hc & Hq & Hp).
  destruct (enqueue_ready_inv _ _ _ HI) as (HI' & Hset & Hc' & Hp' & Hq').
  constructor; cbn; [done|done| |].
  - constructor.
    + by rewrite Hc', Hc.
    + intros t Ht. rewrite Hp'. apply Hq' in Ht as [Ht|Ht]; [rewrite Hq in Ht; by apply elem_of_nil in Ht|].
      exists t. split; [done|constructor].
    + intros tr1 t calls o tr2 Heq. by destruct tr1.
  - constructor.
    + intros sp Hsp Hd. rewrite Hp', Hp by done. by eexists.
    + intros ? ? ? ? ? Hf%elem_of_nil. done.
    + intros ? ? Hf%elem_of_nil. done.
    + intros ? ? ? ? [Hf%elem_of_nil _]. done.
Qed.
End Sched.
