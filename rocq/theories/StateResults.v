(** Consequences of the scheduler invariant, in terms of the trace. *)
From stdpp Require Import pretty.
From Verif Require Import Base Dict ExecModel TraverseModel GroupModel StateModel StateProofs.

(** [id] was run successfully and marked as such, in this order. *)
Definition completed {V E} (tr : list (tevent V E)) (id : string) : Prop :=
  exists a t calls results b c, tr = a ++ TRun t calls (Ok results) :: b ++ TFinish id :: c /\ task_id t = id.

(** The trace of a run, however far it got. *)
Definition trace_of_loop {V E} (o : loop_out V E) : list (tevent V E) :=
  match o with LDone r | LRunning r => r_trace r | LRaise _ tr => tr end.

Section Results.
Context {V E : Type}.
Variable g : graph.
Variable role_of : name -> role.
Variable carg : name -> name.
Variable as_list : V -> option (list V).
Variable mk_list : list V -> V.
Variable f : name -> gmap name V -> res E V.
Variable not_iterable : E.
Variable tasks : list (tspec V).
Variable which : timpl V -> nat.
Variable limit : nat -> option nat.
Variable fin : nat -> string -> bool.
Hypothesis Hlist : forall l, as_list (mk_list l) = Some l.
Hypothesis Hplan : wf_plan tasks.
Variable cache0 : gmap string V.

Notation timpl := (timpl V).
Notation estate := (estate V).
Notation rstate := (rstate V E).
Notation tevent := (tevent V E).
Notation rinv := (rinv g role_of carg as_list mk_list f not_iterable tasks cache0).
Notation trace_ok := (trace_ok g role_of carg as_list mk_list f not_iterable tasks cache0).
Notation inv0 := (inv0 role_of as_list tasks).
Notation expanded := (expanded role_of as_list tasks).
Notation form := (form role_of as_list tasks).
Notation submit_next := (submit_next g role_of carg as_list mk_list f not_iterable which limit fin).
Notation poll := (poll role_of as_list mk_list tasks fin).
Notation iteration := (iteration g role_of carg as_list mk_list f not_iterable tasks which limit fin).
Notation run_loop := (run_loop g role_of carg as_list mk_list f not_iterable tasks which limit fin).
Notation run_graph := (run_graph g role_of carg as_list mk_list f not_iterable tasks which limit fin).

(** ** Every completion was preceded by a successful run *)
Definition fin_ok (tr : list tevent) : Prop :=
  forall a id b, tr = a ++ TFinish id :: b -> exists t calls results, TRun t calls (Ok results) ∈ a /\ task_id t = id.

Lemma snoc_split {A} (l l1 l2 : list A) x y : l ++ [x] = l1 ++ y :: l2 ->
  (l = l1 /\ x = y /\ l2 = []) \/ exists l2', l = l1 ++ y :: l2' /\ l2 = l2' ++ [x].
Proof.
  intros Heq. destruct l2 as [|z l2 _] using rev_ind.
  - apply app_inj_tail in Heq as [-> ->]. by left.
  - rewrite app_comm_cons, app_assoc in Heq. apply app_inj_tail in Heq as [-> ->]. right. by exists l2.
Qed.

Lemma fin_ok_snoc tr e : fin_ok tr ->
  (forall id, e = TFinish id -> exists t calls results, TRun t calls (Ok results) ∈ tr /\ task_id t = id) -> fin_ok (tr ++ [e]).
Proof.
  intros H He a id b [(-> & -> & _)|(b' & -> & _)]%snoc_split; [by apply He|by eapply H].
Qed.

Lemma submit_fin k r : fin_ok (r_trace r) ->
  match submit_next k r with SNext r' => fin_ok (r_trace r') | SRaise _ tr => fin_ok tr end.
Proof.
  intros H. unfold StateModel.submit_next. destruct (es_queue (r_es r)) as [|t0 q]; [done|].
  destruct (bind_task _ _ _ _ _ _) as [t|e]; [|done].
  destruct (limit (which t)) as [n|].
  - destruct (_ <? _); [destruct (base_execute_task _ _ _ _ _ _ _) as [calls o]|]; by apply fin_ok_snoc.
  - destruct (base_execute_task _ _ _ _ _ _ _) as [calls [o|e]]; by apply fin_ok_snoc.
Qed.

Lemma poll_fin k fl : forall r, rinv r -> fin_ok (r_trace r) -> NoDup (dkeys fl) ->
  (forall id a, (id, a) ∈ fl -> dget (r_futures r) id = Some a) ->
  match poll k r fl with SNext r' => fin_ok (r_trace r') | SRaise _ tr => fin_ok tr end.
Proof.
  induction fl as [|[id [p o]] fl IH]; intros r HR Hf Hnd Hfl; [done|].
  pose proof (poll_inv g role_of carg as_list mk_list f not_iterable tasks which limit fin Hlist Hplan cache0 k [(id, (p, o))] r HR) as Hone.
  assert (Hin : dget (r_futures r) id = Some (p, o)) by (apply Hfl; by left).
  cbn in Hnd. apply NoDup_cons in Hnd as [Hn Hnd].
  cbn [StateModel.poll] in Hone |- *.
  assert (Hone' : NoDup (dkeys [(id, (p, o))]) /\
    forall id' a, (id', a) ∈ [(id, (p, o))] -> dget (r_futures r) id' = Some a).
  { split; [apply NoDup_singleton|]. intros id' a [= -> ->]%elem_of_list_singleton. done. }
  specialize (Hone (proj1 Hone') (proj2 Hone')).
  pose proof (ri_inv _ _ _ _ _ _ _ _ _ _ HR) as HI.
  destruct (match p with None => true | Some _ => fin k id end).
  - destruct o as [results|e]; [|done].
    assert (Hf1 : fin_ok (r_trace r ++ [TFinish id])).
    { apply fin_ok_snoc; [done|]. intros id' [= <-].
      destruct (i_fut_run _ _ _ _ _ _ HI _ _ _ Hin) as (t & calls & t0 & Hr & Hid & _). by exists t, calls, results. }
    destruct (update_task_state _ _ _ _ _ _ _ _) as [s'|e]; [|done].
    apply IH; [done|done|done|]. intros id' a Hin'. cbn. rewrite dget_ddel by apply HI. rewrite decide_False.
    + apply Hfl. by right.
    + intros ->. apply Hn, elem_of_list_fmap. by exists (id, a).
  - destruct (update_task_state _ _ _ _ _ _ _ _) as [s'|e]; [|done].
    apply IH; [done|done|done|]. intros id' a Hin'. cbn. apply Hfl. by right.
Qed.

Lemma loop_fin n : forall k r, rinv r -> fin_ok (r_trace r) -> fin_ok (trace_of_loop (run_loop n k r)).
Proof.
  induction n as [|n IH]; intros k r HR Hf; cbn [StateModel.run_loop]; destruct (is_terminal _); try done.
  pose proof (iteration_inv g role_of carg as_list mk_list f not_iterable tasks which limit fin Hlist Hplan cache0 k r HR) as Hi.
  pose proof (submit_inv g role_of carg as_list mk_list f not_iterable tasks which limit fin cache0 (2 * k) r HR) as Hs.
  pose proof (submit_fin (2 * k) r Hf) as Hsf. unfold StateModel.iteration in *.
  destruct (submit_next (2 * k) r) as [r1|e tr]; [|done]. destruct Hs as [HR1 _].
  assert (Hp : match poll (2 * k + 1) r1 (r_futures r1) with SNext r' => fin_ok (r_trace r') | SRaise _ tr => fin_ok tr end).
  { apply poll_fin; [done|done|apply HR1|]. intros id a Hin. apply elem_dget; [apply HR1|done]. }
  destruct (poll (2 * k + 1) r1 (r_futures r1)) as [r2|e tr]; [by apply IH|done].
Qed.

Lemma run_trace_ok n : trace_ok (trace_of_loop (run_graph n cache0)).
Proof.
  unfold StateModel.run_graph.
  pose proof (loop_inv g role_of carg as_list mk_list f not_iterable tasks which limit fin Hlist Hplan cache0 n 0 _
    (init_inv g role_of carg as_list mk_list f not_iterable tasks Hplan cache0)) as H.
  destruct (run_loop n 0 _) as [r|e tr|r]; cbn.
  - destruct H as [H _]. by apply rinv_trace.
  - apply H.
  - by apply rinv_trace.
Qed.
Lemma run_fin_ok n : fin_ok (trace_of_loop (run_graph n cache0)).
Proof.
  unfold StateModel.run_graph. apply loop_fin; [by apply init_inv|]. intros a id b Heq. by destruct a.
Qed.

Lemma finished_completed tr id : fin_ok tr -> finished tr id -> completed tr id.
Proof.
  intros Hf Hin. apply elem_of_list_split in Hin as (a & b & ->).
  destruct (Hf a id b eq_refl) as (t & calls & results & Hr & Hid). apply elem_of_list_split in Hr as (a1 & a2 & ->).
  exists a1, t, calls, results, a2, b. split; [|done]. by rewrite <-app_assoc.
Qed.
Lemma fin_ok_prefix tr tr' : fin_ok (tr ++ tr') -> fin_ok tr.
Proof. intros H a id b ->. eapply (H a id (b ++ tr')). by rewrite <-app_assoc. Qed.

(** ** What has completed before a task is started *)
Lemma start_after n tr1 t calls o tr2 :
  trace_of_loop (run_graph n cache0) = tr1 ++ TRun t calls o :: tr2 ->
  ti_spec t ∈ tasks /\
  ((ts_spawn (ti_spec t) = None /\ task_id t = ts_base (ti_spec t) /\
    forall d, d ∈ ts_deps (ti_spec t) -> completed tr1 d) \/
   exists T X items, ts_spawn (ti_spec t) = Some T /\ expanded tr1 T X items /\ completed tr1 T /\
     let per_item d := exists sp, sp ∈ tasks /\ ts_base sp = d /\ ts_spawn sp = Some T /\ ts_purpose sp <> GATHER in
     ((ts_purpose (ti_spec t) <> GATHER /\ exists i, i < length items /\
        task_id t = mk_task_id (ts_base (ti_spec t)) (Some T) (Some (pretty i)) /\
        forall d, d ∈ ts_deps (ti_spec t) -> ~ per_item d -> completed tr1 d) \/
      (ts_purpose (ti_spec t) = GATHER /\ task_id t = ts_base (ti_spec t) /\
        forall d, d ∈ ts_deps (ti_spec t) ->
          (per_item d -> forall i, i < length items -> completed tr1 (mk_task_id d (Some T) (Some (pretty i)))) /\
          (~ per_item d -> completed tr1 d)))).
Proof.
  intros Heq. pose proof (run_trace_ok n) as [Hruns _]. pose proof (run_fin_ok n) as Hfin. rewrite Heq in *.
  apply fin_ok_prefix in Hfin.
  destruct (Hruns _ _ _ _ _ eq_refl) as (_ & t0 & tb & s & fu & Hform & Hb & HI & _ & Hready & Hbind).
  assert (Hcore : core t = core t0).
  { apply bind_core in Hbind. apply bound_core in Hb. congruence. }
  pose proof (core_id _ _ Hcore) as Hid. unfold core in Hcore. injection Hcore as Hsp _ _. rewrite Hsp, Hid.
  assert (Hdone : forall b ids id, (b, ids) ∈ ti_rdeps t0 -> id ∈ ids -> completed tr1 id).
  { intros b ids id H1 H2. apply finished_completed; [done|]. apply (i_fin _ _ _ _ _ _ HI). by eapply Hready. }
  assert (Hrep : forall T d, d ∈ map ts_base (to_repeat tasks T) ->
     exists sp, sp ∈ tasks /\ ts_base sp = d /\ ts_spawn sp = Some T /\ ts_purpose sp <> GATHER).
  { intros T d Hin. apply elem_of_list_In, in_map_iff in Hin as (sp & <- & Hin). apply elem_of_list_In in Hin.
    apply (elem_to_repeat tasks Hplan) in Hin as (? & ? & _ & ?). by exists sp. }
  split; [by eapply (form_spec role_of as_list tasks Hplan)|].
  destruct Hform as [sp Hin Hn|T X l i v sp Hex Hi Hin|T X l sp Hex Hin]; cbn in *.
  - left. split_and!; [done|done|]. intros d Hd. apply (Hdone d [d]); [|by left].
    apply elem_of_list_fmap. by exists d.
  - right. apply (elem_to_repeat tasks Hplan) in Hin as (Hin & Hsp' & He & Hg). exists T, X, l.
    split_and!; [done|done|apply finished_completed; [done|apply Hex]|]. left. split; [done|].
    exists i. split_and!; [by eapply lookup_lt_Some|done|]. intros d Hd Hnr.
    apply (Hdone d [d]); [|by left]. apply elem_of_list_fmap. exists d. split; [|done].
    rewrite bool_decide_false; [done|]. intros Hc. by apply Hnr, Hrep.
  - right. apply (elem_to_collect tasks Hplan) in Hin as (Hin & Hsp' & Hg). exists T, X, l.
    split_and!; [done|done|apply finished_completed; [done|apply Hex]|]. right. split_and!; [done|done|].
    intros d Hd. split.
    + intros (sp' & Hsp'' & <- & HT & Hng) i Hi.
      eapply Hdone; [apply elem_of_list_fmap; exists (ts_base sp'); split; [reflexivity|done]|].
      rewrite bool_decide_true.
      * apply elem_of_list_fmap. exists i. split; [done|]. apply elem_of_seq. lia.
      * apply elem_of_list_In, in_map_iff. exists sp'. split; [done|]. apply elem_of_list_In, (elem_to_repeat tasks Hplan).
        split_and!; try done. intros He. apply (wp_expand _ Hplan) in He; [congruence|done].
    + intros Hnr. apply (Hdone d [d]); [|by left]. apply elem_of_list_fmap. exists d. split; [|done].
      rewrite bool_decide_false; [done|]. intros Hc. by apply Hnr, Hrep.
Qed.

(** ** Every task at most once *)
Lemma run_once n a t calls o b t' calls' o' c :
  trace_of_loop (run_graph n cache0) = a ++ TRun t calls o :: b ++ TRun t' calls' o' :: c -> task_id t <> task_id t'.
Proof.
  intros Heq Hid. pose proof (run_trace_ok n) as (_ & s & fu & HI). rewrite Heq in HI.
  pose proof (i_runs_nodup _ _ _ _ _ _ HI) as Hnd. rewrite run_ids_app in Hnd. apply NoDup_app in Hnd as (_ & _ & Hnd).
  cbn in Hnd. apply NoDup_cons in Hnd as [Hn _]. apply Hn. fold (run_ids (b ++ TRun t' calls' o' :: c)).
  rewrite run_ids_app. apply elem_of_app. right. cbn. rewrite Hid. by left.
Qed.
Lemma finish_once n a id b c : trace_of_loop (run_graph n cache0) <> a ++ TFinish id :: b ++ TFinish id :: c.
Proof.
  intros Heq.
  assert (H : forall m k r, rinv r -> (forall id a b c, r_trace r <> a ++ TFinish id :: b ++ TFinish id :: c) ->
    forall id a b c, trace_of_loop (run_loop m k r) <> a ++ TFinish id :: b ++ TFinish id :: c).
  2: { revert Heq. unfold StateModel.run_graph. apply H; [by apply init_inv|]. intros ? [|] ? ?; done. }
  clear Heq n a id b c.
  assert (Hsn : forall (tr : list tevent) e, (forall id a b c, tr <> a ++ TFinish id :: b ++ TFinish id :: c) ->
     (forall id, e = TFinish id -> ~ finished tr id) -> forall id a b c, tr ++ [e] <> a ++ TFinish id :: b ++ TFinish id :: c).
  { intros tr e H1 H2 id a b c Heq. rewrite (app_comm_cons b), (app_assoc a (_ :: b)) in Heq.
    apply snoc_split in Heq as [(-> & -> & _)|(c' & -> & _)].
    - apply (H2 id eq_refl). unfold finished. apply elem_of_app. right. by left.
    - apply (H1 id a b c'). by rewrite <-app_assoc. }
  assert (Hpoll : forall k fl r, rinv r -> (forall id a b c, r_trace r <> a ++ TFinish id :: b ++ TFinish id :: c) -> NoDup (dkeys fl) ->
     (forall id a, (id, a) ∈ fl -> dget (r_futures r) id = Some a) ->
     match poll k r fl with SNext r' => forall id a b c, r_trace r' <> a ++ TFinish id :: b ++ TFinish id :: c
       | SRaise _ tr => forall id a b c, tr <> a ++ TFinish id :: b ++ TFinish id :: c end).
  { intros k. induction fl as [|[id [p o]] fl IH]; intros r HR Hf Hnd Hfl; [done|].
    pose proof (poll_inv g role_of carg as_list mk_list f not_iterable tasks which limit fin Hlist Hplan cache0 k [(id, (p, o))] r HR) as Hone.
    assert (Hin : dget (r_futures r) id = Some (p, o)) by (apply Hfl; by left).
    cbn in Hnd. apply NoDup_cons in Hnd as [Hn Hnd].
    cbn [StateModel.poll] in Hone |- *.
    assert (Hone' : NoDup (dkeys [(id, (p, o))]) /\
      forall id' a, (id', a) ∈ [(id, (p, o))] -> dget (r_futures r) id' = Some a).
    { split; [apply NoDup_singleton|]. intros id' a [= -> ->]%elem_of_list_singleton. done. }
    specialize (Hone (proj1 Hone') (proj2 Hone')).
    pose proof (ri_inv _ _ _ _ _ _ _ _ _ _ HR) as HI.
    destruct (match p with None => true | Some _ => fin k id end).
    - destruct o as [results|e]; [|done].
      assert (Hf1 : forall id' a b c, r_trace r ++ [TFinish id] <> a ++ TFinish id' :: b ++ TFinish id' :: c).
      { apply Hsn; [done|]. intros id' [= <-] Hfin. apply (i_fin _ _ _ _ _ _ HI) in Hfin.
        destruct (i_fut _ _ _ _ _ _ HI id) as [[?|?] _]; [|congruence|congruence]. apply dget_Some_key. by eexists. }
      destruct (update_task_state _ _ _ _ _ _ _ _) as [s'|e]; [|done].
      apply IH; [done|done|done|]. intros id' a Hin'. cbn. rewrite dget_ddel by apply HI. rewrite decide_False.
      + apply Hfl. by right.
      + intros ->. apply Hn, elem_of_list_fmap. by exists (id, a).
    - destruct (update_task_state _ _ _ _ _ _ _ _) as [s'|e]; [|done].
      apply IH; [done|done|done|]. intros id' a Hin'. cbn. apply Hfl. by right. }
  assert (Hsub : forall k r, (forall id a b c, r_trace r <> a ++ TFinish id :: b ++ TFinish id :: c) ->
     match submit_next k r with SNext r' => forall id a b c, r_trace r' <> a ++ TFinish id :: b ++ TFinish id :: c
       | SRaise _ tr => forall id a b c, tr <> a ++ TFinish id :: b ++ TFinish id :: c end).
  { intros k r H. unfold StateModel.submit_next. destruct (es_queue (r_es r)) as [|t0 q]; [done|].
    destruct (bind_task _ _ _ _ _ _) as [t|e]; [|done].
    destruct (limit (which t)) as [m|].
    - destruct (_ <? _); [destruct (base_execute_task _ _ _ _ _ _ _) as [calls o]|]; by apply Hsn.
    - destruct (base_execute_task _ _ _ _ _ _ _) as [calls [o|e]]; by apply Hsn. }
  induction m as [|m IH]; intros k r HR Hf; cbn [StateModel.run_loop]; destruct (is_terminal _); try done.
  pose proof (iteration_inv g role_of carg as_list mk_list f not_iterable tasks which limit fin Hlist Hplan cache0 k r HR) as Hi.
  pose proof (submit_inv g role_of carg as_list mk_list f not_iterable tasks which limit fin cache0 (2 * k) r HR) as Hs.
  pose proof (Hsub (2 * k) r Hf) as Hsf. unfold StateModel.iteration in *.
  destruct (submit_next (2 * k) r) as [r1|e tr]; [|done]. destruct Hs as [HR1 _].
  assert (Hp := Hpoll (2 * k + 1) (r_futures r1) r1 HR1 Hsf (i_fut_nodup _ _ _ _ _ _ (ri_inv _ _ _ _ _ _ _ _ _ _ HR1))).
  assert (Hel : forall id a, (id, a) ∈ r_futures r1 -> dget (r_futures r1) id = Some a).
  { intros id a Hin. apply elem_dget; [apply HR1|done]. }
  specialize (Hp Hel). destruct (poll (2 * k + 1) r1 (r_futures r1)) as [r2|e tr]; [by apply IH|done].
Qed.

(** ** The pools *)
Hypothesis Hmono : forall k k' id, k <= k' -> fin k id = true -> fin k' id = true.

(** Tasks handed to pool [i] that are not done at observation [K]. *)
Definition in_flight (K i : nat) (tr : list tevent) : list string :=
  omap (fun e => match e with
                 | TRun t _ _ => if bool_decide (which t = i) && negb (fin K (task_id t)) then Some (task_id t) else None
                 | _ => None end) tr.

Record pinv (K : nat) (r : rstate) : Prop := {
  pi_active : forall t calls o, TRun t calls o ∈ r_trace r -> limit (which t) <> None ->
     (which t, task_id t) ∈ r_active r \/ fin K (task_id t) = true;
  pi_count : forall i n, limit i = Some n -> count_active i (r_active r) <= n }.

Lemma pinv_mono K K' r : K <= K' -> pinv K r -> pinv K' r.
Proof.
  intros Hle HP. constructor; [|apply HP]. intros t calls o Hin Hl.
  destruct (pi_active _ _ HP _ _ _ Hin Hl) as [?|?]; [by left|right]. by eapply Hmono.
Qed.

Lemma count_prune K j i l : count_active i (prune_active fin K j l) <= count_active i l.
Proof.
  unfold count_active, prune_active. rewrite list_filter_filter.
  induction l as [|p l IH]; [done|]. rewrite !filter_cons.
  destruct (decide (p.1 = i /\ ~ (p.1 = j /\ fin K p.2 = true))) as [[H _]|];
    destruct (decide (p.1 = i)); cbn in *; try lia.
Qed.

Lemma submit_pool K r r1 : pinv K r -> submit_next K r = SNext r1 -> pinv K r1.
Proof.
  intros HP. unfold StateModel.submit_next. destruct (es_queue (r_es r)) as [|t0 q]; [by intros [= <-]|].
  destruct (bind_task _ _ _ _ _ _) as [t|e]; [|done].
  assert (Hpr : forall t' calls o, TRun t' calls o ∈ r_trace r -> limit (which t') <> None ->
     (which t', task_id t') ∈ prune_active fin K (which t) (r_active r) \/ fin K (task_id t') = true).
  { intros t' calls o Hin Hl. destruct (pi_active _ _ HP _ _ _ Hin Hl) as [Ha|?]; [|by right].
    destruct (fin K (task_id t')) eqn:Hf; [by right|left]. apply elem_of_list_filter. split; [|done]. cbn. intros [_ ?]. congruence. }
  destruct (limit (which t)) as [n|] eqn:Hlim.
  - destruct (count_active _ _ <? n) eqn:Hc.
    + destruct (base_execute_task _ _ _ _ _ _ _) as [calls o]. intros [= <-]. constructor; cbn.
      * intros t' calls' o' [Hin|[= -> -> ->]%elem_of_list_singleton]%elem_of_app Hl.
        -- destruct (Hpr _ _ _ Hin Hl); [left|by right]. apply elem_of_app. by left.
        -- left. apply elem_of_app. right. by left.
      * intros i m Hm. unfold count_active. rewrite filter_app, app_length. rewrite filter_cons, filter_nil. cbn.
        apply Nat.ltb_lt in Hc. unfold count_active in Hc. destruct (decide (which t = i)) as [Heqi|Hne]; [subst i|]; cbn.
        -- rewrite Hm in Hlim. injection Hlim as ->. lia.
        -- pose proof (count_prune K (which t) i (r_active r)) as Hle. pose proof (pi_count _ _ HP i m Hm). unfold count_active in *. lia.
    + intros [= <-]. constructor; cbn.
      * intros t' calls' o' [Hin|?%elem_of_list_singleton]%elem_of_app Hl; [by eapply Hpr|done].
      * intros i m Hm. etransitivity; [apply count_prune|]. by apply (pi_count _ _ HP i m Hm).
  - destruct (base_execute_task _ _ _ _ _ _ _) as [calls [o|e]]; [|done]. intros [= <-]. constructor; cbn; [|apply HP].
    intros t' calls' o' [Hin|[= -> -> ->]%elem_of_list_singleton]%elem_of_app Hl; [by eapply (pi_active _ _ HP)|congruence].
Qed.
Lemma poll_pool K K' fl : forall r r', pinv K r -> poll K' r fl = SNext r' -> pinv K r'.
Proof.
  induction fl as [|[id [p o]] fl IH]; intros r r' HP; cbn [StateModel.poll]; [by intros [= <-]|].
  destruct (match p with None => true | Some _ => fin K' id end).
  - destruct o as [results|e]; [|done]. destruct (update_task_state _ _ _ _ _ _ _ _) as [s'|e]; [|done]. apply IH.
    constructor; cbn; [|apply HP]. intros t calls o [Hin|?%elem_of_list_singleton]%elem_of_app; [by eapply HP|done].
  - destruct (update_task_state _ _ _ _ _ _ _ _) as [s'|e]; [|done]. apply IH. constructor; cbn; apply HP.
Qed.

Lemma loop_pool n : forall k r r', pinv (2 * k) r -> run_loop n k r = LRunning r' -> pinv (2 * (k + n)) r'.
Proof.
  induction n as [|n IH]; intros k r r' HP; cbn [StateModel.run_loop]; destruct (is_terminal _); try done.
  - intros [= <-]. by rewrite Nat.add_0_r.
  - unfold StateModel.iteration. destruct (submit_next (2 * k) r) as [r1|] eqn:Hs; [|done].
    apply submit_pool in Hs; [|done]. destruct (poll _ r1 _) as [r2|] eqn:Hp; [|done].
    apply (poll_pool (2 * k)) in Hp; [|done]. intros Hr. replace (k + S n) with (S k + n) by lia.
    apply (IH (S k) r2); [|done]. eapply pinv_mono; [|done]. lia.
Qed.

Lemma pool_bound n k i m r r1 :
  limit i = Some m -> run_graph n cache0 = LRunning r -> submit_next (2 * n) r = SNext r1 -> 2 * n <= k ->
  length (in_flight k i (r_trace r1)) <= m.
Proof.
  intros Hm Hr Hs Hk.
  assert (HR1 : rinv r1).
  { pose proof (loop_inv g role_of carg as_list mk_list f not_iterable tasks which limit fin Hlist Hplan cache0 n 0 _
      (init_inv g role_of carg as_list mk_list f not_iterable tasks Hplan cache0)) as H.
    unfold StateModel.run_graph in Hr. rewrite Hr in H.
    pose proof (submit_inv g role_of carg as_list mk_list f not_iterable tasks which limit fin cache0 (2 * n) r H) as Hs'.
    rewrite Hs in Hs'. apply Hs'. }
  apply (loop_pool n 0) in Hr.
  2: { constructor; cbn; [by intros ??? ?%elem_of_nil|]. intros; unfold count_active; cbn; lia. }
  apply submit_pool in Hs; [|done]. pose proof (pinv_mono _ k _ Hk Hs) as HP.
  pose proof (ri_inv _ _ _ _ _ _ _ _ _ _ HR1) as HI. pose proof (i_runs_nodup _ _ _ _ _ _ HI) as Hnd.
  etransitivity; [|apply (pi_count _ _ HP i m Hm)]. unfold count_active.
  rewrite <-(map_length snd (filter _ _)). apply submseteq_length, NoDup_submseteq.
  - clear -Hnd. revert Hnd. generalize (r_trace r1). intros tr. induction tr as [|e tr IH]; intros Hnd; [constructor|].
    unfold in_flight, run_ids in *. destruct e as [t c o|t|id]; cbn in *; [|by apply IH|by apply IH].
    apply NoDup_cons in Hnd as [Hn Hnd]. destruct (_ && _); cbn; [|by apply IH]. constructor; [|by apply IH].
    intros Hin. apply Hn. apply elem_of_list_omap in Hin as (e & Hin & He). apply elem_of_list_omap. exists e. split; [done|].
    destruct e as [t' ? ?|?|?]; try done. destruct (_ && _); [|done]. done.
  - intros id Hin. apply elem_of_list_omap in Hin as (e & Hin & He). destruct e as [t c o|?|?]; try done.
    destruct (bool_decide (which t = i)) eqn:Hw; [|done]. apply bool_decide_eq_true in Hw.
    destruct (fin k (task_id t)) eqn:Hf; [done|]. cbn in He. injection He as <-.
    destruct (pi_active _ _ HP _ _ _ Hin) as [Ha|?]; [congruence| |congruence].
    apply elem_of_list_fmap. exists (which t, task_id t). split; [done|]. by apply elem_of_list_filter.
Qed.

(** ** The queue *)
Lemma queue_nodup n r : (run_graph n cache0 = LRunning r \/ run_graph n cache0 = LDone r) ->
  NoDup (map task_id (es_queue (r_es r))) /\
  forall t, t ∈ es_queue (r_es r) -> forall t' calls o, TRun t' calls o ∈ r_trace r -> task_id t' <> task_id t.
Proof.
  intros Hr.
  assert (HR : rinv r).
  { pose proof (loop_inv g role_of carg as_list mk_list f not_iterable tasks which limit fin Hlist Hplan cache0 n 0 _
      (init_inv g role_of carg as_list mk_list f not_iterable tasks Hplan cache0)) as H.
    unfold StateModel.run_graph in Hr. destruct Hr as [Hr|Hr]; rewrite Hr in H; [done|apply H]. }
  pose proof (ri_inv _ _ _ _ _ _ _ _ _ _ HR) as HI. split; [apply HI|].
  intros t Ht t' calls o Hin Heq. apply run_ids_elem in Hin. apply (i_runs _ _ _ _ _ _ HI) in Hin as [Hin|Hin].
  - apply (i_fut _ _ _ _ _ _ HI) in Hin as [_ Hn]. apply Hn. rewrite Heq. apply elem_of_list_In, in_map, elem_of_list_In, Ht.
  - apply (i_queue _ _ _ _ _ _ HI) in Ht as [Hq _]. congruence.
Qed.
End Results.
