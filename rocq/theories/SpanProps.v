(** C81: the spans that the tracers report are those of the runs, tasks and nodes, each in the
    right place and ended once, as it ended. *)
From Verif Require Import Base SpanModel SpanSpec SpanProofs.

Section Otel.
Context {E : Type}.
Variable true_ : E -> bool.

(** No hook fails, whatever the program and however its threads are scheduled, at any moment. *)
Theorem C81_otel_safe (progs : list (nat * list (act E))) es ts : NoDup (map fst progs) -> steps (begin progs) es ts -> exists st, orun true_ es otel0 = Ok st.
Proof. intros Hnd Hs. destruct (steps_good true_ _ _ _ _ Hs _ _ _ (good_begin true_ progs Hnd)) as (st & _ & _ & H & _). by exists st. Qed.

(** At the end there are just the spans expected, under the spans around them, ended once and
    with the exception if there was one. In full this would hold for all exceptions; see
    [C81_falsy_refuted]. *)
Theorem C81_otel_partial (progs : list (nat * list (act E))) es ts : NoDup (map fst progs) -> steps (begin progs) es ts -> finished ts ->
  (forall p e, (p, Some e) ∈ wanted progs -> true_ e = true) ->
  exists st, orun true_ es otel0 = Ok st /\ right (t_spans st) (wanted progs).
Proof.
  intros Hnd Hs Hf Ht. destruct (steps_good true_ _ _ _ _ Hs _ _ _ (good_begin true_ progs Hnd)) as (st & paths & infos & H & G). exists st. split; [done|].
  by eapply good_end.
Qed.

(** A run whose tasks are executed one after the other, or each in a thread. *)
Definition a_task (t : name * option E * list (name * option E)) : act E := Within t.1.1 t.1.2 (map (fun n => Within n.1 n.2 []) t.2).
Definition a_run (r : name) (exc : option E) (tasks : list (name * option E * list (name * option E))) : act E := Within r exc (map a_task tasks).
Definition a_threaded (r : name) (exc : option E) (tasks : list (name * option E * list (name * option E))) : act E := Within r exc (map (fun t => Thread [a_task t]) tasks).
Definition run_spans (r : name) (exc : option E) (tasks : list (name * option E * list (name * option E))) : list (list name * option E) :=
  ([r], exc) :: concat (map (fun t => ([r; t.1.1], t.1.2) :: map (fun n => ([r; t.1.1; n.1], n.2)) t.2) tasks).
Lemma expected_run r exc tasks : expected [] (a_run r exc tasks) = run_spans r exc tasks.
Proof.
  unfold a_run, run_spans. cbn [expected app]. f_equal. rewrite map_map. f_equal. apply map_ext. intros [[t er] ns]. unfold a_task. cbn [fst snd expected app]. f_equal.
  induction ns as [|[n e] ns IH]; [done|]. cbn in *. by rewrite IH.
Qed.
(** Runs in any number of contexts at a time: nodes are under their task, tasks under their run. In
    full this would hold for [a_threaded]; see [C81_threads_refuted]. *)
Theorem C81_runs_partial (rs : list (nat * (name * option E * list (name * option E * list (name * option E))))) es ts :
  NoDup (map fst rs) -> steps (begin (map (fun r => (r.1, [a_run r.2.1.1 r.2.1.2 r.2.2])) rs)) es ts -> finished ts ->
  (forall e, true_ e = true) ->
  exists st, orun true_ es otel0 = Ok st /\ right (t_spans st) (concat (map (fun r => run_spans r.2.1.1 r.2.1.2 r.2.2) rs)).
Proof.
  intros Hnd Hs Hf Ht. pose proof (fun H => C81_otel_partial _ _ _ H Hs Hf (fun _ e _ => Ht e)) as HH. rewrite map_map in HH. destruct (HH Hnd) as (st & H1 & H2). exists st. split; [done|].
  assert (Hw : wanted (map (fun r => (r.1, [a_run r.2.1.1 r.2.1.2 r.2.2])) rs) = concat (map (fun r => run_spans r.2.1.1 r.2.1.2 r.2.2) rs)); [|by rewrite <- Hw].
  unfold wanted. rewrite map_map. f_equal. apply map_ext. intros r. cbn [snd map concat]. by rewrite app_nil_r, expected_run.
Qed.
End Otel.

Section Datadog.
Context {E O : Type}.
Variable links : bool.
(** However the hooks of runs, tasks and nodes are interleaved: none fails; what was started has
    one span, with the right name, parent and links, which was finished as often and in the way it
    ended; and what belongs to runs that are over is forgotten. *)
Theorem C81_ddog (es : list (devent E O)) : sensible es ->
  exists st, drun links es ddog0 = Some st /\ length (d_spans st) = length (omap starts es) /\
    (forall i e k, es !! i = Some e -> starts e = Some k -> exists id s, number es k id /\ d_spans st !! id = Some s /\
       d_name s = key_name k /\ right_parent (take i es) e (d_parent s) /\ right_links links (take i es) e (d_links s) /\ d_ends s = endings es k) /\
    (forall r, ~ running es r -> d_runs st !! r = None /\ d_tasks st !! r = None /\ d_nodes st !! r = None).
Proof.
  intros Hs. destruct (dinv_run links es Hs) as (st & Hr & I). exists st. split; [done|]. split; [apply (di_len _ _ _ I)|]. split.
  - intros i e k Hi Hk. destruct (di_spans _ _ _ I (take i es) e (drop (S i) es) k) as (s & H1 & (H2 & H3 & H4) & H5); [by rewrite take_drop_middle|done|].
    exists (length (keys (take i es))), s. split; [by exists i, e|]. split_and!; try done. by apply H2.
  - intros r Hn. split; [|split]; [|by apply (di_tasks _ _ _ I r)|by apply (di_nodes _ _ _ I r)]. destruct (d_runs st !! r) as [id|] eqn:Er; [|done]. apply (di_runs _ _ _ I) in Er as [H1 H2].
    destruct Hn. split; [|done]. apply started_keys. by eapply elem_of_list_lookup_2.
Qed.
(** When all runs are over the caches are empty. *)
Theorem C81_ddog_empty (es : list (devent E O)) st : sensible es -> (forall r, was_started es (KRun r) -> was_ended es (KRun r)) ->
  drun links es ddog0 = Some st -> d_runs st = ∅ /\ d_tasks st = ∅ /\ d_nodes st = ∅.
Proof.
  intros Hs Ho Hr. destruct (C81_ddog es Hs) as (st' & Hr' & _ & _ & H). rewrite Hr in Hr'. injection Hr' as <-.
  assert (Hn : forall r, ~ running es r) by (intros r [H1 H2]; by apply H2, Ho).
  split_and!; apply map_empty; intros r; by apply H.
Qed.
End Datadog.

(** ** Refutations: exceptions are numbers, 0 counts as false *)
Definition tr (n : nat) : bool := match n with 0 => false | _ => true end.
Definition one_thread (a : act nat) := begin [(0, [a])].

(** With tasks in threads (MultiThreadingExecutor), a task is not under its run. *)
Definition thr : act nat := a_threaded "r" None [("t", None, [("n", None)])].
Definition thr_es : list (oevent nat) := [OEnter 0 "r"; OEnter 1 "t"; OEnter 1 "n"; OExit 1 None; OExit 1 None; OExit 0 None].
Theorem C81_threads_refuted : exists (r : name) tasks es ts st, steps (one_thread (a_threaded r None tasks)) es ts /\ finished ts /\ orun tr es otel0 = Ok st /\
  ~ right (t_spans st) (run_spans r None tasks).
Proof.
  exists "r", [("t", None, [("n", None)])], thr_es, [(0, []); (1, [])]. eexists. split; [|split; [|split]].
  - unfold one_thread, begin. cbn. apply (S_enter [] 0 "r" None _ [] []). cbn. apply (S_thread [] 0 1 _ _ []); [cbn; rewrite elem_of_list_singleton; done|]. cbn.
    apply (S_enter [(0, [Leave None])] 1 "t" None _ [] []). cbn. apply (S_enter [(0, [Leave None])] 1 "n" None [] _ []). cbn. apply (S_leave [(0, [Leave None])] 1 None _ []). apply (S_leave [(0, [Leave None])] 1 None _ []). apply (S_leave [] 0 None _ [(1, [])]). apply S_done.
  - repeat constructor.
  - vm_compute. reflexivity.
  - intros (paths & Hl & Ht & Hp).
    assert (Hin : (["r"; "t"], [SOk]) ∈ zip paths (map (sp_ends (E:=nat)) [Span "r" None [SOk]; Span "t" None [SOk]; Span "n" (Some 1) [SOk]])) by (rewrite Hp; right; left).
    apply elem_of_list_lookup in Hin as [i Hi]. apply lookup_zip_with_Some in Hi as (p & es' & [= <- <-] & Hi & Hi'). specialize (Ht _ _ Hi).
    assert (Hno : forall s j, [Span "r" None [SOk]; Span "t" None [SOk]; Span "n" (Some 1) [SOk : status nat]] !! j = Some s -> sp_name s = "t" -> sp_parent s = None).
    { intros s j Hj Hn. destruct j as [|[|[|j]]]; cbn in Hj; [injection Hj as <-; done|injection Hj as <-; done|injection Hj as <-; done|done]. }
    remember ["r"; "t"] as w eqn:Hw. destruct Ht as [i s Hs Hpar|i s j q Hs Hpar Hq]; [done|].
    change (["r"; "t"]) with (["r"] ++ ["t"]) in Hw. apply app_inj_tail in Hw as [_ E2]. rewrite (Hno _ _ Hs E2) in Hpar. done.
Qed.

(** If the hook of another adapter before a node fails, the hook after the node is not called
    (graph_functions.py 252-330): the exception then ends the span of the node, and the run's span
    is never ended; a later run in the same context is reported under it. *)
Theorem C81_hook_refuted : exists es : list (oevent nat), es = [OEnter 0 "run"; OEnter 0 "node"; (* the other adapter fails *) OExit 0 (Some 1); OEnter 0 "run2"; OExit 0 None] /\
  exists st, orun tr es otel0 = Ok st /\ t_spans st = [Span "run" None []; Span "node" (Some 0) [SError 1]; Span "run2" (Some 0) [SOk]] /\ c_cur (ctx_of st 0) = Some 0.
Proof. eexists. split; [done|]. eexists. split; [vm_compute; reflexivity|]. split; vm_compute; reflexivity. Qed.

(** An exception that counts as false is reported as success. *)
Theorem C81_falsy_refuted : exists e es ts st, steps (one_thread (Within "n" (Some e) [])) es ts /\ finished ts /\ orun tr es otel0 = Ok st /\
  t_spans st = [Span "n" None [SOk]].
Proof.
  exists 0, [OEnter 0 "n"; OExit 0 (Some 0)], [(0, [])]. eexists. split; [|split; [|split]].
  - unfold one_thread, begin. cbn. apply (S_enter [] 0 "n" (Some 0) [] [] []). cbn. apply (S_leave [] 0 (Some 0) [] []). apply S_done.
  - repeat constructor.
  - vm_compute. reflexivity.
  - reflexivity.
Qed.

(** ** Examples *)
(** Two runs that are interleaved, one with two concurrent parts in copies of its context. *)
Definition ex_progs : list (nat * list (act nat)) := [(0, [Within "r" (Some 1) [Spawn [Within "a" None []]; Within "b" (Some 1) []]]); (1, [Within "s" None []])].
Definition ex_es : list (oevent nat) := [OEnter 0 "r"; OEnter 1 "s"; OFork 0 2; OEnter 0 "b"; OEnter 2 "a"; OExit 0 (Some 1); OExit 1 None; OExit 0 (Some 1); OExit 2 None].
Example C81_otel_example : NoDup (map fst ex_progs) /\ (exists ts, steps (begin ex_progs) ex_es ts /\ finished ts) /\
  wanted ex_progs = [(["r"], Some 1); (["r"; "a"], None); (["r"; "b"], Some 1); (["s"], None)] /\
  exists st, orun tr ex_es otel0 = Ok st /\ t_spans st = [Span "r" None [SError 1]; Span "s" None [SOk]; Span "b" (Some 0) [SError 1]; Span "a" (Some 0) [SOk]].
Proof.
  split; [apply (bool_decide_unpack _); vm_compute; exact I|]. split; [|split; [reflexivity|eexists; split; [vm_compute; reflexivity|reflexivity]]].
  exists [(0, []); (1, []); (2, [])]. split; [|repeat constructor]. unfold begin, ex_progs, ex_es. cbn.
  apply (S_enter [] 0 "r" (Some 1) _ [] [(1, [Do (Within "s" None [])])]). cbn.
  eapply (S_enter [(0, _)] 1 "s" None [] [] []). cbn.
  apply (S_spawn [] 0 2 [Within "a" None []] _ [(1, [Leave None])]); [apply (bool_decide_unpack _); vm_compute; exact I|]. cbn.
  apply (S_enter [] 0 "b" (Some 1) [] _ [(1, [Leave None]); (2, [Do (Within "a" None [])])]). cbn.
  eapply (S_enter [(0, _); (1, _)] 2 "a" None [] [] []). cbn.
  apply (S_leave [] 0 (Some 1) _ [(1, [Leave None]); (2, [Leave None])]). cbn.
  eapply (S_leave [(0, _)] 1 None [] [(2, [Leave None])]). cbn.
  apply (S_leave [] 0 (Some 1) [] [(1, []); (2, [Leave None])]). cbn.
  apply (S_leave [(0, []); (1, [])] 2 None [] []). apply S_done.
Qed.

(** Two runs at a time; a task with a node that fails, a node of it that is never finished. *)
Definition ex_dd : list (devent nat nat) := [DGraph "r" None; DGraph "s" (Some 7); DTask "r" "t"; DNode "s" None "x" []; DNode "r" (Some "t") "x" []; DNodeEnd "r" (Some "t") "x" None;
  DNode "r" (Some "t") "y" ["x"]; DNodeEnd "r" (Some "t") "y" (Some 1); DTaskEnd "r" "t" (Some 1); DGraphEnd "r" (Some 1); DGraphEnd "s" None].
Definition started_b (es : list (devent nat nat)) (k : key) : bool := bool_decide (k ∈ omap starts es).
Definition ended_b (es : list (devent nat nat)) (k : key) : bool := bool_decide (k ∈ map fst (omap ends es)).
Lemma started_b_spec es k : started_b es k = true <-> was_started es k.
Proof. unfold started_b. rewrite bool_decide_eq_true. symmetry. apply started_keys. Qed.
Lemma ended_b_spec es k : ended_b es k = true <-> was_ended es k.
Proof.
  unfold ended_b. rewrite bool_decide_eq_true. split.
  - intros ([k' er] & Hk & H)%elem_of_list_fmap. cbn in Hk. subst. apply elem_of_list_omap in H as (e & H1 & H2). by exists e, er.
  - intros (e & er & H1 & H2). apply elem_of_list_fmap. exists (k, er). split; [done|]. apply elem_of_list_omap. by exists e.
Qed.
Definition sensible_at (es : list (devent nat nat)) (i : nat) : bool :=
  match es !! i with
  | None => true
  | Some e => match starts e with
              | Some k => negb (started_b (take i es) k) && (bool_decide (k = KRun (run_of k)) || started_b (take i es) (KRun (run_of k)) && negb (ended_b (take i es) (KRun (run_of k))))
              | None => true
              end &&
              match ends e with
              | Some (k, _) => started_b (take i es) k && negb (ended_b (take i es) (KRun (run_of k)))
              | None => true
              end
  end.
Lemma sensible_b es : forallb (sensible_at es) (seq 0 (length es)) = true -> sensible es.
Proof.
  intros H i e Hi. rewrite forallb_forall in H. specialize (H i). unfold sensible_at in H. rewrite Hi in H.
  assert (Hin : In i (seq 0 (length es))) by (apply in_seq; apply lookup_lt_Some in Hi; lia). apply H in Hin as [H1 H2]%andb_true_iff. split.
  - intros k Hk. rewrite Hk in H1. apply andb_true_iff in H1 as [H1 H3]. split; [intros Hc%started_b_spec; by rewrite Hc in H1|]. intros Hne. rewrite bool_decide_eq_false_2 in H3 by done. cbn in H3.
    apply andb_true_iff in H3 as [H3 H4]. split; [by apply started_b_spec|]. intros Hc%ended_b_spec. by rewrite Hc in H4.
  - intros k er Hk. rewrite Hk in H2. apply andb_true_iff in H2 as [H2 H3]. split; [by apply started_b_spec|]. intros Hc%ended_b_spec. by rewrite Hc in H3.
Qed.
Example C81_ddog_example : sensible ex_dd /\ (forall r, was_started ex_dd (KRun r) -> was_ended ex_dd (KRun r)) /\
  d_spans <$> drun true ex_dd ddog0 = Some [DSpan "r" PNone [] [SError 1]; DSpan "s" (POuter 7) [] [SOk]; DSpan "t" (PSpan 0) [] [SError 1]; DSpan "x" (PSpan 1) [] [];
    DSpan "t:x" (PSpan 2) [] [SOk]; DSpan "t:y" (PSpan 2) [("x", 4)] [SError 1]].
Proof.
  split; [apply sensible_b; vm_compute; reflexivity|]. split; [|vm_compute; reflexivity].
  intros r Hr. apply started_b_spec, bool_decide_eq_true in Hr. apply ended_b_spec. cbn in Hr. repeat (apply elem_of_cons in Hr as [Hr|Hr]; [try done; injection Hr as ->; vm_compute; reflexivity|]). by apply elem_of_nil in Hr.
Qed.

Print Assumptions C81_otel_safe.
Print Assumptions C81_otel_partial.
Print Assumptions C81_runs_partial.
Print Assumptions C81_ddog.
Print Assumptions C81_ddog_empty.
Print Assumptions C81_threads_refuted.
Print Assumptions C81_hook_refuted.
Print Assumptions C81_falsy_refuted.
Print Assumptions C81_otel_example.
Print Assumptions C81_ddog_example.
