(** C21, C22, C25-C29: the task scheduler, the pools, the plan, the result cache. *)
From stdpp Require Import pretty.
From Verif Require Import Base Dict ExecModel TraverseModel TopoModel GroupModel StateModel StateProofs StateLive
  StateResults PlanProofs PlanCheck Strings PoolModel PoolProofs.
From Coq Require Import Ascii.

(** ** A concrete dataflow: [items] is Parallelizable, [work] is the block, [total] collects. *)
Inductive val := VN (n : nat) | VL (l : list val).
Definition vlist (v : val) : option (list val) := match v with VL l => Some l | VN _ => None end.
Definition num (o : option val) : nat := match o with Some (VN n) => n | _ => 0 end.
Lemma vlist_ok : forall l, vlist (VL l) = Some l.
Proof. done. Qed.

Definition gA : graph := {[
  "items" := Node false [] ["work"];
  "bias" := Node false [] ["work"];
  "work" := Node false [("items", REQUIRED); ("bias", REQUIRED)] ["total"];
  "total" := Node false [("work", REQUIRED)] [] ]}.
Definition rA (x : name) : role :=
  if bool_decide (x = "items") then RExpand else if bool_decide (x = "total") then RCollect else RStandard.
Definition cA (x : name) : name := "work".
Definition fA (x : name) (kw : gmap name val) : res string val :=
  if bool_decide (x = "items") then Ok (VL [VN 1; VN 2; VN 3])
  else if bool_decide (x = "bias") then Ok (VN 7)
  else if bool_decide (x = "work") then Ok (VN (10 * num (kw !! "items") + num (kw !! "bias")))
  else match kw !! "work" with Some v => Ok v | None => Err "no value" end.
Definition or_nil {A} (o : option (list A)) : list A := match o with Some l => l | None => [] end.
Definition groupsA := or_nil (group_by_blocks gA rA elements ["items"; "bias"; "work"; "total"]).
Definition planA : list (tspec val) := or_nil (create_task_plan gA (∅ : gmap name val) groupsA ["total"]).
Definition rankA (b : string) : nat :=
  if bool_decide (b = "block-items") then 1 else if bool_decide (b = "collect-items") then 2 else 0.
(** Blocks go to a pool of two, everything else runs in place; task [i] of the pool is done at
    observation 20 - i: in reverse order. *)
Definition whichA (t : timpl val) : nat := if bool_decide (ts_purpose (ti_spec t) = BLOCK) then 1 else 0.
Definition limitA (i : nat) : option nat := if bool_decide (i = 1) then Some 2 else None.
Definition finA (k : nat) (id : string) : bool :=
  (if bool_decide (id = "expand-items.0.block-items") then 20 else 15) <=? k.
Definition runA (n : nat) := run_graph gA rA cA vlist VL fA "TypeError" planA whichA limitA finA n ∅.

Example planA_wf : wf_plan planA /\ live_plan planA.
Proof.
  split; [apply check_plan_ok; vm_compute; reflexivity|]. apply (check_live_ok rankA). vm_compute. reflexivity.
Qed.
Example finA_mono : (forall k k' id, k <= k' -> finA k id = true -> finA k' id = true) /\ (forall id, exists k, finA k id = true).
Proof.
  unfold finA. split.
  - intros k k' id Hle. rewrite !Nat.leb_le. lia.
  - intros id. exists 20. case_bool_decide; done.
Qed.

(** ** C21 *)
(** In [tr] the task [T] has produced the list [items] as the value of its Parallelizable node. *)
Definition has_expanded {V E} (role_of : name -> role) (as_list : V -> option (list V)) (tr : list (tevent V E))
           (T : string) (items : list V) : Prop :=
  exists t calls results X v, TRun t calls (Ok results) ∈ tr /\ task_id t = T /\ X ∈ ts_nodes (ti_spec t) /\ role_of X = RExpand /\
    results !! X = Some v /\ as_list v = Some items.
(** The task of base id [d] is one that is repeated per item of [T]. *)
Definition per_item {V} (tasks : list (tspec V)) (T d : string) : Prop :=
  exists sp, sp ∈ tasks /\ ts_base sp = d /\ ts_spawn sp = Some T /\ ts_purpose sp <> GATHER.

Theorem C21_start_after_dependencies :
  forall (V E : Type) g role_of carg as_list mk_list f (not_iterable : E) (tasks : list (tspec V)) which limit fin cache0
         n tr1 t calls o tr2,
    (forall l, as_list (mk_list l) = Some l) -> wf_plan tasks ->
    trace_of_loop (run_graph g role_of carg as_list mk_list f not_iterable tasks which limit fin n cache0)
      = tr1 ++ TRun t calls o :: tr2 ->
    ti_spec t ∈ tasks /\
    match ts_spawn (ti_spec t) with
    | None => task_id t = ts_base (ti_spec t) /\ forall d, d ∈ ts_deps (ti_spec t) -> completed tr1 d
    | Some T => completed tr1 T /\ exists items, has_expanded role_of as_list tr1 T items /\
        (forall d, d ∈ ts_deps (ti_spec t) -> ~ per_item tasks T d -> completed tr1 d) /\
        if bool_decide (ts_purpose (ti_spec t) = GATHER)
        then task_id t = ts_base (ti_spec t) /\
             forall d i, d ∈ ts_deps (ti_spec t) -> per_item tasks T d -> i < length items ->
               completed tr1 (mk_task_id d (Some T) (Some (pretty i)))
        else exists i, i < length items /\ task_id t = mk_task_id (ts_base (ti_spec t)) (Some T) (Some (pretty i))
    end.
Proof.
  intros V E g role_of carg as_list mk_list f not_iterable tasks which limit fin cache0 n tr1 t calls o tr2 Hl Hp Heq.
  destruct (start_after g role_of carg as_list mk_list f not_iterable tasks which limit fin Hl Hp cache0 n tr1 t calls o tr2 Heq)
    as [Hin [(Hs & Hid & Hd)|(T & X & items & Hs & Hex & Hc & Hrest)]]; (split; [done|]); rewrite Hs; [done|].
  split; [done|]. exists items. cbn in Hrest.
  assert (Hhe : has_expanded role_of as_list tr1 T items).
  { destruct Hex as (_ & u & c & r & v & Hu & Hiu & _ & _ & _ & Hx & Hv & Hal). exists u, c, r, X, v.
    unfold expander_node in Hx. assert (HX : X ∈ filter (fun x => role_of x = RExpand) (ts_nodes (ti_spec u))).
    { destruct (filter _ _) as [|y l']; [done|]. injection Hx as ->. by left. }
    apply elem_of_list_filter in HX as [? ?]. done. }
  split; [done|]. destruct Hrest as [(Hg & i & Hi & Hid & Hd)|(Hg & Hid & Hd)].
  - rewrite bool_decide_false by done. split; [done|]. by exists i.
  - rewrite bool_decide_true by done. split; [|split; [done|]].
    + intros d Hin2 Hn. destruct (Hd d Hin2) as [_ H]. by apply H.
    + intros d i Hin2 Hpi Hi. destruct (Hd d Hin2) as [H _]. by apply H.
Qed.
Print Assumptions C21_start_after_dependencies.

Definition show {V E} (tr : list (tevent V E)) : list (string * string) :=
  map (fun e => match e with TRun t _ _ => ("run", task_id t) | TReject t => ("reject", task_id t) | TFinish id => ("finish", id) end) tr.
Definition is_done {V E} (o : loop_out V E) : bool := match o with LDone _ => true | _ => false end.
Definition final {V E} (o : loop_out V E) (x : name) : option V := match o with LDone r => es_cache (r_es r) !! x | _ => None end.

(** The pool of two rejects the third branch four times; the branches finish in the order 1, 2, 0. *)
Example C21_nonvacuous :
  wf_plan planA /\ is_done (runA 60) = true /\
  show (trace_of_loop (runA 60)) =
   [("run", "expand-items"); ("finish", "expand-items"); ("run", "bias"); ("finish", "bias");
    ("run", "expand-items.0.block-items"); ("run", "expand-items.1.block-items");
    ("reject", "expand-items.2.block-items"); ("reject", "expand-items.2.block-items");
    ("reject", "expand-items.2.block-items"); ("reject", "expand-items.2.block-items");
    ("finish", "expand-items.1.block-items"); ("run", "expand-items.2.block-items");
    ("finish", "expand-items.2.block-items"); ("finish", "expand-items.0.block-items");
    ("run", "collect-items"); ("finish", "collect-items")] /\
  final (runA 60) "total" = Some (VL [VN 17; VN 27; VN 37]).
Proof. split; [apply planA_wf|]. split_and!; vm_compute; reflexivity. Qed.

(** ** C22 *)
Theorem C22_each_task_once :
  forall (V E : Type) g role_of carg as_list mk_list f (not_iterable : E) (tasks : list (tspec V)) which limit fin cache0 n,
    (forall l, as_list (mk_list l) = Some l) -> wf_plan tasks ->
    let out := run_graph g role_of carg as_list mk_list f not_iterable tasks which limit fin n cache0 in
    (forall a t calls o b t' calls' o' c,
       trace_of_loop out = a ++ TRun t calls o :: b ++ TRun t' calls' o' :: c -> task_id t <> task_id t') /\
    (forall a id b c, trace_of_loop out <> a ++ TFinish id :: b ++ TFinish id :: c) /\
    (forall r, out = LRunning r \/ out = LDone r ->
       NoDup (map task_id (es_queue (r_es r))) /\
       forall t, t ∈ es_queue (r_es r) -> forall t' calls o, TRun t' calls o ∈ r_trace r -> task_id t' <> task_id t).
Proof.
  intros V E g role_of carg as_list mk_list f not_iterable tasks which limit fin cache0 n Hl Hp out. split_and!.
  - intros a t calls o b t' calls' o' c Heq. by eapply run_once.
  - intros a id b c. by apply (finish_once g role_of carg as_list mk_list f not_iterable tasks which limit fin Hl Hp cache0).
  - intros r Hr. by apply (queue_nodup g role_of carg as_list mk_list f not_iterable tasks which limit fin Hl Hp cache0 n).
Qed.
Print Assumptions C22_each_task_once.

Example C22_nonvacuous : wf_plan planA /\ is_done (runA 60) = true /\ length (run_ids (trace_of_loop (runA 60))) = 6 /\
  length (trace_of_loop (runA 60)) = 16.
Proof. split; [apply planA_wf|]. split_and!; vm_compute; reflexivity. Qed.

(** ** C25 *)
Lemma running_not_terminal {V E : Type} g role_of carg as_list mk_list f (not_iterable : E) (tasks : list (tspec V)) which limit fin n : forall k r0 r,
  run_loop g role_of carg as_list mk_list f not_iterable tasks which limit fin n k r0 = LRunning r -> is_terminal (graph_state (r_es r)) = false.
Proof.
  induction n as [|n IH]; intros k r0 r; cbn [run_loop]; destruct (is_terminal (graph_state (r_es r0))) eqn:Ht; try done.
  - by intros [= <-].
  - destruct (iteration _ _ _ _ _ _ _ _ _ _ _ _ _); [apply IH|done].
Qed.
Theorem C25_progress :
  forall (V E : Type) g role_of carg as_list mk_list f (not_iterable : E) (tasks : list (tspec V)) which limit fin cache0 n r,
    (forall l, as_list (mk_list l) = Some l) -> wf_plan tasks -> live_plan tasks ->
    run_graph g role_of carg as_list mk_list f not_iterable tasks which limit fin n cache0 = LRunning r ->
    r_futures r <> [] \/ es_queue (r_es r) <> [].
Proof.
  intros V E g role_of carg as_list mk_list f not_iterable tasks which limit fin cache0 n r Hl Hp Hlive Hr.
  pose proof (loop_inv g role_of carg as_list mk_list f not_iterable tasks which limit fin Hl Hp cache0 n 0 _
    (init_inv g role_of carg as_list mk_list f not_iterable tasks Hp cache0)) as H.
  unfold run_graph in Hr. rewrite Hr in H. eapply not_stuck; [done|done|done|].
  by eapply running_not_terminal.
Qed.
Print Assumptions C25_progress.

Theorem C25_terminates :
  forall (V E : Type) g role_of carg as_list mk_list f (not_iterable : E) (tasks : list (tspec V)) which limit fin cache0,
    (forall l, as_list (mk_list l) = Some l) -> wf_plan tasks -> live_plan tasks ->
    (forall k k' id, k <= k' -> fin k id = true -> fin k' id = true) -> (forall id, exists k, fin k id = true) ->
    (forall i m, limit i = Some m -> 0 < m) ->
    exists n, forall r, run_graph g role_of carg as_list mk_list f not_iterable tasks which limit fin n cache0 <> LRunning r.
Proof. intros V E g role_of carg as_list mk_list f not_iterable tasks which limit fin cache0 Hl Hp Hlive Hm Hev Hpos. by apply run_ends. Qed.
Print Assumptions C25_terminates.

(** A run that ended normally has done everything: every task ran, the repeated ones for every item. *)
Theorem C25_complete :
  forall (V E : Type) g role_of carg as_list mk_list f (not_iterable : E) (tasks : list (tspec V)) which limit fin cache0 n r,
    (forall l, as_list (mk_list l) = Some l) -> wf_plan tasks -> live_plan tasks ->
    run_graph g role_of carg as_list mk_list f not_iterable tasks which limit fin n cache0 = LDone r ->
    forall sp, sp ∈ tasks ->
      match ts_spawn sp with
      | None => completed (r_trace r) (ts_base sp)
      | Some T => exists items, has_expanded role_of as_list (r_trace r) T items /\
          if bool_decide (ts_purpose sp = GATHER) then completed (r_trace r) (ts_base sp)
          else forall i, i < length items -> completed (r_trace r) (mk_task_id (ts_base sp) (Some T) (Some (pretty i)))
      end.
Proof.
  intros V E g role_of carg as_list mk_list f not_iterable tasks which limit fin cache0 n r Hl Hp Hlive Hr sp Hsp.
  pose proof (loop_inv g role_of carg as_list mk_list f not_iterable tasks which limit fin Hl Hp cache0 n 0 _
    (init_inv g role_of carg as_list mk_list f not_iterable tasks Hp cache0)) as H.
  pose proof (run_fin_ok g role_of carg as_list mk_list f not_iterable tasks which limit fin Hl Hp cache0 n) as Hf.
  rewrite Hr in Hf. cbn in Hf.
  unfold run_graph in Hr. rewrite Hr in H. destruct H as [HR Ht].
  pose proof (terminal_done g role_of carg as_list mk_list f not_iterable tasks Hp Hlive cache0 r HR Ht sp Hsp) as Hd.
  unfold done in Hd. destruct (ts_spawn sp) as [T|]; [|by apply finished_completed].
  destruct Hd as (X & l & Hex & Hd). exists l. split.
  - destruct Hex as (_ & u & c & rs & v & Hu & Hiu & _ & _ & _ & Hx & Hv & Hal). exists u, c, rs, X, v.
    unfold expander_node in Hx. assert (HX : X ∈ filter (fun x => role_of x = RExpand) (ts_nodes (ti_spec u))).
    { destruct (filter _ _) as [|y l']; [done|]. injection Hx as ->. by left. }
    apply elem_of_list_filter in HX as [? ?]. done.
  - case_bool_decide; [by apply finished_completed|]. intros i Hi. apply finished_completed; [done|].
    destruct (lookup_lt_is_Some_2 l i Hi) as [v Hv]. by eapply Hd.
Qed.
Print Assumptions C25_complete.

Example C25_nonvacuous :
  wf_plan planA /\ live_plan planA /\ (forall i m, limitA i = Some m -> 0 < m) /\ is_done (runA 5) = false /\ is_done (runA 60) = true.
Proof.
  split; [apply planA_wf|]. split; [apply planA_wf|]. split.
  - unfold limitA. intros i m. case_bool_decide; [intros [= <-]; lia|done].
  - split; vm_compute; reflexivity.
Qed.

(** A state with nothing queued and nothing in flight that is not terminal is never left. *)
Lemma stuck_forever {V E : Type} g role_of carg as_list mk_list f (not_iterable : E) (tasks : list (tspec V)) which limit fin n : forall k r,
  is_terminal (graph_state (r_es r)) = false -> es_queue (r_es r) = [] -> r_futures r = [] ->
  run_loop g role_of carg as_list mk_list f not_iterable tasks which limit fin n k r = LRunning r.
Proof.
  induction n as [|n IH]; intros k r Ht Hq Hf; cbn [run_loop]; rewrite Ht; [done|].
  unfold iteration, submit_next. rewrite Hq, Hf. cbn [poll]. by apply IH.
Qed.
Lemma run_loop_add {V E : Type} g role_of carg as_list mk_list f (not_iterable : E) (tasks : list (tspec V)) which limit fin m n : forall k r,
  run_loop g role_of carg as_list mk_list f not_iterable tasks which limit fin (m + n) k r =
  match run_loop g role_of carg as_list mk_list f not_iterable tasks which limit fin m k r with
  | LRunning r' => run_loop g role_of carg as_list mk_list f not_iterable tasks which limit fin n (k + m) r'
  | o => o
  end.
Proof.
  induction m as [|m IH]; intros k r; cbn [run_loop Nat.add].
  - rewrite Nat.add_0_r. destruct n as [|n]; cbn [run_loop]; destruct (is_terminal (graph_state (r_es r))) eqn:Ht; cbn; rewrite ?Ht; done.
  - destruct (is_terminal (graph_state (r_es r))); [done|]. destruct (iteration _ _ _ _ _ _ _ _ _ _ _ _ _); [|done].
    rewrite IH. by rewrite Nat.add_succ_comm.
Qed.
Definition is_stuck {V E} (o : loop_out V E) : bool :=
  match o with
  | LRunning r => match es_queue (r_es r), r_futures r with [], [] => true | _, _ => false end
  | _ => false
  end.
Lemma stuck_run {V E : Type} g role_of carg as_list mk_list f (not_iterable : E) (tasks : list (tspec V)) which limit fin cache m :
  is_stuck (run_graph g role_of carg as_list mk_list f not_iterable tasks which limit fin m cache) = true ->
  forall n, exists r, run_graph g role_of carg as_list mk_list f not_iterable tasks which limit fin n cache = LRunning r.
Proof.
  unfold run_graph. generalize (RState (E:=E) (init_state tasks cache) [] [] []), 0. intros r0 k Hs n.
  destruct (run_loop g role_of carg as_list mk_list f not_iterable tasks which limit fin m k r0) as [|e tr|r] eqn:Hm; try done.
  cbn in Hs. destruct (es_queue (r_es r)) eqn:Hq; [|done]. destruct (r_futures r) eqn:Hf; [|done].
  assert (Hnt : is_terminal (graph_state (r_es r)) = false).
  { by eapply running_not_terminal. }
  destruct (le_lt_dec n m) as [Hle|Hlt].
  - replace m with (n + (m - n)) in Hm by lia. rewrite run_loop_add in Hm.
    destruct (run_loop _ _ _ _ _ _ _ _ _ _ _ n k r0) as [| |r']; try done. by exists r'.
  - replace n with (m + (n - m)) by lia. rewrite run_loop_add, Hm. exists r. by apply stuck_forever.
Qed.

(** Finding: with no task at all (no variable requested, or only runtime inputs in a plan without
    tasks) the loop never ends: the state of an empty graph is INITIALIZED, which is not terminal. *)
Theorem C25_empty_plan_refuted :
  exists g role_of carg f, forall which limit fin n cache, exists r,
    run_graph (V:=val) (E:=string) g role_of carg vlist VL f "TypeError" [] which limit fin n cache = LRunning r.
Proof.
  exists gA, rA, cA, fA. intros which limit fin n cache. apply (stuck_run _ _ _ _ _ _ _ _ _ _ _ _ 0). reflexivity.
Qed.
Print Assumptions C25_empty_plan_refuted.

(** Finding: a variable outside the block that uses a variable of the block. [peek] depends on
    [block-items], an id no realized task ever has, and the loop never ends. *)
Definition gB : graph := {[
  "items" := Node false [] ["work"];
  "work" := Node false [("items", REQUIRED)] ["total"; "peek"];
  "peek" := Node false [("work", REQUIRED)] [];
  "total" := Node false [("work", REQUIRED)] [] ]}.
Definition planB : list (tspec val) :=
  or_nil (create_task_plan gB (∅ : gmap name val) (or_nil (group_by_blocks gB rA elements ["items"; "peek"; "work"; "total"])) ["total"; "peek"]).
Theorem C25_block_variable_used_outside_refuted :
  wf_plan planB /\ length planB = 4 /\
  forall n, exists r, run_graph gB rA cA vlist VL fA "TypeError" planB whichA limitA finA n ∅ = LRunning r.
Proof.
  split; [apply check_plan_ok; vm_compute; reflexivity|]. split; [vm_compute; reflexivity|].
  apply (stuck_run _ _ _ _ _ _ _ _ _ _ _ _ 60). vm_compute. reflexivity.
Qed.
Print Assumptions C25_block_variable_used_outside_refuted.

(** Finding: a variable outside the block that uses only the Parallelizable variable is never
    computed, although the run ends normally. *)
Definition gC : graph := {[
  "items" := Node false [] ["work"; "count"];
  "work" := Node false [("items", REQUIRED)] ["total"];
  "count" := Node false [("items", REQUIRED)] [];
  "total" := Node false [("work", REQUIRED)] [] ]}.
Definition planC : list (tspec val) :=
  or_nil (create_task_plan gC (∅ : gmap name val) (or_nil (group_by_blocks gC rA elements ["items"; "count"; "work"; "total"])) ["total"; "count"]).
Definition runC := run_graph gC rA cA vlist VL fA "TypeError" planC whichA limitA finA 60 ∅.
Theorem C25_expander_consumer_refuted :
  wf_plan planC /\ "count" ∈ map ts_base planC /\ is_done runC = true /\ final runC "count" = None /\
  "count" ∉ run_ids (trace_of_loop runC).
Proof.
  split; [apply check_plan_ok; vm_compute; reflexivity|].
  split; [apply (bool_decide_unpack _); vm_compute; done|]. split_and!; [vm_compute; reflexivity|vm_compute; reflexivity|].
  apply (bool_decide_unpack _). vm_compute. done.
Qed.
Print Assumptions C25_expander_consumer_refuted.

(** ** C26 *)
(** Among the tasks handed to pool [i] in [tr], those whose future is not done at observation [K]. *)
Theorem C26_pool_bound :
  forall (V E : Type) g role_of carg as_list mk_list f (not_iterable : E) (tasks : list (tspec V)) which limit fin cache0 n K i m r r1,
    (forall l, as_list (mk_list l) = Some l) -> wf_plan tasks ->
    (forall k k' id, k <= k' -> fin k id = true -> fin k' id = true) ->
    limit i = Some m ->
    run_graph g role_of carg as_list mk_list f not_iterable tasks which limit fin n cache0 = LRunning r ->
    submit_next g role_of carg as_list mk_list f not_iterable which limit fin (2 * n) r = SNext r1 -> 2 * n <= K ->
    length (in_flight which fin K i (r_trace r1)) <= m.
Proof.
  intros V E g role_of carg as_list mk_list f not_iterable tasks which limit fin cache0 n K i m r r1 Hl Hp Hm Hli Hr Hs HK.
  by eapply pool_bound.
Qed.
Print Assumptions C26_pool_bound.

(** After seven iterations the pool of two is full and a third branch is waiting. *)
Example C26_nonvacuous :
  match runA 6 with
  | LRunning r => match submit_next gA rA cA vlist VL fA "TypeError" whichA limitA finA 12 r with
                  | SNext r1 => (in_flight whichA finA 12 1 (r_trace r1), map task_id (es_queue (r_es r1)))
                  | _ => ([], [])
                  end
  | _ => ([], [])
  end = (["expand-items.0.block-items"; "expand-items.1.block-items"], ["expand-items.2.block-items"]).
Proof. vm_compute. reflexivity. Qed.

(** ** C27 *)
(** No faults: whatever the outcome of the run, the pools are as before, and the outcome is passed on. *)
Theorem C27_finalized_partial :
  forall (E A : Type) create_fault shutdown_fault (already not_init : E) (o : gset nat) l (body : res E A),
    NoDup (pool_ids l) -> (forall i, i ∈ pool_ids l -> i ∉ o /\ create_fault i = None /\ shutdown_fault i = None) ->
    managed_run create_fault shutdown_fault already not_init o l body = (o, body).
Proof. intros. by apply run_clean. Qed.
Print Assumptions C27_finalized_partial.

(** What exactly stays open when creating or shutting down a pool fails. *)
Theorem C27_leaks_exactly :
  forall (E A : Type) create_fault shutdown_fault (already not_init : E) (o : gset nat) l1 x l2 e (body : res E A),
    ex_pool x = true -> NoDup (pool_ids (l1 ++ x :: l2)) -> (forall i, i ∈ pool_ids (l1 ++ x :: l2) -> i ∉ o) ->
    (create_fault (ex_id x) = Some e -> (forall i, i ∈ pool_ids l1 -> create_fault i = None) ->
     managed_run create_fault shutdown_fault already not_init o (l1 ++ x :: l2) body = (list_to_set (pool_ids l1) ∪ o, Err e)) /\
    (shutdown_fault (ex_id x) = Some e -> (forall i, i ∈ pool_ids (l1 ++ x :: l2) -> create_fault i = None) ->
     (forall i, i ∈ pool_ids l1 -> shutdown_fault i = None) ->
     managed_run create_fault shutdown_fault already not_init o (l1 ++ x :: l2) body = (list_to_set (pool_ids (x :: l2)) ∪ o, Err e)).
Proof.
  intros E A cf sf already not_init o l1 x l2 e body Hp Hnd Ho. split.
  - intros Hc Hl1. rewrite pool_ids_app, pool_ids_cons, Hp in *.
    assert (Heq : pool_ids (l1 ++ [x]) = pool_ids l1 ++ [ex_id x]) by (by rewrite pool_ids_app, pool_ids_cons, Hp).
    apply run_create_fault; [done|done| | |done]; rewrite Heq.
    + eapply sublist_nodup; [|exact Hnd]. apply sublist_app; [done|]. apply sublist_skip, sublist_nil_l.
    + intros i [?|?%elem_of_list_singleton]%elem_of_app; apply Ho, elem_of_app; [by left|right; subst; by left].
  - intros Hs Hc Hl1. apply run_shutdown_fault; [done|done|done| |done]. intros i Hi. split; [by apply Ho|by apply Hc].
Qed.
Print Assumptions C27_leaks_exactly.

Definition p1 := Executor 1 true.
Definition p2 := Executor 2 true.
Definition shows {E A} (r : gset nat * res E A) : list nat * res E A := (elements r.1, r.2).
Example C27_nonvacuous :
  shows (managed_run (E:=string) (A:=nat) (fun _ => None) (fun _ => None) "already" "not" ∅ [p1; Executor 3 false; p2] (Err "task failed"))
    = ([], Err "task failed") /\
  shows (managed_run (E:=string) (A:=nat) (fun _ => None) (fun _ => None) "already" "not" {[7]} [p1; Executor 3 false; p2] (Ok 5))
    = ([7], Ok 5).
Proof. split; vm_compute; reflexivity. Qed.

(** Finding: an executor initialised by the run is left open when a later one cannot be initialised,
    when an earlier one cannot be shut down, and when the same pool serves as local and remote executor. *)
Theorem C27_init_fault_refuted : exists create_fault,
  let r := managed_run (E:=string) (A:=nat) create_fault (fun _ => None) "already" "not" ∅ [p1; p2] (Ok 0) in
  r.2 = Err "no processes" /\ 1 ∈ r.1.
Proof.
  exists (fun i => if bool_decide (i = 2) then Some "no processes" else None). split; [vm_compute; reflexivity|].
  apply (bool_decide_unpack _). vm_compute. done.
Qed.
Print Assumptions C27_init_fault_refuted.
Theorem C27_finalize_fault_refuted : exists shutdown_fault,
  let r := managed_run (E:=string) (A:=nat) (fun _ => None) shutdown_fault "already" "not" ∅ [p1; p2] (Ok 0) in
  r.2 = Err "broken pool" /\ 2 ∈ r.1.
Proof.
  exists (fun i => if bool_decide (i = 1) then Some "broken pool" else None). split; [vm_compute; reflexivity|].
  apply (bool_decide_unpack _). vm_compute. done.
Qed.
Print Assumptions C27_finalize_fault_refuted.
Theorem C27_shared_pool_refuted : exists p,
  let r := managed_run (E:=string) (A:=nat) (fun _ => None) (fun _ => None) "already" "not" ∅ [p; p] (Ok 0) in
  r.2 = Err "already" /\ ex_id p ∈ r.1.
Proof. exists p1. split; [vm_compute; reflexivity|]. apply (bool_decide_unpack _). vm_compute. done. Qed.
Print Assumptions C27_shared_pool_refuted.

(** ** C28 *)
Theorem C28_plan_dataflow :
  forall (V : Type) g (overrides : gmap name V) groups outputs plan,
    wf_graph g ->
    (forall ng ng' x, ng ∈ groups -> ng' ∈ groups -> x ∈ ng_nodes ng -> x ∈ ng_nodes ng' -> ng_base ng = ng_base ng') ->
    create_task_plan g overrides groups outputs = Some plan ->
    map ts_base plan = map ng_base groups /\
    forall t, t ∈ plan -> exists ng, ng ∈ groups /\ ts_base t = ng_base ng /\ ts_spawn t = ng_spawn ng /\
      ts_nodes t = ng_nodes ng /\ ts_purpose t = ng_purpose ng /\ NoDup (ts_deps t) /\
      (* it depends on task U iff a non-overridden node of it has a non-overridden dependency in U *)
      (forall U, U ∈ ts_deps t <-> exists x d ng', ng' ∈ groups /\ ng_base ng' = U /\ x ∈ ng_nodes ng /\ edge g x d /\
         d ∈ ng_nodes ng' /\ d ∉ ng_nodes ng /\ overrides !! x = None /\ overrides !! d = None) /\
      (* it reports the values requested or used elsewhere *)
      (forall x, x ∈ ts_outputs t <-> x ∈ ng_nodes ng /\ overrides !! x = None /\
         (x ∈ outputs \/ exists w, is_Some (g !! x) /\ edge g w x /\ overrides !! w = None /\ w ∉ ng_nodes ng)) /\
      (forall x, ts_overrides t !! x = if bool_decide (x ∈ ng_nodes ng) then overrides !! x else None).
Proof.
  intros V g ov groups outputs plan Hwf Hdis Hp. destruct (plan_spec g ov groups outputs plan Hwf Hdis Hp) as (H1 & H2 & _). done.
Qed.
Print Assumptions C28_plan_dataflow.

Theorem C28_plan_rejected :
  forall (V : Type) g (overrides : gmap name V) groups outputs,
    (forall ng ng' x, ng ∈ groups -> ng' ∈ groups -> x ∈ ng_nodes ng -> x ∈ ng_nodes ng' -> ng_base ng = ng_base ng') ->
    create_task_plan g overrides groups outputs = None <->
    exists ng x d, ng ∈ groups /\ x ∈ ng_nodes ng /\ overrides !! x = None /\
      (exists nd, g !! x = Some nd /\ (d, REQUIRED) ∈ nd_deps nd) /\ overrides !! d = None /\
      forall ng', ng' ∈ groups -> d ∉ ng_nodes ng'.
Proof. intros. by apply plan_fails. Qed.
Print Assumptions C28_plan_rejected.

Example C28_nonvacuous :
  map (fun t => (ts_base t, ts_deps t, ts_outputs t)) planA =
    [("expand-items", [], ["items"]); ("block-items", ["expand-items"; "bias"], ["work"]);
     ("collect-items", ["block-items"], ["total"]); ("bias", [], ["bias"])] /\
  create_task_plan gA (∅ : gmap name val) [NGroup "work" None ["work"] SINGLE] ["work"] = None.
Proof. split; vm_compute; reflexivity. Qed.

(** ** C29 *)
(** A branch writes its results; what is read for the same variable in another branch, or outside
    every branch, is not affected. Group ids are numbers printed in decimal. *)
Theorem C29_branches_separate :
  forall (V : Type) (c : gmap string V) (results : gmap name V) (T T' : string) (i i' : nat) (x : name),
    lacks ":" T -> lacks ":" T' ->
    ((T, i) <> (T', i') ->
       cache_write c results (Some (pretty i)) (Some T) !! format_key (Some (pretty i')) (Some T') x =
       c !! format_key (Some (pretty i')) (Some T') x) /\
    (lacks ":" x -> cache_write c results (Some (pretty i)) (Some T) !! format_key None None x = c !! format_key None None x) /\
    (forall v, results !! x = Some v -> cache_write c results (Some (pretty i)) (Some T) !! format_key (Some (pretty i)) (Some T) x = Some v).
Proof. exact @cache_branches. Qed.
Print Assumptions C29_branches_separate.

(** Two branches write different values; each reads its own, and nothing appears outside. *)
Example C29_nonvacuous :
  let c := cache_write (cache_write ∅ {[ "work" := VN 10 ]} (Some (pretty 1)) (Some "expand-items")) {[ "work" := VN 20 ]} (Some (pretty 11)) (Some "expand-items") in
  lacks ":" "expand-items" /\ lacks ":" "work" /\
  c !! format_key (Some (pretty 1)) (Some "expand-items") "work" = Some (VN 10) /\
  c !! format_key (Some (pretty 11)) (Some "expand-items") "work" = Some (VN 20) /\ c !! format_key None None "work" = None.
Proof.
  split_and!; [apply (bool_decide_unpack _); vm_compute; done|apply (bool_decide_unpack _); vm_compute; done
    |vm_compute; reflexivity|vm_compute; reflexivity|vm_compute; reflexivity].
Qed.

(** Finding: the keys are plain joins with ':', so for arbitrary names two different places share a key. *)
Theorem C29_arbitrary_names_refuted :
  exists T T' i i' x x', (T, i, x) <> (T', i', x') /\ format_key (Some i) (Some T) x = format_key (Some i') (Some T') x' /\
    exists y, format_key None None y = format_key (Some i) (Some T) x.
Proof. exists "a:0", "a", "1", "0", "x", "1:x". split; [done|]. split; [reflexivity|]. exists "a:0:1:x". reflexivity. Qed.
Print Assumptions C29_arbitrary_names_refuted.
