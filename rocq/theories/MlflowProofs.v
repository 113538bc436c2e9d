From Verif Require Import Base Dict MlflowModel MlflowSpec.

Section Proofs.
Context {V : Type}.
Variable as_float : V -> option V.
Variable pickles : V -> bool.
Variable none : V.
Variable pop : list string -> string.
Variable shown : V -> string.
Variable meta : V -> option (option string * option string * option (string * string)).
Notation st := (mstate V).
Notation after := (after_node as_float pickles pop meta).
Notation runs := (run_nodes as_float pickles none pop meta).
Notation exec := (execute as_float pickles none pop shown meta).

(** What a step may change: only the current run *)
Definition only_current (s s' : st) : Prop :=
  ms_active s' = ms_active s /\ ms_current s' = ms_current s /\ length (ms_runs s') = length (ms_runs s) /\ forall i, i <> ms_current s -> ms_runs s' !! i = ms_runs s !! i.
Lemma only_refl s : only_current s s.
Proof. done. Qed.
Lemma only_trans s1 s2 s3 : only_current s1 s2 -> only_current s2 s3 -> only_current s1 s3.
Proof. intros (D1 & A1 & B1 & C1) (D2 & A2 & B2 & C2). split; [congruence|]. split; [congruence|]. split; [congruence|]. intros i Hi. rewrite C2, C1; congruence. Qed.
Lemma only_on f (s : st) : only_current s (on_current f s).
Proof. split; [done|]. split; [done|]. cbn. split; [apply alter_length|]. intros i Hi. by rewrite list_lookup_alter_ne. Qed.
Lemma only_log i (s : st) : only_current s (log i s).
Proof. apply only_on. Qed.
Lemma only_param k v s r s' : log_param shown k v s = (r, s') -> only_current s s'.
Proof.
  unfold log_param. destruct (ms_runs s !! ms_current s); [|by intros [= <- <-]]. destruct (dget (mr_params m) k); [destruct (decide (s0 = shown v)); by intros [= <- <-]|].
  intros [= <- <-]. apply only_on.
Qed.
Lemma only_params d s r s' : log_params shown d s = (r, s') -> only_current s s'.
Proof.
  revert s. induction d as [|[k v] d IH]; intros s; cbn [log_params]; [by intros [= <- <-]|].
  destruct (log_param shown k v s) as [[u|e] s1] eqn:E; apply only_param in E; [|by intros [= <- <-]]. intros H. eapply only_trans; [done|]. by apply IH.
Qed.
Lemma only_after final n v s r s' : after final n v s = (r, s') -> only_current s s'.
Proof.
  unfold after_node. intros H.
  repeat match type of H with
         | context [if ?x then _ else _] => destruct x
         | context [match ?x with _ => _ end] => destruct x
         end; injection H as <- <-; first [apply only_refl|apply only_log].
Qed.
Lemma only_runs final ns s r s' : runs final ns s = (r, s') -> only_current s s'.
Proof.
  revert s. induction ns as [|[n [v|e]] ns IH]; intros s; cbn [run_nodes]; [by intros [= <- <-]| |].
  - destruct (after final n v s) as [[u|e] s1] eqn:E; apply only_after in E; [|by intros [= <- <-]]. intros H. eapply only_trans; [done|]. by apply IH.
  - destruct (after final n none s) as [[u|e'] s1] eqn:E; apply only_after in E; by intros [= <- <-].
Qed.
Lemma only_before existing id version c i s r s' : before_graph shown existing id version c i s = (r, s') ->
  exists a, only_current (MState (ms_runs s ++ [MRun RUNNING id version [] []]) a (length (ms_runs s))) s' /\ (r = Ok tt -> a = Some (length (ms_runs s))).
Proof.
  unfold before_graph. cbn zeta. cbn [ms_active ms_runs ms_current]. destruct (ms_active s); [intros [= <- <-]; by eexists|].
  match goal with |- context [log_params shown c ?x] => assert (H0 : only_current (MState (ms_runs s ++ [MRun RUNNING id version [] []]) (Some (length (ms_runs s))) (length (ms_runs s))) x); [|destruct (log_params shown c x) as [r1 s1] eqn:E] end.
  { eapply only_trans; [|apply only_log]. apply only_log. }
  apply only_params in E. intros H1. exists (Some (length (ms_runs s))). split; [|done]. destruct r1; [destruct i|]; [|injection H1 as <- <-; by eapply only_trans|injection H1 as <- <-; by eapply only_trans].
  apply only_params in H1. eapply only_trans; [done|]. by eapply only_trans.
Qed.
Lemma only_terminated x (s : st) : only_current s (set_terminated (ms_current s) x s).
Proof. split; [done|]. split; [done|]. cbn. split; [apply alter_length|]. intros i Hi. by rewrite list_lookup_alter_ne. Qed.
(** Whatever happens, there is one more run and the others are as they were *)
Lemma execute_adds existing q s : length (ms_runs (exec existing q s).2) = S (length (ms_runs s)) /\
  forall i, i < length (ms_runs s) -> ms_runs (exec existing q s).2 !! i = ms_runs s !! i.
Proof.
  assert (H : length (ms_runs (exec existing q s).2) = length (ms_runs s ++ [MRun RUNNING (mq_run q) (mq_version q) [] []]) /\
    forall i, i <> length (ms_runs s) -> ms_runs (exec existing q s).2 !! i = (ms_runs s ++ [MRun RUNNING (mq_run q) (mq_version q) [] []]) !! i).
  { unfold execute. destruct (before_graph _ _ _ _ _ _ s) as [r1 s1] eqn:E. apply only_before in E as (a & E & Ha). destruct r1 as [[]|]; [|destruct E as (_ & _ & Hl & Hi); done].
    rewrite (Ha eq_refl) in E. destruct (runs (mq_final q) (mq_nodes q) s1) as [r2 s2] eqn:E2. apply only_runs in E2. cbn [snd].
    unfold after_graph. match goal with |- context [set_terminated (ms_current s2) ?x s2] => pose proof (only_terminated x s2) as E3; set (s3 := set_terminated (ms_current s2) x s2) in * end.
    assert (E4 := only_trans _ _ _ E (only_trans _ _ _ E2 E3)). clearbody s3. destruct E4 as (Hac & Hcur & Hl & Hi). cbn in Hac, Hcur, Hl, Hi.
    unfold end_run. rewrite Hac. cbn. split; [by rewrite alter_length|]. intros i Hne. rewrite list_lookup_alter_ne by done. by apply Hi. }
  destruct H as (Hl & Hi). rewrite app_length in Hl. cbn in Hl. split; [lia|]. intros i Hlt. rewrite Hi by lia. by rewrite lookup_app_l.
Qed.

(** States whose last run is the current one *)
Definition at_last (rs : list (mrun V)) (r : mrun V) (a : option nat) : st := MState (rs ++ [r]) a (length rs).
Lemma on_last f rs r a : on_current f (at_last rs r a) = at_last rs (f r) a.
Proof. unfold on_current, at_last. cbn. f_equal. rewrite <- (Nat.add_0_r (length rs)) at 1. by rewrite alter_app_r. Qed.
Lemma log_last i rs x h w p is a : log i (at_last rs (MRun x h w p is) a) = at_last rs (MRun x h w p (is ++ [i])) a.
Proof. unfold log. by rewrite on_last. Qed.
Lemma param_last k v rs x h w p is a : log_param shown k v (at_last rs (MRun x h w p is) a) =
  match dget p k with
  | Some u => if decide (u = shown v) then (Ok tt, at_last rs (MRun x h w p is) a) else (Err MParam, at_last rs (MRun x h w p is) a)
  | None => (Ok tt, at_last rs (MRun x h w (dset p k (shown v)) is) a)
  end.
Proof.
  unfold log_param. rewrite on_last. unfold at_last at 1 2. cbn [ms_runs ms_current]. rewrite list_lookup_middle by done. cbn [mr_params]. done.
Qed.
Lemma params_last d rs x h w p is a : NoDup (map fst d) -> (forall k v u, dget p k = Some v -> dget d k = Some u -> v = shown u) ->
  exists p', log_params shown d (at_last rs (MRun x h w p is) a) = (Ok tt, at_last rs (MRun x h w p' is) a) /\
    forall k, dget p' k = match dget p k with Some v => Some v | None => shown <$> dget d k end.
Proof.
  revert p. induction d as [|[k v] d IH]; intros p Hnd Hag.
  - exists p. split; [done|]. intros k. by destruct (dget p k).
  - cbn [log_params]. rewrite param_last. inversion Hnd as [|? ? Hk Hnd' Heq]; subst.
    assert (Hd : dget d k = None) by (by apply dget_None_key).
    assert (Hself : dget ((k, v) :: d) k = Some v) by (cbn [dget]; by rewrite decide_True).
    assert (Hother : forall k', k' <> k -> dget ((k, v) :: d) k' = dget d k') by (intros k' Hk'; cbn [dget]; by rewrite decide_False).
    destruct (dget p k) as [u|] eqn:Ep.
    + rewrite (Hag k u v Ep Hself) in *. rewrite decide_True by done.
      destruct (IH p Hnd') as (p' & E & Hp').
      { intros k' v' u' H1 H2. apply (Hag k' v' u' H1). destruct (decide (k' = k)) as [->|Hne]; [congruence|]. by rewrite Hother. }
      exists p'. split; [done|]. intros k'. rewrite Hp'. destruct (decide (k' = k)) as [->|Hne]; [by rewrite Ep|]. by rewrite Hother.
    + destruct (IH (dset p k (shown v)) Hnd') as (p' & E & Hp').
      { intros k' v' u' H1 H2. destruct (decide (k' = k)) as [->|Hne]; [congruence|]. rewrite dget_dset_ne in H1 by done. apply (Hag k' v' u' H1). by rewrite Hother. }
      exists p'. split; [done|]. intros k'. rewrite Hp'. destruct (decide (k' = k)) as [->|Hne]; [by rewrite dget_dset_eq, Ep, Hself|]. rewrite dget_dset_ne, Hother; done.
Qed.

Hypothesis pop_in : forall x l, pop (x :: l) ∈ x :: l.
Lemma pop_one x : pop [x] = x.
Proof. by apply elem_of_list_singleton, pop_in. Qed.
Lemma saved_path v p : where_saved meta v p -> exists o, get_path_from_metadata meta v = Ok o /\ truthy o = Some p.
Proof. unfold get_path_from_metadata. intros [q f r E Hq|q r E Hq]; rewrite E; exists (Some q); (split; [done|]); by destruct q. Qed.
Lemma unsaid_path v : not_said meta v -> exists o, get_path_from_metadata meta v = Ok o /\ truthy o = None.
Proof. unfold get_path_from_metadata. intros [f r E|r E|r E]; rewrite E; by eexists. Qed.

Lemma after_logs final n v is rs x h w p js a : logs as_float pickles meta final n v is ->
  after final n v (at_last rs (MRun x h w p js) a) = (Ok tt, at_last rs (MRun x h w p (js ++ is)) a).
Proof.
  intros H. unfold after_node. destruct H as [v Hs Hf|v u Hs Hf Ht Hv|v Hs Hf Ht|v Hs Hf Ht1 Ht2 Ht3 Hv|sink v q Hs H1 H2 H3 Hw|sink v Hs H1 H2 H3 Hw|sink v y f Hs Ht Hr Hk Hw|sink v y f q Hs Ht Hr Hk Hw|v q f m u y Hs Hm Hr|v q f Hs Hm]; rewrite Hs.
  - destruct (decide (mn_name n ∈ final)); [done|]. by rewrite app_nil_r.
  - destruct (decide (mn_name n ∈ final)); [|done]. destruct (decide (mn_type n ∈ [TFloat; TInt])) as [_|Hn]; [|destruct Hn; destruct Ht as [-> | ->]; [by left|right; by left]].
    rewrite Hv. by rewrite log_last.
  - destruct (decide (mn_name n ∈ final)); [|done]. rewrite Ht. destruct (decide (TFigure ∈ [TFloat; TInt])) as [Hn|_]; [by repeat (apply elem_of_cons in Hn as [Hn|Hn]; [done|]); apply elem_of_nil in Hn|].
    cbn [isinstance_str isinstance_dict]. destruct (decide (TFigure = TFigure)); [|done]. by rewrite log_last.
  - destruct (decide (mn_name n ∈ final)); [|done]. destruct (decide (mn_type n ∈ [TFloat; TInt])) as [Hn|_]; [apply elem_of_cons in Hn as [Hn|Hn]; [done|]; by apply elem_of_list_singleton in Hn|].
    cbn [isinstance_str isinstance_dict]. destruct (decide (mn_type n = TFigure)); [done|]. rewrite Hv. by rewrite log_last.
  - destruct (decide (sink = "mlflow")); [done|]. destruct (decide (sink ∈ ["plt"; "plotly"])) as [Hn|_]; [apply elem_of_cons in Hn as [Hn|Hn]; [done|]; by apply elem_of_list_singleton in Hn|].
    destruct (saved_path _ _ Hw) as (o & -> & ->). by rewrite log_last.
  - destruct (decide (sink = "mlflow")); [done|]. destruct (decide (sink ∈ ["plt"; "plotly"])) as [Hn|_]; [apply elem_of_cons in Hn as [Hn|Hn]; [done|]; by apply elem_of_list_singleton in Hn|].
    destruct (unsaid_path _ Hw) as (o & -> & ->). by rewrite app_nil_r.
  - destruct (decide (sink = "mlflow")) as [->|_]; [by destruct Ht|]. destruct (decide (sink ∈ ["plt"; "plotly"])) as [_|Hn]; [|destruct Hn; destruct Ht as [-> | ->]; [by left|right; by left]].
    rewrite Hr, pop_one, Hk. destruct (unsaid_path _ Hw) as (o & -> & ->). by rewrite app_nil_r.
  - destruct (decide (sink = "mlflow")) as [->|_]; [by destruct Ht|]. destruct (decide (sink ∈ ["plt"; "plotly"])) as [_|Hn]; [|destruct Hn; destruct Ht as [-> | ->]; [by left|right; by left]].
    rewrite Hr, pop_one, Hk. destruct (saved_path _ _ Hw) as (o & -> & ->). by rewrite log_last.
  - destruct (decide ("mlflow" = "mlflow")); [|done]. rewrite Hm, Hr, pop_one. by rewrite log_last.
  - destruct (decide ("mlflow" = "mlflow")); [|done]. rewrite Hm. by rewrite app_nil_r.
Qed.
Lemma runs_logged final ns vs r is rs x h w p js a : ran final ns vs r -> logged as_float pickles meta final vs is ->
  runs final ns (at_last rs (MRun x h w p js) a) = (r, at_last rs (MRun x h w p (js ++ is)) a).
Proof.
  intros Hr. revert is js. induction Hr as [|n v l vs r Hr IH|n e l Hs Hf]; intros is js Hl.
  - inversion Hl; subst. by rewrite app_nil_r.
  - inversion Hl as [|? ? ? is1 js1 Hl1 Hl2]; subst. cbn [run_nodes]. rewrite (after_logs _ _ _ _ _ _ _ _ _ _ _ Hl1). rewrite (IH js1 (js ++ is1) Hl2). by rewrite <- app_assoc.
  - inversion Hl; subst. rewrite app_nil_r. cbn [run_nodes]. unfold after_node. rewrite Hs. by destruct (decide (mn_name n ∈ final)).
Qed.

Lemma terminated_last x' rs x h w p is a : set_terminated (length rs) x' (at_last rs (MRun x h w p is) a) = at_last rs (MRun x' h w p is) a.
Proof. unfold set_terminated, at_last. cbn. f_equal. rewrite <- (Nat.add_0_r (length rs)). by rewrite alter_app_r. Qed.
Lemma execute_logged existing (q : mrequest V) s vs r is given : ms_active s = None -> mq_inputs q = Some given -> keys_once (mq_config q) -> keys_once given -> agree shown (mq_config q) given ->
  ran (mq_final q) (mq_nodes q) vs r -> logged as_float pickles meta (mq_final q) vs is ->
  exists ps, exec existing q s = (match r with Err e => Err e | Ok _ => mq_build q end,
      MState (ms_runs s ++ [MRun FINISHED (mq_run q) (mq_version q) ps (IConfig :: IGraph :: is)]) None (length (ms_runs s))) /\
    forall k, dget ps k = match dget (mq_config q) k with Some v => Some (shown v) | None => shown <$> dget given k end.
Proof.
  intros Ha Hi Hc Hg Hag Hr Hl. unfold execute, before_graph. cbn zeta. cbn [ms_active ms_runs ms_current]. rewrite Ha. fold (at_last (ms_runs s) (MRun RUNNING (mq_run q) (mq_version q) [] []) (Some (length (ms_runs s)))).
  rewrite !log_last. cbn [app].
  destruct (params_last (mq_config q) (ms_runs s) RUNNING (mq_run q) (mq_version q) [] [IConfig; IGraph] (Some (length (ms_runs s))) Hc) as (p1 & -> & Hp1); [done|].
  rewrite Hi. destruct (params_last given (ms_runs s) RUNNING (mq_run q) (mq_version q) p1 [IConfig; IGraph] (Some (length (ms_runs s))) Hg) as (p2 & -> & Hp2).
  { intros k v u H1 H2. rewrite Hp1 in H1. cbn in H1. destruct (dget (mq_config q) k) as [v'|] eqn:E; [|done]. injection H1 as <-. by apply (Hag k). }
  rewrite (runs_logged _ _ _ _ is _ _ _ _ _ _ _ Hr Hl). exists p2. split.
  - f_equal. unfold after_graph. change (ms_current (at_last ?x ?y ?z)) with (length x). rewrite terminated_last. unfold end_run. cbn [ms_active at_last].
    change (MState (ms_runs s ++ [?y]) ?z (length (ms_runs s))) with (at_last (ms_runs s) y z). rewrite terminated_last. done.
  - intros k. rewrite Hp2, Hp1. cbn. by destruct (dget (mq_config q) k).
Qed.
End Proofs.
