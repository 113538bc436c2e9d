(** C91: what the MLflow tracker logs of runs. *)
From Verif Require Import Base Dict MlflowModel MlflowSpec MlflowProofs.

Section Props.
Context {V : Type}.
Variable as_float : V -> option V.
Variable pickles : V -> bool.
Variable none : V.
Variable pop : list string -> string.
Variable shown : V -> string.
Variable meta : V -> option (option string * option string * option (string * string)).
Notation exec := (execute as_float pickles none pop shown meta).

(** If no run is active, inputs are given that agree with the configuration, each node that returns can be
    logged, and no saver and no node asked for fails, then the outcome is that without the tracker, one run is
    added with the identifier of the execution and the version of the code, its parameters are configuration
    and inputs, what is logged is what the specification says in order, and no run stays active.
    Missing: that the status tells whether the execution succeeded, as it is always FINISHED; executions
    without inputs, or where a saver or a node asked for fails or what it returned cannot be logged (refuted
    below). *)
Theorem C91_run_partial existing (q : mrequest V) s vs r is given : (forall x l, pop (x :: l) ∈ x :: l) ->
  ms_active s = None -> mq_inputs q = Some given -> keys_once (mq_config q) -> keys_once given -> agree shown (mq_config q) given ->
  ran (mq_final q) (mq_nodes q) vs r -> logged as_float pickles meta (mq_final q) vs is ->
  exists ps, exec existing q s = (match r with Err e => Err e | Ok _ => mq_build q end,
      MState (ms_runs s ++ [MRun FINISHED (mq_run q) (mq_version q) ps (IConfig :: IGraph :: is)]) None (length (ms_runs s))) /\
    forall k, dget ps k = match dget (mq_config q) k with Some v => Some (shown v) | None => shown <$> dget given k end.
Proof. intros H. by apply execute_logged. Qed.

(** Whatever happens, an execution adds one run, and all others are as they were. *)
Theorem C91_others existing (q : mrequest V) s : length (ms_runs (exec existing q s).2) = S (length (ms_runs s)) /\
  forall i, i < length (ms_runs s) -> ms_runs (exec existing q s).2 !! i = ms_runs s !! i.
Proof. apply execute_adds. Qed.

(** Executions without inputs fail before any node runs, and their run stays active and RUNNING ... *)
Theorem C91_no_inputs existing (q : mrequest V) s : ms_active s = None -> mq_inputs q = None -> keys_once (mq_config q) ->
  exists ps, exec existing q s = (Err MAttr, MState (ms_runs s ++ [MRun RUNNING (mq_run q) (mq_version q) ps [IConfig; IGraph]]) (Some (length (ms_runs s))) (length (ms_runs s))).
Proof.
  intros Ha Hi Hc. unfold execute, before_graph. cbn zeta. cbn [ms_active ms_runs ms_current]. rewrite Ha. fold (at_last (ms_runs s) (MRun RUNNING (mq_run q) (mq_version q) [] []) (Some (length (ms_runs s)))).
  rewrite !log_last. cbn [app].
  destruct (params_last shown (mq_config q) (ms_runs s) RUNNING (mq_run q) (mq_version q) [] [IConfig; IGraph] (Some (length (ms_runs s))) Hc) as (p1 & -> & Hp1); [done|].
  rewrite Hi. by exists p1.
Qed.
(** ... so that all further executions fail, whatever they are, and their runs stay RUNNING with nothing logged. *)
Theorem C91_active existing (q : mrequest V) s a : ms_active s = Some a ->
  exec existing q s = (Err MActive, MState (ms_runs s ++ [MRun RUNNING (mq_run q) (mq_version q) [] []]) (Some a) (length (ms_runs s))).
Proof. intros Ha. unfold execute, before_graph. cbn zeta. cbn [ms_active]. by rewrite Ha. Qed.
Fixpoint execs existing (l : list (mrequest V)) (s : mstate V) : list (res merr unit) * mstate V :=
  match l with
  | [] => ([], s)
  | q :: l => let '(r, s) := exec existing q s in let '(rs, s) := execs existing l s in (r :: rs, s)
  end.
Theorem C91_stuck existing (q : mrequest V) l s : ms_active s = None -> mq_inputs q = None -> keys_once (mq_config q) ->
  (execs existing (q :: l) s).1 = Err MAttr :: map (fun _ => Err MActive) l.
Proof.
  intros Ha Hi Hc. destruct (C91_no_inputs existing q s Ha Hi Hc) as (ps & E). cbn [execs]. rewrite E.
  match goal with |- context [execs existing l ?x] => assert (Hx : exists a, ms_active x = Some a) by (by eexists); generalize x Hx end.
  clear. intros s [a Ha]. assert (H : (execs existing l s).1 = map (fun _ => Err MActive) l); [|destruct (execs existing l s); cbn in *; by rewrite H].
  revert s Ha. induction l as [|q l IH]; intros s Ha; [done|]. cbn [execs map]. rewrite (C91_active existing q s a Ha).
  match goal with |- context [execs existing l ?x] => specialize (IH x eq_refl); destruct (execs existing l x) end. cbn in *. by rewrite IH.
Qed.
End Props.

(** ** Examples: 0 is None, 7 cannot be pickled, 5 is the metadata of a saved file, 6 of a registered model *)
Definition num (v : nat) : option nat := match v with 0 => None | _ => Some v end.
Definition pick (v : nat) : bool := negb (v =? 7).
Definition first (l : list string) : string := match l with x :: _ => x | [] => "" end.
Definition second (l : list string) : string := match l with _ :: x :: _ => x | [x] => x | [] => "" end.
Definition show (v : nat) : string := match v with 0 => "None" | 1 => "1" | 2 => "2" | _ => "many" end.
Definition data (v : nat) : option (option string * option string * option (string * string)) :=
  match v with 5 => Some (None, Some "out.csv", None) | 6 => Some (Some "m", None, Some ("model", "3")) | _ => None end.
Definition fresh : mstate nat := MState [] None 0.
Definition mx : mnode nat := MNode "x" TOther None [] [].
Definition mloss : mnode nat := MNode "loss" TFloat None ["x"] [("x", 1)].
Definition mcsv : mnode nat := MNode "csv" TOther (Some "csv") ["x"] [("x", 1)].
Definition mplot : mnode nat := MNode "plot" TOther (Some "plt") ["fig"; "where"] [("fig", 3); ("where", 4)].
Definition mreg : mnode nat := MNode "reg" TOther (Some "mlflow") ["x"] [("x", 1)].
Definition mask (given : option (dict nat)) (ns : list (mnode nat * moutcome nat)) (final : list string) : mrequest nat := MRequest "h1" "v1" [("c", 2)] given final ns (Ok tt).
Notation mexec := (execute num pick 0 first show data).

Lemma first_in x l : first (x :: l) ∈ x :: l.
Proof. by left. Qed.
Lemma second_in x l : second (x :: l) ∈ x :: l.
Proof. destruct l; [by left|right; by left]. Qed.
Definition mfull := mask (Some [("i", 1)]) [(mx, MReturns 1); (mloss, MReturns 2); (mcsv, MReturns 5); (mreg, MReturns 6)] ["loss"; "csv"].
(** C91_run_partial's hypotheses are met. *)
Example C91_run_case : exists vs is, ran (mq_final mfull) (mq_nodes mfull) vs (Ok tt) /\ logged num pick data (mq_final mfull) vs is /\
  is = [IMetric "loss" 2; IArtifact "out.csv" "csv"; IModel "model" "3" "x"] /\ agree show (mq_config mfull) [("i", 1)] /\ keys_once (mq_config mfull).
Proof.
  exists [(mx, 1); (mloss, 2); (mcsv, 5); (mreg, 6)], [IMetric "loss" 2; IArtifact "out.csv" "csv"; IModel "model" "3" "x"]. split; [repeat constructor|]. split.
  - apply (logged_cons _ _ _ _ mx 1 _ [] _). { apply logs_other; [done|]. by apply (bool_decide_unpack _). }
    apply (logged_cons _ _ _ _ mloss 2 _ [IMetric "loss" 2] _). { apply logs_metric; [done|by left|by left|done]. }
    apply (logged_cons _ _ _ _ mcsv 5 _ [IArtifact "out.csv" "csv"] _). { by apply (logs_artifact num pick data (mq_final mfull) mcsv "csv" 5 "out.csv"); [..|eapply where_file]. }
    apply (logged_cons _ _ _ _ mreg 6 _ [IModel "model" "3" "x"] []). { by eapply (logs_model num pick data (mq_final mfull) mreg 6). }
    constructor.
  - split; [done|]. split; [|repeat constructor; by intros ?%elem_of_nil].
    intros k v w H1 H2. cbn in H1, H2. repeat case_decide; try done. subst. done.
Qed.
Example C91_run_run : mexec None mfull fresh =
  (Ok tt, MState [MRun FINISHED "h1" "v1" [("c", "2"); ("i", "1")] [IConfig; IGraph; IMetric "loss" 2; IArtifact "out.csv" "csv"; IModel "model" "3" "x"]] None 0).
Proof. by vm_compute. Qed.
(** A failing node may also be logged without trouble *)
Example C91_ran_case : ran ["loss"] [(mx, MRaises (MUser "x"))] [] (Err (MUser "x")).
Proof. apply ran_raises; [done|]. by apply (bool_decide_unpack _). Qed.

(** That the status of the run tells whether the execution succeeded: the status FAILED is overwritten by
    [mlflow.end_run]. *)
Theorem C91_status_refuted : exists (q : mrequest nat) s r, mexec None q fresh = (Err (MUser "x"), s) /\ ms_runs s = [r] /\ mr_status r = FINISHED.
Proof. exists (mask (Some []) [(mx, MRaises (MUser "x"))] ["loss"]). eexists _, _. split; [by vm_compute|]. by split. Qed.
(** That the execution needs no inputs if the functions need none *)
Theorem C91_inputs_refuted : exists q : mrequest nat, (execs num pick 0 first show data None [q; mfull] fresh).1 = [Err MAttr; Err MActive].
Proof. exists (mask None [(mx, MReturns 1)] ["x"]). by vm_compute. Qed.
(** That "every execution logs to the same run" if a run_id is given *)
Theorem C91_existing_refuted : exists s : mstate nat, length (ms_runs s) = 1 /\ length (ms_runs (mexec (Some 0) mfull s).2) = 2 /\ ms_runs (mexec (Some 0) mfull s).2 !! 0 = ms_runs s !! 0.
Proof. exists (MState [MRun FINISHED "h0" "v0" [] []] None 0). by vm_compute. Qed.
(** That strings and dictionaries are logged as text and as JSON *)
Theorem C91_text_refuted : exists n (m : mnode nat), mn_type n = TStr /\ mn_type m = TDict /\
  map mr_items (ms_runs (mexec None (mask (Some []) [(n, MReturns 1); (m, MReturns 2)] ["s"; "d"]) fresh).2) = [[IConfig; IGraph; IDict "s.pickle" 1; IDict "d.pickle" 2]].
Proof. exists (MNode "s" TStr None [] []), (MNode "d" TDict None [] []). by vm_compute. Qed.
(** That executions come to what they come to without the tracker: what cannot be pickled fails them, ... *)
Theorem C91_pickle_refuted : exists q : mrequest nat, mq_nodes q = [(mx, MReturns 7)] /\ mq_build q = Ok tt /\ (mexec None q fresh).1 = Err MPickle.
Proof. exists (mask (Some []) [(mx, MReturns 7)] ["x"]). by vm_compute. Qed.
(** ... and the exceptions of numbers asked for and of savers are replaced by TypeErrors. *)
Theorem C91_exception_refuted : exists q q' : mrequest nat, mq_nodes q = [(mloss, MRaises (MUser "diverged"))] /\ (mexec None q fresh).1 = Err MType /\
  mq_nodes q' = [(mcsv, MRaises (MUser "disk full"))] /\ (mexec None q' fresh).1 = Err MType.
Proof. exists (mask (Some []) [(mloss, MRaises (MUser "diverged"))] ["loss"]), (mask (Some []) [(mcsv, MRaises (MUser "disk full"))] ["csv"]). by vm_compute. Qed.
(** That only values that were computed are logged: None is logged for a node that failed *)
Theorem C91_none_refuted : exists q : mrequest nat, mq_nodes q = [(mx, MRaises (MUser "x"))] /\
  map mr_items (ms_runs (mexec None q fresh).2) = [[IConfig; IGraph; IDict "x.pickle" 0]].
Proof. exists (mask (Some []) [(mx, MRaises (MUser "x"))] ["x"]). by vm_compute. Qed.
(** That an input may have the name of a key of the configuration *)
Theorem C91_param_refuted : exists q : mrequest nat, mq_inputs q = Some [("c", 1)] /\ (mexec None q fresh).1 = Err MParam.
Proof. exists (mask (Some [("c", 1)]) [(mx, MReturns 1)] ["x"]). by vm_compute. Qed.
(** That the figure that is saved is the one logged: if the saver also takes its path from a node, it depends
    on the order of a set which of the two is logged. *)
Theorem C91_figure_refuted : exists (q : mrequest nat), mq_nodes q = [(mplot, MReturns 5)] /\
  map mr_items (ms_runs (execute num pick 0 first show data None q fresh).2) = [[IConfig; IGraph; IFigure 3 "out.csv"]] /\
  map mr_items (ms_runs (execute num pick 0 second show data None q fresh).2) = [[IConfig; IGraph; IFigure 4 "out.csv"]].
Proof. exists (mask (Some []) [(mplot, MReturns 5)] []). by vm_compute. Qed.

Print Assumptions C91_run_partial.
Print Assumptions C91_others.
Print Assumptions C91_no_inputs.
Print Assumptions C91_active.
Print Assumptions C91_stuck.
Print Assumptions C91_status_refuted.
Print Assumptions C91_inputs_refuted.
Print Assumptions C91_existing_refuted.
Print Assumptions C91_text_refuted.
Print Assumptions C91_pickle_refuted.
Print Assumptions C91_exception_refuted.
Print Assumptions C91_none_refuted.
Print Assumptions C91_param_refuted.
Print Assumptions C91_figure_refuted.
