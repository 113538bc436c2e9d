(** C90: the experiment tracker records each run as it was, and savers write into the run's directory. *)
From Coq Require Import Ascii.
From Verif Require Import Base Dict TrackModel TrackSpec TrackProofs.

(** Names of experiments are accepted exactly if they consist of letters, digits, underscores and dashes. *)
Theorem C90_name s : (validate_string_input (chars s) = Ok tt <-> Forall plain_char (chars s)) /\ (~ Forall plain_char (chars s) -> validate_string_input (chars s) = Err TValue).
Proof. split; [apply validate_iff|apply validate_else]. Qed.

Section Props.
Context {V : Type}.
Variable init run rid : string.
Variable absolute : bool.
Notation st := (tstate V).
Notation exec := (execute init run rid absolute).

(** Whatever nodes and savers do, savers are executed in the run's directory and other nodes where the
    tracker was made. *)
Theorem C90_where (q : request V) (s : st) : ts_cwd s = init -> Forall (fun nd => nd.2 = if tn_saver nd.1 then run else init) (exec q s).2.
Proof.
  intros Hs. unfold execute, before_graph. destruct (look (rq_graph q) (rq_inputs q) (ts_modules s) (ts_inputs s)) as [[r0 ms] is]. destruct r0; [|constructor].
  match goal with |- context [run_nodes init run (rq_nodes q) ?s1] => pose proof (nodes_where init run (rq_nodes q) s1 Hs) as H; destruct (run_nodes init run (rq_nodes q) s1) as [[r s2] l] end.
  destruct H as [H _]. by destruct (after_graph init rid absolute _ s2) as [[] ?].
Qed.

(** The first run of a tracker, where inputs were given and savers say where they saved: it comes to what
    it comes to without the tracker, the working directory is as before, and what is recorded is its
    success, version, modules, configuration, inputs with their defaults, overrides, and what was saved,
    by which saver and where, in order. Missing: later runs, runs without inputs, savers that fail or do
    not say where, see the refuted theorems. *)
Theorem C90_first_run_partial (q : request V) given ni vs bs r config cache : rq_inputs q = Some given -> inputs_of given (rq_graph q) ni -> ran (rq_nodes q) vs bs r -> recordable (rq_nodes q) ->
  let s := after_construction config (tracker init cache) in
  (exec q s).1.1 = r /\ ts_cwd (exec q s).1.2 = init /\ map fst (exec q s).2 = bs /\
  exists rr, read rid (exec q s).1.2 = Ok rr /\ (rr_success rr = true <-> r = Ok tt) /\ rr_hash rr = rq_version q /\ rr_config rr = config /\
    (forall m, m ∈ rr_modules rr <-> exists n, n ∈ rq_graph q /\ gn_module n = Some m) /\ NoDup (rr_modules rr) /\
    rr_inputs rr = ni /\ rr_overrides rr = default [] (rq_overrides q) /\ saved run vs (rr_materialized rr).
Proof.
  intros Hi Hin Hran Hrec. cbn zeta. set (s := after_construction config (tracker init cache)).
  destruct (execute_fresh init run rid absolute q given ni vs bs r s Hi Hin Hran Hrec eq_refl) as (mods & mats & s' & Hm & -> & Hc & Hmods & Hnd & Hcache).
  cbn [fst snd]. split; [done|]. split; [done|]. split; [rewrite map_map; cbn; apply map_id|].
  unfold read. rewrite Hcache, dget_dset_eq. eexists. split; [done|]. cbn [rr_success rr_hash rr_config rr_modules rr_inputs rr_overrides rr_materialized].
  split; [by destruct r as [[]|]|]. split; [done|]. split; [done|]. split; [|split; [|split; [done|split; [|done]]]].
  - intros m. rewrite Hmods. split; [|by right]. intros [H|H]; [by apply elem_of_nil in H|done].
  - apply Hnd. constructor.
  - by destruct (rq_overrides q) as [[|? ?]|].
Qed.
(** Records of other trackers stay as they were. *)
Theorem C90_others (q : request V) given ni vs bs r (s : st) id : rq_inputs q = Some given -> inputs_of given (rq_graph q) ni -> ran (rq_nodes q) vs bs r -> recordable (rq_nodes q) ->
  ts_cwd s = init -> id <> rid -> read id (exec q s).1.2 = read id s.
Proof.
  intros Hi Hin Hran Hrec Hs Hid. destruct (execute_fresh init run rid absolute q given ni vs bs r s Hi Hin Hran Hrec Hs) as (mods & mats & s' & Hm & -> & Hc & _ & _ & Hcache).
  cbn [fst snd]. unfold read. rewrite Hcache, dget_dset_ne; done.
Qed.
(** A run that does not begin, since inputs are asked for and none were given, is not recorded. *)
Theorem C90_no_inputs (q : request V) (s : st) : rq_inputs q = None -> (exists n, n ∈ rq_graph q /\ asked n) -> (exec q s).1.1 = Err TAttr /\ (exec q s).2 = [] /\ ts_cache (exec q s).1.2 = ts_cache s.
Proof.
  intros Hi (n & Hin & Hn). unfold execute, before_graph. rewrite Hi.
  assert (H : forall g ms is, n ∈ g -> (look (V := V) g None ms is).1.1 = Err TAttr).
  { intros g. induction g as [|n' g IH]; intros ms is Hg; [by apply elem_of_nil in Hg|]. cbn [look]. apply elem_of_cons in Hg as [<-|Hg].
    - destruct Hn as [-> ->]. done.
    - destruct (gn_module n'); [by apply IH|]. destruct (gn_input n'); [done|by apply IH]. }
  specialize (H (rq_graph q) (ts_modules s) (ts_inputs s) Hin). destruct (look (rq_graph q) None (ts_modules s) (ts_inputs s)) as [[r0 ms] is]. cbn in H. by subst r0.
Qed.
End Props.

(** ** A case *)
Definition ex_graph : list (gnode string) :=
  [GNode "limit" None true (Some (Some "10")); GNode "env" None false None; GNode "total" (Some "sales") false None; GNode "mean" (Some "sales") false None; GNode "rate" None true (Some None)].
Definition ex_saver (x : string) : tnode := TNode x true ["total"] "csv" "CSVWriter".
Definition ex_total : tnode := TNode "total" false ["limit"] "" "".
Definition ex_given : dict string := [("rate", "2")].
Definition ex_request (o : option (dict string)) (ns : list (tnode * toutcome)) : request string := Request "v1" ex_graph (Some ex_given) o ns.
Definition ex_nodes : list (tnode * toutcome) := [(ex_total, TReturns TNothing); (ex_saver "save", TReturns (TDict None (Some (Some "out.csv")))); (ex_saver "copy", TReturns (TDict (Some "/tmp/c.csv") None))].
Example C90_case : inputs_of ex_given ex_graph [NodeInput "limit" None (Some "10"); NodeInput "rate" (Some "2") None] /\
  ran ex_nodes [(ex_total, TNothing); (ex_saver "save", TDict None (Some (Some "out.csv"))); (ex_saver "copy", TDict (Some "/tmp/c.csv") None)] [ex_total; ex_saver "save"; ex_saver "copy"] (Ok tt) /\ recordable ex_nodes.
Proof.
  split; [|split].
  - apply (inputs_asked ex_given (GNode "limit" None true (Some (Some "10"))) _ _ (Some "10")); [done|done|]. do 3 (apply inputs_other; [by intros [? ?]|]).
    apply (inputs_asked ex_given (GNode "rate" None true (Some None)) _ _ None); [done|done|]. constructor.
  - repeat constructor.
  - intros n o Hin Hs. repeat (apply elem_of_cons in Hin as [Hin|Hin]; [injection Hin as -> ->; try done|]); [| |by apply elem_of_nil in Hin].
    + exists (TDict None (Some (Some "out.csv"))), "out.csv". split; [done|]. by right.
    + exists (TDict (Some "/tmp/c.csv") None), "/tmp/c.csv". split; [done|]. left. by exists None.
Qed.
Definition ex_start : tstate string := after_construction [("env", "dev")] (tracker "/home" []).
Example C90_case_record : match read "r1" (execute "/home" "/home/exp/r1" "r1" false (ex_request None ex_nodes) ex_start).1.2 with
  | Ok r => (rr_modules r, map mt_path (rr_materialized r)) = (["sales"], ["/home/exp/r1/out.csv"; "/tmp/c.csv"]) | Err _ => False end.
Proof. vm_compute. reflexivity. Qed.
Example C90_case_name : Forall plain_char (chars "my_exp-2") /\ ~ Forall plain_char (chars "my exp").
Proof.
  split; [apply validate_iff; vm_compute; reflexivity|]. intros H. apply validate_iff in H. vm_compute in H. discriminate.
Qed.

(** ** Refuted *)
(** That the second run with a tracker is recorded as it was: its inputs come after those of the first,
    with their values, and what the first overrode and saved is said of it. *)
Theorem C90_second_run_refuted : exists (q q' : request string) (s : tstate string),
  let s1 := (execute "/home" "/home/exp/r1" "r1" false q s).1.2 in
  let s2 := (execute "/home" "/home/exp/r1" "r1" false q' s1).1.2 in
  rq_overrides q' = None /\ (forall n, n ∈ map fst (rq_nodes q') -> tn_saver n = false) /\
  match read "r1" s2 with
  | Ok r => map (fun i => (ni_name i, ni_value i)) (rr_inputs r) = [("limit", None); ("rate", Some "2"); ("limit", None); ("rate", Some "3")] /\
      rr_overrides r = [("mean", "1")] /\ map mt_path (rr_materialized r) = ["/home/exp/r1/out.csv"; "/tmp/c.csv"]
  | Err _ => False
  end.
Proof.
  exists (ex_request (Some [("mean", "1")]) ex_nodes), (Request "v1" ex_graph (Some [("rate", "3")]) None [(ex_total, TReturns TNothing)]), ex_start. cbn zeta.
  split; [done|]. split; [intros n Hn; by apply elem_of_list_singleton in Hn as ->|]. vm_compute. by split.
Qed.
(** That records of earlier runs stay: all runs of a tracker have one identifier, so that the record of a
    successful run is replaced by that of a failed one. *)
Theorem C90_kept_refuted : exists (q q' : request string) (s : tstate string),
  let s1 := (execute "/home" "/home/exp/r1" "r1" false q s).1.2 in
  let s2 := (execute "/home" "/home/exp/r1" "r1" false q' s1).1.2 in
  (exists r, read "r1" s1 = Ok r /\ rr_success r = true) /\ (exists r, read "r1" s2 = Ok r /\ rr_success r = false) /\ length (ts_cache s2) = 1.
Proof.
  exists (ex_request None ex_nodes), (ex_request None [(ex_total, TRaises (TUser "no"))]), ex_start. cbn zeta.
  split; [eexists; split; [vm_compute; reflexivity|done]|]. split; [eexists; split; [vm_compute; reflexivity|done]|]. vm_compute. reflexivity.
Qed.
(** That the working directory is as before after each run, and that the run raises what was raised: not
    where a saver failed, after which the process stays in the run's directory; nor is that run recorded
    under a relative directory, since the cache is looked for there. *)
Theorem C90_directory_refuted : exists (q : request string) (s : tstate string) e, ts_cwd s = "/home" /\
  ran (rq_nodes q) [] [ex_saver "save"] (Err e) /\
  (let '(r, s', _) := execute "/home" "/home/exp/r1" "r1" false q s in r = Err TDbm /\ ts_cwd s' = "/home/exp/r1" /\ ts_cache s' = []) /\
  (let '(r, s', _) := execute "/home" "/home/exp/r1" "r1" true q s in r = Err TType /\ ts_cwd s' = "/home/exp/r1" /\ length (ts_cache s') = 1) /\
  TUser "disk full" = e.
Proof.
  exists (ex_request None [(ex_saver "save", TRaises (TUser "disk full"))]), ex_start, (TUser "disk full"). split; [done|]. split; [constructor|].
  split; [vm_compute; done|]. split; [vm_compute; done|done].
Qed.
(** That runs in which a saver does not say where it saved come to the same: they fail. *)
Theorem C90_unsaid_refuted : exists (q : request string) (s : tstate string) vs bs, ran (rq_nodes q) vs bs (Ok tt) /\ (execute "/home" "/home/exp/r1" "r1" true q s).1.1 = Err TUnbound.
Proof.
  exists (ex_request None [(ex_saver "save", TReturns (TDict None None))]), ex_start, [(ex_saver "save", TDict None None)], [ex_saver "save"]. split; [repeat constructor|]. vm_compute. reflexivity.
Qed.
(** That runs without inputs, which all have defaults, come to the same: they fail. *)
Theorem C90_inputs_refuted : exists (q : request string) (s : tstate string) vs bs, (forall n, n ∈ rq_graph q -> asked n -> exists d, gn_default n = Some (Some d)) /\
  ran (rq_nodes q) vs bs (Ok tt) /\ (execute "/home" "/home/exp/r1" "r1" true q s).1.1 = Err TAttr.
Proof.
  exists (Request "v1" [GNode "limit" None true (Some (Some "10"))] None None [(ex_total, TReturns TNothing)]), ex_start, [(ex_total, TNothing)], [ex_total].
  split; [|split; [repeat constructor|vm_compute; reflexivity]]. intros n Hn _. apply elem_of_list_singleton in Hn as ->. by exists "10".
Qed.
(** That a record can be deleted. *)
Theorem C90_delete_refuted : exists (s : tstate string) id r, read id s = Ok r /\ delete id s = (Err TDbm, s).
Proof. exists (execute "/home" "/home/exp/r1" "r1" false (ex_request None ex_nodes) ex_start).1.2, "r1". eexists. split; [vm_compute; reflexivity|]. done. Qed.

Print Assumptions C90_name.
Print Assumptions C90_where.
Print Assumptions C90_first_run_partial.
Print Assumptions C90_others.
Print Assumptions C90_no_inputs.
Print Assumptions C90_second_run_refuted.
Print Assumptions C90_kept_refuted.
Print Assumptions C90_directory_refuted.
Print Assumptions C90_unsaid_refuted.
Print Assumptions C90_inputs_refuted.
Print Assumptions C90_delete_refuted.
