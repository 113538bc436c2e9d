(** C63: the caching graph adapter, which functions it invokes and when its results are current. *)
From Coq Require Import Ascii.
From Verif Require Import Base Strings ExecModel ExecSpec ExecProofs ExecResults ExecProps HCacheModel HCacheSpec HCacheProofs.

(** An execution that starts with no computed variable remembered invokes each function at most
    once, and exactly: the functions of variables that are not cached, and those of cached variables
    that are forced, have no file, or use (directly or not, overridden variables aside) a cached
    variable that is forced or has no file. This holds of failing executions too. *)
Theorem C63_invokes_exactly :
  forall (V E C : Type) g fmt (write : string -> name -> V -> option C * option E) read force st rq,
    wf_graph g -> acyclic g -> plain_formats fmt -> hs_computed st = ∅ ->
    exists new, hs_log (hcached_execute g fmt write read force st rq).1 = hs_log st ++ new /\ NoDup new /\
      forall x, x ∈ new <-> x ∈ calls_of (trace_of (hcached_execute g fmt write read force st rq).2) /\
        (fmt x = None \/ must_compute g fmt force st (rq_overrides rq) x).
Proof. intros V E C g fmt write read force st rq Hwf Hac Hf. by apply exec_exact. Qed.
Print Assumptions C63_invokes_exactly.

(** In terms of the request, when the execution succeeds. *)
Theorem C63_invokes_exactly_needed :
  forall (V E C : Type) g fmt (write : string -> name -> V -> option C * option E) read force st rq out tr,
    wf_graph g -> acyclic g -> plain_formats fmt -> hs_computed st = ∅ ->
    (hcached_execute g fmt write read force st rq).2 = Answer out tr ->
    exists new, hs_log (hcached_execute g fmt write read force st rq).1 = hs_log st ++ new /\ NoDup new /\
      forall x, x ∈ new <-> needed g (rq_overrides rq) (requested g (rq_final rq)) x /\
        (exists nd, g !! x = Some nd /\ nd_ext nd = false) /\
        (fmt x = None \/ must_compute g fmt force st (rq_overrides rq) x).
Proof.
  intros V E C g fmt write read force st rq out tr Hwf Hac Hf Hc Ha.
  destruct (exec_exact g Hwf Hac fmt write read Hf force st rq Hc) as (new & Hl & Hnd & Hnew).
  exists new. split_and!; try done. intros x. rewrite Hnew, Ha. cbn [trace_of].
  rewrite (exec_calls g Hwf Hac fmt write read force st rq out tr x Ha). tauto.
Qed.
Print Assumptions C63_invokes_exactly_needed.

(** After a successful [execute], executing the same variables or some of them again with the same
    overrides and no forced variables invokes no function of a cached variable, whatever the functions
    and the inputs are now. *)
Theorem C63_second_execution_loads :
  forall (V E C : Type) g fmt (write : string -> name -> V -> option C * option E) read force st rq out tr rq2,
    wf_graph g -> acyclic g -> plain_formats fmt -> faithful_files write read ->
    (hcached_execute g fmt write read force st rq).2 = Answer out tr -> rq_builds rq = true ->
    rq_overrides rq2 = rq_overrides rq -> rq_final rq2 ⊆ rq_final rq ->
    exists new, hs_log (hcached_execute g fmt write read ∅ (hcached_execute g fmt write read force st rq).1 rq2).1 =
        hs_log (hcached_execute g fmt write read force st rq).1 ++ new /\ NoDup new /\
      forall x, x ∈ new -> fmt x = None.
Proof. intros. by eapply second_run. Qed.
Print Assumptions C63_second_execution_loads.

(** As long as the functions, the configuration with the inputs stay the same and nothing is overridden, any
    sequence of executions, failed or not, new adapters with any forced variables and removals of files
    returns what executions without the adapter return. When writes can fail this holds of the executions that
    return. *)
Theorem C63_transparent :
  forall (V E C : Type) g fmt (write : string -> name -> V -> option C * option E) read f ins force st acts,
    wf_graph g -> acyclic g -> plain_formats fmt -> faithful_files write read ->
    Forall (same_request f ins) (requests acts) -> files_hold g fmt read f ins st ->
    files_hold g fmt read f ins (session g fmt write read force st acts).1.2 /\
    Forall2 (fun rq a => (forall out tr, a = Answer out tr -> plain g rq = Answer out tr) /\
                         (writes_succeed fmt write -> a = plain g rq))
      (requests acts) (session g fmt write read force st acts).2.
Proof. intros. by apply session_ok. Qed.
Print Assumptions C63_transparent.

(** When functions or inputs have changed or variables are overridden, an execution returns what it returns
    without the adapter if every cached variable it needs is either computed because of
    [force_compute] or a missing file, or has nothing upstream that changed. *)
Theorem C63_refresh :
  forall (V E C : Type) g fmt (write : string -> name -> V -> option C * option E) read f0 ins0 force st rq,
    wf_graph g -> acyclic g -> plain_formats fmt -> faithful_files write read -> files_hold g fmt read f0 ins0 st ->
    (forall x, needed g (rq_overrides rq) (requested g (rq_final rq)) x -> is_Some (fmt x) ->
      must_compute g fmt force st (rq_overrides rq) x \/
      forall y, rtc (edge g) x y -> unchanged f0 (rq_fns rq) ins0 (rq_inputs rq ∪ rq_config rq) (rq_overrides rq) y) ->
    (forall out tr, (hcached_execute g fmt write read force st rq).2 = Answer out tr -> plain g rq = Answer out tr) /\
    (writes_succeed fmt write -> (hcached_execute g fmt write read force st rq).2 = plain g rq).
Proof.
  intros V E C g fmt write read f0 ins0 force st rq Hwf Hac Hf Hff Hh Hc. split.
  - intros out tr. by eapply refresh_answer.
  - by eapply refresh_plain.
Qed.
Print Assumptions C63_refresh.

(** In particular when exactly functions of cached variables have changed and all of them are forced; if
    moreover everything whose value could have changed was requested, the files are up to date afterwards
    and C63_transparent applies from there on. *)
Theorem C63_forcing_the_changed :
  forall (V E C : Type) g fmt (write : string -> name -> V -> option C * option E) read f0 ins force st rq out tr,
    wf_graph g -> acyclic g -> plain_formats fmt -> faithful_files write read -> files_hold g fmt read f0 ins st ->
    rq_overrides rq = ∅ -> rq_inputs rq ∪ rq_config rq = ins ->
    (forall x, (x ∈ force /\ is_Some (fmt x) /\ exists nd, g !! x = Some nd /\ nd_ext nd = false) \/
               forall kw, rq_fns rq x kw = f0 x kw) ->
    (hcached_execute g fmt write read force st rq).2 = Answer out tr ->
    plain g rq = Answer out tr /\
    ((forall x nd fm, g !! x = Some nd -> nd_ext nd = false -> fmt x = Some fm ->
        needed g (∅ : gmap name V) (requested g (rq_final rq)) x \/ forall y kw, rtc (edge g) x y -> rq_fns rq y kw = f0 y kw) ->
     files_hold g fmt read (rq_fns rq) ins (hcached_execute g fmt write read force st rq).1).
Proof.
  intros V E C g fmt write read f0 ins force st rq out tr Hwf Hac Hf Hff Hh Ho Hi Hch Ha.
  assert (Hcov := forced_covered g Hwf Hac fmt write read Hf f0 ins force st rq Ho Hi Hch).
  split.
  - eapply refresh_answer; eauto.
  - intros Hall. rewrite <-Hi. eapply refresh_hold; eauto. intros x nd fm Hg He Hfm.
    destruct (Hall x nd fm Hg He Hfm) as [?|Hs]; [left; by rewrite Ho|right].
    intros y Hy. split_and!; [by rewrite Ho, lookup_empty|by rewrite Hi|]. intros kw. by apply Hs.
Qed.
Print Assumptions C63_forcing_the_changed.

(** ** A concrete case *)
Definition hc_graph : graph :=
  list_to_map [ ("a", Node true [] ["b"]);
                ("b", Node false [("a", REQUIRED)] ["c"]);
                ("c", Node false [("b", REQUIRED)] ["d"]);
                ("d", Node false [("c", REQUIRED)] []) ].
Lemma hc_wf : wf_graph hc_graph /\ acyclic hc_graph.
Proof. split; [apply wf_graphb_ok; by vm_compute|]. apply (rankedb_acyclic (rank_in ["a"; "b"; "c"; "d"])). by vm_compute. Qed.
Definition hc_arg (kw : gmap name nat) (x : name) : nat := default 0 (kw !! x).
(** [b] adds [k] to [a], [c] is ten times [b], [d] is one more than [c] and fails on 0. *)
Definition hc_fns (k : nat) (x : name) (kw : gmap name nat) : res string nat :=
  if decide (x = "b") then Ok (hc_arg kw "a" + k)
  else if decide (x = "c") then Ok (10 * hc_arg kw "b")
  else match hc_arg kw "c" with 0 => Err "zero" | n => Ok (S n) end.
Definition hc_fmt (cached : list name) (x : name) : option string := if decide (x ∈ cached) then Some "json" else None.
Definition hc_write (fm x : string) (v : nat) : option nat * option string := (Some v, None).
Definition hc_read (fm x : string) (c : nat) : res string nat := Ok c.
Lemma hc_faithful : faithful_files hc_write hc_read.
Proof. constructor; intros fm x v; unfold hc_write, hc_read; [by intros c err [= -> _]|by intros err]. Qed.
Lemma hc_formats cached : plain_formats (hc_fmt cached).
Proof. intros x fm. unfold hc_fmt. case_decide; [|done]. intros [= <-]. by apply (bool_decide_unpack _); vm_compute. Qed.
Definition hc_empty : hstate nat := HState ∅ ∅ [].
Definition hc_req (k a : nat) (ov : gmap name nat) (fv : list name) : request nat string :=
  Request (hc_fns k) ∅ {["a" := a]} ov fv true.
Notation hc_session cached := (session hc_graph (hc_fmt cached) hc_write hc_read ∅ hc_empty).
Definition outs {V E} (a : answer V E) : list (option V) := match a with Answer out _ => out.*2 | _ => [] end.

Example hc_empty_holds : forall cached f ins, files_hold hc_graph (hc_fmt cached) hc_read f ins hc_empty.
Proof. intros cached f ins x nd fm c _ _ _ H. cbn in H. by rewrite lookup_empty in H. Qed.
(** Two executions with [b] and [d] cached: the second one invokes [c] only; forcing [b] then invokes everything. *)
Example hc_log :
  let s acts := hs_log (hc_session ["b"; "d"] acts).1.2 in
  s [AExec (hc_req 1 4 ∅ ["d"])] = ["b"; "c"; "d"] /\
  s [AExec (hc_req 1 4 ∅ ["d"]); AExec (hc_req 1 4 ∅ ["d"])] = ["b"; "c"; "d"; "c"] /\
  s [AExec (hc_req 1 4 ∅ ["d"]); ANew {["b"]}; AExec (hc_req 1 4 ∅ ["d"])] = ["b"; "c"; "d"; "b"; "c"; "d"].
Proof. vm_compute. done. Qed.
Example hc_transparent_case :
  let acts := [AExec (hc_req 1 4 ∅ ["d"]); AExec (hc_req 1 4 ∅ ["c"; "d"]); ADelete "b.json"; ANew {["d"]}; AExec (hc_req 1 4 ∅ ["d"])] in
  Forall (same_request (hc_fns 1) ({["a" := 4]} ∪ ∅)) (requests acts) /\
  outs <$> (hc_session ["b"; "d"] acts).2 = [[Some 51]; [Some 50; Some 51]; [Some 51]].
Proof. split; [repeat constructor|by vm_compute]. Qed.
(** [b] changes and is forced. *)
Example hc_refresh_case :
  let st := (hc_session ["b"; "d"] [AExec (hc_req 1 4 ∅ ["d"])]).1.2 in
  files_hold hc_graph (hc_fmt ["b"; "d"]) hc_read (hc_fns 1) {["a" := 4]} st /\
  (forall x, (x ∈ ({["b"]} : gset name) /\ is_Some (hc_fmt ["b"; "d"] x) /\ exists nd, hc_graph !! x = Some nd /\ nd_ext nd = false) \/
     forall kw, hc_fns 2 x kw = hc_fns 1 x kw) /\
  outs (hcached_execute hc_graph (hc_fmt ["b"; "d"]) hc_write hc_read {["b"]} st (hc_req 2 4 ∅ ["d"])).2 = [Some 61].
Proof.
  split_and!.
  - destruct hc_wf as [Hwf Hac].
    apply (C63_transparent _ _ _ hc_graph (hc_fmt ["b"; "d"]) hc_write hc_read (hc_fns 1) {["a" := 4]} ∅ hc_empty);
      [done|done|apply hc_formats|apply hc_faithful| |apply hc_empty_holds].
    repeat constructor. cbn. by rewrite (right_id_L ∅ (∪)).
  - intros x. destruct (decide (x = "b")) as [->|Hne].
    + left. split_and!; [set_solver|by eexists|by eexists].
    + right. intros kw. unfold hc_fns. by rewrite !(decide_False (P := x = "b")) by done.
  - by vm_compute.
Qed.

(** ** What does not hold *)
(** Forcing a variable that is not cached computes it (it always is) but not the cached variables that
    depend on it: after a change of [b], forcing [b] does not refresh [c]. *)
Theorem C63_forcing_uncached_refuted :
  exists cached acts, hc_fmt cached "b" = None /\
    acts = [AExec (hc_req 1 4 ∅ ["c"]); ANew {["b"]}; AExec (hc_req 2 4 ∅ ["c"])] /\
    outs <$> (hc_session cached acts).2 = [[Some 50]; [Some 50]] /\
    outs (plain hc_graph (hc_req 2 4 ∅ ["c"])) = [Some 60].
Proof. exists ["c"]. eexists. split_and!; [done|done|by vm_compute..]. Qed.
Print Assumptions C63_forcing_uncached_refuted.

(** Overriding a variable has no effect on the cached variables that depend on it. *)
Theorem C63_override_ignored_refuted :
  exists cached acts, acts = [AExec (hc_req 1 4 ∅ ["c"]); AExec (hc_req 1 4 {["b" := 7]} ["c"])] /\
    outs <$> (hc_session cached acts).2 = [[Some 50]; [Some 50]] /\
    outs (plain hc_graph (hc_req 1 4 {["b" := 7]} ["c"])) = [Some 70].
Proof. exists ["b"; "c"]. eexists. split_and!; [done|by vm_compute..]. Qed.
Print Assumptions C63_override_ignored_refuted.

(** A value computed from an override is returned by later executions without it. *)
Theorem C63_override_stays_refuted :
  exists cached acts, acts = [AExec (hc_req 1 4 {["b" := 7]} ["c"]); AExec (hc_req 1 4 ∅ ["c"])] /\
    outs <$> (hc_session cached acts).2 = [[Some 70]; [Some 70]] /\
    outs (plain hc_graph (hc_req 1 4 ∅ ["c"])) = [Some 50].
Proof. exists ["c"]. eexists. split_and!; [done|by vm_compute..]. Qed.
Print Assumptions C63_override_stays_refuted.

(** Other inputs give the old values. *)
Theorem C63_inputs_ignored_refuted :
  exists cached acts, acts = [AExec (hc_req 1 4 ∅ ["c"]); AExec (hc_req 1 8 ∅ ["c"])] /\
    outs <$> (hc_session cached acts).2 = [[Some 50]; [Some 50]] /\
    outs (plain hc_graph (hc_req 1 8 ∅ ["c"])) = [Some 90].
Proof. exists ["c"]. eexists. split_and!; [done|by vm_compute..]. Qed.
Print Assumptions C63_inputs_ignored_refuted.

(** Forcing a changed variable once refreshes only what is requested with it: [c] stays old for good. *)
Theorem C63_refresh_forgotten_refuted :
  exists cached acts, hc_fmt cached "b" = Some "json" /\
    acts = [AExec (hc_req 1 4 ∅ ["c"]); ANew {["b"]}; AExec (hc_req 2 4 ∅ ["b"]); ANew ∅; AExec (hc_req 2 4 ∅ ["c"])] /\
    outs <$> (hc_session cached acts).2 = [[Some 50]; [Some 6]; [Some 50]] /\
    outs (plain hc_graph (hc_req 2 4 ∅ ["c"])) = [Some 60].
Proof. exists ["b"; "c"]. eexists. split_and!; [done|done|by vm_compute..]. Qed.
Print Assumptions C63_refresh_forgotten_refuted.

(** Without the hypothesis that no computed variable is remembered C63_invokes_exactly fails: after an
    execution in which [d] failed the same adapter invokes [c] again, although every file is there
    and nothing is forced. *)
Theorem C63_failure_remembered_refuted :
  exists cached rq rq2 st, st = (hcached_execute hc_graph (hc_fmt cached) hc_write hc_read ∅ hc_empty rq).1 /\
    (forall x, ~ must_compute hc_graph (hc_fmt cached) ∅ st (rq_overrides rq2) x) /\
    hc_fmt cached "c" = Some "json" /\
    hs_log (hcached_execute hc_graph (hc_fmt cached) hc_write hc_read ∅ st rq2).1 = hs_log st ++ ["c"].
Proof.
  exists ["b"; "c"], (hc_req 0 0 ∅ ["d"]), (hc_req 0 0 ∅ ["c"]). eexists. split_and!; [done| |done|by vm_compute].
  intros x (y & _ & nd & fm & Hg & He & Hf & [?|Hn]); [set_solver|]. unfold hc_fmt in Hf.
  case_decide as Hy; [|done]. injection Hf as <-.
  apply elem_of_cons in Hy as [-> |Hy]; [by vm_compute in Hn|].
  apply elem_of_list_singleton in Hy as ->. by vm_compute in Hn.
Qed.
Print Assumptions C63_failure_remembered_refuted.
