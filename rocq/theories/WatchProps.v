(** Theorems about adapters that show what a run does (C88). *)
From Coq Require Import ZArith.
From Verif Require Import Base Dict ExecModel ExecSpec ExecResults ExecProps TraverseModel HubModel WatchModel WatchSpec WatchProofs.

Section Print.
Context {tags : Type}.
Variable tags_of : string -> tags.
Variable format_time_delta : Z -> string.
Notation chosen := (chosen tags_of).

(** ** Filters *)
Theorem C88_filter f x : (forall b, should_run_node x (tags_of x) f = Ok b <-> f <> FOther /\ (b = true <-> chosen f x)) /\ (should_run_node x (tags_of x) f = Err WValue <-> f = FOther).
Proof.
  split.
  - intros b. split.
    + intros H. split; [by intros ->|]. by apply should_chosen in H.
    + intros [Hf Hb]. assert (exists b', should_run_node x (tags_of x) f = Ok b') as [b' E] by (destruct f; [by eexists..|done]).
      rewrite E. f_equal. pose proof (should_chosen _ _ _ _ E) as H. destruct b, b'; tauto || (exfalso; destruct Hb, H; intuition discriminate).
  - by destruct f.
Qed.

(** ** PrintLn *)
Theorem C88_constructor v (f : nfilter tags) : (forall p, println v f = Ok p -> (v = 1%Z \/ v = 2%Z) /\ pr_verbosity p = v /\ (forall x, chosen (pr_filter p) x <-> chosen f x)) /\
  (v = 1%Z \/ v = 2%Z -> exists p, println v f = Ok p).
Proof.
  unfold println. split.
  - intros p. case_decide as Hv; [|done]. intros [= <-]. split; [|split; [done|]].
    + apply elem_of_cons in Hv as [?|[?|[]%elem_of_nil]%elem_of_cons]; tauto.
    + intros x. by destruct f.
  - intros Hv. rewrite decide_True; [by eexists|]. destruct Hv as [-> | ->]; [left|right; left].
Qed.
Lemma lines_chosen v f f' past es l : (forall x, chosen f x <-> chosen f' x) -> lines tags_of format_time_delta v f past es l -> lines tags_of format_time_delta v f' past es l.
Proof.
  intros Hf. induction 1 as [past|past x now i es l Hc _ IH|past x now s r e es l t0 Hc Hb _ IH|past ev es l Hc _ IH]; [constructor|..].
  - by apply lines_before; [apply Hf|].
  - by eapply lines_after; [apply Hf|..].
  - apply lines_skip; [|done]. destruct ev; by rewrite <- Hf.
Qed.
(** However nodes are nested, repeated or left unfinished: no hook fails, there is a line for each
    hook of each node the filter means and for nothing else, with the time since the node began, and
    what is kept is of nodes that are being executed. Outside of tasks: see [C88_tasks_refuted]. *)
Theorem C88_println_partial v (f : nfilter tags) p es : println v f = Ok p -> f <> FOther -> sensible [] es ->
  exists st, prun tags_of format_time_delta p quiet es = (Ok tt, st) /\ lines tags_of format_time_delta v f [] es (ps_out st) /\
    (forall x, chosen f x -> dget (ps_timers st) x = began (rev es) x).
Proof.
  intros Hp Hf Hs. destruct (C88_constructor v f) as [H _]. destruct (H p Hp) as (_ & Hv & Hc).
  assert (Hpf : pr_filter p <> FOther) by (unfold println in Hp; case_decide; [|done]; injection Hp as <-; by destruct f).
  destruct (prun_lines tags_of format_time_delta p [] es quiet Hpf Hs) as (l & st & E & E1 & E2 & E3); [done|].
  exists st. split; [done|]. split.
  - rewrite E1. cbn [quiet ps_out app]. rewrite Hv in E2. by eapply lines_chosen.
  - intros x Hx. rewrite E3 by by apply Hc. by rewrite app_nil_r.
Qed.
(** The lines are determined. *)
Theorem C88_lines v (f : nfilter tags) past es l l' : lines tags_of format_time_delta v f past es l -> lines tags_of format_time_delta v f past es l' -> l = l'.
Proof.
  intros H. revert l'. induction H as [past|past x now i es l Hc _ IH|past x now s r e es l t0 Hc Hb _ IH|past ev es l Hc _ IH]; intros l' H'; inversion H'; subst; try done.
  - f_equal. by apply IH.
  - match goal with H1 : began past x = Some ?a, H2 : began past x = Some ?b |- _ => rewrite H1 in H2; injection H2 as -> end. f_equal. by apply IH.
  - by apply IH.
Qed.
End Print.

(** ** The progress bar *)
(** Names take the same room; those that do not fit are cut. Widths below three are left out: see
    [C88_narrow_refuted]. *)
Theorem C88_display_partial w x : (3 <= w)%Z -> Z.of_nat (String.length (name_display w x)) = w /\
  ((Z.of_nat (String.length x) <= w)%Z -> exists n, name_display w x = (x ++ spaces n)%string) /\
  ((w < Z.of_nat (String.length x))%Z -> exists cut rest, x = (cut ++ rest)%string /\ name_display w x = (cut ++ "...")%string).
Proof.
  intros Hw. split; [by apply display_length|]. split; intros Hx; unfold name_display.
  - rewrite (decide_True (P := (Z.of_nat (String.length x) <= w)%Z)) by done. case_decide; [by eexists|]. exists 0.
    cbn [spaces]. clear. induction x as [|a x IH]; [done|]. exact (f_equal (String a) IH).
  - rewrite (decide_False (P := (Z.of_nat (String.length x) <= w)%Z)) by lia.
    assert (Hl : Z.of_nat (String.length (upto (w - 3) x ++ "...")) = w).
    { rewrite slength_app. unfold upto. rewrite decide_True by lia. rewrite stake_length. cbn [String.length]. lia. }
    rewrite decide_False by lia. unfold upto. destruct (stake_prefix (Z.to_nat (if decide (0 <= w - 3)%Z then w - 3 else Z.of_nat (String.length x) + (w - 3))%Z) x) as [rest E].
    eexists _, rest. by split.
Qed.
(** In the first run names that fit are shown in full. *)
Theorem C88_first_run desc max path p x : gstep (progress_bar desc max) (GStart path) = Ok p -> x ∈ path -> (3 <= max)%Z -> (Z.of_nat (String.length x) <= max)%Z ->
  exists w n, pg_width p = Some w /\ (w <= max)%Z /\ name_display w x = (x ++ spaces n)%string.
Proof.
  intros H Hx Hm Hl. destruct path as [|y path]; [by apply elem_of_nil in Hx|]. injection H as <-. cbn [pg_width progress_bar pg_max].
  pose proof (longest_ge _ _ Hx) as Hg. exists (Z.min (longest (y :: path)) max).
  assert (Hw : (Z.of_nat (String.length x) <= Z.min (longest (y :: path)) max)%Z) by lia.
  unfold name_display. rewrite (decide_True (P := (Z.of_nat (String.length x) <= _)%Z)) by done. case_decide.
  - eexists. split; [done|]. split; [lia|done].
  - exists 0. split; [done|]. split; [lia|]. cbn [spaces]. clear. induction x as [|a x IH]; [done|]. exact (f_equal (String a) IH).
Qed.
(** In each run: the total is what was announced, the count what has ended, and at the end the bar is
    closed. *)
Theorem C88_bar p path es ok : path <> [] -> within_run es ->
  exists p' b, grun p (GStart path :: es ++ [GEnd ok]) = Ok p' /\ pg_bar p' = Some b /\ b_total b = length path /\ b_count b = ended es /\ b_closed b = true.
Proof.
  intros Hp Hes. destruct path as [|x path]; [done|]. cbn [grun gstep].
  set (w := match pg_width p with Some w => w | None => _ end).
  edestruct (grun_within (Progress (pg_desc p) (pg_max p) (Some w) (Some (Bar (length (x :: path)) 0 (pg_desc p) false))) w) as (p' & b & E & E1 & E2 & E3 & E4 & E5 & _); [done|done|done|].
  rewrite grun_app, E. cbn [grun gstep]. rewrite E1, E2. eexists _, _. split; [done|]. split; [done|]. cbn. by rewrite E3, E4.
Qed.
(** What is announced is what is executed, and so the bar is full after a run, when no function on the
    way is overridden: see [C88_overridden_refuted]. *)
Theorem C88_full_partial {V E : Type} (F : list (event V E) -> name -> gmap name V -> res E V) g config inputs overrides fv path out tr p es ok :
  wf_graph g -> acyclic g -> execution_path g config inputs overrides fv = Some path -> default_execute F g config (default ∅ inputs) (default ∅ overrides) fv = Answer out tr ->
  (forall x, x ∈ path -> default ∅ overrides !! x = None) -> path <> ∅ -> within_run es -> ended es = length (calls_of tr) ->
  (forall x, x ∈ path <-> x ∈ calls_of tr) /\
  exists p' b, grun p (GStart (elements path) :: es ++ [GEnd ok]) = Ok p' /\ pg_bar p' = Some b /\ b_count b = b_total b.
Proof.
  intros Hwf Hac Hpath Hans Hov Hne Hes Hended.
  assert (Hin : forall x, x ∈ path <-> x ∈ calls_of tr).
  { intros x. split.
    - intros Hx. destruct (proj1 (path_needed g Hwf config inputs overrides fv path x Hpath)) as [Hn (nd & Hg & He)]; [by split; [|apply Hov]|].
      by eapply C03_all_needed_functions_run.
    - intros Hx. eapply (path_needed g Hwf config inputs overrides fv path x Hpath). apply (C03_only_needed_functions_run V E F g config (default ∅ inputs) (default ∅ overrides) fv x Hwf Hac).
      by rewrite Hans. }
  split; [done|].
  assert (Hperm : elements path ≡ₚ calls_of tr).
  { apply NoDup_Permutation; [apply NoDup_elements| |intros x; by rewrite elem_of_elements].
    pose proof (C02_at_most_once V E F g config (default ∅ inputs) (default ∅ overrides) fv Hwf Hac) as Hnd. by rewrite Hans in Hnd. }
  destruct (C88_bar p (elements path) es ok) as (p' & b & E1 & E2 & E3 & E4 & _); [|done|].
  { intros H0. apply Hne. apply elements_empty_inv in H0. by apply leibniz_equiv. }
  exists p', b. split; [done|]. split; [done|]. by rewrite E3, E4, Hended, Hperm.
Qed.
(** Overridden functions are announced, but nothing else that is not executed. *)
Theorem C88_announced {V E : Type} (F : list (event V E) -> name -> gmap name V -> res E V) g config inputs overrides fv path out tr x :
  wf_graph g -> acyclic g -> execution_path g config inputs overrides fv = Some path -> default_execute F g config (default ∅ inputs) (default ∅ overrides) fv = Answer out tr ->
  (x ∈ calls_of tr <-> x ∈ path /\ default ∅ overrides !! x = None).
Proof.
  intros Hwf Hac Hpath Hans. rewrite (path_needed g Hwf config inputs overrides fv path x Hpath). split.
  - intros Hx. apply (C03_only_needed_functions_run V E F g config (default ∅ inputs) (default ∅ overrides) fv x Hwf Hac). by rewrite Hans.
  - intros [Hn (nd & Hg & He)]. by eapply C03_all_needed_functions_run.
Qed.

(** ** Non-vacuity *)
Definition evs : list pevent := [PBefore "a" None 0 "{}"; PAfter "a" None 5 true "1" ""; PBefore "b" None 6 "{'a': 1}"; PAfter "b" None 9 false "" "ValueError()"].
Definition shown_delta (d : Z) : string := if decide (d = 5%Z) then "5s" else "other".
Example C88_printed : sensible [] evs /\ exists p, println (tags := unit) 2 (FList ["a"]) = Ok p /\
  ps_out (prun (fun _ => tt) shown_delta p quiet evs).2 = [("Executing node: a. Inputs: " ++ nl ++ "{}")%string; ("Finished debugging node: a in 5s. Status: Success. Result: " ++ nl ++ "1" ++ nl)%string].
Proof. split; [by vm_compute; eauto 10|]. eexists. split; [reflexivity|]. by vm_compute. Qed.
Example C88_displays : name_display 10 "a_long_name_of_a_node" = "a_long_..." /\ name_display 10 "name" = "name      ".
Proof. by vm_compute. Qed.
Example C88_runs : (forall p, exists p' b, grun p [GStart ["a"; "b"]; GBefore "a"; GAfter; GBefore "b"; GAfter; GEnd true] = Ok p' /\ pg_bar p' = Some b /\ b_count b = 2 /\ b_total b = 2).
Proof. intros p. destruct (C88_bar p ["a"; "b"] [GBefore "a"; GAfter; GBefore "b"; GAfter] true) as (p' & b & E1 & E2 & E3 & E4 & _); [done|by repeat constructor|]. by exists p', b. Qed.

(** ** Refutations *)
(** In a task-based run the hook after the first node fails: it deletes the timer under the name of the
    node, but keeps it under the name of the task and the node. So PrintLn makes such runs fail. *)
Lemma in_tasks {tags} (tags_of : string -> tags) fmt p x t t0 t1 i s r e : chosen tags_of (pr_filter p) x ->
  (prun tags_of fmt p quiet [PBefore x (Some t) t0 i; PAfter x (Some t) t1 s r e]).1 = Err WKey.
Proof.
  intros Hc. assert (Hs : should_run_node x (tags_of x) (pr_filter p) = Ok true).
  { destruct (pr_filter p); cbn in *; [done|by rewrite bool_decide_true..|by rewrite Hc|done]. }
  cbn [prun pstep]. rewrite Hs. cbn [quiet ps_timers ps_out format_node_name dset]. cbn [dget]. rewrite decide_True by done.
  rewrite decide_False; [done|]. intros H. apply (f_equal String.length) in H. rewrite !slength_app in H. cbn in H. lia.
Qed.
Theorem C88_tasks_refuted : exists v (f : nfilter unit) p es, println v f = Ok p /\ f <> FOther /\
  es = [PBefore "a" (Some "task") 0 "{}"; PAfter "a" (Some "task") 5 true "1" ""]%Z /\ forall fmt, (prun (fun _ => tt) fmt p quiet es).1 = Err WKey.
Proof.
  exists 1%Z, FNone. eexists _, _. split; [reflexivity|]. split; [done|]. split; [reflexivity|]. intros fmt. by apply in_tasks.
Qed.
(** A width below three makes names longer. *)
Theorem C88_narrow_refuted : exists w x, (0 < w < 3)%Z /\ (w < Z.of_nat (String.length x) < Z.of_nat (String.length (name_display w x)))%Z.
Proof. exists 2%Z, "revenue". by vm_compute. Qed.
(** In a second run, of another dataflow, names are cut to the width of the first, whatever the cap. *)
Theorem C88_second_run_refuted : exists p, grun (progress_bar "d" 50) [GStart ["a_b"]; GBefore "a_b"; GAfter; GEnd true; GStart ["revenue"]; GBefore "revenue"] = Ok p /\
  from_option b_text "" (pg_bar p) = "d -> ..."%string.
Proof. eexists. split; [reflexivity|]. by vm_compute. Qed.
(** A run that failed is said to be complete as well. *)
Theorem C88_failed_refuted : exists p p', grun (progress_bar "d" 50) [GStart ["a"]; GBefore "a"; GAfter; GEnd false] = Ok p /\ grun (progress_bar "d" 50) [GStart ["a"]; GBefore "a"; GAfter; GEnd true] = Ok p' /\
  p = p' /\ from_option b_text "" (pg_bar p) = "d -> Execution Complete!"%string.
Proof. eexists _, _. split; [reflexivity|]. split; [reflexivity|]. split; by vm_compute. Qed.
(** Where a function is overridden the bar never gets full. *)
Theorem C88_overridden_refuted : exists (g : graph) (inputs overrides : gmap name nat) fv path out tr, wf_graph g /\ acyclic g /\
  execution_path g ∅ (Some inputs) (Some overrides) fv = Some path /\ default_execute (fun _ => ex_f) g ∅ inputs overrides fv = Answer out tr /\ "b" ∈ path /\ size path = 3 /\ calls_of tr = ["c"; "d"].
Proof.
  exists ex_graph, (<["a" := 10]> ∅), (<["b" := 5]> ∅), ["d"], (default ∅ (execution_path ex_graph ∅ (Some (<["a" := 10]> ∅)) (Some (<["b" := 5]> ∅)) ["d"])). eexists _, _. split; [apply ex_wf|]. split; [apply ex_acyclic|]. split; [vm_compute; reflexivity|].
  split; [vm_compute; reflexivity|]. split; [refine (bool_decide_unpack _ _); vm_compute; exact I|]. split; by vm_compute.
Qed.
Example C88_full : exists path out tr, execution_path ex_graph ∅ (Some (<["a" := 10]> ∅)) None ["e"] = Some path /\
  default_execute (fun _ => ex_f) ex_graph ∅ (<["a" := 10]> ∅) ∅ ["e"] = Answer out tr /\ calls_of tr = ["b"; "c"; "d"; "e"] /\ path <> ∅.
Proof.
  exists (default ∅ (execution_path ex_graph ∅ (Some (<["a" := 10]> ∅)) None ["e"])). eexists _, _. split; [vm_compute; reflexivity|]. split; [vm_compute; reflexivity|]. split; [by vm_compute|]. intros H.
  assert (K : "b" ∈ (∅ : gset name)) by (rewrite <- H; refine (bool_decide_unpack _ _); vm_compute; exact I). by apply elem_of_empty in K.
Qed.
(** A run that has nothing to execute fails for the progress bar, although it would succeed without. *)
Theorem C88_nothing_refuted : exists (g : graph) (inputs : gmap name nat) fv path out tr, wf_graph g /\ acyclic g /\ execution_path g ∅ (Some inputs) None fv = Some path /\
  default_execute (fun _ => ex_f) g ∅ inputs ∅ fv = Answer out tr /\ forall p, gstep p (GStart (elements path)) = Err WValue.
Proof.
  exists ex_graph, (<["a" := 10]> ∅), ["a"]. eexists _, _, _. split; [apply ex_wf|]. split; [apply ex_acyclic|]. split; [vm_compute; reflexivity|].
  split; [vm_compute; reflexivity|]. intros p. vm_compute. reflexivity.
Qed.

Print Assumptions C88_filter.
Print Assumptions C88_constructor.
Print Assumptions C88_println_partial.
Print Assumptions C88_lines.
Print Assumptions C88_display_partial.
Print Assumptions C88_first_run.
Print Assumptions C88_bar.
Print Assumptions C88_full_partial.
Print Assumptions C88_announced.
Print Assumptions C88_tasks_refuted.
Print Assumptions C88_narrow_refuted.
Print Assumptions C88_second_run_refuted.
Print Assumptions C88_failed_refuted.
Print Assumptions C88_overridden_refuted.
Print Assumptions C88_nothing_refuted.
