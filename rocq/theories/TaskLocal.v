(** What one task computes from the values bound to it. *)
From stdpp Require Import pretty.
From Verif Require Import Base Dict ExecModel ExecSpec ExecProofs ExecResults TraverseModel TopoModel GroupModel StateModel TaskSpec.

Section InputVars.
Context {V : Type}.
Variable g : graph.

(** The variables a task has to be given. *)
Definition wants (nodes : list name) (ov : gmap name V) (d : name) : Prop :=
  exists x, x ∈ nodes /\ ov !! x = None /\
    ((x = d /\ is_ext g x = true) \/ (edge g x d /\ ov !! d = None /\ (is_ext g d = true \/ d ∉ nodes))).

Lemma fold_input_var nodes (ov : gmap name V) ds : forall acc,
  let acc' := foldl (input_var g nodes ov) acc ds in
  (forall d, d ∈ acc.1 -> d ∈ acc'.1) /\
  (forall d, d ∈ acc'.1 ∪ acc'.2 <-> d ∈ acc.1 ∪ acc.2 \/ (d ∈ ds.*1 /\ ov !! d = None /\ (is_ext g d = true \/ d ∉ nodes))).
Proof.
  induction ds as [|[d0 dt] ds IH]; intros acc; cbn [foldl fmap list_fmap fst].
  - split; [done|]. intros d. set_solver.
  - destruct (IH (input_var g nodes ov acc (d0, dt))) as [H1 H2]. split.
    + intros d Hd. apply H1. unfold input_var. destruct (bool_decide _); [done|]. destruct (_ || _); [|done]. destruct dt; set_solver.
    + intros d. rewrite H2. clear H1 H2 IH.
      assert (Hc : d ∈ (input_var g nodes ov acc (d0, dt)).1 ∪ (input_var g nodes ov acc (d0, dt)).2 <->
        d ∈ acc.1 ∪ acc.2 \/ (d = d0 /\ ov !! d0 = None /\ (is_ext g d0 = true \/ d0 ∉ nodes))).
      { unfold input_var. destruct (bool_decide (is_Some (ov !! d0))) eqn:Ho.
        - apply bool_decide_eq_true in Ho as [? Ho]. rewrite Ho. naive_solver.
        - apply bool_decide_eq_false, eq_None_not_Some in Ho. destruct (is_ext g d0 || negb (bool_decide (d0 ∈ nodes))) eqn:Hb.
          + assert (Hor : is_ext g d0 = true \/ d0 ∉ nodes).
            { apply orb_true_iff in Hb as [?|Hb]; [by left|right]. by apply negb_true_iff, bool_decide_eq_false in Hb. }
            destruct dt; cbn.
            * destruct (decide (d = d0)) as [->|]; [set_solver|]. set_solver.
            * destruct (decide (d = d0)) as [->|]; [set_solver|]. set_solver.
          + apply orb_false_iff in Hb as [Hb1 Hb2]. apply negb_false_iff, bool_decide_eq_true in Hb2.
            split; [by left|]. intros [?|(_ & _ & [?|?])]; [done|congruence|done]. }
      rewrite Hc. rewrite elem_of_cons. naive_solver.
Qed.

Lemma input_vars_spec (t : tspec V) :
  let '(req, opt) := get_input_vars g t in
  (forall x, x ∈ ts_nodes t -> ts_overrides t !! x = None -> is_ext g x = true -> x ∈ req) /\
  (forall d, d ∈ req ∪ opt <-> wants (ts_nodes t) (ts_overrides t) d).
Proof.
  unfold get_input_vars. set (nodes := ts_nodes t) at 1 3 4. set (ov := ts_overrides t).
  assert (H : forall xs acc, (forall x, x ∈ xs -> x ∈ nodes) ->
    let acc' := foldl (input_vars_node g nodes ov) acc xs in
    (forall d, d ∈ acc.1 -> d ∈ acc'.1) /\
    (forall x, x ∈ xs -> ov !! x = None -> is_ext g x = true -> x ∈ acc'.1) /\
    (forall d, d ∈ acc'.1 ∪ acc'.2 <-> d ∈ acc.1 ∪ acc.2 \/ exists x, x ∈ xs /\ ov !! x = None /\
      ((x = d /\ is_ext g x = true) \/ (edge g x d /\ ov !! d = None /\ (is_ext g d = true \/ d ∉ nodes))))).
  { induction xs as [|x xs IH]; intros acc Hxs; cbn [foldl].
    - split_and!; [done|by intros ? ?%elem_of_nil|]. intros d. split; [by left|]. intros [?|(x & ?%elem_of_nil & _)]; done.
    - destruct (IH (input_vars_node g nodes ov acc x)) as (H1 & H2 & H3); [intros; apply Hxs; by right|].
      remember (input_vars_node g nodes ov acc x) as a0 eqn:Ha0. unfold input_vars_node in Ha0.
      destruct (bool_decide (is_Some (ov !! x))) eqn:Ho.
      + subst a0. apply bool_decide_eq_true in Ho as [? Ho]. split_and!; [done| |].
        * intros y [->|Hy]%elem_of_cons; [congruence|by apply H2].
        * intros d. rewrite H3. split; (intros [?|(y & Hy & Hrest)]; [by left|right]).
          -- exists y. split; [by right|done].
          -- apply elem_of_cons in Hy as [->|Hy]; [destruct Hrest; congruence|]. by exists y.
      + subst a0. apply bool_decide_eq_false, eq_None_not_Some in Ho.
        set (acc1 := if is_ext g x then ({[x]} ∪ acc.1, acc.2) else acc) in *.
        destruct (fold_input_var nodes ov (deps_of g x) acc1) as [H4 H5].
        assert (Hacc1 : forall d, d ∈ acc.1 -> d ∈ acc1.1) by (intros d Hd; unfold acc1; destruct (is_ext g x); set_solver).
        assert (Hacc2 : forall d, d ∈ acc1.1 ∪ acc1.2 <-> d ∈ acc.1 ∪ acc.2 \/ (d = x /\ is_ext g x = true)).
        { intros d. unfold acc1. destruct (is_ext g x); cbn; set_solver. }
        assert (Hedge : forall d, d ∈ (deps_of g x).*1 <-> edge g x d).
        { intros d. unfold deps_of, edge, dep_names. destruct (g !! x) as [nd|]; [|cbn; rewrite elem_of_nil; naive_solver].
          split; [intros; by exists nd|]. by intros (nd' & [= <-] & ?). }
        split_and!.
        * intros d Hd. apply H1, H4, Hacc1, Hd.
        * intros y [->|Hy]%elem_of_cons Hoy Hey; [|by apply H2]. apply H1, H4. unfold acc1. rewrite Hey. set_solver.
        * intros d. rewrite H3, H5, Hacc2, Hedge. split.
          -- intros [[[?|[-> ?]]|(? & ? & ?)]|(y & Hy & Hrest)]; [by left| | |]; right.
             ++ exists x. split_and!; [by left|done|by left].
             ++ exists x. split_and!; [by left|done|by right].
             ++ exists y. split; [by right|done].
          -- intros [?|(y & [->|Hy]%elem_of_cons & Hoy & Hrest)]; [by left; left; left| |].
             ++ left. destruct Hrest as [[-> ?]|(? & ? & ?)]; [left; right; done|right; done].
             ++ right. by exists y. }
  destruct (H nodes (∅, ∅)) as (_ & H2 & H3); [done|].
  destruct (foldl _ _ _) as [req opt]. cbn in *. split; [done|]. intros d. rewrite H3. unfold wants. fold nodes ov. set_solver.
Qed.

(** A required variable is an external node of the task or a required dependency of one of its nodes. *)
Lemma required_spec (t : tspec V) d : d ∈ (get_input_vars g t).1 ->
  exists x, x ∈ ts_nodes t /\ ts_overrides t !! x = None /\
    ((x = d /\ is_ext g x = true) \/ ((d, REQUIRED) ∈ deps_of g x /\ ts_overrides t !! d = None)).
Proof.
  unfold get_input_vars. set (nodes := ts_nodes t) at 1. set (ov := ts_overrides t).
  assert (Hv : forall ds acc d, d ∈ (foldl (input_var g nodes ov) acc ds).1 -> d ∈ acc.1 \/ ((d, REQUIRED) ∈ ds /\ ov !! d = None)).
  { induction ds as [|[d0 dt] ds IH]; intros acc d' Hd'; cbn [foldl] in Hd'; [by left|].
    apply IH in Hd' as [Hd'|[? ?]]; [|right; split; [by right|done]].
    unfold input_var in Hd'. destruct (bool_decide (is_Some (ov !! d0))) eqn:Ho; [by left|].
    apply bool_decide_eq_false, eq_None_not_Some in Ho.
    destruct (_ || _); [|by left]. destruct dt; cbn in Hd'; [|by left].
    apply elem_of_union in Hd' as [->%elem_of_singleton|?]; [|by left]. right. split; [by left|done]. }
  assert (H : forall xs acc d, d ∈ (foldl (input_vars_node g nodes ov) acc xs).1 -> d ∈ acc.1 \/
    exists x, x ∈ xs /\ ov !! x = None /\ ((x = d /\ is_ext g x = true) \/ ((d, REQUIRED) ∈ deps_of g x /\ ov !! d = None))).
  { induction xs as [|x xs IH]; intros acc d' Hd'; cbn [foldl] in Hd'; [by left|].
    apply IH in Hd' as [Hd'|(y & Hy & Hrest)]; [|right; exists y; split; [by right|done]].
    unfold input_vars_node in Hd'. destruct (bool_decide (is_Some (ov !! x))) eqn:Ho; [by left|].
    apply bool_decide_eq_false, eq_None_not_Some in Ho. apply Hv in Hd' as [Hd'|[H1 H2]].
    - destruct (is_ext g x) eqn:Hx; [|by left]. cbn in Hd'. apply elem_of_union in Hd' as [->%elem_of_singleton|?]; [|by left].
      right. exists x. split_and!; [by left|done|by left].
    - right. exists x. split_and!; [by left|done|by right]. }
  intros Hd. apply H in Hd as [Hd|?]; [cbn in Hd; set_solver|done].
Qed.
End InputVars.

Section Local.
Context {V E : Type}.
Variable g : graph.
Variable role_of : name -> role.
Variable carg : name -> name.
Variable as_list : V -> option (list V).
Variable mk_list : list V -> V.
Variable f : name -> gmap name V -> res E V.
Variable not_iterable : E.
Variable inputs : gmap name V.
Hypothesis Hwf : wf_graph g.
Hypothesis Hacyc : acyclic g.

Notation peval := (peval g role_of carg as_list mk_list f inputs).
Notation modify_callable := (modify_callable role_of as_list mk_list f not_iterable).
Notation base_execute_task := (base_execute_task g role_of as_list mk_list f not_iterable).
Notation bind_task := (bind_task (E:=E) g role_of carg mk_list).
Notation returns := (returns role_of as_list mk_list f).

Lemma modify_returns x kw v : modify_callable x kw = Ok v -> returns x kw v.
Proof.
  unfold StateModel.modify_callable, TaskSpec.returns. destruct (f x kw) as [w|]; [|done].
  case_bool_decide as Hr.
  - rewrite Hr. destruct (as_list w) as [l|] eqn:Hl; [|done]. intros [= <-]. exists w. split; [done|]. by exists l.
  - intros [= <-]. exists w. by destruct (role_of x).
Qed.

(** The results of a task: what [eval] says about its nodes, given the bound values. *)
Lemma task_results (t : timpl V) calls results :
  (forall x, x ∈ ts_nodes (ti_spec t) -> is_Some (g !! x)) ->
  (forall x, is_Some (ts_overrides (ti_spec t) !! x) -> x ∈ ts_nodes (ti_spec t)) ->
  (forall x, x ∈ ts_outputs (ti_spec t) -> x ∈ ts_nodes (ti_spec t)) ->
  base_execute_task t = (calls, Ok results) ->
  (forall x v, results !! x = Some v -> x ∈ ts_nodes (ti_spec t) /\
     eval modify_callable g (ti_dyn t) (ts_overrides (ti_spec t) ∪ ti_dyn t) x v) /\
  (forall x, x ∈ ts_outputs (ti_spec t) \/ is_Some (ts_overrides (ti_spec t) !! x) -> is_Some (results !! x) \/
     absent g (ti_dyn t) (ts_overrides (ti_spec t) ∪ ti_dyn t) x).
Proof.
  intros Hnodes Hov Hout. unfold StateModel.base_execute_task.
  pose proof (execute_subdag_ok (fun _ => modify_callable) g (ti_dyn t) (ts_overrides (ti_spec t) ∪ ti_dyn t)
    (ts_nodes (ti_spec t)) Hwf Hacyc Hnodes) as H.
  destruct (execute_subdag _ _ _ _ _) as [s|s e| |]; cbn [post] in H; try done.
  destruct H as (Hi & _ & _ & Hall). intros [= <- <-]. split.
  - intros x v Hx. apply map_filter_lookup_Some in Hx as [Hc Hx]. cbn in Hx. split; [naive_solver|].
    eapply good_eval; [apply (inv_good _ _ _ _ _ _ Hi)|]. by apply (inv_mem _ _ _ _ _ _ Hi).
  - intros x Hx. assert (Hxn : x ∈ ts_nodes (ti_spec t)) by naive_solver.
    destruct (Hall x Hxn) as [[v Hv]|Ha]; [left|by right]. exists v.
    apply map_filter_lookup_Some. split; [|done]. apply (inv_mem _ _ _ _ _ _ Hi). split; [done|]. intros Hd.
    destruct (good_elem _ _ _ _ _ _ _ (inv_good _ _ _ _ _ _ Hi) Hd) as (t1 & t2 & _ & Hr & _). done.
Qed.

Lemma eval_given (ff : name -> gmap name V -> res E V) (ins ov : gmap name V) d v b : eval ff g ins ov d v -> ov !! d = Some b -> v = b.
Proof. intros Hev Hb. inversion Hev; congruence. Qed.
Lemma eval_ext (ff : name -> gmap name V -> res E V) (ins ov : gmap name V) d v nd : eval ff g ins ov d v -> g !! d = Some nd -> nd_ext nd = true ->
  ov !! d = Some v \/ (ov !! d = None /\ ins !! d = Some v).
Proof. intros Hev Hg Hx. inversion Hev; [by left|right; done|congruence]. Qed.

(** An ordinary task, or one branch of a block, in the environment [env]. *)
Lemma eval_peval (t : timpl V) (env : gmap name V) :
  let tov := ts_overrides (ti_spec t) ∪ ti_dyn t in
  let nodes := ts_nodes (ti_spec t) in
  (forall x, x ∈ nodes -> tov !! x = None -> env !! x = None /\ role_of x <> RCollect) ->
  (forall d v, tov !! d = Some v -> peval env d v) ->
  (forall x, x ∈ nodes -> is_ext g x = true -> is_Some (tov !! x)) ->
  (forall x d, x ∈ nodes -> tov !! x = None -> edge g x d -> d ∉ nodes -> is_Some (tov !! d) \/ absent g inputs env d) ->
  forall x v, eval modify_callable g (ti_dyn t) tov x v -> x ∈ nodes \/ is_Some (tov !! x) -> peval env x v.
Proof.
  intros tov nodes Hn Hsound Hext Hout x v Hev.
  induction Hev as [x v Ho|x nd v Ho Hg Hx Hi|x nd kw v Ho Hg Hx Hkw Hev IH Hab Hf]; intros Hx'.
  - by apply Hsound.
  - exfalso. revert Ho. unfold tov. rewrite lookup_union_None, Hi. by intros [_ ?].
  - destruct Hx' as [Hxn|[? ?]]; [|congruence]. destruct (Hn x Hxn Ho) as [He Hr].
    eapply pe_fn; try done.
    + intros d w Hd. eapply IH; [done|]. destruct (decide (d ∈ nodes)) as [?|Hdn]; [by left|right].
      assert (Hed : edge g x d) by (exists nd; split; [done|by eapply Hkw]).
      destruct (Hout x d Hxn Ho Hed Hdn) as [?|(He' & He'' & ndd & Hgd & Hxd)]; [done|]. exfalso.
      destruct (eval_ext _ _ _ _ _ _ (Hev d w Hd) Hgd Hxd) as [Hod|[Hod Hid]].
      * apply Hsound in Hod. eapply absent_no_peval; [|exact Hod]. split_and!; eauto.
      * revert Hod. unfold tov. rewrite lookup_union_None, Hid. by intros [_ ?].
    + intros d dt Hd Hnone. destruct (Hab d dt Hd Hnone) as [(Had & _ & ndd & Hgd & Hxd) ->]. split; [|done].
      assert (Hdn : d ∉ nodes). { intros Hdn. destruct (Hext d Hdn) as [? ?]; [|congruence]. unfold is_ext. by rewrite Hgd. }
      destruct (Hout x d Hxn Ho) as [[? ?]|?]; [|done|congruence|done].
      exists nd. split; [done|]. apply elem_of_list_fmap. by exists (d, OPTIONAL).
    + by apply modify_returns.
Qed.

(** A gathering task. *)
Lemma eval_gather (t : timpl V) (ov : gmap name V) c e w items vs :
  let tov := ts_overrides (ti_spec t) ∪ ti_dyn t in
  ts_nodes (ti_spec t) = [c] -> role_of c = RCollect -> tov !! c = None -> ov !! c = None ->
  edge g c (carg c) -> feeds g role_of e (carg c) -> peval ov e w -> as_list w = Some items -> length vs = length items ->
  (forall i item u, items !! i = Some item -> vs !! i = Some u -> peval (<[e := item]> ov) (carg c) u) ->
  tov !! carg c = Some (mk_list vs) ->
  (forall d v, d <> carg c -> tov !! d = Some v -> peval ov d v) ->
  (forall d, edge g c d -> is_Some (tov !! d) \/ absent g inputs ov d) ->
  forall v, eval modify_callable g (ti_dyn t) tov c v -> peval ov c v.
Proof.
  intros tov Hnodes Hr Hc Hoc Hed Hfe Hpe Hal Hlen Hvs Hcarg Hsound Hout v Hev.
  inversion Hev as [? ? Ho|? nd ? Ho Hg Hx Hi|? nd kw ? Ho Hg Hx Hkw Hevd Hab Hf]; subst.
  - congruence.
  - exfalso. revert Hc. unfold tov. rewrite lookup_union_None, Hi. by intros [_ ?].
  - assert (Hkc : kw !! carg c = Some (mk_list vs)).
    { destruct (kw !! carg c) as [a|] eqn:Ha.
      - pose proof (Hevd _ _ Ha) as Hea. by rewrite (eval_given _ _ _ _ _ _ Hea Hcarg).
      - exfalso. destruct Hed as (nd' & Hg' & Hin). rewrite Hg in Hg'. injection Hg' as <-.
        apply elem_of_list_fmap in Hin as ([d dt] & Heq & Hin). cbn in Heq. subst d.
        destruct (Hab _ _ Hin Ha) as [(Habs & _) _]. congruence. }
    eapply pe_collect; try done.
    + intros d w' Hne Hd. pose proof (Hevd _ _ Hd) as Hedv.
      assert (Hcd : edge g c d) by (exists nd; split; [done|by eapply Hkw]).
      destruct (Hout d Hcd) as [[b Hb]|(Hd1 & Hd2 & ndd & Hgd & Hxd)].
      * rewrite (eval_given _ _ _ _ _ _ Hedv Hb). by apply Hsound.
      * exfalso. destruct (eval_ext _ _ _ _ _ _ Hedv Hgd Hxd) as [Hod|[Hod Hid]].
        -- eapply (absent_no_peval g role_of carg as_list mk_list f inputs ov d); [|by apply Hsound]. split_and!; eauto.
        -- revert Hod. unfold tov. rewrite lookup_union_None, Hid. by intros [_ ?].
    + intros d dt Hd Hnone. destruct (Hab d dt Hd Hnone) as [(Had & _) ->]. split; [|done].
      destruct (Hout d) as [[? ?]|?]; [|congruence|done].
      exists nd. split; [done|]. apply elem_of_list_fmap. by exists (d, OPTIONAL).
    + by apply modify_returns.
Qed.

(** ** Binding *)
Lemma cache_read_ok (c : gmap string V) ks : forall m, cache_read c ks = Ok m ->
  (forall k v, m !! k = Some v -> k ∈ ks /\ c !! k = Some v) /\ (forall k, k ∈ ks -> is_Some (m !! k)).
Proof.
  induction ks as [|k ks IH]; intros m; cbn [cache_read].
  - intros [= <-]. split; [done|]. by intros ? ?%elem_of_nil.
  - change (format_key None None k) with k. destruct (c !! k) as [v|] eqn:Hk; [|done].
    destruct (cache_read c ks) as [m'|]; [|done]. intros [= <-]. destruct (IH m' eq_refl) as [H1 H2]. split.
    + intros k' v'. destruct (decide (k' = k)) as [->|Hne].
      * rewrite lookup_insert. intros [= <-]. split; [by left|done].
      * rewrite lookup_insert_ne by done. intros H. apply H1 in H as [? ?]. split; [by right|done].
    + intros k' Hk'. destruct (decide (k' = k)) as [->|Hne]; [rewrite lookup_insert; by eexists|].
      rewrite lookup_insert_ne by done. apply H2. by apply elem_of_cons in Hk' as [?|?].
Qed.
Lemma cache_read_opt_lookup (c : gmap string V) ks k : cache_read_opt c ks !! k = if bool_decide (k ∈ ks) then c !! k else None.
Proof.
  unfold cache_read_opt. change (format_key None None) with (fun k : string => k).
  assert (Hin : forall k v, (k, v) ∈ omap (fun k => match c !! k with Some v => Some (k, v) | None => None end) ks <-> k ∈ ks /\ c !! k = Some v).
  { intros k' v. rewrite elem_of_list_omap. split.
    - intros (k0 & Hk0 & Heq). destruct (c !! k0) eqn:Hc; [|done]. by injection Heq as -> ->.
    - intros [? Hc]. exists k'. by rewrite Hc. }
  case_bool_decide as Hk.
  - destruct (c !! k) as [v|] eqn:Hc.
    + apply elem_of_list_to_map_1'; [|by apply Hin]. intros v' [_ ?]%Hin. congruence.
    + apply not_elem_of_list_to_map_1. intros ([k' v] & -> & [_ ?]%Hin)%elem_of_list_fmap. cbn in *. congruence.
  - apply not_elem_of_list_to_map_1. intros ([k' v] & -> & [? _]%Hin)%elem_of_list_fmap. done.
Qed.

Lemma bind_spec (s : estate V) (t t' : timpl V) : bind_task s t = Ok t' ->
  exists dyn req opt, get_input_vars g (ti_spec t) = (req, opt) /\ ti_dyn t' = ti_dyn t ∪ dyn /\
    (forall d v, dyn !! d = Some v -> (d ∈ req ∪ opt /\ es_cache s !! d = Some v) \/
       (ts_purpose (ti_spec t) <> GATHER /\ ts_overrides (ti_spec t) !! d = Some v) \/
       (ts_purpose (ti_spec t) = GATHER /\ exists c vs rest, collector_node role_of (ti_spec t) = Some c /\ d = carg c /\ v = mk_list vs /\
          collect_deps (E:=E) s (carg c) [] (ti_rdeps t) = Ok (vs, rest))) /\
    (forall d, d ∈ req -> is_Some (dyn !! d) \/ is_Some (ts_overrides (ti_spec t) !! d)) /\
    (forall d, d ∈ opt -> is_Some (es_cache s !! d) -> is_Some (dyn !! d)) /\
    (ts_purpose (ti_spec t) = GATHER -> exists c, collector_node role_of (ti_spec t) = Some c /\ is_Some (dyn !! carg c)).
Proof.
  unfold StateModel.bind_task. destruct (get_input_vars g (ti_spec t)) as [req opt].
  set (start := if bool_decide (ts_purpose (ti_spec t) = GATHER) then _ else _).
  destruct start as [[dyn rest]|e] eqn:Hstart; [|done].
  set (to_read := filter _ (elements req)).
  destruct (cache_read (es_cache s) to_read) as [m|k] eqn:Hread; [|done]. intros [= <-].
  destruct (cache_read_ok _ _ _ Hread) as [Hm1 Hm2].
  set (dyn2 := cache_read_opt (es_cache s) (elements opt) ∪ (m ∪ dyn)).
  assert (Hd0 : forall d v, dyn !! d = Some v ->
       (ts_purpose (ti_spec t) <> GATHER /\ ts_overrides (ti_spec t) !! d = Some v) \/
       (ts_purpose (ti_spec t) = GATHER /\ exists c vs rest, collector_node role_of (ti_spec t) = Some c /\ d = carg c /\ v = mk_list vs /\
          collect_deps (E:=E) s (carg c) [] (ti_rdeps t) = Ok (vs, rest))).
  { intros d v Hd. unfold start in Hstart. case_bool_decide as Hg.
    - destruct (collector_node role_of (ti_spec t)) as [c|]; [|done].
      destruct (collect_deps s (carg c) [] (ti_rdeps t)) as [[vs rest']|] eqn:Hc; [|done]. injection Hstart as <- <-.
      apply lookup_singleton_Some in Hd as [<- <-]. right. split; [done|]. by exists c, vs, rest'.
    - injection Hstart as <- <-. by left. }
  exists dyn2, req, opt. split_and!; [done|done| | | |].
  - intros d v. unfold dyn2. rewrite lookup_union_Some_raw. intros [H|[_ H]].
    + rewrite cache_read_opt_lookup in H. case_bool_decide as Hin; [|done]. left. split; [set_solver|done].
    + apply lookup_union_Some_raw in H as [H|[_ H]]; [|by right; apply Hd0].
      apply Hm1 in H as [Hin ?]. left. apply elem_of_list_filter in Hin as [_ Hin]. set_solver.
  - intros d Hd. destruct (ts_overrides (ti_spec t) !! d) eqn:Ho; [right; by eexists|left].
    destruct (dyn !! d) as [v|] eqn:Hdd.
    + unfold dyn2. rewrite !lookup_union_is_Some, Hdd. right. right. by eexists.
    + destruct (Hm2 d) as [v Hv].
      { apply elem_of_list_filter. split; [done|by apply elem_of_elements]. }
      unfold dyn2. rewrite !lookup_union_is_Some, Hv. right. left. by eexists.
  - intros d Hd [v Hv]. unfold dyn2. erewrite lookup_union_Some_l; [by eexists|].
    rewrite cache_read_opt_lookup, bool_decide_true; [done|by apply elem_of_elements].
  - intros Hg. unfold start in Hstart. rewrite bool_decide_true in Hstart by done.
    destruct (collector_node role_of (ti_spec t)) as [c|]; [|done]. exists c. split; [done|].
    destruct (collect_deps s (carg c) [] (ti_rdeps t)) as [[vs rest']|] eqn:Hc; [|done]. injection Hstart as <- <-.
    unfold dyn2. rewrite !lookup_union_is_Some, lookup_singleton. right. right. by eexists.
Qed.

End Local.
