(** Grouping strategies for dataflows without Parallelizable and Collect. *)
From stdpp Require Import pretty.
From Coq Require Import Ascii.
From Verif Require Import Base Dict ExecModel ExecSpec ExecProofs ExecResults TraverseModel TraverseProofs TopoModel TopoProofs GroupModel StateModel StateProofs StateLive
  Strings PlanProofs StateResults TaskSpec TaskLocal TaskProofs TaskModel TaskGroups TaskRun TaskProps StrategyModel.

(** Groups of ordinary tasks that share no node, hold exactly the given nodes, and do not depend
    on each other in a cycle. *)
Record plain_grouping (g : graph) (nodes : list name) (groups : list ngroup) : Prop := {
  pg_base : NoDup (map ng_base groups);
  pg_dis : forall ng ng' x, ng ∈ groups -> ng' ∈ groups -> x ∈ ng_nodes ng -> x ∈ ng_nodes ng' -> ng = ng';
  pg_plain : forall ng, ng ∈ groups -> ng_spawn ng = None /\ ng_purpose ng <> EXPAND /\ ng_purpose ng <> GATHER;
  pg_cover : forall x, x ∈ nodes <-> exists ng, ng ∈ groups /\ x ∈ ng_nodes ng;
  pg_rank : exists rank : ngroup -> nat, forall ng ng' x d, ng ∈ groups -> ng' ∈ groups -> x ∈ ng_nodes ng -> d ∈ ng_nodes ng' ->
    edge g x d -> ng <> ng' -> rank ng' < rank ng;
}.

Section Groups.
Context {V : Type}.
Variable g : graph.
Hypothesis Hwf : wf_graph g.
Hypothesis Hac : acyclic g.
Variable role_of : name -> role.
Hypothesis Hstd : forall x, role_of x = RStandard.
Variable carg : name -> name.
Variable ov inputs : gmap name V.
Variable nodes : list name.
Hypothesis Hg : forall x, x ∈ nodes -> is_Some (g !! x).
Hypothesis Hclosed : forall x d, x ∈ nodes -> ov !! x = None -> edge g x d -> ov !! d = None -> d ∈ nodes \/ absent g inputs ov d.
Hypothesis Hnames : forall x, is_Some (g !! x) -> lacks ":" x.
Hypothesis Hkeys : forall x, is_Some (ov !! x) \/ is_Some (inputs !! x) -> lacks ":" x.
Hypothesis Honce : forall x v, ov !! x = Some v -> inputs !! x = None.
Variable groups : list ngroup.
Hypothesis Hpg : plain_grouping g nodes groups.

Lemma plain_disjoint : disjoint_groups groups.
Proof. intros ng ng' x H1 H2 H3 H4. f_equal. by eapply (pg_dis _ _ _ Hpg). Qed.
Lemma plain_good : good_groups g role_of carg ov inputs groups.
Proof.
  assert (Hsp : forall ng T, ng ∈ groups -> ng_spawn ng <> Some T).
  { intros ng T Hng. destruct (pg_plain _ _ _ Hpg ng Hng) as [-> _]. done. }
  constructor; try done.
  - apply plain_disjoint.
  - intros ng x Hng Hx. apply Hg, (pg_cover _ _ _ Hpg). by exists ng.
  - intros ng T Hng HT. by apply Hsp in HT.
  - intros ng x d Hng Hx Ho He Hod. destruct (Hclosed x d) as [Hd|Hd]; [|done|done|done|left; by apply (pg_cover _ _ _ Hpg)|by right].
    apply (pg_cover _ _ _ Hpg). by exists ng.
  - intros ng Hng _. left. destruct (pg_plain _ _ _ Hpg ng Hng) as (_ & ? & ?). split; [done|]. split; [done|]. intros x _. by rewrite Hstd.
  - intros T ng (Hng & HT & _). by apply Hsp in HT.
  - intros T ng Hng HT. by apply Hsp in HT.
  - intros T ng ng' (Hng & HT & _). by apply Hsp in HT.
  - intros ng T Hng HT. by apply Hsp in HT.
  - intros T ng ng' x w (Hng & HT & _). by apply Hsp in HT.
Qed.

Variable outputs : list name.
Variable tasks : list (tspec V).
Hypothesis Htasks : create_task_plan g ov groups outputs = Some tasks.
Lemma plain_wf_plan : wf_plan tasks.
Proof.
  destruct (plan_spec g ov groups outputs tasks Hwf plain_disjoint Htasks) as (Hbase & Ht & Hng).
  assert (Hsp : forall t, t ∈ tasks -> ts_spawn t = None).
  { intros t Hin. destruct (Ht t Hin) as (ng & Hn & _ & -> & _). by apply (pg_plain _ _ _ Hpg). }
  constructor.
  - rewrite Hbase. apply (pg_base _ _ _ Hpg).
  - intros t Hin _. by apply Hsp.
  - intros t T Hin HT. rewrite Hsp in HT by done. done.
  - intros t T i t' Hin HT. rewrite Hsp in HT by done. done.
  - intros t T i t' T' i' Hin HT. rewrite Hsp in HT by done. done.
Qed.
Lemma plain_live_plan : nodes <> [] -> live_plan tasks.
Proof.
  intros Hne. destruct (plan_spec g ov groups outputs tasks Hwf plain_disjoint Htasks) as (Hbase & Ht & Hng).
  assert (Hsp : forall t, t ∈ tasks -> ts_spawn t = None /\ ts_purpose t <> EXPAND /\ ts_purpose t <> GATHER).
  { intros t Hin. destruct (Ht t Hin) as (ng & Hn & _ & -> & _ & -> & _). by apply (pg_plain _ _ _ Hpg). }
  assert (Hdep : forall t u, t ∈ tasks -> u ∈ ts_deps t -> exists ng ng' x d t', ng ∈ groups /\ ng' ∈ groups /\ ng_base ng = ts_base t /\ ng_base ng' = u /\
    x ∈ ng_nodes ng /\ d ∈ ng_nodes ng' /\ edge g x d /\ ng <> ng' /\ t' ∈ tasks /\ ts_base t' = u).
  { intros t u Hin Hu. destruct (Ht t Hin) as (ng & Hn & Hb & _ & _ & _ & _ & Hd & _).
    destruct (proj1 (Hd u) Hu) as (x & d & ng' & Hin' & <- & Hx & Hxd & Hd' & Hnin & _ & _).
    destruct (Hng ng' Hin') as (t' & Ht' & Hb' & _). exists ng, ng', x, d, t'. split_and!; try done. intros ->. done. }
  constructor.
  - assert (exists x0, x0 ∈ nodes) as [x0 Hx0] by (clear -Hne; destruct nodes as [|x0 l]; [done|exists x0; left]). apply (pg_cover _ _ _ Hpg) in Hx0 as (ng & Hin & _).
    destruct (Hng ng Hin) as (t & Htt & _). intros ->. by apply elem_of_nil in Htt.
  - destruct (pg_rank _ _ _ Hpg) as [rk Hrk].
    assert (Heq : forall ng, ng ∈ groups -> default 0 (list_to_map (M:=gmap string nat) (map (fun ng => (ng_base ng, rk ng)) groups) !! ng_base ng) = rk ng).
    { intros ng Hin. erewrite (elem_of_list_to_map_1 _ (ng_base ng) (rk ng)); [done| |].
      - rewrite <-list_fmap_compose. apply (pg_base _ _ _ Hpg).
      - apply elem_of_list_In, in_map_iff. exists ng. split; [done|by apply elem_of_list_In]. }
    exists (fun b => default 0 (list_to_map (M:=gmap string nat) (map (fun ng => (ng_base ng, rk ng)) groups) !! b)). split.
    + intros sp u Hin Hu. destruct (Hdep sp u Hin Hu) as (ng & ng' & x & d & t' & Hn & Hn' & <- & <- & ? & ? & ? & ? & _).
      rewrite !Heq by done. by eapply Hrk.
    + intros sp T Hin HT. destruct (Hsp sp Hin) as (Hs & _). congruence.
  - intros sp u Hin Hu. destruct (Hdep sp u Hin Hu) as (ng & ng' & x & d & t' & Hn & Hn' & _ & _ & _ & _ & _ & _ & Ht' & Hb').
    exists t'. split; [done|]. split; [done|]. intros [[T HT] _]. destruct (Hsp t' Ht') as (Hs & _). congruence.
  - intros sp T Hin HT. destruct (Hsp sp Hin) as (Hs & _). congruence.
  - intros sp Hin _ Hd. destruct (ts_deps sp) as [|u us] eqn:Hds; [done|].
    destruct (Hdep sp u Hin ltac:(rewrite Hds; left)) as (ng & ng' & x & d & t' & Hn & Hn' & _ & _ & _ & _ & _ & _ & Ht' & Hb').
    exists t'. split; [done|]. split; [rewrite Hb'; left|]. by destruct (Hsp t' Ht') as (_ & ? & _).
Qed.
End Groups.

Section Run.
Context {V E : Type}.
Variable g : graph.
Variable role_of : name -> role.
Hypothesis Hstd : forall x, role_of x = RStandard.
Variable carg : name -> name.
Variable as_list : V -> option (list V).
Variable mk_list : list V -> V.
Hypothesis Hlist : forall l, as_list (mk_list l) = Some l.
Variable f : name -> gmap name V -> res E V.
Variable not_iterable : E.
Variable strategy : list name -> option (list ngroup).
Hypothesis Hstrat : forall nodes, NoDup nodes -> nodes <> [] -> (forall x, x ∈ nodes -> is_Some (g !! x)) ->
  exists groups, strategy nodes = Some groups /\ plain_grouping g nodes groups.
Variable ord : gset name -> list name.
Hypothesis Hord : forall s, NoDup (ord s) /\ forall x, x ∈ ord s <-> x ∈ s.
Hypothesis Hwf : wf_graph g.
Hypothesis Hac : acyclic g.
Variable config inputs ov all : gmap name V.
Hypothesis Hall : combine_config_and_inputs config inputs = Some all.
Hypothesis Hnames : forall x, is_Some (g !! x) -> lacks ":" x.
Hypothesis Hkeys : forall x, is_Some (ov !! x) \/ is_Some (all !! x) -> lacks ":" x.
Hypothesis Honce : forall x v, ov !! x = Some v -> all !! x = None.
Variable fv : list name.
Hypothesis Hfv : forall x, x ∈ fv -> is_Some (g !! x).
Hypothesis Hfvne : fv <> [].
Notation N := (used g all ov fv).
Notation peval := (peval g role_of carg as_list mk_list f all).
Notation evalf := (eval f g all ov).

Section Plan.
Variable nodes users : gset name.
Hypothesis Hq : get_upstream_nodes g config (Some all) (Some ov) fv = Found nodes users.
Notation ns := (ord (nodes ∪ users)).
Lemma ns_ne : ns <> [].
Proof.
  assert (exists x, x ∈ fv) as [x Hxf] by (destruct fv as [|x l]; [done|exists x; left]). assert (Hx : x ∈ ns).
  { eapply (ns_used g ord Hord Hwf config inputs ov all Hall fv nodes users Hq). apply used_req; [done|by apply Hfv]. }
  intros Hn. rewrite Hn in Hx. by apply elem_of_nil in Hx.
Qed.
Lemma st_groups : exists groups, strategy ns = Some groups /\ plain_grouping g ns groups.
Proof. apply Hstrat; [apply Hord|apply ns_ne|]. by eapply ns_node. Qed.
Variable groups : list ngroup.
Hypothesis Hpg : plain_grouping g ns groups.
Lemma st_good : good_groups g role_of carg ov all groups.
Proof. eapply (plain_good g Hwf Hac role_of Hstd carg ov all ns); try done; [by eapply ns_node|by eapply ns_absent]. Qed.
Lemma st_wf tasks : create_task_plan g ov groups fv = Some tasks -> wf_plan tasks.
Proof. by eapply plain_wf_plan. Qed.
Lemma st_live tasks : create_task_plan g ov groups fv = Some tasks -> live_plan tasks.
Proof. intros Ht. apply (plain_live_plan g Hwf ov ns groups Hpg fv tasks Ht ns_ne). Qed.
Lemma st_in ng x : ng ∈ groups -> x ∈ ng_nodes ng -> N x.
Proof. intros Hng Hx. eapply (ns_used g ord Hord Hwf config inputs ov all Hall fv nodes users Hq). apply (pg_cover _ _ _ Hpg). by exists ng. Qed.
End Plan.

Variable which : timpl V -> nat.
Variable limit : nat -> option nat.
Variable fin : nat -> string -> bool.
Notation execute n := (task_execute g role_of carg as_list mk_list f not_iterable strategy ord which limit fin config n inputs ov fv).

Lemma peval_is_eval x v : peval ov x v <-> evalf x v.
Proof. by apply C24_sequential_meaning. Qed.

Lemma st_final nodes users groups tasks n r x : get_upstream_nodes g config (Some all) (Some ov) fv = Found nodes users ->
  plain_grouping g (ord (nodes ∪ users)) groups -> create_task_plan g ov groups fv = Some tasks ->
  run_graph g role_of carg as_list mk_list f not_iterable tasks which limit fin n (all ∪ ov) = LDone r -> x ∈ fv ->
  exists v, es_cache (r_es r) !! x = Some v /\ evalf x v.
Proof.
  intros Hq Hpg Ht Hr Hx.
  destruct (run_final g role_of carg as_list mk_list f not_iterable ov all groups fv tasks Hlist (st_good nodes users Hq groups Hpg)
    Ht (st_wf nodes users groups Hpg tasks Ht) which limit fin n r x (st_live nodes users Hq groups Hpg tasks Ht) Hr (Hfv x Hx)) as (v & Hv & Hp).
  - right. split; [done|]. assert (Hxn : x ∈ ord (nodes ∪ users)).
    { eapply (ns_used g ord Hord Hwf config inputs ov all Hall fv nodes users Hq). apply used_req; [done|by apply Hfv]. }
    apply (pg_cover _ _ _ Hpg) in Hxn as (ng & Hng & Hin). exists ng. split; [done|]. split; [done|]. intros T (_ & HT & _).
    destruct (pg_plain _ _ _ Hpg ng Hng). congruence.
  - exists v. split; [done|]. by apply peval_is_eval.
Qed.

Lemma st_values n out tr : execute n = TAnswer out tr -> forall x, x ∈ fv -> exists v, out !! x = Some v /\ evalf x v.
Proof.
  unfold task_execute. rewrite Hall. destruct (get_upstream_nodes _ _ _ _ _) as [nodes users|m|] eqn:Hq; [|done|done].
  destruct (st_groups nodes users Hq) as (groups & -> & Hpg).
  destruct (create_task_plan g ov groups fv) as [tasks|] eqn:Ht; [|done].
  destruct (run_graph _ _ _ _ _ _ _ _ _ _ _ _ _) as [r|e tr'|r] eqn:Hr; [|done|done].
  destruct (cache_read _ _) as [out'|k] eqn:Hc; [|done]. intros [= -> <-] x Hx.
  destruct (cache_read_spec _ _ _ Hc x Hx) as (v & Hv & Hout).
  destruct (st_final nodes users groups tasks n r x Hq Hpg Ht Hr Hx) as (v' & Hv' & He).
  exists v. split; [done|]. by replace v with v' by congruence.
Qed.

Lemma cache_read_dom (c : gmap string V) keys : forall out, cache_read c keys = Ok out -> forall x, is_Some (out !! x) -> x ∈ keys.
Proof.
  induction keys as [|k keys IH]; intros out; cbn [cache_read].
  - intros [= <-] x [? H]. by rewrite lookup_empty in H.
  - destruct (c !! format_key None None k); [|done]. destruct (cache_read c keys) as [m|]; [|done]. intros [= <-] x.
    rewrite lookup_insert_is_Some. intros [-> |[_ Hx]]; [left|]. right. by eapply IH.
Qed.
Lemma st_dom n out tr : execute n = TAnswer out tr -> forall x, is_Some (out !! x) -> x ∈ fv.
Proof.
  unfold task_execute. rewrite Hall. destruct (get_upstream_nodes _ _ _ _ _) as [nodes users|m|]; [|done|done].
  destruct (strategy _); [|done]. destruct (create_task_plan _ _ _ _); [|done].
  destruct (run_graph _ _ _ _ _ _ _ _ _ _ _ _ _); [|done|done]. destruct (cache_read _ _) eqn:Hc; [|done]. intros [= <- _]. by eapply cache_read_dom.
Qed.

(** The default executor gives the same answer. *)
Lemma disjoint_of_all : (forall k, config !! k = None \/ inputs !! k = None) /\ all = inputs ∪ config.
Proof.
  unfold combine_config_and_inputs in Hall. case_bool_decide as Hd; [|done]. injection Hall as <-. split; [|done].
  intros k. destruct (inputs !! k) as [v|] eqn:Hk; [left; by eapply (Hd k v)|by right].
Qed.
Lemma needed_eval (vals : forall x, x ∈ fv -> exists v, evalf x v) x : needed g ov (requested g fv) x -> forall nd, g !! x = Some nd -> nd_ext nd = false -> exists v, evalf x v.
Proof.
  assert (Hdep : forall x nd d v, ov !! x = None -> g !! x = Some nd -> nd_ext nd = false -> evalf x v -> d ∈ dep_names nd ->
    (exists w, evalf d w) \/ absent g all ov d).
  { intros y nd d v Ho Hgy Hext Hv Hd. inversion Hv as [|? nd' ? Ho' Hg' Hext'|? nd' kw' ? Ho' Hg' Hext' Hdep' Hev' Habs' Hf']; subst; [congruence|congruence|].
    assert (nd' = nd) as -> by congruence. apply elem_of_list_fmap in Hd as ([d0 dt] & -> & Hin). cbn.
    destruct (kw' !! d0) as [w|] eqn:Hw; [left; exists w; by apply Hev'|right]. by eapply Habs'. }
  induction 1 as [x Hx Ho|x d Hx IH He Ho]; intros nd Hgx Hext.
  - apply requested_elem in Hx as [Hx _]. by apply vals.
  - destruct He as (ndx & Hg' & Hd). assert (Hextx : nd_ext ndx = false).
    { destruct (nd_ext ndx) eqn:Hxx; [|done]. apply (wf_ext _ Hwf _ _ Hg') in Hxx. unfold dep_names in Hd. rewrite Hxx in Hd. by apply elem_of_nil in Hd. }
    destruct (IH ndx Hg' Hextx) as [v Hv]. assert (Hox : ov !! x = None) by by inversion Hx.
    destruct (Hdep x ndx d v Hox Hg' Hextx Hv Hd) as [?|(_ & _ & nd' & ? & ?)]; [done|congruence].
Qed.
Lemma st_default n out tr : execute n = TAnswer out tr ->
  exists tr', default_execute (fun _ => f) g config inputs ov fv = Answer (map (fun x => (x, out !! x)) fv) tr'.
Proof.
  intros Hex. pose proof (st_values n out tr Hex) as Hv. destruct disjoint_of_all as [Hdisj Heq].
  destruct (proj2 (run_success g Hwf Hac f config inputs ov fv)) as (out' & tr' & Hrun).
  { split; [done|]. intros x nd Hn Hgx Hext. rewrite <-Heq. eapply needed_eval; try done. intros y Hy. destruct (Hv y Hy) as (v & _ & ?). by exists v. }
  exists tr'. rewrite Hrun. f_equal. destruct (run_values g Hwf Hac f config inputs ov fv out' tr' Hrun) as [Hk Hr].
  assert (Hmap : forall (l : list (name * option V)), (forall x r, (x, r) ∈ l -> r = out !! x) -> l = map (fun x => (x, out !! x)) l.*1).
  { induction l as [|[x r] l IH]; intros H; [done|]. cbn. f_equal; [f_equal; apply H; left|]. apply IH. intros y s Hy. apply H. by right. }
  rewrite (Hmap out'); [by rewrite Hk|]. intros x r Hin. specialize (Hr x r Hin).
  assert (Hx : x ∈ fv) by (rewrite <-Hk; apply elem_of_list_fmap; by exists (x, r)).
  destruct (Hv x Hx) as (w & -> & Hw). destruct (Hfv x Hx) as [nd Hgx]. rewrite <-Heq in Hr. destruct r as [v|].
  - destruct Hr as [[_ Hr]|[? _]]; [|congruence]. f_equal. by eapply eval_functional.
  - destruct Hr as [Ha|[? _]]; [|congruence]. by destruct (absent_no_eval f g all ov x w Ha).
Qed.

Lemma st_ends : (forall k k' id, k <= k' -> fin k id = true -> fin k' id = true) -> (forall id, exists k, fin k id = true) ->
  (forall i m, limit i = Some m -> 0 < m) -> exists n, forall tr, execute n <> TRunning tr.
Proof.
  intros Hm Hev Hpos. unfold task_execute. rewrite Hall.
  pose proof (upstream_ok g Hwf config (Some all) (Some ov) fv) as Hup.
  destruct (get_upstream_nodes _ _ _ _ _) as [nodes users|m|] eqn:Hq; [|by exists 0|done].
  destruct (st_groups nodes users Hq) as (groups & -> & Hpg).
  destruct (create_task_plan g ov groups fv) as [tasks|] eqn:Ht; [|by exists 0].
  destruct (run_ends g role_of carg as_list mk_list f not_iterable tasks which limit fin Hlist (st_wf nodes users groups Hpg tasks Ht)
    (st_live nodes users Hq groups Hpg tasks Ht) (all ∪ ov)) as [n Hn]; try done.
  exists n. intros tr. destruct (run_graph _ _ _ _ _ _ _ _ _ _ _ _ _) as [r|e tr'|r] eqn:Hr; [by destruct (cache_read _ _)|done|by edestruct Hn].
Qed.

Lemma st_only_user n : (forall x, N x -> ~ absent g all ov x) ->
  match execute n with
  | TAnswer out tr => forall x, x ∈ fv -> exists v, out !! x = Some v /\ evalf x v
  | TRunning _ => True
  | TRaised e tr => user_error g role_of as_list f not_iterable e tr
  | _ => False
  end.
Proof.
  intros Hpres. pose proof (st_values n) as Hval. revert Hval. unfold task_execute. rewrite Hall.
  pose proof (upstream_ok g Hwf config (Some all) (Some ov) fv) as Hup.
  destruct (get_upstream_nodes _ _ _ _ _) as [nodes users|m|] eqn:Hq; [|exfalso|done].
  2:{ destruct Hup as [-> Hne]. destruct (filter _ fv) as [|x l] eqn:Hfil; [done|].
      assert (Hx : x ∈ x :: l) by by left. rewrite <-Hfil in Hx. apply elem_of_list_filter in Hx as [[Hx _] Hin].
      apply is_node_false in Hx. destruct (Hfv x Hin). congruence. }
  destruct (st_groups nodes users Hq) as (groups & -> & Hpg).
  pose proof (st_in nodes users Hq groups Hpg) as Hin.
  assert (Hreq : forall x d, N x -> ov !! x = None -> (d, REQUIRED) ∈ deps_of g x -> N d).
  { intros x d Hx Ho Hd. unfold deps_of in Hd. destruct (g !! x) as [nd|] eqn:Hgx; [|by apply elem_of_nil in Hd].
    eapply used_dep; try done. by intros (_ & _ & ?). }
  destruct (create_task_plan g ov groups fv) as [tasks|] eqn:Ht.
  2:{ exfalso. apply plan_fails in Ht as (ng & x & d & Hng & Hx & Ho & (nd & Hgx & Hd) & Hod & Hno); [|by eapply plain_disjoint].
      assert (Hd' : N d). { eapply (Hreq x); [by eapply Hin|done|]. unfold deps_of. by rewrite Hgx. }
      apply (ns_used g ord Hord Hwf config inputs ov all Hall fv nodes users Hq) in Hd'. apply (pg_cover _ _ _ Hpg) in Hd' as (ng' & Hng' & Hdn). by eapply Hno. }
  destruct (run_graph _ _ _ _ _ _ _ _ _ _ _ _ _) as [r|e tr'|r] eqn:Hr; [| |done].
  - destruct (cache_read _ _) as [out'|k] eqn:Hc; [by eauto|]. intros _.
    apply cache_read_missing in Hc as [Hk Hkn].
    destruct (st_final nodes users groups tasks n r k Hq Hpg Ht Hr Hk) as (v' & Hv' & _). congruence.
  - intros _. refine (run_user g role_of carg as_list mk_list f not_iterable ov all groups fv tasks Hlist (st_good nodes users Hq groups Hpg)
      Ht (st_wf nodes users groups Hpg tasks Ht) which limit fin _ _ _ n e tr' Hr).
    + intros ng x Hng Hx. by eapply Hpres, Hin.
    + intros ng x d Hng Hx Ho Hd. by eapply Hpres, Hreq; [eapply Hin| |].
    + intros T e0 (ng & Hng & _ & _ & Hp & _). by destruct (pg_plain _ _ _ Hpg ng Hng) as (_ & ? & _).
Qed.
End Run.

(** ** The strategies of the library *)
Section Library.
Variable g : graph.
Hypothesis Hwf : wf_graph g.
Hypothesis Hac : acyclic g.
Variable role_of : name -> role.
Hypothesis Hstd : forall x, role_of x = RStandard.

Lemma individually_plain nodes : NoDup nodes -> plain_grouping g nodes (group_individually role_of nodes).
Proof.
  intros Hnd. unfold group_individually.
  assert (Hel : forall ng, ng ∈ map (fun x => NGroup x None [x] (role_purpose (role_of x))) nodes <-> exists x, x ∈ nodes /\ ng = NGroup x None [x] BLOCK).
  { intros ng. rewrite elem_of_list_fmap. split.
    - intros (x & -> & Hx). exists x. split; [done|]. by rewrite Hstd.
    - intros (x & Hx & ->). exists x. split; [by rewrite Hstd|done]. }
  constructor.
  - rewrite map_map. cbn. by rewrite map_id.
  - intros ng ng' x (y & _ & ->)%Hel (z & _ & ->)%Hel Hy%elem_of_list_singleton Hz%elem_of_list_singleton. congruence.
  - by intros ng (y & _ & ->)%Hel.
  - intros x. split.
    + intros Hx. exists (NGroup x None [x] BLOCK). split; [apply Hel; by exists x|left].
    + intros (ng & (y & Hy & ->)%Hel & ->%elem_of_list_singleton). done.
  - exists (fun ng => height g (ng_base ng)).
    intros ng ng' x d (y & _ & ->)%Hel (z & _ & ->)%Hel ->%elem_of_list_singleton ->%elem_of_list_singleton He _. by apply height_edge.
Qed.

Lemma all_plain nodes : nodes <> [] -> exists groups, group_all role_of nodes = Some groups /\ plain_grouping g nodes groups.
Proof.
  destruct nodes as [|y l] eqn:Hl; [done|]. intros _. cbn [group_all]. rewrite <-Hl. eexists. split; [done|]. constructor.
  - apply NoDup_singleton.
  - by intros ng ng' x ->%elem_of_list_singleton ->%elem_of_list_singleton.
  - intros ng ->%elem_of_list_singleton. cbn. by rewrite Hstd.
  - intros x. split; [intros Hx; eexists; split; [left|done]|]. by intros (ng & ->%elem_of_list_singleton & ?).
  - exists (fun _ => 0). by intros ng ng' x d ->%elem_of_list_singleton ->%elem_of_list_singleton.
Qed.

Lemma level_names nodes : tnames (level_nodes g nodes) = nodes.
Proof. unfold tnames, level_nodes. rewrite map_map. cbn. apply map_id. Qed.
Lemma level_ldep nodes x d : ldep (level_nodes g nodes) x d <-> x ∈ nodes /\ d ∈ nodes /\ edge g x d.
Proof.
  unfold ldep. rewrite level_names. split.
  - intros (n & Hn & <- & Hd & Hdn). apply elem_of_list_fmap in Hn as (y & -> & Hy). cbn in *. split; [done|]. split; [done|].
    destruct (g !! y) as [nd|] eqn:Hgy; [|by apply elem_of_nil in Hd]. by exists nd.
  - intros (Hx & Hd & nd & Hgx & Hdn). eexists. split; [apply elem_of_list_fmap; by exists x|]. cbn. by rewrite Hgx.
Qed.
Lemma levels_plain nodes : NoDup nodes -> exists groups, group_by_level g nodes = Some groups /\ plain_grouping g nodes groups.
Proof.
  intros Hnd. destruct (groups_ok (level_nodes g nodes)) as (levels & Hlev & Hiff & Htot & Hne).
  - by rewrite level_names.
  - intros n Hn. apply elem_of_list_fmap in Hn as (y & -> & Hy). cbn. destruct (g !! y) as [nd|] eqn:Hgy; [|constructor]. by eapply wf_nodup.
  - intros x Hx. apply (Hac x). revert Hx. generalize x at 2 4. intros z Hx. induction Hx as [x y Hxy|x y z Hxy _ IH].
    + apply tc_once. apply level_ldep in Hxy as (_ & _ & He). exact He.
    + eapply tc_l; [|exact IH]. apply level_ldep in Hxy as (_ & _ & He). exact He.
  - unfold group_by_level. rewrite Hlev. eexists. split; [done|].
    assert (Hel : forall ng, ng ∈ imap (fun i l => NGroup ("level_" +:+ pretty i) None l BLOCK) levels <->
      exists i l, levels !! i = Some l /\ ng = NGroup ("level_" +:+ pretty i) None l BLOCK).
    { intros ng. rewrite elem_of_list_lookup. split.
      - intros (i & Hi). rewrite list_lookup_imap, fmap_Some in Hi. destruct Hi as (l & Hl & ->). by exists i, l.
      - intros (i & l & Hl & ->). exists i. by rewrite list_lookup_imap, Hl. }
    assert (Hlong : forall i l x, levels !! i = Some l -> x ∈ l -> longest (level_nodes g nodes) x i) by (intros i l x Hl Hx; apply Hiff; eauto).
    assert (Huniq : forall x i j, longest (level_nodes g nodes) x i -> longest (level_nodes g nodes) x j -> i = j).
    { intros x i j [Hi Hi'] [Hj Hj']. specialize (Hi' _ Hj). specialize (Hj' _ Hi). lia. }
    assert (Hmem : forall x i, longest (level_nodes g nodes) x i -> x ∈ nodes).
    { intros x i [Hc _]. destruct Hc as [x Hx|n x d Hld _]; [by rewrite level_names in Hx|]. apply level_ldep in Hld as (Hx & _ & _). exact Hx. }
    constructor.
    + apply NoDup_fmap_2_strong.
      * intros a b (i & l & Hl & ->)%Hel (j & l' & Hl' & ->)%Hel Heq. cbn in Heq. apply (inj (String.append "level_")), pretty_nat_inj in Heq as ->. congruence.
      * apply NoDup_alt. intros i j a Hi Hj. rewrite list_lookup_imap, fmap_Some in Hi, Hj.
        destruct Hi as (l & _ & ->), Hj as (l' & _ & Heq). injection Heq as Heq _. by apply pretty_nat_inj in Heq.
    + intros a b x (i & l & Hl & ->)%Hel (j & l' & Hl' & ->)%Hel Hx Hx'. cbn in *.
      assert (i = j) as -> by (eapply Huniq; by eapply Hlong). congruence.
    + by intros a (i & l & Hl & ->)%Hel.
    + intros x. split.
      * intros Hx. destruct (Htot x) as [i Hi]; [by rewrite level_names|]. apply Hiff in Hi as (l & Hl & Hxl). eexists. split; [apply Hel; by exists i, l|done].
      * intros (a & (i & l & Hl & ->)%Hel & Hx). cbn in Hx. eapply Hmem. by eapply Hlong.
    + exists (fun ng => match list_find (fun l => l = ng_nodes ng) levels with Some (i, _) => i | None => 0 end).
      assert (Hrk : forall i l, levels !! i = Some l -> list_find (fun l0 => l0 = l) levels = Some (i, l)).
      { intros i l Hl. apply list_find_Some. split; [done|]. split; [done|]. intros j y Hy Hlt ->.
        destruct (Hne _ _ Hl) as [_ Hl0]. destruct l as [|x l]; [done|]. assert (i = j); [|lia]. eapply (Huniq x); (eapply Hlong; [eassumption|left]). }
      intros a b x d (i & l & Hl & ->)%Hel (j & l' & Hl' & ->)%Hel Hx Hd He Hneq. cbn in *. rewrite (Hrk _ _ Hl), (Hrk _ _ Hl').
      eapply (longest_dep (level_nodes g nodes) x d); [|by eapply Hlong|by eapply Hlong]. apply level_ldep. split_and!; [exact (Hmem _ _ (Hlong _ _ _ Hl Hx))|exact (Hmem _ _ (Hlong _ _ _ Hl' Hd))|exact He].
Qed.

Lemma blocks_plain ord nodes : NoDup nodes -> exists groups, group_by_blocks g role_of ord nodes = Some groups /\ plain_grouping g nodes groups.
Proof.
  intros Hnd. unfold group_by_blocks.
  assert (filter (fun x => role_of x = RCollect) nodes = []) as ->.
  { clear -Hstd. induction nodes as [|x l IH]; [done|]. rewrite filter_cons_False; [done|]. by rewrite Hstd. }
  cbn [group_collectors]. eexists. split; [done|]. cbn [app].
  assert (Hel : forall ng, ng ∈ map (fun x => NGroup x None [x] SINGLE) (filter (fun x => x ∉ ([] : list name)) nodes) <-> exists x, x ∈ nodes /\ ng = NGroup x None [x] SINGLE).
  { intros ng. rewrite elem_of_list_fmap. split; intros (x & H1 & H2).
    - apply elem_of_list_filter in H2 as [_ ?]. by exists x.
    - exists x. split; [done|]. apply elem_of_list_filter. split; [apply not_elem_of_nil|done]. }
  constructor.
  - rewrite map_map. cbn. rewrite map_id. by apply NoDup_filter.
  - intros ng ng' x (y & _ & ->)%Hel (z & _ & ->)%Hel Hy%elem_of_list_singleton Hz%elem_of_list_singleton. congruence.
  - by intros ng (y & _ & ->)%Hel.
  - intros x. split.
    + intros Hx. exists (NGroup x None [x] SINGLE). split; [apply Hel; by exists x|left].
    + intros (ng & (y & Hy & ->)%Hel & ->%elem_of_list_singleton). done.
  - exists (fun ng => height g (ng_base ng)).
    intros ng ng' x d (y & _ & ->)%Hel (z & _ & ->)%Hel ->%elem_of_list_singleton ->%elem_of_list_singleton He _. by apply height_edge.
Qed.
End Library.
