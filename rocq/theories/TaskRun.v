(** From the plan of a task-based run to the answer of the executor. *)
From stdpp Require Import pretty.
From Verif Require Import Base Dict ExecModel ExecSpec TraverseModel TraverseProofs TopoModel GroupModel StateModel StateProofs StateLive
  Strings PlanProofs StateResults TaskSpec TaskLocal TaskProofs TaskModel TaskGroups.

(** ** The variables used by a run *)
Section Used.
Context {V : Type}.
Variable g : graph.
Variable inputs ov : gmap name V.
Variable fv : list name.

(** [used x]: [x] is requested, or a dependency of a used variable that is not overridden;
    optional inputs nobody supplies do not count. *)
Inductive used : name -> Prop :=
| used_req x : x ∈ fv -> is_Some (g !! x) -> used x
| used_dep x nd d dt : used x -> ov !! x = None -> g !! x = Some nd -> (d, dt) ∈ nd_deps nd ->
    ~ (is_ext g d = true /\ inputs !! d = None /\ dt = OPTIONAL) -> used d.
End Used.

Lemma supported_iff {V} g role_of carg (ov inputs : gmap name V) (N N' : name -> Prop) :
  (forall x, N x <-> N' x) -> supported g role_of carg ov inputs N -> supported g role_of carg ov inputs N'.
Proof.
  intros Hiff Hs.
  assert (Hb : forall c e, block g role_of carg ov inputs N c e <-> block g role_of carg ov inputs N' c e).
  { intros c e. split; intros [? ? ? ? ? Hcl ? ?]; (constructor; try done); intros w y Hi Hw; (apply Hcl; [done|]); by apply Hiff. }
  constructor.
  - intros c Hc Hr. destruct (su_block _ _ _ _ _ _ Hs c) as [e He]; [by apply Hiff|done|]. exists e. by apply Hb.
  - intros c c' e Hc Hc' Hr Hr' H1 H2. apply (su_distinct _ _ _ _ _ _ Hs c c' e); try done; [by apply Hiff|by apply Hiff|by apply Hb|by apply Hb].
  - apply (su_names _ _ _ _ _ _ Hs).
  - apply (su_keys _ _ _ _ _ _ Hs).
  - apply (su_once _ _ _ _ _ _ Hs).
  - intros w c e Hw Hov Hwr Hc Hcr Hbl Hi He. destruct (su_users _ _ _ _ _ _ Hs w c e) as (d & Hd & ?); try done; [by apply Hiff|by apply Hiff|by apply Hb|].
    exists d. split; [by apply Hiff|done].
Qed.

Section Nodes.
Context {V : Type}.
Variable g : graph.
Hypothesis Hwf : wf_graph g.
Variable config inputs ov : gmap name V.
Variable all : gmap name V.
Hypothesis Hall : combine_config_and_inputs config inputs = Some all.
Variable fv : list name.

Lemma all_config x : all !! x = None -> config !! x = None.
Proof.
  unfold combine_config_and_inputs in Hall. case_bool_decide; [|done]. injection Hall as <-.
  by intros [_ ?]%lookup_union_None.
Qed.
Lemma upstream_used nodes users : get_upstream_nodes g config (Some all) (Some ov) fv = Found nodes users ->
  forall x, x ∈ nodes ∪ users <-> used g all ov fv x.
Proof.
  intros Hq. pose proof (upstream_ok g Hwf config (Some all) (Some ov) fv) as H. rewrite Hq in H. destruct H as (_ & Hn & Hu).
  assert (Hnext : forall a b, b ∈ upstream_next g config (Some all) (Some ov) a <->
    exists nd dt, ov !! a = None /\ g !! a = Some nd /\ (b, dt) ∈ nd_deps nd /\ ~ (is_ext g b = true /\ all !! b = None /\ dt = OPTIONAL)).
  { intros a b. unfold upstream_next. destruct (g !! a) as [nd|] eqn:Hg.
    2:{ split; [by intros ?%elem_of_nil|]. by intros (? & ? & _ & ? & _). }
    case_bool_decide as Ho.
    { split; [by intros ?%elem_of_nil|]. destruct Ho as [? Ho]. intros (? & ? & Ho' & _). congruence. }
    apply eq_None_not_Some in Ho. split.
    - intros ([b' dt] & -> & Hin)%elem_of_list_fmap. apply elem_of_list_filter in Hin as [Hf Hin]. exists nd, dt. split_and!; try done.
      cbn [fst snd] in *. intros (Hb0 & Hb & ->). rewrite Hb0, !bool_decide_true in Hf; [done|done|by apply all_config|done].
    - intros (nd' & dt & _ & [= <-] & Hin & Hno). apply elem_of_list_fmap. exists (b, dt). split; [done|]. apply elem_of_list_filter. split; [|done].
      cbn [fst snd]. destruct (is_ext g b); [|done]. cbn [andb]. case_bool_decide; [|done]. cbn [andb]. case_bool_decide; [|done].
      cbn [andb]. case_bool_decide; [|done]. exfalso. by apply Hno. }
  assert (Hnodes : forall x, x ∈ nodes <-> used g all ov fv x).
  { intros x. rewrite Hn. split.
    - intros (s & Hs & Hgs & Hr). pattern x. eapply rtc_ind_r; [| |exact Hr]; [by apply used_req|].
      intros a b _ Hab IH. apply Hnext in Hab as (nd & dt & ? & ? & ? & ?). by eapply used_dep.
    - induction 1 as [x Hx Hgx|x nd d dt _ (s & Hs & Hgs & Hr) Hox Hgx Hd Hno].
      + exists x. split_and!; [done|done|constructor].
      + exists s. split_and!; [done|done|]. eapply rtc_r; [done|]. apply Hnext. by exists nd, dt. }
  intros x. rewrite elem_of_union, Hu, Hnodes. split; [|by left]. intros [?|[_ ?]]; done.
Qed.
Lemma used_node x : used g all ov fv x -> is_Some (g !! x).
Proof.
  induction 1 as [|x nd d dt _ _ _ Hg Hd _]; [done|]. eapply (wf_closed _ Hwf x). exists nd. split; [done|].
  apply elem_of_list_fmap. by exists (d, dt).
Qed.
Lemma used_closed x d : used g all ov fv x -> ov !! x = None -> edge g x d ->
  used g all ov fv d \/ (is_ext g d = true /\ all !! d = None).
Proof.
  intros Hx Ho (nd & Hg & Hd). apply elem_of_list_fmap in Hd as ([d' dt] & -> & Hd). cbn in *.
  destruct (is_ext g d') eqn:He; [|left; eapply used_dep; try done; intros [? _]; congruence].
  destruct (all !! d') eqn:Ha; [|by right]. left. eapply used_dep; try done. intros (_ & ? & _). congruence.
Qed.
End Nodes.

(** ** The value of a used variable is unique *)
Section Functional.
Context {V E : Type}.
Variable g : graph.
Variable role_of : name -> role.
Variable carg : name -> name.
Variable as_list : V -> option (list V).
Variable mk_list : list V -> V.
Variable f : name -> gmap name V -> res E V.
Variable inputs ov0 : gmap name V.
Variable N : name -> Prop.
Hypothesis Hclosed : forall x d, N x -> ov0 !! x = None -> edge g x d -> N d \/ (is_ext g d = true /\ inputs !! d = None).
Hypothesis Hone : forall c, N c -> ov0 !! c = None -> role_of c = RCollect -> exists e0, N e0 /\ forall e, feeds g role_of e (carg c) -> e = e0.

Notation peval := (peval g role_of carg as_list mk_list f inputs).

Lemma ext_given ov x v : is_ext g x = true -> inputs !! x = None -> peval ov x v -> ov !! x = Some v.
Proof. intros He Hi Hp. unfold is_ext in He. inversion Hp; simplify_eq; try done; rewrite H0 in He; congruence. Qed.

Lemma peval_unique ov x v : peval ov x v -> (forall y, ov !! y = None -> ov0 !! y = None) -> N x -> forall v', peval ov x v' -> v = v'.
Proof.
  intros H. induction H as [ov x v Ho|ov x nd v Ho Hg Hx Hi|ov x nd kw v Ho Hg Hx Hr Hkw Hev IH Hab Hret
    |ov x nd kw v e w items vs Ho Hg Hx Hr Hfe Hpe IHe Hal Hlen Hvs IHvs Hc Hkw Hev IH Hab Hret]; intros Hov Hn v' H'.
  - inversion H'; simplify_eq; congruence.
  - inversion H'; simplify_eq; congruence.
  - inversion H' as [|?|ov' x' nd' kw' v1 Ho' Hg' Hx' Hr' Hkw' Hev' Hab' Hret'|]; simplify_eq; try congruence.
    assert (Hd1 : forall d a b, d ∈ dep_names nd -> kw !! d = Some a -> peval ov d b -> a = b).
    { intros d a b Hd Ha Hb. destruct (Hclosed x d Hn (Hov _ Ho)) as [Hnd|[He Hi]]; [by exists nd|by eapply IH|].
      apply (ext_given ov) in Hb; [|done|done]. apply Hev, (ext_given ov) in Ha; [|done|done]. congruence. }
    eapply returns_functional; [exact Hret|]. assert (kw = kw') as ->; [|done].
    apply map_eq. intros d. destruct (kw !! d) as [a|] eqn:Ha.
    + pose proof (Hkw _ _ Ha) as Hd. pose proof Hd as Hd0. apply elem_of_list_fmap in Hd as ([d' dt] & -> & Hd). cbn in *.
      destruct (kw' !! d') as [b|] eqn:Hb; [|exfalso; eapply absent_no_peval; [apply (Hab' _ _ Hd Hb)|by apply Hev]].
      f_equal. eapply Hd1; [done|done|]. by apply Hev'.
    + destruct (kw' !! d) as [b|] eqn:Hb; [|done]. exfalso.
      pose proof (Hkw' _ _ Hb) as Hd. apply elem_of_list_fmap in Hd as ([d' dt] & -> & Hd). cbn in *.
      eapply absent_no_peval; [apply (Hab _ _ Hd Ha)|by apply Hev'].
  - inversion H' as [|?|?|ov' x' nd' kw' v1 e' w' items' vs' Ho' Hg' Hx' Hr' Hfe' Hpe' Hal' Hlen' Hvs' Hc' Hkw' Hev' Hab' Hret'];
      simplify_eq; try congruence.
    destruct (Hone x Hn (Hov _ Ho) Hr) as (e0 & Hne0 & He0).
    rewrite (He0 _ Hfe) in *. rewrite (He0 _ Hfe') in *. clear He0.
    assert (w' = w) as -> by (symmetry; by apply IHe).
    assert (items' = items) as -> by congruence.
    assert (vs' = vs) as ->.
    { assert (Hcd : carg x ∈ dep_names nd) by by eapply Hkw.
      apply list_eq. intros i. destruct (items !! i) as [item|] eqn:Hit.
      - pose proof (lookup_lt_Some _ _ _ Hit).
        destruct (lookup_lt_is_Some_2 vs i) as [u Hu]; [lia|]. destruct (lookup_lt_is_Some_2 vs' i) as [u' Hu']; [lia|].
        rewrite Hu, Hu'. f_equal. symmetry. pose proof (Hvs' _ _ _ Hit Hu') as Hb. pose proof (Hvs _ _ _ Hit Hu) as Ha.
        destruct (Hclosed x (carg x) Hn (Hov _ Ho)) as [Hnd|[He Hi]]; [by exists nd| |].
        + eapply IHvs; [done|done| |done|done]. intros y Hy. apply Hov.
          destruct (decide (y = e0)) as [->|?]; [by rewrite lookup_insert in Hy|by rewrite lookup_insert_ne in Hy].
        + apply ext_given in Ha; [|done|done]. apply ext_given in Hb; [|done|done]. congruence.
      - apply lookup_ge_None in Hit. rewrite !lookup_ge_None_2; [done|lia|lia]. }
    assert (Hd1 : forall d a b, d <> carg x -> d ∈ dep_names nd -> kw !! d = Some a -> peval ov d b -> a = b).
    { intros d a b Hdc Hd Ha Hb. destruct (Hclosed x d Hn (Hov _ Ho)) as [Hnd|[He Hi]]; [by exists nd|by eapply IH|].
      apply (ext_given ov) in Hb; [|done|done]. apply Hev, (ext_given ov) in Ha; [|done|done|done]. congruence. }
    eapply returns_functional; [exact Hret|]. assert (kw = kw') as ->; [|done].
    apply map_eq. intros d. destruct (decide (d = carg x)) as [->|Hne]; [congruence|]. destruct (kw !! d) as [a|] eqn:Ha.
    + pose proof (Hkw _ _ Ha) as Hd. pose proof Hd as Hd0. apply elem_of_list_fmap in Hd as ([d' dt] & -> & Hd). cbn in *.
      destruct (kw' !! d') as [b|] eqn:Hb; [|exfalso; eapply absent_no_peval; [apply (Hab' _ _ Hd Hb)|by apply Hev]].
      f_equal. eapply Hd1; [done|done|done|]. by apply Hev'.
    + destruct (kw' !! d) as [b|] eqn:Hb; [|done]. exfalso.
      pose proof (Hkw' _ _ Hb) as Hd. apply elem_of_list_fmap in Hd as ([d' dt] & -> & Hd). cbn in *.
      eapply absent_no_peval; [apply (Hab _ _ Hd Ha)|by apply Hev'].
Qed.
End Functional.

Lemma cache_read_spec {V} (c : gmap string V) keys out : cache_read c keys = Ok out ->
  forall k, k ∈ keys -> exists v, c !! k = Some v /\ out !! k = Some v.
Proof.
  revert out. induction keys as [|k0 keys IH]; intros out; cbn [cache_read]; [by intros _ k ?%elem_of_nil|].
  change (format_key None None k0) with k0. destruct (c !! k0) as [v0|] eqn:H0; [|done].
  destruct (cache_read c keys) as [m|?]; [|done]. intros [= <-] k Hk. destruct (decide (k = k0)) as [->|Hne].
  - exists v0. by rewrite lookup_insert.
  - apply elem_of_cons in Hk as [->|Hk]; [done|]. destruct (IH m eq_refl k Hk) as (v & ? & ?). exists v. by rewrite lookup_insert_ne.
Qed.

Section Run.
Context {V E : Type}.
Variable g : graph.
Variable role_of : name -> role.
Variable carg : name -> name.
Variable as_list : V -> option (list V).
Variable mk_list : list V -> V.
Hypothesis Hlist : forall l, as_list (mk_list l) = Some l.
Variable f : name -> gmap name V -> res E V.
Variable not_iterable : E.
Variable ord : gset name -> list name.
Hypothesis Hord : forall s, NoDup (ord s) /\ forall x, x ∈ ord s <-> x ∈ s.
Hypothesis Hwf : wf_graph g.
Hypothesis Hac : acyclic g.
Hypothesis Hext : forall x, role_of x = RExpand -> is_ext g x = false.
Variable config inputs ov all : gmap name V.
Hypothesis Hall : combine_config_and_inputs config inputs = Some all.
Variable fv : list name.
Notation N := (used g all ov fv).
Hypothesis Hsup : supported g role_of carg ov all N.

Notation peval := (peval g role_of carg as_list mk_list f all).
Notation block := (block g role_of carg ov all N).
Notation inner := (inner g role_of).

(** The variables that are computed once per item. *)
Definition per_item_var (x : name) : Prop := exists c e, N c /\ role_of c = RCollect /\ block c e /\ inner c x.

Section Plan.
Variable nodes users : gset name.
Hypothesis Hq : get_upstream_nodes g config (Some all) (Some ov) fv = Found nodes users.
Notation ns := (ord (nodes ∪ users)).
Notation M := (fun x => x ∈ ns).
Lemma ns_used x : x ∈ ns <-> N x.
Proof. rewrite (proj2 (Hord _)). by eapply upstream_used. Qed.
Lemma ns_supported : supported g role_of carg ov all M.
Proof. eapply supported_iff; [|exact Hsup]. intros x. symmetry. apply ns_used. Qed.
Lemma ns_block c e : TaskGroups.block g role_of carg ov all M c e <-> block c e.
Proof. split; intros [? ? ? ? ? Hcl ? ?]; (constructor; try done); intros w y Hi Hw; (apply Hcl; [done|]); by apply ns_used. Qed.
Lemma ns_closed x d : x ∈ ns -> ov !! x = None -> edge g x d -> d ∈ ns \/ (is_ext g d = true /\ all !! d = None).
Proof. intros Hx Ho He. apply ns_used in Hx. destruct (used_closed g ov all fv x d Hx Ho He) as [?|?]; [left; by apply ns_used|by right]. Qed.
Lemma ns_absent x d : x ∈ ns -> ov !! x = None -> edge g x d -> ov !! d = None -> d ∈ ns \/ absent g all ov d.
Proof.
  intros Hx Ho He Hod. destruct (ns_closed x d Hx Ho He) as [?|[Hext' Hd]]; [by left|right]. split_and!; [done|done|].
  unfold is_ext in Hext'. destruct (g !! d) as [nd|]; [|done]. by exists nd.
Qed.
Lemma ns_node x : x ∈ ns -> is_Some (g !! x).
Proof. intros Hx%ns_used. by eapply used_node. Qed.

Lemma plan_groups : exists groups, group_by_blocks g role_of ord ns = Some groups /\ groups_spec g role_of carg ov all ns groups.
Proof.
  apply (blocks_ok g role_of carg ov all ord (fun s => proj2 (Hord s)) Hwf Hac); try done.
  - apply Hord.
  - apply ns_node.
  - apply ns_absent.
  - apply ns_supported.
Qed.
Lemma groups_good groups : groups_spec g role_of carg ov all ns groups -> good_groups g role_of carg ov all groups.
Proof. apply (blocks_good g role_of carg ov all Hwf Hac ns ns_node ns_absent ns_supported Hext). Qed.
Lemma plan_wf groups tasks : groups_spec g role_of carg ov all ns groups -> create_task_plan g ov groups fv = Some tasks -> wf_plan tasks.
Proof. intros Hgs. apply (blocks_wf_plan g role_of carg ov all Hwf Hac ns ns_node ns_absent ns_supported Hext groups Hgs). Qed.
Lemma plan_live groups tasks : ns <> [] -> groups_spec g role_of carg ov all ns groups -> create_task_plan g ov groups fv = Some tasks -> live_plan tasks.
Proof. intros Hne Hgs. apply (blocks_live_plan g role_of carg ov all Hwf Hac ns Hne ns_node ns_absent ns_supported Hext groups Hgs). Qed.
End Plan.

Variable which : timpl V -> nat.
Variable limit : nat -> option nat.
Variable fin : nat -> string -> bool.
Notation execute n := (task_execute g role_of carg as_list mk_list f not_iterable (group_by_blocks g role_of ord) ord which limit fin config n inputs ov fv).

(** A requested variable outside the blocks has its meaning. *)
Lemma execute_values n out tr : execute n = TAnswer out tr ->
  forall x, x ∈ fv -> is_Some (g !! x) -> ~ per_item_var x -> exists v, out !! x = Some v /\ peval ov x v.
Proof.
  unfold task_execute. rewrite Hall. destruct (get_upstream_nodes _ _ _ _ _) as [nodes users|m|] eqn:Hq; [|done|done].
  destruct (plan_groups nodes users Hq) as (groups & -> & Hgs).
  destruct (create_task_plan g ov groups fv) as [tasks|] eqn:Ht; [|done].
  destruct (run_graph _ _ _ _ _ _ _ _ _ _ _ _ _) as [r|e tr'|r] eqn:Hr; [|done|done].
  destruct (cache_read _ _) as [out'|k] eqn:Hc; [|done]. intros [= -> <-] x Hx Hgx Hper.
  assert (Hxn : x ∈ ord (nodes ∪ users)). { apply (ns_used nodes users Hq). by apply used_req. }
  assert (Hne : ord (nodes ∪ users) <> []) by (intros Hn; rewrite Hn in Hxn; by apply elem_of_nil in Hxn).
  destruct (cache_read_spec _ _ _ Hc x Hx) as (v & Hv & Hout).
  destruct (run_final g role_of carg as_list mk_list f not_iterable ov all groups fv tasks Hlist (groups_good nodes users Hq groups Hgs)
    Ht (plan_wf nodes users Hq groups tasks Hgs Ht) which limit fin n r x (plan_live nodes users Hq groups tasks Hne Hgs Ht) Hr Hgx)
    as (v' & Hv' & Hp).
  - right. split; [done|]. pose proof Hgs as (_ & _ & _ & Hcov & _). destruct (Hcov x Hxn) as (ng & Hng & Hin).
    exists ng. split_and!; [done|done|]. intros T Hbg.
    destruct (gr_block g role_of carg ov all _ groups Hgs T ng Hbg) as (c & e & _ & [Hcn Hcr] & Hb & Hin' & _).
    apply Hper. exists c, e. split_and!; [by apply (ns_used nodes users Hq)|done|by apply (ns_block nodes users Hq)|by apply Hin'].
  - exists v. split; [done|]. by replace v with v' by congruence.
Qed.

(** What a collector is called with. *)
Lemma execute_collects n t calls o c kw res : TRun t calls o ∈ answer_trace (execute n) -> Call c kw res ∈ calls -> role_of c = RCollect ->
  exists e w items vs, feeds g role_of e (carg c) /\ peval ov e w /\ as_list w = Some items /\
    kw !! carg c = Some (mk_list vs) /\ length vs = length items /\
    forall i item u, items !! i = Some item -> vs !! i = Some u -> peval (<[e := item]> ov) (carg c) u.
Proof.
  unfold task_execute. rewrite Hall. destruct (get_upstream_nodes _ _ _ _ _) as [nodes users|m|] eqn:Hq; cbn [answer_trace]; [|by intros ?%elem_of_nil..].
  destruct (plan_groups nodes users Hq) as (groups & -> & Hgs).
  destruct (create_task_plan g ov groups fv) as [tasks|] eqn:Ht; [|by intros ?%elem_of_nil].
  intros Hin. eapply (run_collects g role_of carg as_list mk_list f not_iterable ov all groups fv tasks Hlist (groups_good nodes users Hq groups Hgs)
    Ht (plan_wf nodes users Hq groups tasks Hgs Ht) which limit fin n t calls o c kw res).
  unfold cache0. destruct (run_graph _ _ _ _ _ _ _ _ _ _ _ _ _) as [r|e tr'|r] eqn:Hr; [|done|done].
  by destruct (cache_read _ _).
Qed.

(** The run ends. *)
Lemma execute_ends : (forall k k' id, k <= k' -> fin k id = true -> fin k' id = true) -> (forall id, exists k, fin k id = true) ->
  (forall i m, limit i = Some m -> 0 < m) -> (exists x, x ∈ fv /\ is_Some (g !! x)) -> exists n, forall tr, execute n <> TRunning tr.
Proof.
  intros Hm Hev Hpos (x & Hx & Hgx). unfold task_execute. rewrite Hall.
  pose proof (upstream_ok g Hwf config (Some all) (Some ov) fv) as Hup.
  destruct (get_upstream_nodes _ _ _ _ _) as [nodes users|m|] eqn:Hq; [|by exists 0|done].
  destruct (plan_groups nodes users Hq) as (groups & -> & Hgs).
  destruct (create_task_plan g ov groups fv) as [tasks|] eqn:Ht; [|by exists 0].
  assert (Hxn : x ∈ ord (nodes ∪ users)). { apply (ns_used nodes users Hq). by apply used_req. }
  assert (Hne : ord (nodes ∪ users) <> []) by (intros Hn; rewrite Hn in Hxn; by apply elem_of_nil in Hxn).
  destruct (run_ends g role_of carg as_list mk_list f not_iterable tasks which limit fin Hlist (plan_wf nodes users Hq groups tasks Hgs Ht)
    (plan_live nodes users Hq groups tasks Hne Hgs Ht) (all ∪ ov)) as [n Hn]; try done.
  exists n. intros tr. destruct (run_graph _ _ _ _ _ _ _ _ _ _ _ _ _) as [r|e tr'|r] eqn:Hr; [by destruct (cache_read _ _)|done|by edestruct Hn].
Qed.

(** What can go wrong. *)
Lemma cache_read_missing (c : gmap string V) keys k : cache_read c keys = Err k -> k ∈ keys /\ c !! k = None.
Proof.
  revert k. induction keys as [|k0 keys IH]; intros k; cbn [cache_read]; [done|].
  change (format_key None None k0) with k0. destruct (c !! k0) as [v0|] eqn:H0.
  - destruct (cache_read c keys) as [m|k']; [done|]. intros [= ->]. destruct (IH k eq_refl). split; [by right|done].
  - intros [= <-]. split; [by left|done].
Qed.
Lemma execute_only_user n : (forall x, x ∈ fv -> is_Some (g !! x)) -> (forall x, x ∈ fv -> ~ per_item_var x) ->
  (forall x, N x -> ~ absent g all ov x) ->
  match execute n with
  | TAnswer out tr => forall x, x ∈ fv -> exists v, out !! x = Some v /\ peval ov x v
  | TRunning _ => True
  | TRaised e tr => user_error g role_of as_list f not_iterable e tr
  | _ => False
  end.
Proof.
  intros Hfv Hper Hpres.
  assert (Hval : forall out tr, execute n = TAnswer out tr -> forall x, x ∈ fv -> exists v, out !! x = Some v /\ peval ov x v).
  { intros out tr Heq x Hx. eapply execute_values; [done|done|by apply Hfv|by apply Hper]. }
  revert Hval. unfold task_execute. rewrite Hall.
  pose proof (upstream_ok g Hwf config (Some all) (Some ov) fv) as Hup.
  destruct (get_upstream_nodes _ _ _ _ _) as [nodes users|m|] eqn:Hq; [|exfalso|done].
  2:{ destruct Hup as [-> Hne]. destruct (filter _ fv) as [|x l] eqn:Hfil; [done|].
      assert (Hx : x ∈ x :: l) by by left. rewrite <-Hfil in Hx. apply elem_of_list_filter in Hx as [[Hx _] Hin].
      apply is_node_false in Hx. destruct (Hfv x Hin). congruence. }
  destruct (plan_groups nodes users Hq) as (groups & -> & Hgs).
  assert (Hin : forall ng x, ng ∈ groups -> x ∈ ng_nodes ng -> N x).
  { intros ng x Hng Hx. apply (ns_used nodes users Hq).
    by apply (kind_cases g role_of carg ov all Hwf Hac _ (ns_node nodes users Hq) (ns_absent nodes users Hq) (ns_supported nodes users Hq) Hext ng x (gr_kind _ _ _ _ _ _ _ Hgs _ Hng) Hx). }
  assert (Hreq : forall x d, N x -> ov !! x = None -> (d, REQUIRED) ∈ deps_of g x -> N d).
  { intros x d Hx Ho Hd. unfold deps_of in Hd. destruct (g !! x) as [nd|] eqn:Hgx; [|by apply elem_of_nil in Hd].
    eapply used_dep; try done. by intros (_ & _ & ?). }
  destruct (create_task_plan g ov groups fv) as [tasks|] eqn:Ht.
  2:{ exfalso. apply plan_fails in Ht as (ng & x & d & Hng & Hx & Ho & (nd & Hg & Hd) & Hod & Hno).
      - assert (Hd' : N d). { eapply (Hreq x); [by eapply Hin|done|]. unfold deps_of. by rewrite Hg. }
        apply (ns_used nodes users Hq) in Hd'. destruct Hgs as (_ & _ & _ & Hcov & _). destruct (Hcov d Hd') as (ng' & Hng' & Hdn). by eapply Hno.
      - by apply (blocks_disjoint g role_of carg ov all Hwf Hac _ (ns_node nodes users Hq) (ns_absent nodes users Hq) (ns_supported nodes users Hq) Hext groups Hgs). }
  destruct (run_graph _ _ _ _ _ _ _ _ _ _ _ _ _) as [r|e tr'|r] eqn:Hr; [| |done].
  - destruct (cache_read _ _) as [out'|k] eqn:Hc; [by eauto|]. intros _.
    apply cache_read_missing in Hc as [Hk Hkn].
    assert (Hxn : k ∈ ord (nodes ∪ users)). { apply (ns_used nodes users Hq). apply used_req; [done|by apply Hfv]. }
    assert (Hne : ord (nodes ∪ users) <> []) by (intros Hn; rewrite Hn in Hxn; by apply elem_of_nil in Hxn).
    destruct (run_final g role_of carg as_list mk_list f not_iterable ov all groups fv tasks Hlist (groups_good nodes users Hq groups Hgs)
      Ht (plan_wf nodes users Hq groups tasks Hgs Ht) which limit fin n r k (plan_live nodes users Hq groups tasks Hne Hgs Ht) Hr (Hfv _ Hk))
      as (v' & Hv' & _); [|congruence].
    right. split; [done|]. pose proof Hgs as (_ & _ & _ & Hcov & _). destruct (Hcov k Hxn) as (ng & Hng & Hink).
    exists ng. split_and!; [done|done|]. intros T Hbg.
    destruct (gr_block g role_of carg ov all _ groups Hgs T ng Hbg) as (c & e & _ & [Hcn Hcr] & Hb & Hin' & _).
    apply (Hper k Hk). exists c, e. split_and!; [by apply (ns_used nodes users Hq)|done|by apply (ns_block nodes users Hq)|by apply Hin'].
  - intros _. refine (run_user g role_of carg as_list mk_list f not_iterable ov all groups fv tasks Hlist (groups_good nodes users Hq groups Hgs)
      Ht (plan_wf nodes users Hq groups tasks Hgs Ht) which limit fin _ _ _ n e tr' Hr).
    + intros ng x Hng Hx. by eapply Hpres, Hin.
    + intros ng x d Hng Hx Ho Hd. by eapply Hpres, Hreq; [eapply Hin| |].
    + intros T e0 (ng & Hng & _ & _ & _ & Hn & _ & Ho & _). assert (Hu : N e0) by (eapply Hin; [done|rewrite Hn; by left]).
      destruct Hu as [x Hx _|x nd d dt _ Hox Hg Hd _]; [by left|right]. exists x. split; [|done]. exists nd. split; [done|].
      apply elem_of_list_fmap. by exists (d, dt).
Qed.

(** One Parallelizable variable per used collector. *)
Lemma feeds_block c e e' : block c e -> feeds g role_of e' (carg c) -> e' = e.
Proof.
  intros Hb [He' Hr].
  assert (H : forall a, tc (fun a b => edge g a b /\ role_of b <> RExpand) c a -> rtc (fun x y => role_of x = RStandard /\ edge g x y) a e' -> e' = e).
  { intros a Ha Hae. induction Hae as [a|a b m [Has Hab] Hbm IH].
    - exfalso. clear -Ha He'. induction Ha as [? ? [_ Hn]|? ? ? ? ? IH]; auto.
    - destruct (decide (role_of b = RExpand)) as [Hbr|Hbr].
      + assert (b = m) as ->. { destruct Hbm as [|b b' m [Hs _]]; [done|congruence]. }
        apply (bl_one _ _ _ _ _ _ _ _ Hb a m); [right|done|done]. split; [done|]. exists m. split; [done|by apply tc_once].
      + apply IH; [done|done|]. by eapply tc_r. }
  apply (H (carg c)); [apply (bl_arg _ _ _ _ _ _ _ _ Hb)|done].
Qed.
Lemma used_unique nodes users x v v' : get_upstream_nodes g config (Some all) (Some ov) fv = Found nodes users ->
  N x -> peval ov x v -> peval ov x v' -> v = v'.
Proof.
  intros Hq Hx Hv Hv'. eapply (peval_unique g role_of carg as_list mk_list f all ov N); [| |exact Hv|done|done|done].
  - intros y d Hy Ho He. by apply used_closed with (x := y).
  - intros c Hc Ho Hr. destruct (su_block _ _ _ _ _ _ Hsup c Hc Hr) as (e & Hb). exists e. split; [|intros e'; by apply feeds_block].
    apply (ns_used nodes users Hq). eapply (expander_in g role_of carg ov all Hwf Hac (ord (nodes ∪ users))).
    + by apply ns_node.
    + by apply ns_absent.
    + by apply ns_supported.
    + done.
    + split; [by apply (ns_used nodes users Hq)|done].
    + by apply (ns_block nodes users Hq).
Qed.
End Run.
