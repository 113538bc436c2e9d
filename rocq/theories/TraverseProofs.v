(** Correctness of the graph queries. *)
From Verif Require Import Base ExecModel ExecSpec ExecProofs ExecResults TraverseModel.

(** ** directional_dfs_traverse *)
Section Directional.
Variable next : name -> list name.
Variable ext : name -> bool.
Variable U : gset name.
Hypothesis HU : forall x n, x ∈ U -> n ∈ next x -> n ∈ U.

Let step (x y : name) : Prop := y ∈ next x.

Record visited_ok (st st' : sets) (new : name -> Prop) (from : name -> Prop) : Prop := {
  vo_mono : st.1 ⊆ st'.1;
  vo_U : st'.1 ⊆ U;
  vo_closed : forall y n, y ∈ st'.1 -> new y -> n ∈ next y -> n ∈ st'.1;
  vo_reach : forall y, y ∈ st'.1 -> y ∈ st.1 \/ exists n, from n /\ rtc step n y;
  vo_users : forall y, y ∈ st'.2 <-> y ∈ st.2 \/ (ext y = true /\ y ∈ st'.1 /\ new y);
}.

Definition visit_spec (fuel : nat) : Prop := forall st x,
  x ∈ U -> st.1 ⊆ U -> size (U ∖ ({[x]} ∪ st.1)) < fuel ->
  exists st', dfs_visit next ext fuel st x = Some st' /\ x ∈ st'.1 /\
    visited_ok st st' (fun y => y ∉ st.1 \/ y = x) (fun n => n = x).

Lemma visit_next_ok fuel (Hrec : visit_spec fuel) ns : forall st,
  (forall n, n ∈ ns -> n ∈ U) -> st.1 ⊆ U -> size (U ∖ st.1) <= fuel ->
  exists st', visit_next (dfs_visit next ext fuel) st ns = Some st' /\
    (forall n, n ∈ ns -> n ∈ st'.1) /\
    visited_ok st st' (fun y => y ∉ st.1) (fun n => n ∈ ns).
Proof.
  induction ns as [|n ns IH]; intros st Hns HstU Hf; cbn [visit_next].
  - exists st. split_and!; [done|by intros ? ?%elem_of_nil|]. split; try done.
    + intros y. by left.
    + intros y. split; [by left|]. intros [?|(_ & ? & ?)]; done.
  - destruct (decide (n ∈ st.1)) as [Hn|Hn].
    + destruct (IH st) as (st' & Heq & Hin & [Hm HU' Hc Hr Hu]).
      { intros m Hm. apply Hns. by right. }
      { done. }
      { done. }
      exists st'. split_and!; [done| |].
      { intros m [->|Hm']%elem_of_cons; [by apply Hm|by apply Hin]. }
      split; try done.
      intros y Hy. destruct (Hr y Hy) as [?|(m & Hm1 & Hm2)]; [by left|].
      right. exists m. split; [by right|done].
    + destruct (Hrec st n) as (st1 & Heq1 & Hn1 & [Hm1 HU1 Hc1 Hr1 Hu1]).
      { apply Hns. by left. }
      { done. }
      { assert (size (U ∖ ({[n]} ∪ st.1)) < size (U ∖ st.1)); [|lia].
        apply subset_size. assert (n ∈ U) by (apply Hns; by left). set_solver. }
      rewrite Heq1.
      destruct (IH st1) as (st' & Heq & Hin & [Hm HU' Hc Hr Hu]).
      { intros m Hm. apply Hns. by right. }
      { done. }
      { assert (size (U ∖ st1.1) <= size (U ∖ st.1)); [|lia]. apply subseteq_size. set_solver. }
      exists st'. split_and!; [done| |].
      { intros m [->|Hm']%elem_of_cons; [by apply Hm|by apply Hin]. }
      split.
      * set_solver.
      * done.
      * intros y m Hy Hny Hmy. destruct (decide (y ∈ st1.1)) as [Hy1|Hy1].
        -- apply Hm. eapply Hc1; [done|by left|done].
        -- eapply Hc; done.
      * intros y Hy. destruct (Hr y Hy) as [Hy1|(m & Hm' & Hr')].
        -- destruct (Hr1 y Hy1) as [?|(m & -> & Hr')]; [by left|]. right. exists n. split; [by left|done].
        -- right. exists m. split; [by right|done].
      * intros y. rewrite Hu, Hu1. split.
        -- intros [[?|(He & Hy & Hny)]|(He & Hy & Hny)]; [by left| |].
           ++ right. split_and!; [done|by apply Hm|]. destruct Hny as [?| ->]; done.
           ++ right. split_and!; [done|done|]. intros ?. apply Hny. by apply Hm1.
        -- intros [?|(He & Hy & Hny)]; [by left; left|].
           destruct (decide (y ∈ st1.1)); [|by right].
           left. right. split_and!; [done|done|by left].
Qed.

Lemma dfs_visit_ok fuel : visit_spec fuel.
Proof.
  induction fuel as [|fuel IH]; intros st x Hx HstU Hf; [lia|].
  cbn [dfs_visit].
  destruct (visit_next_ok fuel IH (next x) ({[x]} ∪ st.1, st.2)) as (st' & Heq & Hin & [Hm HU' Hc Hr Hu]).
  { intros n Hn. by eapply HU. }
  { cbn. set_solver. }
  { cbn. lia. }
  rewrite Heq. cbn in Hm, Hc, Hr, Hu.
  assert (Hxin : x ∈ st'.1) by set_solver.
  exists (if ext x then (st'.1, {[x]} ∪ st'.2) else st'). split_and!; [done|by destruct (ext x)|].
  assert (H1 : (if ext x then (st'.1, {[x]} ∪ st'.2) else st').1 = st'.1) by by destruct (ext x).
  split.
  - rewrite H1. set_solver.
  - by rewrite H1.
  - rewrite H1. intros y n Hy Hny Hn. destruct (decide (y = x)) as [->|Hne]; [by apply Hin|].
    eapply Hc; [done| |done]. destruct Hny as [?|?]; [|done]. set_solver.
  - rewrite H1. intros y Hy. destruct (Hr y Hy) as [[->%elem_of_singleton|?]%elem_of_union|(n & Hn & Hrt)].
    + right. by exists x.
    + by left.
    + right. exists x. split; [done|]. by eapply rtc_l.
  - rewrite H1. intros y. destruct (ext x) eqn:Hex; cbn.
    + rewrite elem_of_union, elem_of_singleton, Hu. split.
      * intros [->|[?|(? & ? & ?)]]; [right|by left|right]; [by eauto|]. split_and!; [done|done|].
        left. set_solver.
      * intros [?|(? & ? & [?| ->])]; [by right; left| |by left].
        destruct (decide (y = x)); [by left|]. right. right. split_and!; [done|done|set_solver].
    + rewrite Hu. split.
      * intros [?|(? & ? & ?)]; [by left|right]. split_and!; [done|done|]. left. set_solver.
      * intros [?|(? & ? & [?| ->])]; [by left| |congruence]. right. split_and!; [done|done|].
        assert (y <> x) by congruence. set_solver.
Qed.

Lemma visit_starts_ok known runtime starts : forall st missing,
  (forall s, s ∈ starts -> known s = true -> s ∈ U) ->
  st.1 ⊆ U -> (forall y n, y ∈ st.1 -> n ∈ next y -> n ∈ st.1) ->
  (forall y, y ∈ st.2 <-> ext y = true /\ y ∈ st.1) ->
  let unknown := filter (fun s => known s = false /\ runtime s = false) starts in
  match visit_starts next ext (S (size U)) known runtime st missing starts with
  | Found nodes users =>
      missing = [] /\ unknown = [] /\
      (forall y, y ∈ nodes <-> y ∈ st.1 \/ exists s, s ∈ starts /\ known s = true /\ rtc step s y) /\
      (forall y, y ∈ users <-> ext y = true /\ y ∈ nodes)
  | Unknown m => m = missing ++ unknown /\ m <> []
  | QFuel => False
  end.
Proof.
  induction starts as [|s starts IH]; intros st missing Hk HstU Hcl Hus; cbn [visit_starts].
  - cbn. destruct missing as [|m missing].
    + split_and!; [done|done| |].
      * intros y. split; [by left|]. intros [?|(s & Hs & _)]; [done|]. by apply elem_of_nil in Hs.
      * done.
    + by rewrite app_nil_r.
  - destruct (known s) eqn:Hks.
    + destruct (dfs_visit_ok (S (size U)) st s) as (st' & Heq & Hs' & [Hm HU' Hc Hr Hu]).
      { apply Hk; [by left|done]. }
      { done. }
      { assert (size (U ∖ ({[s]} ∪ st.1)) <= size U); [|lia]. apply subseteq_size. set_solver. }
      rewrite Heq.
      assert (Hcl' : forall y n, y ∈ st'.1 -> n ∈ next y -> n ∈ st'.1).
      { intros y n Hy Hn. destruct (decide (y ∈ st.1)) as [Hy0|Hy0].
        - apply Hm. by eapply Hcl.
        - eapply Hc; [done|by left|done]. }
      assert (Hrt : forall y, rtc step s y -> y ∈ st'.1).
      { intros y Hy. clear -Hy Hcl' Hs'. induction Hy; [done|]. apply IHHy. by eapply Hcl'. }
      specialize (IH st' missing). feed specialize IH.
      { intros t Ht. apply Hk. by right. }
      { done. }
      { done. }
      { intros y. rewrite Hu, Hus. split.
        - intros [[? ?]|(? & ? & _)]; [|done]. split; [done|by apply Hm].
        - intros [? ?]. destruct (decide (y ∈ st.1)); [by left|right]. split_and!; [done|done|by left]. }
      cbn in IH. rewrite filter_cons_False; [|intros [? _]; congruence].
      destruct (visit_starts _ _ _ _ _ _ _ _) as [nodes users|m|]; [|done|done].
      destruct IH as (? & ? & IHn & IHu). split_and!; [done|done| |done].
      intros y. rewrite IHn. split.
      * intros [Hy|(t & Ht & ? & ?)].
        -- destruct (Hr y Hy) as [?|(n & -> & ?)]; [by left|]. right. exists s. split_and!; [by left|done|done].
        -- right. exists t. split_and!; [by right|done|done].
      * intros [Hy|(t & [->|Ht]%elem_of_cons & ? & ?)]; [left; by apply Hm|left; by apply Hrt|].
        right. by exists t.
    + specialize (IH st (if runtime s then missing else missing ++ [s])). feed specialize IH.
      { intros t Ht. apply Hk. by right. }
      { done. }
      { done. }
      { done. }
      cbn in IH. destruct (runtime s) eqn:Hrs.
      * rewrite filter_cons_False; [|intros [_ ?]; congruence].
        destruct (visit_starts _ _ _ _ _ _ _ _) as [nodes users|m|]; [|done|done].
        destruct IH as (? & ? & IHn & IHu). split_and!; [done|done| |done].
        intros y. rewrite IHn. split.
        -- intros [?|(t & Ht & ? & ?)]; [by left|right]. exists t. split_and!; [by right|done|done].
        -- intros [?|(t & [->|Ht]%elem_of_cons & ? & ?)]; [by left|congruence|right]. by exists t.
      * rewrite filter_cons_True; [|done].
        destruct (visit_starts _ _ _ _ _ _ _ _) as [nodes users|m|]; [| |done].
        -- destruct IH as (Hmiss & _). by destruct missing.
        -- destruct IH as [-> ?]. split; [|done]. by rewrite <-app_assoc.
Qed.
End Directional.

Lemma tc_rtc_inv {A} (R : A -> A -> Prop) x y : tc R x y -> exists d, R x d /\ rtc R d y.
Proof. destruct 1 as [x y H|x y z H Ht]; [by exists y|]. exists y. split; [done|by apply tc_rtc]. Qed.

Lemma filter_none {A} (P : A -> Prop) `{forall x, Decision (P x)} (l : list A) :
  (forall x, P x -> x ∉ l) -> filter P l = [].
Proof.
  intros Hn. destruct (filter P l) as [|x l'] eqn:Heq; [done|].
  assert (Hx : x ∈ filter P l) by (rewrite Heq; by left).
  apply elem_of_list_filter in Hx as [HP Hin]. by destruct (Hn x HP).
Qed.

Lemma rtc_step_ext {A} (R R' : A -> A -> Prop) x y :
  (forall a b, R a b -> R' a b) -> rtc R x y -> rtc R' x y.
Proof. intros H. induction 1; [done|]. eapply rtc_l; eauto. Qed.

Lemma rtc_flip {A} (R : A -> A -> Prop) x y : rtc (flip R) x y -> rtc R y x.
Proof. induction 1; [done|]. by eapply rtc_r. Qed.
Lemma rtc_flip' {A} (R : A -> A -> Prop) x y : rtc R x y -> rtc (flip R) y x.
Proof. induction 1; [done|]. eapply rtc_r; [done|]. done. Qed.

Section Queries.
Variable g : graph.
Hypothesis Hwf : wf_graph g.

Lemma traverse_ok next runtime starts :
  (forall x n, is_Some (g !! x) -> n ∈ next x -> is_Some (g !! n)) ->
  let unknown := filter (fun s => is_node g s = false /\ runtime s = false) starts in
  match traverse g next runtime starts with
  | Found nodes users =>
      unknown = [] /\
      (forall y, y ∈ nodes <-> exists s, s ∈ starts /\ is_Some (g !! s) /\ rtc (fun a b => b ∈ next a) s y) /\
      (forall y, y ∈ users <-> is_ext g y = true /\ y ∈ nodes)
  | Unknown m => m = unknown /\ m <> []
  | QFuel => False
  end.
Proof.
  intros Hn.
  pose proof (visit_starts_ok next (is_ext g) (dom g : gset name)) as H.
  feed specialize H.
  { intros x n Hx Hxn. apply elem_of_dom in Hx. apply elem_of_dom. by eapply Hn. }
  specialize (H (is_node g) runtime starts (∅, ∅) []). feed specialize H.
  { intros s _ Hs. unfold is_node in Hs. apply bool_decide_eq_true in Hs. by apply elem_of_dom. }
  { cbn. set_solver. }
  { cbn. set_solver. }
  { cbn. set_solver. }
  cbn in H. unfold traverse. rewrite <-(size_dom (D:=gset name) g).
  destruct (visit_starts _ _ _ _ _ _ _ _) as [nodes users|m|]; [|done|done].
  destruct H as (_ & ? & Hnodes & Husers). split_and!; [done| |done].
  intros y. rewrite Hnodes. split.
  - intros [?|(s & Hs & Hk & Hr)]; [set_solver|]. exists s. split_and!; [done| |done].
    unfold is_node in Hk. by apply bool_decide_eq_true in Hk.
  - intros (s & Hs & Hk & Hr). right. exists s. split_and!; [done| |done].
    by apply bool_decide_eq_true.
Qed.

Lemma is_node_false x : is_node g x = false <-> g !! x = None.
Proof. unfold is_node. rewrite bool_decide_eq_false, eq_None_not_Some. done. Qed.
Lemma is_node_true x : is_node g x = true <-> is_Some (g !! x).
Proof. unfold is_node. apply bool_decide_eq_true. Qed.

Section Up.
Context {V : Type}.
Variable config : gmap name V.

Lemma upstream_next_edge inputs overrides x n :
  n ∈ upstream_next g config inputs overrides x -> edge g x n.
Proof.
  unfold upstream_next. destruct (g !! x) as [nd|] eqn:Hg; [|by intros ?%elem_of_nil].
  destruct (match overrides with Some _ => _ | None => _ end); [by intros ?%elem_of_nil|].
  destruct inputs as [inp|].
  - intros ([n' dt] & -> & Hin)%elem_of_list_fmap. apply elem_of_list_filter in Hin as [_ Hin].
    exists nd. split; [done|]. apply elem_of_list_fmap. by exists (n', dt).
  - intros Hin. by exists nd.
Qed.

Lemma upstream_none x n : n ∈ upstream_next g config None None x <-> edge g x n.
Proof.
  split; [apply upstream_next_edge|]. intros (nd & Hg & Hin). unfold upstream_next. by rewrite Hg.
Qed.

Lemma upstream_ok inputs overrides fv :
  let runtime x := match inputs with Some i => bool_decide (is_Some (i !! x)) | None => false end in
  let unknown := filter (fun s => is_node g s = false /\ runtime s = false) fv in
  match get_upstream_nodes g config inputs overrides fv with
  | Found nodes users =>
      unknown = [] /\
      (forall y, y ∈ nodes <-> exists s, s ∈ fv /\ is_Some (g !! s) /\
                     rtc (fun a b => b ∈ upstream_next g config inputs overrides a) s y) /\
      (forall y, y ∈ users <-> is_ext g y = true /\ y ∈ nodes)
  | Unknown m => m = unknown /\ m <> []
  | QFuel => False
  end.
Proof.
  apply traverse_ok. intros x n _ Hn. apply upstream_next_edge in Hn. by eapply wf_closed.
Qed.

Lemma upstream_reach xs : (forall x, x ∈ xs -> is_Some (g !! x)) ->
  exists nodes users, what_is_upstream_of g config xs = Found nodes users /\
    forall y, y ∈ nodes <-> exists x, x ∈ xs /\ rtc (edge g) x y.
Proof.
  intros Hxs. unfold what_is_upstream_of. pose proof (upstream_ok None None xs) as H. cbn in H.
  assert (Hu : filter (fun s => is_node g s = false /\ false = false) xs = []).
  { apply filter_none. intros x [Hx _] Hin. apply is_node_false in Hx.
    destruct (Hxs x Hin). congruence. }
  destruct (get_upstream_nodes g config None None xs) as [nodes users|m|]; [|destruct H; congruence|done].
  exists nodes, users. split; [done|]. destruct H as (_ & Hn & _). intros y. rewrite Hn. split.
  - intros (s & Hs & _ & Hr). exists s. split; [done|]. eapply rtc_step_ext; [|done].
    intros a b. apply upstream_none.
  - intros (s & Hs & Hr). exists s. split_and!; [done|by apply Hxs|]. eapply rtc_step_ext; [|done].
    intros a b. apply upstream_none.
Qed.

Lemma downstream_next x n : n ∈ match g !! x with Some nd => nd_rdeps nd | None => [] end <-> edge g n x.
Proof.
  destruct (g !! x) as [nd|] eqn:Hg.
  - split; [by eapply wf_rdeps_back|intros ?; by eapply wf_rdeps].
  - split; [by intros ?%elem_of_nil|]. intros He. apply wf_closed in He; [|done]. destruct He. congruence.
Qed.

Lemma downstream_reach xs : (forall x, x ∈ xs -> is_Some (g !! x)) ->
  exists nodes users, get_downstream_nodes g xs = Found nodes users /\
    forall y, y ∈ nodes <-> exists x, x ∈ xs /\ rtc (edge g) y x.
Proof.
  intros Hxs. unfold get_downstream_nodes.
  pose proof (traverse_ok (fun x => match g !! x with Some nd => nd_rdeps nd | None => [] end) (fun _ => false) xs) as H.
  feed specialize H.
  { intros x n _ Hn. apply downstream_next in Hn as (nd & Hg & _). by eexists. }
  cbn in H.
  assert (Hu : filter (fun s => is_node g s = false /\ false = false) xs = []).
  { apply filter_none. intros x [Hx _] Hin. apply is_node_false in Hx.
    destruct (Hxs x Hin). congruence. }
  destruct (traverse _ _ _ _) as [nodes users|m|]; [|destruct H; congruence|done].
  exists nodes, users. split; [done|]. destruct H as (_ & Hn & _). intros y. rewrite Hn. split.
  - intros (s & Hs & _ & Hr). exists s. split; [done|]. apply rtc_flip.
    eapply rtc_step_ext; [|done]. intros a b. apply downstream_next.
  - intros (s & Hs & Hr). exists s. split_and!; [done|by apply Hxs|].
    apply rtc_flip' in Hr. eapply rtc_step_ext; [|done]. intros a b. apply downstream_next.
Qed.

Lemma path_between a b :
  match what_is_the_path_between g config a b with
  | Some s => is_Some (g !! a) /\ is_Some (g !! b) /\
              forall y, y ∈ s <-> rtc (edge g) y a /\ rtc (edge g) b y
  | None => g !! a = None \/ g !! b = None
  end.
Proof.
  unfold what_is_the_path_between.
  destruct (is_node g a) eqn:Ha; cbn [negb]; [|by left; apply is_node_false].
  destruct (is_node g b) eqn:Hb; cbn [negb]; [|by right; apply is_node_false].
  apply is_node_true in Ha, Hb.
  destruct (downstream_reach [a]) as (ds & dus & -> & Hd). { by intros x ->%elem_of_list_singleton. }
  destruct (upstream_reach [b]) as (us & uus & -> & Hu). { by intros x ->%elem_of_list_singleton. }
  split_and!; [done|done|]. intros y. rewrite elem_of_intersection, Hd, Hu. split.
  - intros [(? & ->%elem_of_list_singleton & ?) (? & ->%elem_of_list_singleton & ?)]. done.
  - intros [? ?]. split; eexists; (split; [by apply elem_of_list_singleton|done]).
Qed.

(** ** Input validation *)
Lemma required_by_ok x S : is_Some (g !! x) ->
  node_is_required_by_anything g x S = true <->
  exists P nd, P ∈ S /\ g !! P = Some nd /\ (x, REQUIRED) ∈ nd_deps nd.
Proof.
  intros [ndx Hx]. unfold node_is_required_by_anything. rewrite Hx, existsb_exists. split.
  - intros (P & HP & [HPS Hreq]%andb_true_iff). apply bool_decide_eq_true in HPS.
    destruct (g !! P) as [nd|] eqn:HgP; [|done]. apply existsb_exists in Hreq as ([y dt] & Hin & Hy).
    apply andb_true_iff in Hy as [Hy Hdt]. apply bool_decide_eq_true in Hy, Hdt. cbn in *. subst.
    exists P, nd. split_and!; [done|done|by apply elem_of_list_In].
  - intros (P & nd & HPS & HgP & Hin). exists P. split.
    + apply elem_of_list_In. eapply wf_rdeps; [done| |done]. exists nd. split; [done|].
      apply elem_of_list_fmap. by exists (x, REQUIRED).
    + rewrite bool_decide_eq_true_2 by done. cbn. rewrite HgP. apply existsb_exists.
      exists (x, REQUIRED). split; [by apply elem_of_list_In|]. cbn. by rewrite !bool_decide_eq_true_2.
Qed.

Variable valid_type : name -> V -> bool.

Lemma validate_ok users nodes (inputs : gmap name V) errs :
  (forall x, x ∈ users -> is_Some (g !! x)) ->
  validate_inputs g config valid_type users nodes inputs = Some errs ->
  (forall k, config !! k = None \/ inputs !! k = None) /\
  forall e, e ∈ errs <->
    match e with
    | RequiredMissing x => x ∈ users /\ (inputs ∪ config) !! x = None /\
        exists P nd, P ∈ nodes /\ g !! P = Some nd /\ (x, REQUIRED) ∈ nd_deps nd
    | TypeMismatch x => x ∈ users /\ exists v, (inputs ∪ config) !! x = Some v /\ valid_type x v = false
    end.
Proof.
  intros Hus. unfold validate_inputs, combine_config_and_inputs. case_bool_decide as Hd; [|done].
  intros [= <-]. split.
  { intros k. destruct (inputs !! k) as [v|] eqn:Hk; [left; by apply (Hd k v)|by right]. }
  intros e. rewrite elem_of_list_omap. setoid_rewrite elem_of_elements. split.
  - intros (x & Hx & He). destruct ((inputs ∪ config) !! x) as [v|] eqn:Hl.
    + destruct (valid_type x v) eqn:Hv; [done|]. injection He as <-. split; [done|]. by exists v.
    + destruct (node_is_required_by_anything g x nodes) eqn:Hr; [|done]. injection He as <-.
      apply required_by_ok in Hr; [done|by apply Hus].
  - destruct e as [x|x].
    + intros (Hx & Hl & Hr). exists x. split; [done|]. rewrite Hl.
      apply required_by_ok in Hr; [|by apply Hus]. by rewrite Hr.
    + intros (Hx & v & Hl & Hv). exists x. split; [done|]. by rewrite Hl, Hv.
Qed.

Lemma validate_none users nodes (inputs : gmap name V) :
  validate_inputs g config valid_type users nodes inputs = None ->
  exists k, is_Some (config !! k) /\ is_Some (inputs !! k).
Proof.
  unfold validate_inputs, combine_config_and_inputs. case_bool_decide as Hd; [done|]. intros _.
  apply map_not_Forall in Hd as (k & v & Hk & Hne); [|apply _]. exists k. split; [|by eexists].
  destruct (config !! k) as [w|]; [by eexists|done].
Qed.

Lemma union_none (m1 m2 : gmap name V) k : (m1 ∪ m2) !! k = None -> m1 !! k = None /\ m2 !! k = None.
Proof. apply lookup_union_None. Qed.

(** Every needed function node is among the nodes found by the traversal. *)
Lemma needed_found inputs overrides fv nodes users x :
  get_upstream_nodes g config inputs overrides fv = Found nodes users ->
  needed g (odefault overrides) (requested g fv) x ->
  (exists nd, g !! x = Some nd /\ nd_ext nd = false) ->
  x ∈ nodes.
Proof.
  intros Hq Hn. pose proof (upstream_ok inputs overrides fv) as H. rewrite Hq in H.
  destruct H as (_ & Hnodes & _). induction Hn as [x Hx Ho|x d Hn IH Hed Ho]; intros (nd & Hg & Hext).
  - apply requested_elem in Hx as [Hx1 Hx2]. apply Hnodes. by exists x.
  - destruct Hed as (ndx & Hgx & Hin).
    assert (Hx : x ∈ nodes).
    { apply IH. exists ndx. split; [done|]. destruct (nd_ext ndx) eqn:He; [|done].
      unfold dep_names in Hin. rewrite (wf_ext g Hwf x ndx Hgx He) in Hin. by apply elem_of_nil in Hin. }
    apply Hnodes in Hx as (s & Hs & Hsg & Hr). apply Hnodes. exists s. split_and!; [done|done|].
    eapply rtc_r; [done|]. cbn. unfold upstream_next. rewrite Hgx.
    assert (Hox : odefault overrides !! x = None) by (by inversion Hn).
    replace (match overrides with Some o => bool_decide (is_Some (o !! x)) | None => false end) with false.
    2:{ destruct overrides as [o|]; [|done]. cbn in Hox. rewrite Hox. symmetry.
        apply bool_decide_eq_false. by intros [? ?]. }
    destruct inputs as [inp|]; [|done].
    apply elem_of_list_fmap in Hin as ([d' dt] & -> & Hin). cbn in *.
    apply elem_of_list_fmap. exists (d', dt). split; [done|]. apply elem_of_list_filter. split; [|done].
    cbn. unfold is_ext. by rewrite Hg, Hext.
Qed.

Lemma needed_required_found inputs overrides fv nodes users P nd y :
  get_upstream_nodes g config inputs overrides fv = Found nodes users ->
  needed g (odefault overrides) (requested g fv) P ->
  g !! P = Some nd -> (y, REQUIRED) ∈ nd_deps nd -> P ∈ nodes /\ y ∈ nodes.
Proof.
  intros Hq Hn Hg Hin.
  assert (HP : P ∈ nodes).
  { eapply needed_found; [done|done|]. exists nd. split; [done|]. destruct (nd_ext nd) eqn:He; [|done].
    rewrite (wf_ext g Hwf P nd Hg He) in Hin. by apply elem_of_nil in Hin. }
  split; [done|].
  pose proof (upstream_ok inputs overrides fv) as H. rewrite Hq in H. destruct H as (_ & Hnodes & _).
  apply Hnodes in HP as (s & Hs & Hsg & Hr). apply Hnodes. exists s. split_and!; [done|done|].
  eapply rtc_r; [done|]. cbn. unfold upstream_next. rewrite Hg.
  assert (Hox : odefault overrides !! P = None) by (by inversion Hn).
  replace (match overrides with Some o => bool_decide (is_Some (o !! P)) | None => false end) with false.
  2:{ destruct overrides as [o|]; [|done]. cbn in Hox. rewrite Hox. symmetry.
      apply bool_decide_eq_false. by intros [? ?]. }
  destruct inputs as [inp|].
  - apply elem_of_list_fmap. exists (y, REQUIRED). split; [done|]. apply elem_of_list_filter.
    split; [|done]. cbn. rewrite andb_false_iff. by right.
  - apply elem_of_list_fmap. by exists (y, REQUIRED).
Qed.

Context {E : Type}.
Variable F : list (event V E) -> name -> gmap name V -> res E V.
Hypothesis Hac : acyclic g.

Lemma users_nodes inputs overrides fv nodes users :
  get_upstream_nodes g config inputs overrides fv = Found nodes users ->
  forall x, x ∈ users -> is_Some (g !! x).
Proof.
  intros Hq x Hx. pose proof (upstream_ok inputs overrides fv) as H. rewrite Hq in H.
  destruct H as (_ & _ & Hu). apply Hu in Hx as [He _]. unfold is_ext in He.
  destruct (g !! x); [by eexists|done].
Qed.

(** Acceptance implies that nothing required is missing. *)
Lemma raw_run inputs overrides fv a :
  raw_execute g config valid_type F inputs overrides fv = RRun a ->
  a = default_execute F g config (odefault inputs) (odefault overrides) fv /\
  (forall k, config !! k = None \/ odefault inputs !! k = None) /\
  (forall x, x ∈ fv -> is_Some (g !! x) \/ is_Some (odefault inputs !! x)) /\
  (forall P nd y, needed g (odefault overrides) (requested g fv) P -> g !! P = Some nd ->
     (y, REQUIRED) ∈ nd_deps nd -> ~ absent g (odefault inputs ∪ config) (odefault overrides) y).
Proof.
  unfold raw_execute. pose proof (upstream_ok inputs overrides fv) as Hup.
  destruct (get_upstream_nodes g config inputs overrides fv) as [nodes users|m|] eqn:Hq; [|done|done].
  destruct (validate_inputs g config valid_type users nodes (odefault inputs)) as [[|e errs]|] eqn:Hv; [|done|done].
  intros [= <-]. split; [done|].
  apply validate_ok in Hv as [Hdisj Herr]; [|by eapply users_nodes]. split; [done|].
  destruct Hup as (Hunk & Hnodes & Husers). split.
  - intros x Hx. destruct (g !! x) as [nd|] eqn:Hg; [left; by eexists|right].
    assert (Hne : ~ (is_node g x = false /\ match inputs with Some i => bool_decide (is_Some (i !! x)) | None => false end = false)).
    { intros Hc. assert (Hin : x ∈ (@nil name)); [|by apply elem_of_nil in Hin].
      rewrite <-Hunk. apply elem_of_list_filter. done. }
    destruct inputs as [inp|]; cbn.
    + destruct (inp !! x) eqn:Hi; [by eexists|]. exfalso. apply Hne. split; [by apply is_node_false|].
      apply bool_decide_eq_false. by intros [? ?].
    + exfalso. apply Hne. split; [by apply is_node_false|done].
  - intros P nd y Hn Hg Hin (Ho & Hi & ndy & Hgy & Hext).
    destruct (needed_required_found _ _ _ _ _ _ _ _ Hq Hn Hg Hin) as [HP Hy].
    assert (Hbad : RequiredMissing y ∈ (@nil input_error)); [|by apply elem_of_nil in Hbad].
    apply Herr. split_and!.
    + apply Husers. split; [|done]. unfold is_ext. by rewrite Hgy.
    + done.
    + by exists P, nd.
Qed.

(** The other outcomes. *)
Lemma raw_not_run inputs overrides fv :
  match raw_execute g config valid_type F inputs overrides fv with
  | RRun _ => True
  | RFuel => False
  | RUnknown m => m <> [] /\ forall x, x ∈ m <-> x ∈ fv /\ g !! x = None /\ odefault inputs !! x = None
  | RClash => exists k, is_Some (config !! k) /\ is_Some (odefault inputs !! k)
  | RInvalid errs => errs <> [] /\ forall e, e ∈ errs ->
      match e with
      | RequiredMissing y => is_ext g y = true /\ (odefault inputs ∪ config) !! y = None
      | TypeMismatch y => is_ext g y = true /\
          exists v, (odefault inputs ∪ config) !! y = Some v /\ valid_type y v = false
      end
  end.
Proof.
  unfold raw_execute. pose proof (upstream_ok inputs overrides fv) as Hup.
  destruct (get_upstream_nodes g config inputs overrides fv) as [nodes users|m|] eqn:Hq; [| |done].
  - destruct (validate_inputs g config valid_type users nodes (odefault inputs)) as [[|e errs]|] eqn:Hv; [done| |].
    + split; [done|]. apply validate_ok in Hv as [Hdisj Herr]; [|by eapply users_nodes].
      destruct Hup as (_ & _ & Husers).
      intros e' He. apply Herr in He. destruct e' as [y|y].
      * destruct He as (Hy & ? & _). apply Husers in Hy as [? _]. done.
      * destruct He as (Hy & ?). apply Husers in Hy as [? _]. done.
    + by apply validate_none in Hv.
  - destruct Hup as [-> Hne]. split; [done|]. intros x.
    rewrite elem_of_list_filter, is_node_false. destruct inputs as [inp|]; cbn.
    + rewrite bool_decide_eq_false, <-eq_None_not_Some. naive_solver.
    + rewrite lookup_empty. naive_solver.
Qed.

(** Without overrides a rejection for a missing input is always justified. *)
Lemma raw_reject_justified inputs fv errs y :
  raw_execute g config valid_type F inputs None fv = RInvalid errs ->
  RequiredMissing y ∈ errs ->
  absent g (odefault inputs ∪ config) ∅ y /\
  exists P nd, needed g (∅ : gmap name V) (requested g fv) P /\ g !! P = Some nd /\ (y, REQUIRED) ∈ nd_deps nd.
Proof.
  unfold raw_execute. pose proof (upstream_ok inputs None fv) as Hup.
  destruct (get_upstream_nodes g config inputs None fv) as [nodes users|m|] eqn:Hq; [|done|done].
  destruct (validate_inputs g config valid_type users nodes (odefault inputs)) as [[|e errs']|] eqn:Hv; [done| |done].
  intros [= <-] Hy. apply validate_ok in Hv as [Hdisj Herr]; [|by eapply users_nodes].
  apply Herr in Hy as (Hyu & Hl & P & nd & HP & Hg & Hin).
  destruct Hup as (_ & Hnodes & Husers). split.
  - split_and!; [done|done|]. apply Husers in Hyu as [He _]. unfold is_ext in He.
    destruct (g !! y) as [ndy|]; [|done]. by exists ndy.
  - exists P, nd. split_and!; [|done|done]. apply Hnodes in HP as (s & Hs & Hsg & Hr).
    assert (Hsn : needed g (∅ : gmap name V) (requested g fv) s).
    { apply needed_root; [by apply requested_elem|done]. }
    clear -Hr Hsn. induction Hr as [|a b c Hab Hbc IH]; [done|]. apply IH.
    eapply needed_dep; [done| |done]. by eapply upstream_next_edge.
Qed.

(** A reported variable is requested or a direct dependency of a needed function: it is never
    hidden behind overridden nodes. *)
Lemma raw_reject_visible inputs overrides fv errs y :
  raw_execute g config valid_type F inputs overrides fv = RInvalid errs ->
  RequiredMissing y ∈ errs ->
  y ∈ fv \/ exists P, needed g (odefault overrides) (requested g fv) P /\ edge g P y.
Proof.
  unfold raw_execute. pose proof (upstream_ok inputs overrides fv) as Hup.
  destruct (get_upstream_nodes g config inputs overrides fv) as [nodes users|m|] eqn:Hq; [|done|done].
  destruct (validate_inputs g config valid_type users nodes (odefault inputs)) as [[|e errs']|] eqn:Hv; [done| |done].
  intros [= <-] Hy. apply validate_ok in Hv as [Hdisj Herr]; [|by eapply users_nodes].
  apply Herr in Hy as (Hyu & _). destruct Hup as (_ & Hnodes & Husers).
  apply Husers in Hyu as [_ Hyn]. apply Hnodes in Hyn as (s & Hs & Hsg & Hr).
  clear -Hr Hs Hsg. revert y Hr.
  apply (rtc_ind_r (fun y => y ∈ fv \/ exists P, needed g (odefault overrides) (requested g fv) P /\ edge g P y));
    [by left|].
  intros P y _ Hstep IH. right.
  exists P. split; [|by eapply upstream_next_edge].
  assert (HoP : odefault overrides !! P = None).
  { cbn in Hstep. unfold upstream_next in Hstep. destruct (g !! P) as [nd|]; [|by apply elem_of_nil in Hstep].
    destruct overrides as [o|]; [|done]. cbn.
    destruct (o !! P) eqn:HoP; [|done]. rewrite bool_decide_eq_true_2 in Hstep by (by eexists).
    by apply elem_of_nil in Hstep. }
  destruct IH as [HPfv|(Q & HQ & HQP)].
  - apply needed_root; [|done]. apply requested_elem. split; [done|].
    apply upstream_next_edge in Hstep as (nd & Hg & _). by eexists.
  - by eapply needed_dep.
Qed.

(** Every input value handed to a function has passed the type check. *)
Lemma raw_input_types inputs overrides fv a t1 x kw r t2 d w nd :
  raw_execute g config valid_type F inputs overrides fv = RRun a ->
  trace_of a = t1 ++ Call x kw r :: t2 -> kw !! d = Some w ->
  g !! d = Some nd -> nd_ext nd = true -> odefault overrides !! d = None ->
  valid_type d w = true.
Proof.
  intros Hraw Htr Hd Hg Hext Ho.
  pose proof Hraw as Hraw'. apply raw_run in Hraw' as (Ha & Hdisj & _ & _).
  unfold raw_execute in Hraw. pose proof (upstream_ok inputs overrides fv) as Hup.
  destruct (get_upstream_nodes g config inputs overrides fv) as [nodes users|m|] eqn:Hq; [|done|done].
  destruct (validate_inputs g config valid_type users nodes (odefault inputs)) as [[|e errs]|] eqn:Hv; [|done|done].
  apply validate_ok in Hv as [_ Herr]; [|by eapply users_nodes].
  subst a.
  destruct (run_call_args g Hwf Hac F _ _ _ _ _ _ _ _ _ Htr) as (_ & ndx & Hgx & Hextx & Hargs & _).
  destruct (Hargs d w Hd) as [Hdep Hav].
  destruct Hav as [Hc|(_ & nd' & Hg' & [[_ Hin]|[Hne _]])]; [congruence| |congruence].
  destruct (valid_type d w) eqn:Hvt; [done|]. exfalso.
  assert (Hbad : TypeMismatch d ∈ (@nil input_error)); [|by apply elem_of_nil in Hbad].
  apply Herr. split; [|by exists w].
  destruct Hup as (_ & Hnodes & Husers). apply Husers. split; [unfold is_ext; by rewrite Hg|].
  assert (Hxn : needed g (odefault overrides) (requested g fv) x).
  { apply (run_calls_needed g Hwf Hac F config (odefault inputs) (odefault overrides) fv x).
    rewrite Htr. eapply elem_calls_of. apply elem_of_app. right. by left. }
  assert (Hx : x ∈ nodes). { eapply needed_found; [done|done|by exists ndx]. }
  apply Hnodes in Hx as (s & Hs & Hsg & Hr). apply Hnodes. exists s. split_and!; [done|done|].
  eapply rtc_r; [done|]. cbn. unfold upstream_next. rewrite Hgx.
  assert (Hox : odefault overrides !! x = None) by (by inversion Hxn).
  replace (match overrides with Some o => bool_decide (is_Some (o !! x)) | None => false end) with false.
  2:{ destruct overrides as [o|]; [|done]. cbn in Hox. rewrite Hox. symmetry.
      apply bool_decide_eq_false. by intros [? ?]. }
  destruct inputs as [inp|]; [|done]. cbn in Hin.
  apply elem_of_list_fmap in Hdep as ([d' dt] & -> & Hdep). cbn in *.
  apply elem_of_list_fmap. exists (d', dt). split; [done|]. apply elem_of_list_filter. split; [|done].
  cbn. destruct (bool_decide (inp !! d' = None)) eqn:Hb1; [|by rewrite andb_false_r].
  destruct (bool_decide (config !! d' = None)) eqn:Hb2; [|by rewrite !andb_false_r].
  apply bool_decide_eq_true in Hb1, Hb2. apply lookup_union_Some_raw in Hin as [?|[_ ?]]; congruence.
Qed.

End Up.
End Queries.

(** ** nodes_between *)
Section Between.
Variable g : graph.
Hypothesis Hwf : wf_graph g.
Hypothesis Hac : acyclic g.
Variable cond : name -> bool.
Variable e : name.

(** Steps of the search: into non-matching dependencies. *)
Definition plain (a b : name) : Prop := edge g a b /\ cond b = false.
Definition reaches (y : name) : Prop := exists m, cond m = true /\ tc (edge g) y m.
(** [x] is a dependency of the start or of a node the search passes through. *)
Definition meets (x : name) : Prop := exists y, rtc plain e y /\ edge g y x.

Record binv (s : bstate) (A : name -> Prop) : Prop := {
  bi_visited : forall y, y ∈ b_visited s -> cond y = false /\ tc plain e y /\ is_Some (g !! y);
  bi_out : forall y, y ∈ b_out s -> y ∈ b_visited s /\ reaches y;
  bi_done : forall y, y ∈ b_visited s -> ~ A y ->
     (reaches y -> y ∈ b_out s) /\
     (forall d, edge g y d -> (cond d = false -> d ∈ b_visited s) /\ (cond d = true -> b_found s <> None));
  bi_found : forall m, b_found s = Some m -> cond m = true /\ meets m;
}.

Lemma reaches_step y d : edge g y d -> cond d = true \/ reaches d -> reaches y.
Proof.
  intros He [Hc|(m & Hm & Hr)]; [exists d|exists m]; (split; [done|]).
  - by apply tc_once.
  - by eapply tc_l.
Qed.
Lemma reaches_inv y : reaches y -> exists d, edge g y d /\ (cond d = true \/ reaches d).
Proof.
  intros (m & Hm & Hr). inversion Hr as [a b Hab|a b c Hab Hbc]; subst.
  - exists m. auto.
  - exists b. split; [done|]. right. by exists m.
Qed.

Lemma plain_edge a b : tc plain a b -> tc (edge g) a b.
Proof. induction 1 as [a b [? _]|a b c [? _] _ IH]; [by apply tc_once|by eapply tc_l]. Qed.

Definition between_spec (fuel : nat) : Prop := forall s A x,
  binv s A -> is_Some (g !! x) -> (forall a, A a -> tc (edge g) a x) ->
  meets x -> (cond x = false -> tc plain e x) ->
  size ((dom g : gset name) ∖ b_visited s) < fuel ->
  exists b s', between_dfs g cond fuel s x = Some (b, s') /\ binv s' A /\
    b_visited s ⊆ b_visited s' /\ (b_found s <> None -> b_found s' <> None) /\
    (cond x = false -> x ∈ b_visited s') /\ (cond x = true -> b_found s' <> None) /\
    (b = true <-> cond x = true \/ reaches x).

Lemma between_deps_ok fuel (Hrec : between_spec fuel) ds : forall s A acc,
  binv s A -> (forall d, d ∈ ds -> is_Some (g !! d) /\ (forall a, A a -> tc (edge g) a d) /\
     meets d /\ (cond d = false -> tc plain e d)) ->
  size ((dom g : gset name) ∖ b_visited s) < fuel \/ ds = [] ->
  exists b s', between_deps (between_dfs g cond fuel) s acc ds = Some (b, s') /\ binv s' A /\
    b_visited s ⊆ b_visited s' /\ (b_found s <> None -> b_found s' <> None) /\
    (forall d, d ∈ ds -> (cond d = false -> d ∈ b_visited s') /\ (cond d = true -> b_found s' <> None)) /\
    (b = true <-> acc = true \/ exists d, d ∈ ds /\ (cond d = true \/ reaches d)).
Proof.
  induction ds as [|d ds IH]; intros s A acc Hi Hds Hf; cbn [between_deps].
  - exists acc, s. split_and!; try done; [by intros ? ?%elem_of_nil|].
    split; [by left|]. intros [?|(d & Hd & _)]; [done|by apply elem_of_nil in Hd].
  - destruct Hf as [Hf|?]; [|done].
    destruct (Hds d ltac:(by left)) as (Hgd & HAd & Hed & Hpd).
    destruct (Hrec s A d Hi Hgd HAd Hed Hpd Hf) as (b1 & s1 & Heq & Hi1 & Hm1 & Hf1 & Hv1 & Hc1 & Hb1).
    rewrite Heq.
    destruct (IH s1 A (acc || b1)) as (b & s' & Heq' & Hi' & Hm' & Hf' & Hd' & Hb').
    { done. }
    { intros d' Hd'. apply Hds. by right. }
    { left. assert (size ((dom g : gset name) ∖ b_visited s1) <= size ((dom g : gset name) ∖ b_visited s)); [|lia].
      apply subseteq_size. set_solver. }
    exists b, s'. split_and!; [done|done|set_solver|by intros ?; apply Hf', Hf1| |].
    + intros d' [->|Hin]%elem_of_cons; [|by apply Hd']. split; [intros ?; by apply Hm', Hv1|intros ?; by apply Hf', Hc1].
    + rewrite Hb', orb_true_iff, Hb1. split.
      * intros [[?|?]|(d' & ? & ?)]; [by left|right; exists d; split; [by left|done]|].
        right. exists d'. split; [by right|done].
      * intros [?|(d' & [->|?]%elem_of_cons & ?)]; [by left; left|by left; right|]. right. by exists d'.
Qed.

Lemma between_dfs_ok fuel : between_spec fuel.
Proof.
  induction fuel as [|fuel IH]; intros s A x Hi [nd Hg] HA Hex Hpx Hf; [lia|].
  cbn [between_dfs]. destruct (cond x) eqn:Hc.
  - exists true, (BState (b_out s) (b_visited s) (Some x)). destruct Hi as [H1 H2 H3 H4].
    split_and!; try done; [|by split; [left|]].
    split; cbn; try done.
    + intros y Hy HnA. destruct (H3 y Hy HnA) as [? Hd]. split; [done|]. intros d Hd'.
      destruct (Hd d Hd'). done.
    + intros m [= <-]. done.
  - destruct (decide (x ∈ b_visited s)) as [Hv|Hv].
    + assert (HnA : ~ A x). { intros Hax. by eapply Hac, HA. }
      exists (bool_decide (x ∈ b_out s)), s. destruct (bi_done _ _ Hi x Hv HnA) as [Hd _].
      split_and!; try done. rewrite bool_decide_eq_true. split.
      * intros Ho. right. by apply (bi_out _ _ Hi).
      * intros [?|?]; [done|by apply Hd].
    + rewrite Hg. set (s0 := BState (b_out s) ({[x]} ∪ b_visited s) (b_found s)).
      assert (Hxd : x ∈ (dom g : gset name)) by (apply elem_of_dom; by eexists).
      assert (Hi0 : binv s0 (fun a => A a \/ a = x)).
      { destruct Hi as [H1 H2 H3 H4]. split; cbn.
        - intros y [->%elem_of_singleton|Hy]%elem_of_union; [|by apply H1]. split_and!; [done|by apply Hpx|by eexists].
        - intros y Hy. destruct (H2 y Hy). split; [set_solver|done].
        - intros y [->%elem_of_singleton|Hy]%elem_of_union HnA; [exfalso; apply HnA; by right|].
          destruct (H3 y Hy) as [? Hd]; [intros ?; apply HnA; by left|]. split; [done|].
          intros d Hd'. destruct (Hd d Hd') as [Hd1 Hd2]. split; [|done]. intros ?. apply elem_of_union_r. by apply Hd1.
        - done. }
      destruct (between_deps_ok fuel IH (dep_names nd) s0 (fun a => A a \/ a = x) false Hi0)
        as (b & s' & Heq & Hi' & Hm' & Hf' & Hd' & Hb').
      { intros d Hd. assert (Hxd' : edge g x d) by (by exists nd). split_and!.
        - by eapply wf_closed.
        - intros a [Ha| ->]; [|by apply tc_once]. eapply tc_r; [by apply HA|done].
        - exists x. split; [|done]. by apply tc_rtc, Hpx.
        - intros Hcd. eapply tc_r; [by apply Hpx|]. by split. }
      { left. cbn. assert (size ((dom g : gset name) ∖ ({[x]} ∪ b_visited s)) < size ((dom g : gset name) ∖ b_visited s)); [|lia].
        apply subset_size. set_solver. }
      rewrite Heq. cbn in Hm', Hf'.
      assert (Hxv : x ∈ b_visited s') by set_solver.
      assert (Hreach : b = true <-> reaches x).
      { rewrite Hb'. split.
        - intros [?|(d & Hd & Hr)]; [done|]. eapply reaches_step; [|done]. by exists nd.
        - intros Hr. right. apply reaches_inv in Hr as (d & (nd' & Hg' & Hd) & Hr). exists d.
          assert (nd' = nd) by congruence. by subst. }
      destruct Hi' as [H1 H2 H3 H4].
      destruct b.
      * eexists true, _. split; [done|]. cbn. split_and!; try done.
        -- split; cbn; [done| | |done].
           ++ intros y [->%elem_of_singleton|Hy]%elem_of_union; [|by apply H2]. split; [done|by apply Hreach].
           ++ intros y Hy HnA. destruct (decide (y = x)) as [->|Hne].
              ** split; [intros _; set_solver|]. intros d (nd' & Hg' & Hd). assert (nd' = nd) by congruence. subst.
                 by apply Hd'.
              ** destruct (H3 y Hy) as [Ho Hd]; [intros [?|?]; done|]. split; [|done].
                 intros Hr. apply elem_of_union_r. by apply Ho.
        -- set_solver.
        -- split; [intros _; right; by apply Hreach|done].
      * eexists false, s'. split; [done|]. split_and!; try done.
        -- split; [done|done| |done]. intros y Hy HnA. destruct (decide (y = x)) as [->|Hne].
           ++ split; [intros Hr%Hreach; done|]. intros d (nd' & Hg' & Hd). assert (nd' = nd) by congruence. subst.
              by apply Hd'.
           ++ apply H3; [done|]. intros [?|?]; done.
        -- set_solver.
        -- split; [done|]. intros [?|Hr%Hreach]; done.
Qed.

(** Specification of [nodes_between] for an arbitrary search condition. *)
Lemma nodes_between_ok : is_Some (g !! e) ->
  exists found out, nodes_between g cond e = Some (found, out) /\
    (forall y, y ∈ out <-> tc plain e y /\ reaches y) /\
    match found with
    | Some m => cond m = true /\ meets m
    | None => ~ reaches e
    end.
Proof.
  intros [nd Hg]. unfold nodes_between. rewrite Hg.
  destruct (between_deps_ok (S (size g)) (between_dfs_ok _) (dep_names nd) (BState ∅ ∅ None) (fun _ => False) false)
    as (b & s & Heq & Hi & _ & _ & Hd & Hb).
  { split; cbn; set_solver. }
  { intros d Hd. assert (He : edge g e d) by (by exists nd). split_and!; [by eapply wf_closed|done|by exists e|].
    intros ?. apply tc_once. by split. }
  { left. cbn. rewrite difference_empty_L. pose proof (size_dom (D:=gset name) g) as Hsz. unfold graph in *. rewrite Hsz. apply Nat.lt_succ_diag_r. }
  rewrite Heq. exists (b_found s), (b_out s). destruct Hi as [H1 H2 H3 H4].
  assert (Hvis : forall y, tc plain e y -> y ∈ b_visited s).
  { intros y Hy. assert (Hy' : exists d, plain e d /\ rtc plain d y).
    { apply tc_rtc_inv in Hy. done. }
    destruct Hy' as (d & [(nd' & Hg' & Hdd) Hcd] & Hr). assert (nd' = nd) by congruence. subst nd'.
    assert (Hdv : d ∈ b_visited s) by (by apply Hd). clear -Hr Hdv H3.
    induction Hr as [|a b' c [Hab Hcb] Hbc IH]; [done|]. apply IH.
    destruct (H3 a Hdv) as [_ Hx]; [tauto|]. by apply Hx. }
  split_and!; [done| |].
  - intros y. split.
    + intros Hy. destruct (H2 y Hy) as [Hv Hr]. split; [|done]. by apply H1.
    + intros [Hp Hr]. apply Hvis in Hp. destruct (H3 y Hp) as [Hx _]; [tauto|]. by apply Hx.
  - destruct (b_found s) as [m|] eqn:Hfd; [by apply H4|].
    intros (m & Hm & Hr).
    (* the first matching node on the path would have been recorded *)
    assert (Hnone : forall a c, tc (edge g) a c -> cond c = true -> a = e \/ a ∈ b_visited s -> False).
    { induction 1 as [a c Hac'|a b' c Hab Hbc IH]; intros Hcc Ha.
      - destruct Ha as [->|Ha].
        + destruct Hac' as (nd' & Hg' & Hdd). assert (nd' = nd) by congruence. subst nd'.
          destruct (Hd c Hdd) as [_ Hx]. by apply Hx.
        + destruct (H3 a Ha ltac:(tauto)) as [_ Hx]. destruct (Hx c Hac') as [_ Hx']. by apply Hx'.
      - apply IH; [done|]. right. destruct (cond b') eqn:Hcb.
        + exfalso. destruct Ha as [->|Ha].
          * destruct Hab as (nd' & Hg' & Hdd). assert (nd' = nd) by congruence. subst nd'.
            destruct (Hd b' Hdd) as [_ Hx]. by apply Hx.
          * destruct (H3 a Ha ltac:(tauto)) as [_ Hx]. destruct (Hx b' Hab) as [_ Hx']. by apply Hx'.
        + destruct Ha as [->|Ha].
          * destruct Hab as (nd' & Hg' & Hdd). assert (nd' = nd) by congruence. subst nd'. by apply Hd.
          * destruct (H3 a Ha ltac:(tauto)) as [_ Hx]. by apply Hx. }
    eapply Hnone; [done|done|by left].
Qed.
Lemma meets_edge m : meets m -> tc (edge g) e m.
Proof.
  intros (y & Hy & Hm). induction Hy as [a|a b c [Hab _] Hbc IH]; [by apply tc_once|]. eapply tc_l; [done|by apply IH].
Qed.
End Between.

Section BetweenGraph.
Variable g : graph.
Hypothesis Hwf : wf_graph g.
Hypothesis Hac : acyclic g.

Lemma tc_rtc_trans (R : relation name) a b c : tc R a b -> rtc R b c -> tc R a c.
Proof. intros Ht Hr. induction Hr; [done|]. apply IHHr. by eapply tc_r. Qed.
Lemma rtc_tc_inv (R : relation name) a b : rtc R a b -> a = b \/ tc R a b.
Proof. destruct 1 as [|a b c Hab Hbc]; [by left|right]. eapply tc_rtc_trans; [by apply tc_once|done]. Qed.

Lemma graph_nodes_between_ok start e :
  match graph_nodes_between g start e with
  | None => g !! e = None
  | Some out => is_Some (g !! e) /\
      ((tc (edge g) e start /\ forall y, y ∈ out <-> rtc (edge g) e y /\ rtc (edge g) y start) \/
       (~ tc (edge g) e start /\ out = ∅))
  end.
Proof.
  unfold graph_nodes_between. destruct (is_node g e) eqn:He; [|by apply is_node_false].
  apply is_node_true in He.
  destruct (nodes_between_ok g Hwf Hac (fun x => bool_decide (x = start)) e He)
    as (found & out & -> & Hout & Hfound).
  assert (Hreach : forall y, reaches g (fun x => bool_decide (x = start)) y <-> tc (edge g) y start).
  { intros y. unfold reaches. split.
    - intros (m & Hm & Hr). apply bool_decide_eq_true in Hm. by subst.
    - intros Hr. exists start. split; [by apply bool_decide_eq_true|done]. }
  destruct found as [m|].
  - destruct Hfound as [Hm Hr]. apply meets_edge in Hr. apply bool_decide_eq_true in Hm. subst m. split; [done|].
    left. split; [done|]. intros y. rewrite !elem_of_union, !elem_of_singleton, Hout, Hreach. split.
    + intros [[->|[Hp Hy]]| ->].
      * split; [by apply tc_rtc|done].
      * split; apply tc_rtc; [by eapply plain_edge|done].
      * split; [done|by apply tc_rtc].
    + intros [Hey Hys]. apply rtc_tc_inv in Hey as [<-|Hey]; [by right|left].
      apply rtc_tc_inv in Hys as [->|Hys]; [by left|right]. split; [|done].
      clear -Hey Hys Hac. induction Hey as [a b Hab|a b c Hab Hbc IH].
      * apply tc_once. split; [done|]. apply bool_decide_eq_false. intros ->. by eapply Hac.
      * eapply tc_l; [|by apply IH]. split; [done|]. apply bool_decide_eq_false. intros ->.
        eapply Hac, tc_rtc_trans; [done|]. by apply tc_rtc.
  - split; [done|]. right. split; [|done]. intros Hr. by apply Hfound, Hreach.
Qed.
End BetweenGraph.
