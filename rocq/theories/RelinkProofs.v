(** Proofs about adding nodes to a graph. *)
From Verif Require Import Base Dict ExecModel ExecSpec ExecResults GraphModel GraphSpec GraphProofs GraphResults RelinkModel RelinkSpec.

Section Proofs.
Context {T : Type}.
Variable types_match adapter_match : T -> T -> bool.
Notation accepts := (accepts types_match adapter_match).
Implicit Types (g old new base : dict (gnode T)).

Lemma merged_cons old k n new : merged old ((k, n) :: new) = merged (dset old k n) new.
Proof. done. Qed.
Lemma dget_merged new : forall old x, NoDup (dkeys new) ->
  dget (merged old new) x = match dget new x with Some n => Some n | None => dget old x end.
Proof.
  induction new as [|[k n] new IH]; intros old x Hnd; [done|]. apply NoDup_cons in Hnd as [Hk Hnd].
  rewrite merged_cons, IH by done. cbn [dget]. rewrite dget_dset.
  destruct (decide (x = k)) as [->|]; [|done]. apply dget_None_key in Hk. cbn in Hk. by rewrite Hk.
Qed.
Lemma dkeys_merged new : forall old, NoDup (dkeys old) -> NoDup (dkeys (merged old new)).
Proof.
  induction new as [|[k n] new IH]; intros old Hnd; [done|]. rewrite merged_cons. apply IH. by apply NoDup_dkeys_dset.
Qed.

(** ** The shape after linking *)
Definition reset base : dict (gnode T) := map (fun kn => (kn.1, reset_refs kn.2)) base.

Lemma update_reset base nodes' : NoDup (dkeys base) ->
  update_dependencies types_match adapter_match base true = Ok nodes' -> building (reset base) (all_edges (reset base)) nodes'.
Proof.
  intros Hnd Hu. apply (update_dependencies_ok types_match adapter_match).
  - unfold reset. by rewrite map_dkeys.
  - intros k n Hk. unfold reset in Hk. rewrite dget_map in Hk. destruct (dget base k); [|done]. by injection Hk as <-.
  - exact Hu.
Qed.

Lemma all_edges_reset base : all_edges (reset base) = all_edges base.
Proof. unfold all_edges, reset. rewrite map_map. done. Qed.

Lemma update_linked base nodes' : sensible base ->
  update_dependencies types_match adapter_match base true = Ok nodes' ->
  linked nodes' /\
  (forall x, x ∈ dkeys nodes' <-> x ∈ dkeys base \/ exists P, asks base P x) /\
  (forall x n, dget base x = Some n -> exists n', dget nodes' x = Some n' /\ gn_ext n' = gn_ext n /\ gn_params n' = gn_params n) /\
  (forall x n', dget base x = None -> dget nodes' x = Some n' -> gn_ext n' = true /\ gn_params n' = []).
Proof.
  intros Hs Hu. assert (Hnd := sn_nodup _ Hs). apply update_reset in Hu as Hb; [|done]. rewrite all_edges_reset in Hb.
  assert (Hget : forall x, dget (reset base) x = reset_refs <$> dget base x) by (intros x; apply dget_map).
  assert (Hkeys : dkeys (reset base) = dkeys base) by apply map_dkeys.
  assert (Hedge : forall P x, (P, x) ∈ all_edges base <-> asks base P x) by (intros P x; by apply elem_all_edges).
  assert (Hold : forall x n, dget base x = Some n -> exists n', dget nodes' x = Some n' /\ gn_ext n' = gn_ext n /\ gn_params n' = gn_params n /\
    gn_deps n' = (gn_params n).*1 /\ gn_rdeps n' = rdeps_of (all_edges base) x).
  { intros x n Hx. destruct (b_base _ _ _ Hb x (reset_refs n)) as (n' & H1 & H2 & H3 & H4 & H5); [by rewrite Hget, Hx|].
    exists n'. split_and!; try done. rewrite H4. by apply (deps_of_all_edges base). }
  assert (Hnew : forall x n', dget base x = None -> dget nodes' x = Some n' ->
    gn_ext n' = true /\ gn_params n' = [] /\ gn_deps n' = [] /\ gn_rdeps n' = rdeps_of (all_edges base) x).
  { intros x n' Hx Hn'. apply (b_new _ _ _ Hb); [by rewrite Hget, Hx|done]. }
  assert (Hasks : forall P x, asks nodes' P x <-> asks base P x).
  { intros P x. split.
    - intros (n' & Hn' & Hx). destruct (dget base P) as [n|] eqn:HP.
      + destruct (Hold P n HP) as (n2 & H2 & _ & Hp & _). exists n. split; [done|]. rewrite <-Hp. congruence.
      + destruct (Hnew P n' HP Hn') as (_ & Hp & _). rewrite Hp in Hx. by apply elem_of_nil in Hx.
    - intros (n & Hn & Hx). destruct (Hold P n Hn) as (n' & Hn' & _ & Hp & _). exists n'. split; [done|]. by rewrite Hp. }
  assert (Hk : forall x, x ∈ dkeys nodes' <-> x ∈ dkeys base \/ exists P, asks base P x).
  { intros x. rewrite (b_keys _ _ _ Hb), Hkeys. by setoid_rewrite Hedge. }
  split_and!.
  - constructor.
    + constructor; [by eapply b_nodup| |].
      * intros x n' Hx. destruct (dget base x) as [n|] eqn:Hbx.
        -- destruct (Hold x n Hbx) as (n2 & H2 & _ & Hp & _). assert (n2 = n') as -> by congruence. rewrite Hp. by eapply sn_params.
        -- destruct (Hnew x n' Hbx Hx) as (_ & -> & _). constructor.
      * intros x n' Hx He. destruct (dget base x) as [n|] eqn:Hbx.
        -- destruct (Hold x n Hbx) as (n2 & H2 & He2 & Hp & _). assert (n2 = n') as -> by congruence. rewrite Hp.
           eapply sn_ext; [done..|congruence].
        -- by destruct (Hnew x n' Hbx Hx) as (_ & -> & _).
    + intros x n' Hx. destruct (dget base x) as [n|] eqn:Hbx.
      * destruct (Hold x n Hbx) as (n2 & H2 & _ & Hp & Hd & _). assert (n2 = n') as -> by congruence. by rewrite Hd, Hp.
      * by destruct (Hnew x n' Hbx Hx) as (_ & -> & -> & _).
    + intros P x Ha. apply Hk. right. exists P. by apply Hasks.
    + intros x n' P Hx. rewrite Hasks, <-Hedge. destruct (dget base x) as [n|] eqn:Hbx.
      * destruct (Hold x n Hbx) as (n2 & H2 & _ & _ & _ & Hr). assert (n2 = n') as -> by congruence. rewrite Hr. apply elem_rdeps_of.
      * destruct (Hnew x n' Hbx Hx) as (_ & _ & _ & ->). apply elem_rdeps_of.
    + assert (Hne : NoDup (all_edges base)) by (apply NoDup_all_edges; [done|]; by apply sn_params).
      intros x n' Hx. destruct (dget base x) as [n|] eqn:Hbx.
      * destruct (Hold x n Hbx) as (n2 & H2 & _ & _ & _ & Hr). assert (n2 = n') as -> by congruence. rewrite Hr. by apply NoDup_rdeps_of.
      * destruct (Hnew x n' Hbx Hx) as (_ & _ & _ & ->). by apply NoDup_rdeps_of.
  - done.
  - intros x n Hx. destruct (Hold x n Hx) as (n' & ? & ? & ? & _). by exists n'.
  - intros x n' Hx Hn'. by destruct (Hnew x n' Hx Hn') as (? & ? & _).
Qed.

Lemma sensible_merged old new : sensible old -> sensible new -> sensible (merged old new).
Proof.
  intros Ho Hn. assert (Hg := fun x => dget_merged new old x (sn_nodup _ Hn)). constructor.
  - apply dkeys_merged, sn_nodup, Ho.
  - intros x n. rewrite Hg. destruct (dget new x) as [m|] eqn:Hx; [intros [= <-]; by eapply sn_params|by apply sn_params].
  - intros x n. rewrite Hg. destruct (dget new x) as [m|] eqn:Hx; [intros [= <-]; by eapply sn_ext|by apply sn_ext].
Qed.

Lemma built_linked any_type defs config allow g : (forall d, d ∈ defs -> NoDup (fd_params d).*1) ->
  create_function_graph types_match adapter_match any_type defs config allow = Ok g -> linked g.
Proof.
  intros Hps Hc. apply create_function_graph_ok in Hc as Hb.
  assert (Hfn : forall x n, dget g x = Some n -> (exists d, in_force config defs x = Some d /\ gn_params n = fd_params d /\ gn_deps n = (fd_params d).*1 /\ gn_ext n = false) \/
    (in_force config defs x = None /\ gn_ext n = true /\ gn_params n = [] /\ gn_deps n = [])).
  { intros x n Hx. destruct (in_force config defs x) as [d|] eqn:Hf.
    - destruct (bt_fn _ _ _ Hb x d Hf) as (n' & Hn' & ? & ? & ?). left. exists d. split_and!; congruence.
    - right. by destruct (bt_ext _ _ _ Hb x n Hf Hx) as (? & ? & ?). }
  assert (Hasks : forall P x, asks g P x <-> exists d, in_force config defs P = Some d /\ x ∈ (fd_params d).*1).
  { intros P x. split.
    - intros (n & Hn & Hx). destruct (Hfn P n Hn) as [(d & Hd & Hp & _)|(_ & _ & Hp & _)]; rewrite Hp in Hx; [by exists d|by apply elem_of_nil in Hx].
    - intros (d & Hd & Hx). destruct (bt_fn _ _ _ Hb P d Hd) as (n & Hn & _ & Hp & _). exists n. split; [done|]. by rewrite Hp. }
  constructor.
  - constructor; [by eapply bt_nodup| |].
    + intros x n Hx. destruct (Hfn x n Hx) as [(d & Hd & -> & _)|(_ & _ & -> & _)]; [|constructor].
      apply Hps. unfold in_force in Hd. case_decide; [done|]. by apply last_def_some in Hd as [_ ?].
    + intros x n Hx He. destruct (Hfn x n Hx) as [(d & _ & _ & _ & ?)|(_ & _ & -> & _)]; [congruence|done].
  - intros x n Hx. destruct (Hfn x n Hx) as [(d & Hd & -> & -> & _)|(_ & _ & -> & ->)]; done.
  - intros P x Ha. apply Hasks in Ha as (d & Hd & Hx). apply (bt_keys _ _ _ Hb). right. right. by exists P, d.
  - intros x n P Hx. rewrite (bt_rdeps _ _ _ Hb x n P Hx). by rewrite Hasks.
  - intros x n Hx. by eapply (bt_rdeps_nodup _ _ _ Hb).
Qed.

(** ** Linked graphs for the executor *)
Lemma linked_edge g x p : linked g -> edge (to_graph g) x p <-> asks g x p.
Proof.
  intros Hl. assert (Hnd := sn_nodup _ (ln_sensible _ Hl)). unfold edge, asks. setoid_rewrite to_graph_lookup; [|done]. split.
  - intros (nd & Hg & Hp). destruct (dget g x) as [n|] eqn:Hx; [|done]. injection Hg as <-. rewrite dep_names_to_node in Hp.
    exists n. split; [done|]. by rewrite <-(ln_deps _ Hl x n Hx).
  - intros (n & Hx & Hp). exists (to_node n). rewrite Hx. split; [done|]. rewrite dep_names_to_node. by rewrite (ln_deps _ Hl x n Hx).
Qed.
Lemma linked_wf g : linked g -> wf_graph (to_graph g).
Proof.
  intros Hl. assert (Hnd := sn_nodup _ (ln_sensible _ Hl)). constructor.
  - intros x d He. apply linked_edge in He; [|done]. rewrite to_graph_lookup by done. apply fmap_is_Some, dget_Some_key. by eapply ln_closed.
  - intros x d nd He Hg. apply linked_edge in He; [|done]. rewrite to_graph_lookup in Hg by done.
    destruct (dget g d) as [n|] eqn:Hd; [|done]. injection Hg as <-. cbn. by apply (ln_rdeps _ Hl d n x Hd).
  - intros x d nd Hg Hin. rewrite to_graph_lookup in Hg by done. destruct (dget g d) as [n|] eqn:Hd; [|done]. injection Hg as <-.
    apply linked_edge; [done|]. by apply (ln_rdeps _ Hl d n x Hd).
  - intros x nd Hg He. rewrite to_graph_lookup in Hg by done. destruct (dget g x) as [n|] eqn:Hx; [|done]. injection Hg as <-. cbn in *.
    rewrite (ln_deps _ Hl x n Hx), (sn_ext _ (ln_sensible _ Hl) x n Hx He). done.
  - intros x nd Hg. rewrite to_graph_lookup in Hg by done. destruct (dget g x) as [n|] eqn:Hx; [|done]. injection Hg as <-.
    rewrite dep_names_to_node, (ln_deps _ Hl x n Hx). by eapply (sn_params _ (ln_sensible _ Hl)).
Qed.

(** [h] contains [g]: same kind and same parameters. *)
Definition contains (h g : dict (gnode T)) : Prop :=
  forall x n, dget g x = Some n -> exists n', dget h x = Some n' /\ gn_ext n' = gn_ext n /\ gn_params n' = gn_params n.
Lemma contains_node h g x nd : linked h -> linked g -> contains h g -> to_graph g !! x = Some nd ->
  exists nd', to_graph h !! x = Some nd' /\ nd_ext nd' = nd_ext nd /\ nd_deps nd' = nd_deps nd.
Proof.
  intros Hh Hg Hc. rewrite !to_graph_lookup by (apply sn_nodup, ln_sensible; done).
  destruct (dget g x) as [n|] eqn:Hx; [|done]. intros [= <-]. destruct (Hc x n Hx) as (n' & Hn' & He & Hp).
  rewrite Hn'. exists (to_node n'). split; [done|]. split; [done|]. unfold to_node. cbn.
  by rewrite (ln_deps _ Hh x n' Hn'), (ln_deps _ Hg x n Hx), Hp.
Qed.
Section Eval.
Context {V E : Type}.
Variable f : name -> gmap name V -> res E V.
Variable inputs overrides : gmap name V.
Variable h g : dict (gnode T).
Hypothesis Hh : linked h.
Hypothesis Hg : linked g.
Hypothesis Hc : contains h g.
Notation gg := (to_graph g).
Notation hh := (to_graph h).

Lemma in_graph x : x ∈ dkeys g <-> is_Some (gg !! x).
Proof. rewrite to_graph_lookup by (apply sn_nodup, ln_sensible; done). by rewrite fmap_is_Some, dget_Some_key. Qed.

Lemma dep_in x nd d : gg !! x = Some nd -> d ∈ dep_names nd -> d ∈ dkeys g.
Proof. intros Hx Hd. apply (ln_closed _ Hg x). apply linked_edge; [done|]. by exists nd. Qed.
Lemma same_absent d : d ∈ dkeys g -> absent gg inputs overrides d <-> absent hh inputs overrides d.
Proof.
  intros Hd. apply in_graph in Hd as [nd Hnd]. destruct (contains_node h g d nd Hh Hg Hc Hnd) as (nd' & Hnd' & He & _).
  unfold absent. rewrite Hnd, Hnd'. split; intros (H1 & H2 & n & [= <-] & H4); split_and!; try done; eexists; split; done || congruence.
Qed.
Lemma eval_up x v : eval f gg inputs overrides x v -> eval f hh inputs overrides x v.
Proof.
  induction 1 as [x v Ho|x nd v Ho Hx He Hi|x nd kw v Ho Hx He Hk Hkw IH Habs Hf].
  - by apply eval_override.
  - destruct (contains_node h g x nd Hh Hg Hc Hx) as (nd' & Hnd' & He' & _). eapply eval_input; [done|done|congruence|done].
  - destruct (contains_node h g x nd Hh Hg Hc Hx) as (nd' & Hnd' & He' & Hd').
    eapply (eval_fn _ _ _ _ x nd' kw v); [done|done|congruence| | | |done].
    + intros d w Hw. unfold dep_names. rewrite Hd'. by eapply Hk.
    + done.
    + intros d dt Hd Hn. rewrite Hd' in Hd. destruct (Habs d dt Hd Hn) as [Ha Hdt]. split; [|done].
      apply same_absent; [|done]. eapply dep_in; [done|]. apply elem_of_list_fmap. by exists (d, dt).
Qed.
Lemma eval_down x v : eval f hh inputs overrides x v -> x ∈ dkeys g -> eval f gg inputs overrides x v.
Proof.
  induction 1 as [x v Ho|x nd' v Ho Hx He Hi|x nd' kw v Ho Hx He Hk Hkw IH Habs Hf]; intros Hin.
  - by apply eval_override.
  - apply in_graph in Hin as [nd Hnd]. destruct (contains_node h g x nd Hh Hg Hc Hnd) as (n2 & Hn2 & He2 & _).
    eapply eval_input; [done|done|congruence|done].
  - apply in_graph in Hin as [nd Hnd]. destruct (contains_node h g x nd Hh Hg Hc Hnd) as (n2 & Hn2 & He2 & Hd2).
    assert (n2 = nd') as -> by congruence.
    assert (Hdn : dep_names nd' = dep_names nd) by (unfold dep_names; by rewrite Hd2).
    eapply (eval_fn _ _ _ _ x nd kw v); [done|done|congruence| | | |done].
    + intros d w Hw. rewrite <-Hdn. by eapply Hk.
    + intros d w Hw. apply IH; [done|]. eapply dep_in; [done|]. rewrite <-Hdn. by eapply Hk.
    + intros d dt Hd Hn. rewrite <-Hd2 in Hd. destruct (Habs d dt Hd Hn) as [Ha Hdt]. split; [|done].
      apply same_absent; [|done]. eapply dep_in; [done|]. rewrite <-Hdn. apply elem_of_list_fmap. by exists (d, dt).
Qed.

(** Cycles. *)
Lemma edge_in x y : x ∈ dkeys g -> edge hh x y -> edge gg x y /\ y ∈ dkeys g.
Proof.
  intros Hx He. apply linked_edge in He as (n' & Hn' & Hy); [|done].
  apply dget_Some_key in Hx as [n Hn]. destruct (Hc x n Hn) as (n2 & Hn2 & _ & Hp). assert (n2 = n') as -> by congruence.
  assert (Ha : asks g x y) by (exists n; split; [done|]; by rewrite <-Hp).
  split; [by apply linked_edge|by eapply ln_closed].
Qed.
Lemma tc_in x y : tc (edge hh) x y -> x ∈ dkeys g -> tc (edge gg) x y /\ y ∈ dkeys g.
Proof.
  induction 1 as [x y He|x y z He Hyz IH]; intros Hx; destruct (edge_in x y Hx He) as [He' Hy]; [by split; [constructor|]|].
  destruct (IH Hy) as [IH1 IH2]. split; [|done]. by eapply tc_l.
Qed.
Lemma tc_out x y : tc (edge hh) x y -> y ∉ dkeys g -> tc (fun a b => edge hh a b /\ a ∉ dkeys g /\ b ∉ dkeys g) x y.
Proof.
  induction 1 as [x y He|x y z He Hyz IH]; intros Hy.
  - constructor. split_and!; try done. intros Hx. by destruct (edge_in x y Hx He).
  - eapply tc_l; [|by apply IH]. assert (Hyn : y ∉ dkeys g) by (intros Hin; by destruct (tc_in y z Hyz Hin)).
    split_and!; try done. intros Hx. by destruct (edge_in x y Hx He).
Qed.
Lemma no_cycles : acyclic gg -> (forall x, ~ tc (fun a b => asks h a b /\ a ∉ dkeys g /\ b ∉ dkeys g) x x) -> acyclic hh.
Proof.
  intros Ha Hn x Hx. destruct (decide (x ∈ dkeys g)) as [Hin|Hout].
  - apply (Ha x). by apply tc_in.
  - apply (Hn x). apply tc_out in Hx; [|done]. clear -Hx Hh. revert Hx. generalize x at 2 4. intros y.
    induction 1 as [a b (He & ? & ?)|a b c (He & ? & ?) Hbc IH].
    + constructor. split; [|done]. by apply linked_edge.
    + eapply tc_l; [|exact IH]. split; [|done]. by apply linked_edge.
Qed.
End Eval.

(** ** Requests of the old variables *)
Section Requests.
Context {V E : Type}.
Variable f : name -> gmap name V -> res E V.
Variable config inputs overrides : gmap name V.
Variable fv : list name.
Variable h g : dict (gnode T).
Hypothesis Hh : linked h.
Hypothesis Hg : linked g.
Hypothesis Hc : contains h g.
Hypothesis Hah : acyclic (to_graph h).
Hypothesis Hag : acyclic (to_graph g).
Hypothesis Hfv : forall x, x ∈ fv -> x ∈ dkeys g.
Notation gg := (to_graph g).
Notation hh := (to_graph h).
Notation ai := (inputs ∪ config).

Lemma both_in x : x ∈ dkeys g -> is_Some (gg !! x) /\ is_Some (hh !! x).
Proof.
  intros Hx. apply (in_graph g Hg) in Hx as Hx'. split; [done|]. destruct Hx' as [nd Hnd].
  destruct (contains_node h g x nd Hh Hg Hc Hnd) as (nd' & ? & _). by eexists.
Qed.
Lemma requested_all : requested gg fv = fv /\ requested hh fv = fv.
Proof.
  unfold requested. assert (Hall := fun x Hx => both_in x (Hfv x Hx)). clear Hfv.
  induction fv as [|x l IH]; [done|]. rewrite !filter_cons. destruct IH as [IH1 IH2]; [intros y Hy; apply Hall; by right|].
  destruct (Hall x) as [H1 H2]; [by left|]. rewrite !decide_True by done. by rewrite IH1, IH2.
Qed.
Lemma needed_same x : needed hh overrides fv x <-> needed gg overrides fv x.
Proof.
  split.
  - intros Hn. assert (H : needed gg overrides fv x /\ x ∈ dkeys g); [|by destruct H].
    induction Hn as [x Hr Ho|x d Hn [IH Hx] He Ho]; [split; [by apply needed_root|by apply Hfv]|].
    destruct (edge_in h g Hh Hg Hc x d Hx He) as [He' Hd]. split; [by eapply needed_dep|done].
  - induction 1 as [x Hr Ho|x d Hn IH He Ho]; [by apply needed_root|]. eapply needed_dep; [done| |done].
    destruct He as (nd & Hnd & Hd). destruct (contains_node h g x nd Hh Hg Hc Hnd) as (nd' & Hnd' & _ & Hdeps).
    exists nd'. split; [done|]. unfold dep_names. by rewrite Hdeps.
Qed.
Lemma needed_in x : needed gg overrides fv x -> x ∈ dkeys g.
Proof.
  induction 1 as [x Hr Ho|x d Hn IH He Ho]; [by apply Hfv|]. apply linked_edge in He; [|done]. by eapply ln_closed.
Qed.
Lemma can_run_same : can_run gg f config inputs overrides fv <-> can_run hh f config inputs overrides fv.
Proof.
  unfold can_run. destruct requested_all as [-> ->]. split; intros [H1 H2]; (split; [done|]); intros x nd Hn Hx He.
  - apply needed_same in Hn. assert (Hin := needed_in x Hn). destruct (both_in x Hin) as [[nd0 Hnd0] _].
    destruct (contains_node h g x nd0 Hh Hg Hc Hnd0) as (nd1 & Hnd1 & He1 & _).
    destruct (H2 x nd0 Hn Hnd0 ltac:(congruence)) as [v Hv]. exists v. by apply eval_up with g.
  - assert (Hin := needed_in x Hn). apply needed_same in Hn.
    destruct (contains_node h g x nd Hh Hg Hc Hx) as (nd1 & Hnd1 & He1 & _).
    destruct (H2 x nd1 Hn Hnd1 ltac:(congruence)) as [v Hv]. exists v. by apply eval_down with h.
Qed.
Lemma same_out out tr out' tr' :
  default_execute (E:=E) (fun _ => f) gg config inputs overrides fv = Answer out tr ->
  default_execute (E:=E) (fun _ => f) hh config inputs overrides fv = Answer out' tr' -> out = out'.
Proof.
  intros H1 H2.
  destruct (run_values gg (linked_wf g Hg) Hag f config inputs overrides fv out tr H1) as [Hk Hv].
  destruct (run_values hh (linked_wf h Hh) Hah f config inputs overrides fv out' tr' H2) as [Hk' Hv'].
  apply list_eq_assoc; [congruence|]. intros x r r' Hin Hin'.
  assert (Hx : x ∈ dkeys g). { apply Hfv. rewrite <-Hk. apply elem_of_list_fmap. by exists (x, r). }
  destruct (both_in x Hx) as [Hgx Hhx]. specialize (Hv x r Hin). specialize (Hv' x r' Hin'). destruct r as [v|].
  - destruct Hv as [[_ Hv]|[Hv _]]; [|destruct Hgx; congruence]. symmetry.
    eapply (run_answer_unique hh (linked_wf h Hh) Hah); [exact H2|exact Hin'|done|]. by apply eval_up with g.
  - destruct Hv as [Hv|[Hv _]]; [|destruct Hgx; congruence]. destruct r' as [v'|]; [|done].
    destruct Hv' as [[_ Hv']|[Hv' _]]; [|destruct Hhx; congruence].
    apply (same_absent ai overrides h g Hh Hg Hc x Hx) in Hv. by apply absent_no_eval with (f := f) (v := v') in Hv.
Qed.
Lemma same_answers out :
  (exists tr, default_execute (E:=E) (fun _ => f) hh config inputs overrides fv = Answer out tr) <->
  (exists tr, default_execute (E:=E) (fun _ => f) gg config inputs overrides fv = Answer out tr).
Proof.
  assert (Hs := run_success gg (linked_wf g Hg) Hag f config inputs overrides fv).
  assert (Hs' := run_success hh (linked_wf h Hh) Hah f config inputs overrides fv).
  split; intros [tr Hr].
  - assert (Hcan : can_run gg f config inputs overrides fv) by (apply can_run_same, Hs'; by eauto).
    apply Hs in Hcan as (out1 & tr1 & Hr1). exists tr1. by rewrite <-(same_out _ _ _ _ Hr1 Hr).
  - assert (Hcan : can_run hh f config inputs overrides fv) by (apply can_run_same, Hs; by eauto).
    apply Hs' in Hcan as (out1 & tr1 & Hr1). exists tr1. by rewrite (same_out _ _ _ _ Hr Hr1).
Qed.
End Requests.

(** ** Replaced nodes *)
Section Replaced.
Context {V E : Type}.
Variable f : name -> gmap name V -> res E V.
Variable inputs overrides : gmap name V.
Variable h g : dict (gnode T).
Hypothesis Hh : linked h.
Hypothesis Hg : linked g.
Variable loaded : gmap name V.
Hypothesis Hkeep : forall x n, dget g x = Some n -> loaded !! x = None ->
  exists n', dget h x = Some n' /\ gn_ext n' = gn_ext n /\ gn_params n' = gn_params n.
Notation gg := (to_graph g).
Notation hh := (to_graph h).
Hypothesis Hld : forall x v, loaded !! x = Some v -> overrides !! x = None -> eval f hh inputs overrides x v.

Lemma kept_node x nd : gg !! x = Some nd -> loaded !! x = None ->
  exists nd', hh !! x = Some nd' /\ nd_ext nd' = nd_ext nd /\ nd_deps nd' = nd_deps nd.
Proof.
  intros Hx Hlx. rewrite to_graph_lookup in Hx by (apply sn_nodup, ln_sensible; done).
  destruct (dget g x) as [n|] eqn:Hgx; [|done]. injection Hx as <-. destruct (Hkeep x n Hgx Hlx) as (n' & Hn' & He & Hp).
  exists (to_node n'). rewrite to_graph_lookup by (apply sn_nodup, ln_sensible; done). rewrite Hn'. split; [done|]. split; [done|].
  unfold to_node. cbn. by rewrite (ln_deps _ Hh x n' Hn'), (ln_deps _ Hg x n Hgx), Hp.
Qed.
Lemma loaded_absent d : d ∈ dkeys g -> absent gg inputs (overrides ∪ loaded) d -> absent hh inputs overrides d.
Proof.
  intros Hd. apply (in_graph g Hg) in Hd as [nd Hnd]. unfold absent. intros (Ho & Hi & n & Hn & He).
  apply lookup_union_None in Ho as [Ho Hlo]. destruct (kept_node d n Hn Hlo) as (nd' & ? & ? & _).
  split_and!; try done. exists nd'. split; [done|congruence].
Qed.
Lemma absent_loaded d : d ∈ dkeys g -> absent hh inputs overrides d -> absent gg inputs (overrides ∪ loaded) d.
Proof.
  intros Hd Ha. destruct (loaded !! d) as [v|] eqn:Hlo.
  { assert (Hv := Hld d v Hlo (proj1 Ha)). by destruct (absent_no_eval f hh inputs overrides d v Ha). }
  apply (in_graph g Hg) in Hd as [nd Hnd]. destruct (kept_node d nd Hnd Hlo) as (nd' & Hnd' & He & _).
  destruct Ha as (Ho & Hi & n & Hn & Hen). split; [by apply lookup_union_None|]. split; [done|]. exists nd. split; [done|congruence].
Qed.
Lemma loaded_up x v : eval f gg inputs (overrides ∪ loaded) x v -> eval f hh inputs overrides x v.
Proof.
  induction 1 as [x v Ho|x nd v Ho Hx He Hi|x nd kw v Ho Hx He Hk Hkw IH Habs Hf].
  - apply lookup_union_Some_raw in Ho as [Ho|[Hn Ho]]; [by apply eval_override|by apply Hld].
  - apply lookup_union_None in Ho as [Ho Hlo]. destruct (kept_node x nd Hx Hlo) as (nd' & Hnd' & He' & _).
    eapply eval_input; [done|done|congruence|done].
  - apply lookup_union_None in Ho as [Ho Hlo]. destruct (kept_node x nd Hx Hlo) as (nd' & Hnd' & He' & Hd').
    eapply (eval_fn _ _ _ _ x nd' kw v); [done|done|congruence| | | |done].
    + intros d w Hw. unfold dep_names. rewrite Hd'. by eapply Hk.
    + done.
    + intros d dt Hd Hn. rewrite Hd' in Hd. destruct (Habs d dt Hd Hn) as [Ha Hdt]. split; [|done].
      apply loaded_absent; [|done]. apply (ln_closed _ Hg x), linked_edge; [done|]. exists nd. split; [done|].
      apply elem_of_list_fmap. by exists (d, dt).
Qed.
Lemma loaded_down x v : eval f hh inputs overrides x v -> x ∈ dkeys g -> eval f gg inputs (overrides ∪ loaded) x v.
Proof.
  intros Hv. induction Hv as [x v Ho|x nd' v Ho Hx He Hi|x nd' kw v Ho Hx He Hk Hkw IH Habs Hf]; intros Hin.
  - apply eval_override. by apply lookup_union_Some_l.
  - destruct (loaded !! x) as [w|] eqn:Hlo.
    + apply eval_override. rewrite lookup_union_r by done. rewrite Hlo. f_equal.
      eapply eval_functional; [by apply Hld|]. by eapply eval_input.
    + apply (in_graph g Hg) in Hin as [nd Hnd]. destruct (kept_node x nd Hnd Hlo) as (n2 & Hn2 & He2 & _).
      eapply eval_input; [by apply lookup_union_None|done|congruence|done].
  - destruct (loaded !! x) as [w|] eqn:Hlo.
    + apply eval_override. rewrite lookup_union_r by done. rewrite Hlo. f_equal.
      eapply eval_functional; [by apply Hld|]. by eapply (eval_fn _ _ _ _ x nd' kw v).
    + apply (in_graph g Hg) in Hin as [nd Hnd]. destruct (kept_node x nd Hnd Hlo) as (n2 & Hn2 & He2 & Hd2).
      assert (n2 = nd') as -> by congruence.
      assert (Hdn : dep_names nd' = dep_names nd) by (unfold dep_names; by rewrite Hd2).
      assert (Hcl : forall d, d ∈ dep_names nd -> d ∈ dkeys g).
      { intros d Hd. apply (ln_closed _ Hg x), linked_edge; [done|]. by exists nd. }
      eapply (eval_fn _ _ _ _ x nd kw v); [by apply lookup_union_None|done|congruence| | | |done].
      * intros d w Hw. rewrite <-Hdn. by eapply Hk.
      * intros d w Hw. apply IH; [done|]. apply Hcl. rewrite <-Hdn. by eapply Hk.
      * intros d dt Hd Hn. assert (Hd' := Hd). rewrite <-Hd2 in Hd. destruct (Habs d dt Hd Hn) as [Ha Hdt]. split; [|done].
        apply absent_loaded; [|done]. apply Hcl. apply elem_of_list_fmap. by exists (d, dt).
Qed.
End Replaced.

(** ** When linking succeeds *)
Record kept_types base nodes : Prop := {
  kt_base : forall k n0, dget base k = Some n0 -> exists n, dget nodes k = Some n /\ gn_type n = gn_type n0 /\ gn_ext n = gn_ext n0;
  kt_new : forall k n, dget base k = None -> dget nodes k = Some n -> gn_ext n = true /\ (k, gn_type n) ∈ all_params base;
}.
Lemma kept_dmod base nodes k f : kept_types base nodes -> (forall n, gn_type (f n) = gn_type n /\ gn_ext (f n) = gn_ext n) ->
  kept_types base (dmod nodes k f).
Proof.
  intros [H1 H2] Hf. constructor.
  - intros x n0 Hx. destruct (H1 x n0 Hx) as (n & Hn & Ht & He). rewrite dget_dmod. case_decide as Hk; [subst|by exists n].
    rewrite Hn. exists (f n). destruct (Hf n) as [-> ->]. done.
  - intros x n Hx. rewrite dget_dmod. case_decide as Hk; [subst|by apply H2].
    destruct (dget nodes k) as [m|] eqn:Hm; [|done]. intros [= <-]. destruct (Hf m) as [-> ->]. by apply H2.
Qed.
Section Success.
Variable base : dict (gnode T).
(** Nodes are accepted by all that ask for them, and all that ask for a new input accept each other's annotations. *)
Hypothesis Hbase : forall p pt n0, (p, pt) ∈ all_params base -> dget base p = Some n0 -> accepts pt (gn_type n0) = true.
Hypothesis Hfresh : forall p pt t, (p, pt) ∈ all_params base -> (p, t) ∈ all_params base -> dget base p = None -> accepts pt t = true.
Lemma add_dependency_succeeds nodes func p pt : kept_types base nodes -> (p, pt) ∈ all_params base ->
  exists nodes', add_dependency types_match adapter_match nodes func p pt = Ok nodes' /\ kept_types base nodes'.
Proof.
  intros Hk Hp. unfold add_dependency. destruct (dget nodes p) as [rn|] eqn:Hrn.
  - assert (Hacc : types_match pt (gn_type rn) || adapter_match pt (gn_type rn) = true).
    { destruct (dget base p) as [n0|] eqn:H0.
      - destruct (kt_base _ _ Hk p n0 H0) as (n & Hn & Ht & _). assert (n = rn) as -> by congruence. rewrite Ht. by eapply Hbase.
      - destruct (kt_new _ _ Hk p rn H0 Hrn) as [_ Ht]. by eapply Hfresh. }
    rewrite Hacc. eexists. split; [done|]. apply kept_dmod; [|done]. by apply kept_dmod.
  - eexists. split; [done|]. apply kept_dmod; [|done]. apply kept_dmod; [|done]. constructor.
    + intros k n0 H0. destruct (kt_base _ _ Hk k n0 H0) as (n & Hn & ?). exists n. rewrite dget_dset_ne by congruence. done.
    + intros k n H0. rewrite dget_dset. case_decide as Hkp; [subst|by apply (kt_new _ _ Hk)]. by intros [= <-].
Qed.
Lemma add_params_succeeds func ps : forall nodes, kept_types base nodes -> (forall p pt dt, (p, (pt, dt)) ∈ ps -> (p, pt) ∈ all_params base) ->
  exists nodes', add_params types_match adapter_match nodes func ps = Ok nodes' /\ kept_types base nodes'.
Proof.
  induction ps as [|[p [pt dt]] ps IH]; intros nodes Hk Hps; cbn [add_params]; [by exists nodes|].
  destruct (add_dependency_succeeds nodes func p pt Hk) as (n1 & -> & Hk1); [eapply Hps; by left|].
  apply IH; [done|]. intros q qt qdt Hq. eapply Hps. by right.
Qed.
Lemma add_all_succeeds snapshot : forall nodes, kept_types base nodes -> (forall pp, pp ∈ all_params snapshot -> pp ∈ all_params base) ->
  exists nodes', add_all types_match adapter_match nodes snapshot = Ok nodes' /\ kept_types base nodes'.
Proof.
  induction snapshot as [|[x n] rest IH]; intros nodes Hk Hps; cbn [add_all]; [by exists nodes|].
  destruct (add_params_succeeds x (gn_params n) nodes Hk) as (n1 & -> & Hk1).
  - intros p pt dt Hp. apply Hps. unfold all_params. cbn [map concat]. apply elem_of_app. left.
    apply elem_of_list_fmap. by exists (p, (pt, dt)).
  - apply IH; [done|]. intros pp Hpp. apply Hps. unfold all_params. cbn [map concat]. apply elem_of_app. by right.
Qed.
End Success.

Lemma all_params_reset base : all_params (reset base) = all_params base.
Proof. unfold all_params, reset. rewrite map_map. done. Qed.
Lemma asks_typed_params base p t : NoDup (dkeys base) -> (p, t) ∈ all_params base <-> exists P, asks_typed base P p t.
Proof.
  intros Hnd. rewrite elem_all_params by done. unfold asks_typed. split.
  - intros (x & n & dt & ? & ?). by exists x, n, dt.
  - intros (x & n & dt & ? & ?). by exists x, n, dt.
Qed.

Lemma update_succeeds base : sensible base ->
  (forall P x t n, asks_typed base P x t -> dget base x = Some n -> accepts t (gn_type n) = true) ->
  (forall P P' x t t', asks_typed base P x t -> asks_typed base P' x t' -> x ∉ dkeys base -> accepts t t' = true) ->
  exists g, update_dependencies types_match adapter_match base true = Ok g /\
    (forall x n, dget base x = Some n -> exists n', dget g x = Some n' /\ gn_type n' = gn_type n) /\
    accepting types_match adapter_match g.
Proof.
  intros Hs Hb Hf. assert (Hnd := sn_nodup _ Hs).
  assert (Hg : forall x, dget (reset base) x = reset_refs <$> dget base x) by (intros x; apply dget_map).
  assert (Hp : forall p t, (p, t) ∈ all_params (reset base) <-> exists P, asks_typed base P p t).
  { intros p t. rewrite all_params_reset. by apply asks_typed_params. }
  destruct (add_all_succeeds (reset base)) with (snapshot := reset base) (nodes := reset base) as (g & Hu & Hk).
  - intros p pt n0 Hin H0. apply Hp in Hin as [P HP]. rewrite Hg in H0. destruct (dget base p) as [n|] eqn:Hn; [|done].
    injection H0 as <-. cbn. by eapply Hb.
  - intros p pt t H1 H2 H0. apply Hp in H1 as [P HP]. apply Hp in H2 as [P' HP']. eapply Hf; [done..|].
    apply dget_None_key. rewrite Hg in H0. by destruct (dget base p).
  - constructor; [intros k n0 H0; by exists n0|congruence].
  - done.
  - assert (Hupd : update_dependencies types_match adapter_match base true = Ok g) by exact Hu.
    exists g. split; [done|].
    destruct (update_linked base g Hs Hupd) as (Hl & Hkeys & Hold & Hnew).
    assert (Hty : forall x n, dget base x = Some n -> exists n', dget g x = Some n' /\ gn_type n' = gn_type n).
    { intros x n Hx. destruct (kt_base _ _ Hk x (reset_refs n)) as (n' & ? & ? & _); [by rewrite Hg, Hx|]. by exists n'. }
    split; [done|].
    intros P x t n (nP & dt & HP & Ht) Hn.
    assert (HaP : asks_typed base P x t).
    { destruct (dget base P) as [n0|] eqn:H0.
      - destruct (Hold P n0 H0) as (n' & Hn' & _ & Hpar). exists n0, dt. split; [done|]. rewrite <-Hpar. congruence.
      - destruct (Hnew P nP H0 HP) as [_ Hpar]. rewrite Hpar in Ht. by apply elem_of_nil in Ht. }
    destruct (dget base x) as [n0|] eqn:H0.
    + destruct (Hty x n0 H0) as (n' & Hn' & Hte). assert (n' = n) as -> by congruence. rewrite Hte. by eapply Hb.
    + destruct (kt_new _ _ Hk x n) as [_ Hin]; [by rewrite Hg, H0|done|]. apply Hp in Hin as [P' HP'].
      eapply (Hf P P'); [done|done|]. by apply dget_None_key.
Qed.

Lemma asks_typed_merged old new P x t : NoDup (dkeys new) -> asks_typed (merged old new) P x t ->
  asks_typed new P x t \/ (P ∉ dkeys new /\ asks_typed old P x t).
Proof.
  intros Hnd (n & dt & HP & Ht). rewrite dget_merged in HP by done. destruct (dget new P) as [m|] eqn:Hm.
  - injection HP as ->. left. by exists n, dt.
  - right. split; [by apply dget_None_key|]. by exists n, dt.
Qed.

Lemma with_nodes_inv old new g : with_nodes types_match adapter_match old new = Ok g ->
  (forall x, x ∈ dkeys old -> x ∉ dkeys new) /\ update_dependencies types_match adapter_match (merged old new) true = Ok g.
Proof.
  unfold with_nodes. destruct (filter _ _) as [|x l] eqn:Hf; [|done].
  destruct (update_dependencies _ _ _ _) eqn:Hu; [|done]. intros [= <-]. split; [|done].
  intros x Hx Hn. assert (Hin : x ∈ filter (fun x => x ∈ dkeys new) (dkeys old)) by (by apply elem_of_list_filter).
  rewrite Hf in Hin. by apply elem_of_nil in Hin.
Qed.
Lemma with_nodes_dup old new x : with_nodes types_match adapter_match old new = Err (DuplicateNames x) ->
  x ∈ dkeys old /\ x ∈ dkeys new.
Proof.
  unfold with_nodes. destruct (filter _ _) as [|y l] eqn:Hf.
  - by destruct (update_dependencies _ _ _ _).
  - intros [= ->]. assert (Hin : x ∈ filter (fun x => x ∈ dkeys new) (dkeys old)) by (rewrite Hf; by left).
    by apply elem_of_list_filter in Hin as [? ?].
Qed.
Lemma with_nodes_disjoint old new : (forall x, x ∈ dkeys old -> x ∉ dkeys new) ->
  with_nodes types_match adapter_match old new = replace_nodes types_match adapter_match old new.
Proof.
  intros Hd. unfold with_nodes, replace_nodes. destruct (filter _ _) as [|x l] eqn:Hf; [done|].
  assert (Hin : x ∈ filter (fun x => x ∈ dkeys new) (dkeys old)) by (rewrite Hf; by left).
  apply elem_of_list_filter in Hin as [H1 H2]. by destruct (Hd x H2).
Qed.

(** ** Built graphs accept *)
Section Built.
Variable any_type : T.
Hypothesis Hrefl : forall t, types_match t t = true.
(** Narrowing keeps what was accepted. *)
Hypothesis Hnarrow : forall t u v, types_match t u = true -> types_match u v = true -> types_match v u = false -> types_match t v = true.
Hypothesis Hno : forall t u, adapter_match t u = false.
Hypothesis Hany : forall t, types_match t any_type = true.

Definition good_types (asked : list (name * T)) (nodes : dict (gnode T)) : Prop :=
  forall p t n, (p, t) ∈ asked -> dget nodes p = Some n -> types_match t (gn_type n) = true.
Lemma good_dmod asked nodes k f : good_types asked nodes -> (forall n, gn_type (f n) = gn_type n) -> good_types asked (dmod nodes k f).
Proof.
  intros Hg Hf p t n Hin. rewrite dget_dmod. case_decide as Hk; [subst|by apply Hg].
  destruct (dget nodes k) as [m|] eqn:Hm; [|done]. intros [= <-]. rewrite Hf. by eapply Hg.
Qed.
Lemma good_add_dependency asked nodes func p pt nodes' : good_types asked nodes ->
  (forall q t, (q, t) ∈ asked -> q ∈ dkeys nodes) ->
  add_dependency types_match adapter_match nodes func p pt = Ok nodes' ->
  good_types (asked ++ [(p, pt)]) nodes' /\ (forall q t, (q, t) ∈ asked ++ [(p, pt)] -> q ∈ dkeys nodes').
Proof.
  intros Hg Hk. unfold add_dependency. rewrite ?Hno. destruct (dget nodes p) as [rn|] eqn:Hp.
  - assert (Hpk : p ∈ dkeys nodes) by (apply dget_Some_key; by eexists).
    rewrite Hno, !orb_false_r. destruct (types_match pt (gn_type rn)) eqn:Hm.
    + intros [= <-]. split.
      * apply good_dmod; [|done]. apply good_dmod; [|done]. intros q t n Hin Hn.
        apply elem_of_app in Hin as [Hin|Hin]; [by eapply Hg|]. apply elem_of_list_singleton in Hin as [= -> ->]. congruence.
      * intros q t Hin. rewrite !dkeys_dmod. apply elem_of_app in Hin as [Hin|Hin]; [by eapply Hk|].
        by apply elem_of_list_singleton in Hin as [= -> ->].
    + destruct (gn_ext rn); [|done]. destruct (types_match (gn_type rn) pt) eqn:Hm'; [|done]. intros [= <-]. split.
      * apply good_dmod; [|done]. apply good_dmod; [|done]. intros q t n Hin. rewrite dget_dset. case_decide as Hq.
        -- subst q. intros [= <-]. cbn. apply elem_of_app in Hin as [Hin|Hin].
           ++ apply (Hnarrow t (gn_type rn) pt); [by eapply Hg|done|done].
           ++ apply elem_of_list_singleton in Hin as [= ->]. apply Hrefl.
        -- intros Hn. apply elem_of_app in Hin as [Hin|Hin]; [by eapply Hg|]. by apply elem_of_list_singleton in Hin as [= -> ->].
      * intros q t Hin. rewrite !dkeys_dmod, dkeys_dset_elem. apply elem_of_app in Hin as [Hin|Hin]; [right; by eapply Hk|].
        apply elem_of_list_singleton in Hin as [= -> ->]. by left.
  - intros [= <-]. split.
    + apply good_dmod; [|done]. apply good_dmod; [|done]. intros q t n Hin. rewrite dget_dset. case_decide as Hq.
      * subst q. intros [= <-]. cbn. apply elem_of_app in Hin as [Hin|Hin].
        -- exfalso. apply dget_None_key in Hp. apply Hp. by eapply Hk.
        -- apply elem_of_list_singleton in Hin as [= ->]. apply Hrefl.
      * intros Hn. apply elem_of_app in Hin as [Hin|Hin]; [by eapply Hg|]. by apply elem_of_list_singleton in Hin as [= -> ->].
    + intros q t Hin. rewrite !dkeys_dmod, dkeys_dset_elem. apply elem_of_app in Hin as [Hin|Hin]; [right; by eapply Hk|].
      apply elem_of_list_singleton in Hin as [= -> ->]. by left.
Qed.
Lemma good_add_params func ps : forall asked nodes nodes', good_types asked nodes -> (forall q t, (q, t) ∈ asked -> q ∈ dkeys nodes) ->
  add_params types_match adapter_match nodes func ps = Ok nodes' ->
  good_types (asked ++ map (fun p => (p.1, p.2.1)) ps) nodes' /\ (forall q t, (q, t) ∈ asked ++ map (fun p => (p.1, p.2.1)) ps -> q ∈ dkeys nodes').
Proof.
  induction ps as [|[p [pt dt]] ps IH]; intros asked nodes nodes' Hg Hk; cbn [add_params map].
  - intros [= <-]. by rewrite app_nil_r.
  - destruct (add_dependency _ _ nodes func p pt) as [n1|] eqn:H1; [|done]. intros H2.
    destruct (good_add_dependency _ _ _ _ _ _ Hg Hk H1) as [Hg1 Hk1].
    rewrite cons_middle, app_assoc. by eapply IH.
Qed.
Lemma good_add_all snapshot : forall asked nodes nodes', good_types asked nodes -> (forall q t, (q, t) ∈ asked -> q ∈ dkeys nodes) ->
  add_all types_match adapter_match nodes snapshot = Ok nodes' ->
  good_types (asked ++ all_params snapshot) nodes'.
Proof.
  induction snapshot as [|[x n] rest IH]; intros asked nodes nodes' Hg Hk; cbn [add_all].
  - intros [= <-]. change (all_params []) with (@nil (name * T)). by rewrite app_nil_r.
  - destruct (add_params _ _ nodes x (gn_params n)) as [n1|] eqn:H1; [|done]. intros H2.
    destruct (good_add_params _ _ _ _ _ Hg Hk H1) as [Hg1 Hk1].
    change (all_params ((x, n) :: rest)) with (map (fun p => (p.1, p.2.1)) (gn_params n) ++ all_params rest).
    rewrite app_assoc. by eapply IH.
Qed.
Lemma built_accepting defs config allow g : (forall d, d ∈ defs -> NoDup (fd_params d).*1) ->
  create_function_graph types_match adapter_match any_type defs config allow = Ok g -> accepting types_match adapter_match g.
Proof.
  intros Hps Hc. assert (Hl := built_linked _ _ _ _ _ Hps Hc). assert (Hb := create_function_graph_ok _ _ _ _ _ _ _ Hc).
  unfold create_function_graph in Hc. destruct (collect config allow [] defs) as [base|] eqn:Hcol; [|done].
  destruct (update_dependencies _ _ base false) as [n1|] eqn:Hu; [|done]. injection Hc as Hc.
  destruct (collect_ok _ _ _ _ _ (NoDup_nil_2 : NoDup (dkeys ([] : dict (gnode T)))) Hcol) as [Hndb Hgetb].
  assert (Hbase : forall x, dget base x = gnode_of <$> in_force config defs x).
  { intros x. rewrite Hgetb. unfold in_force. case_decide; [done|]. by destruct (last_def defs x). }
  unfold update_dependencies in Hu. apply (good_add_all base [] base) in Hu as Hgood; [|by intros p t n Hin; apply elem_of_nil in Hin|by intros q t Hin; apply elem_of_nil in Hin].
  cbn [app] in Hgood.
  assert (Hb1 : building base (all_edges base) n1).
  { apply (update_dependencies_ok types_match adapter_match); [done| |done]. intros k n. rewrite Hbase.
    destruct (in_force config defs k); cbn; [|done]. by intros [= <-]. }
  destruct (add_config_ok any_type config n1 (b_nodup _ _ _ Hb1)) as [_ Hget].
  intros P x t n (nP & dt & HP & Ht) Hn. unfold RelinkSpec.accepts. apply orb_true_iff. left.
  subst g. rewrite Hget in Hn. destruct (dget n1 x) as [m|] eqn:Hm.
  - injection Hn as <-. apply (Hgood x t m); [|done]. apply elem_all_params; [done|].
    destruct (in_force config defs P) as [d|] eqn:Hf.
    + destruct (bt_fn _ _ _ Hb P d Hf) as (n' & Hn' & _ & Hp & _). exists P, (gnode_of d), dt. rewrite Hbase, Hf. split; [done|].
      cbn. rewrite <-Hp. congruence.
    + destruct (bt_ext _ _ _ Hb P nP Hf HP) as (_ & Hp & _). rewrite Hp in Ht. by apply elem_of_nil in Ht.
  - case_decide; [|done]. injection Hn as <-. apply Hany.
Qed.
End Built.
End Proofs.

(** ** The types of the fragment *)
Lemma ty_match_any subclass t : ty_match subclass t TAny = true.
Proof. done. Qed.
Lemma forallb_self cs : forallb (fun c => existsb (Nat.eqb c) cs) cs = true.
Proof.
  apply forallb_forall. intros c Hc. apply existsb_exists. exists c. split; [done|apply Nat.eqb_refl].
Qed.
Lemma ty_match_refl subclass t : ty_match subclass t t = true.
Proof.
  destruct t as [|c|cs]; [done|..]; cbn.
  - by rewrite Nat.eqb_refl.
  - by rewrite forallb_self.
Qed.
Lemma ty_match_narrow subclass : (forall a b c, subclass a b = true -> subclass b c = true -> subclass a c = true) ->
  forall t u v, ty_match subclass t u = true -> ty_match subclass u v = true -> ty_match subclass v u = false -> ty_match subclass t v = true.
Proof.
  intros Htr t u v H1 H2 H3.
  assert (Hst : forall a b c, subclass a b || Nat.eqb a b = true -> subclass b c || Nat.eqb b c = true -> subclass a c || Nat.eqb a c = true).
  { intros a b c Hab Hbc. apply orb_true_iff in Hab as [Hab|Hab]; [|by apply Nat.eqb_eq in Hab as ->].
    apply orb_true_iff in Hbc as [Hbc|Hbc]; [by rewrite (Htr _ _ _ Hab Hbc)|]. apply Nat.eqb_eq in Hbc as ->. by rewrite Hab. }
  destruct v as [|cv|vs]; [done|..]; (destruct u as [|cu|us]; [done|..]).
  - (* class to class *)
    assert (Hvu : subclass cv cu || Nat.eqb cv cu = true).
    { cbn in H2. apply orb_true_iff in H2 as [H2|H2]; [|done]. by rewrite H2, orb_true_r. }
    destruct t as [|ct|ts]; cbn in *; [done|..].
    + apply orb_true_iff. right. eapply Hst; [exact Hvu|]. apply orb_true_iff in H1 as [H1|H1]; [|done]. by rewrite H1, orb_true_r.
    + apply existsb_exists in H1 as (p & Hp & Hcp). apply existsb_exists. exists p. split; [done|]. by eapply Hst.
  - (* class in union *)
    cbn in H2. apply existsb_exists in H2 as (p & Hp & Hcp).
    destruct t as [|ct|ts]; cbn in *; [done..|].
    assert (Hsub : forall c, In c us -> existsb (Nat.eqb c) ts = true).
    { intros c Hc. apply orb_true_iff in H1 as [H1|H1]; apply andb_true_iff in H1 as [Ha Hb'];
        rewrite forallb_forall in Ha; by apply Ha. }
    apply existsb_exists. specialize (Hsub p Hp). apply existsb_exists in Hsub as (q & Hq & Heq). apply Nat.eqb_eq in Heq as <-. by exists p.
  - (* union narrower than a class: impossible *)
    by exfalso.
  - (* unions: equal *)
    exfalso. cbn in H2, H3. apply orb_true_iff in H2 as [H2|H2]; apply andb_true_iff in H2 as [Ha Hb'];
      apply orb_false_iff in H3 as [H3 H3']; rewrite Ha, Hb' in H3; done.
Qed.
