(** C60: executing with GracefulErrorAdapter. *)
From Verif Require Import Base Dict ExecModel ExecSpec ExecResults ExecProps TraverseModel GroupModel StateModel TaskSpec TaskGroups TaskModel TaskRun
  TaskProps StateProps GracefulModel.

Section Values.
Context {V E : Type}.
Variable g : graph.
Variable role_of : name -> role.
Variable carg : name -> name.
Variable as_list : V -> option (list V).
Variable mk_list : list V -> V.
Variable call : name -> gmap name V -> res E V.
Variable gen : name -> gmap name V -> res E (list V * option E).
Variable catches : E -> bool.
Variable sentinel : V.
Variable try_all allow : bool.
Variable same : V -> bool.
Variable tagged : name -> bool.
Variable inputs : gmap name V.
Notation plain := (plain_fn role_of mk_list call gen).
Notation F := (graceful role_of mk_list call gen catches sentinel try_all allow same tagged).
Notation pevalF := (peval g role_of carg as_list mk_list F inputs).
Notation peval0 := (peval g role_of carg as_list mk_list plain inputs).

(** Without adapter [x] fails: its function raises an exception of the kind to catch on the
    values of its dependencies, or its value is the sentinel, or a dependency has failed. *)
Inductive failed (ov : gmap name V) : name -> Prop :=
| fl_raises x nd kw e : ov !! x = None -> g !! x = Some nd -> nd_ext nd = false ->
    (forall d w, kw !! d = Some w -> d ∈ dep_names nd) -> (forall d w, kw !! d = Some w -> peval0 ov d w) ->
    (forall d dt, (d, dt) ∈ nd_deps nd -> kw !! d = None -> absent g inputs ov d /\ dt = OPTIONAL) ->
    call x kw = Err e -> catches e = true -> failed ov x
| fl_value x v : peval0 ov x v -> same v = true -> failed ov x
| fl_dep x nd d : ov !! x = None -> g !! x = Some nd -> nd_ext nd = false -> d ∈ dep_names nd -> failed ov d -> failed ov x.

(** Only ordinary functions that do not ask for sentinels are involved in the value of [x]. *)
Definition ordinary (ov : gmap name V) (x : name) : Prop :=
  forall y, needed g ov [x] y -> role_of y = RStandard /\ tagged y && allow = false.

Lemma needed_trans (ov : gmap name V) x d y : ov !! x = None -> edge g x d -> needed g ov [d] y -> needed g ov [x] y.
Proof.
  intros Ho He. induction 1 as [y Hy Hoy|y z _ IH Hyz Hoz].
  - apply elem_of_list_singleton in Hy as ->. eapply needed_dep; [|done|done]. apply needed_root; [by left|done].
  - by eapply needed_dep.
Qed.
Lemma ordinary_dep (ov : gmap name V) x d : ov !! x = None -> edge g x d -> ordinary ov x -> ordinary ov d.
Proof. intros Ho He Hx y Hy. apply Hx. by eapply needed_trans. Qed.
Lemma ordinary_self (ov : gmap name V) x : ov !! x = None -> ordinary ov x -> role_of x = RStandard /\ tagged x && allow = false.
Proof. intros Ho Hx. apply Hx. apply needed_root; [by left|done]. Qed.
Lemma dep_edge x nd d : g !! x = Some nd -> d ∈ dep_names nd -> edge g x d.
Proof. intros Hg Hd. by exists nd. Qed.

Lemma has_sentinel_true (kw : gmap name V) : has_sentinel same kw = true <-> exists d w, kw !! d = Some w /\ same w = true.
Proof.
  unfold has_sentinel. rewrite existsb_exists. split.
  - intros ([d w] & Hin & Hs). exists d, w. split; [|done]. by apply elem_of_map_to_list, elem_of_list_In.
  - intros (d & w & Hd & Hs). exists (d, w). split; [|done]. by apply elem_of_list_In, elem_of_map_to_list.
Qed.
Lemma has_sentinel_false (kw : gmap name V) : has_sentinel same kw = false <-> forall d w, kw !! d = Some w -> same w = false.
Proof.
  rewrite <-not_true_iff_false, has_sentinel_true. split.
  - intros H d w Hd. apply not_true_iff_false. intros Hs. apply H. eauto.
  - intros H (d & w & Hd & Hs). rewrite (H d w Hd) in Hs. done.
Qed.
Lemma graceful_std x kw v : role_of x = RStandard -> tagged x && allow = false ->
  returns role_of as_list mk_list F x kw v <->
  (has_sentinel same kw = true /\ v = sentinel) \/
  (has_sentinel same kw = false /\ (call x kw = Ok v \/ exists e, call x kw = Err e /\ catches e = true /\ v = sentinel)).
Proof.
  intros Hr Ht. unfold returns, graceful, run_to_execute_node, can_inject. rewrite Hr, Ht. rewrite bool_decide_false by done. cbn [negb andb].
  destruct (has_sentinel same kw); cbn [snd].
  - split; [intros (w & [= <-] & ->); auto|]. intros [[_ ->]|[? _]]; [by exists sentinel|done].
  - split.
    + intros (w & Hw & ->). right. split; [done|]. destruct (call x kw) as [v|e]; [left; congruence|].
      destruct (catches e) eqn:Hc; [|done]. right. exists e. split_and!; [done|done|congruence].
    + intros [[? _]|[_ [Hc|(e & Hc & He & ->)]]]; [done| |]; rewrite Hc; [by exists v|rewrite He; by exists sentinel].
Qed.
Lemma plain_std x kw v : role_of x = RStandard -> returns role_of as_list mk_list plain x kw v <-> call x kw = Ok v.
Proof.
  intros Hr. unfold returns, plain_fn. rewrite Hr, bool_decide_false by done. split.
  - by intros (w & Hw & ->).
  - intros H. by exists v.
Qed.

(** A value that is not the sentinel is what the functions compute. *)
Lemma genuine ov x v : pevalF ov x v -> ordinary ov x -> same sentinel = true -> same v = false -> peval0 ov x v.
Proof.
  intros H. induction H as [ov x v Ho|ov x nd v Ho Hg Hx Hi|ov x nd kw v Ho Hg Hx Hr Hkw Hev IH Hab Hret
    |ov x nd kw v e w items vs Ho Hg Hx Hr]; intros Hord Hss Hs.
  - by apply pe_given.
  - by eapply pe_input.
  - destruct (ordinary_self ov x Ho Hord) as [Hstd Ht]. apply graceful_std in Hret; [|done|done].
    destruct Hret as [[_ ->]|[Hns [Hc|(e & _ & _ & ->)]]]; [congruence| |congruence].
    eapply pe_fn; try done; [|by apply plain_std]. intros d w Hd. apply IH; [done| |done|].
    + eapply ordinary_dep; [done| |done]. by eapply dep_edge, Hkw.
    + by eapply has_sentinel_false.
  - destruct (ordinary_self ov x Ho Hord). congruence.
Qed.

Lemma peval0_unique ov x v v' : ordinary ov x -> peval0 ov x v -> peval0 ov x v' -> v = v'.
Proof.
  intros Hord H. revert v' Hord. induction H as [ov x v Ho|ov x nd v Ho Hg Hx Hi|ov x nd kw v Ho Hg Hx Hr Hkw Hev IH Hab Hret
    |ov x nd kw v e w items vs Ho Hg Hx Hr]; intros v' Hord H'.
  - inversion H'; simplify_eq; congruence.
  - inversion H'; simplify_eq; congruence.
  - inversion H' as [|?|ov' x' nd' kw' v1 Ho' Hg' Hx' Hr' Hkw' Hev' Hab' Hret'|]; simplify_eq; try congruence.
    eapply returns_functional; [exact Hret|]. assert (kw = kw') as ->; [|done].
    apply map_eq. intros d. destruct (kw !! d) as [a|] eqn:Ha.
    + pose proof (Hkw _ _ Ha) as Hd. pose proof Hd as Hd0. apply elem_of_list_fmap in Hd as ([d' dt] & -> & Hd). cbn in *.
      destruct (kw' !! d') as [b|] eqn:Hb; [|exfalso; eapply absent_no_peval; [apply (Hab' _ _ Hd Hb)|by apply Hev]].
      f_equal. eapply IH; [done| |by apply Hev']. eapply ordinary_dep; [done|by eapply dep_edge|done].
    + destruct (kw' !! d) as [b|] eqn:Hb; [|done]. exfalso.
      pose proof (Hkw' _ _ Hb) as Hd. apply elem_of_list_fmap in Hd as ([d' dt] & -> & Hd). cbn in *.
      eapply absent_no_peval; [apply (Hab _ _ Hd Ha)|by apply Hev'].
  - destruct (ordinary_self ov x Ho Hord). congruence.
Qed.

Lemma failed_present ov x : failed ov x -> ~ absent g inputs ov x.
Proof.
  intros H (Ho & Hi & nd & Hg & Hx). destruct H as [x nd' kw e _ Hg' Hx'|x v Hv _|x nd' d _ Hg' Hx' _ _].
  - congruence.
  - inversion Hv; simplify_eq; congruence.
  - congruence.
Qed.

(** The sentinel stands for a failure, and every failure gives it. *)
Lemma sentinel_failed ov x v : pevalF ov x v -> ordinary ov x -> same sentinel = true -> same v = true -> failed ov x.
Proof.
  intros H. induction H as [ov x v Ho|ov x nd v Ho Hg Hx Hi|ov x nd kw v Ho Hg Hx Hr Hkw Hev IH Hab Hret
    |ov x nd kw v e w items vs Ho Hg Hx Hr]; intros Hord Hss Hs.
  - eapply fl_value; [by apply pe_given|done].
  - eapply fl_value; [by eapply pe_input|done].
  - destruct (ordinary_self ov x Ho Hord) as [Hstd Ht].
    assert (Hdep : forall d w, kw !! d = Some w -> ordinary ov d).
    { intros d w Hd. eapply ordinary_dep; [done| |done]. by eapply dep_edge, Hkw. }
    apply graceful_std in Hret; [|done|done]. destruct Hret as [[Hns ->]|[Hns Hc]].
    + apply has_sentinel_true in Hns as (d & w & Hd & Hw). eapply fl_dep; try done; [by eapply Hkw|]. eapply IH; [done|by eapply Hdep|done|done].
    + assert (Hgen : forall d w, kw !! d = Some w -> peval0 ov d w).
      { intros d w Hd. apply genuine; [by apply Hev|by eapply Hdep|done|by eapply has_sentinel_false]. }
      destruct Hc as [Hc|(e & Hc & He & ->)]; [|by eapply fl_raises].
      eapply fl_value; [|done]. eapply pe_fn; try done. by apply plain_std.
  - destruct (ordinary_self ov x Ho Hord). congruence.
Qed.
Lemma failed_sentinel ov x : failed ov x -> ordinary ov x -> same sentinel = true -> forall v, pevalF ov x v -> same v = true.
Proof.
  intros H. induction H as [x nd kw e Ho Hg Hx Hkw Hev Hab Hc He|x v' Hv' Hs|x nd d Ho Hg Hx Hd Hfd IH]; intros Hord Hss v Hv;
    apply not_false_iff_true; intros Hn; pose proof (genuine ov x v Hv Hord Hss Hn) as Hp.
  - destruct (ordinary_self ov x Ho Hord) as [Hstd Ht]. inversion Hp as [|?|ov' x' nd' kw' v1 Ho' Hg' Hx' Hr' Hkw' Hev' Hab' Hret'|]; simplify_eq; try congruence.
    apply plain_std in Hret'; [|done]. assert (kw = kw') as ->; [|congruence].
    apply map_eq. intros d. destruct (kw !! d) as [a|] eqn:Ha.
    + pose proof (Hkw _ _ Ha) as Hd. pose proof Hd as Hd0. apply elem_of_list_fmap in Hd as ([d' dt] & -> & Hd). cbn in *.
      destruct (kw' !! d') as [b|] eqn:Hb; [|exfalso; eapply absent_no_peval; [apply (Hab' _ _ Hd Hb)|by apply Hev]].
      f_equal. eapply peval0_unique; [|by apply Hev|by apply Hev']. eapply ordinary_dep; [done|by eapply dep_edge|done].
    + destruct (kw' !! d) as [b|] eqn:Hb; [|done]. exfalso.
      pose proof (Hkw' _ _ Hb) as Hd. apply elem_of_list_fmap in Hd as ([d' dt] & -> & Hd). cbn in *.
      eapply absent_no_peval; [apply (Hab _ _ Hd Ha)|by apply Hev'].
  - assert (v = v') as -> by by eapply peval0_unique. congruence.
  - destruct (ordinary_self ov x Ho Hord) as [Hstd Ht].
    inversion Hv as [|?|ov' x' nd' kw' v1 Ho' Hg' Hx' Hr' Hkw' Hev' Hab' Hret'|]; simplify_eq; try congruence.
    apply graceful_std in Hret'; [|done|done]. destruct Hret' as [[_ ->]|[Hns _]]; [congruence|].
    pose proof Hd as Hd0. apply elem_of_list_fmap in Hd as ([d' dt] & -> & Hd). cbn in *.
    destruct (kw' !! d') as [b|] eqn:Hb; [|by destruct (failed_present ov d' Hfd); apply (Hab' _ _ Hd Hb)].
    assert (same b = true); [|by rewrite (proj1 (has_sentinel_false kw') Hns d' b Hb) in *].
    apply IH; [|done|by apply Hev']. eapply ordinary_dep; [done|by eapply dep_edge|done].
Qed.

(** Exceptions of the kind to catch do not come out of the adapter. *)
Lemma graceful_err x kw e : F x kw = Err e -> catches e = false /\ plain x kw = Err e.
Proof.
  unfold graceful, run_to_execute_node, plain_fn. destruct (negb _ && _); [done|]. case_bool_decide; cbn [negb snd].
  - destruct try_all; cbn [snd]; destruct (gen x kw) as [[items [e'|]]|e']; try done; destruct (catches e') eqn:Hc; try done; by intros [= ->].
  - destruct (call x kw) as [v|e']; [done|]. destruct (catches e') eqn:Hc; [done|]. by intros [= ->].
Qed.
Lemma graceful_expand x kw v : role_of x = RExpand -> F x kw = Ok v -> exists l, v = mk_list l.
Proof.
  intros Hr. unfold graceful, run_to_execute_node. rewrite bool_decide_true by done. destruct (negb _ && _); cbn [negb snd].
  { intros [= <-]. by eexists. }
  destruct try_all; cbn [snd]; destruct (gen x kw) as [[items [e'|]]|e']; try (destruct (catches e')); intros [= <-]; by eexists.
Qed.
End Values.

Lemma eval_same_fn {V E} (f f' : name -> gmap name V -> res E V) g (inputs ov : gmap name V) x v :
  (forall y kw, f y kw = f' y kw) -> eval f g inputs ov x v -> eval f' g inputs ov x v.
Proof.
  intros Heq. induction 1 as [x v H|x nd v H1 H2 H3 H4|x nd kw v H1 H2 H3 H4 H5 IH H6 H7];
    [by eapply eval_override|by eapply eval_input|].
  eapply (eval_fn _ _ _ _ x nd kw v); try done. by rewrite <-Heq.
Qed.
Lemma call_evals {V E} (f : name -> gmap name V -> res E V) g config inputs ov fv t1 x kw r t2 : wf_graph g -> acyclic g ->
  trace_of (default_execute (fun _ => f) g config inputs ov fv) = t1 ++ Call x kw r :: t2 ->
  ov !! x = None /\ exists nd, g !! x = Some nd /\ nd_ext nd = false /\
    (forall d w, kw !! d = Some w -> d ∈ dep_names nd /\ eval f g (inputs ∪ config) ov d w) /\
    (forall d dt, (d, dt) ∈ nd_deps nd -> kw !! d = None -> absent g (inputs ∪ config) ov d /\ dt = OPTIONAL).
Proof.
  intros Hwf Hac Htr. pose proof (run_good g Hwf Hac (fun _ => f) config inputs ov fv) as Hg. rewrite Htr in Hg.
  pose proof (ExecProofs.good_app_inv _ _ _ _ _ _ _ Hg) as Hg1.
  destruct (Hg t1 _ t2 eq_refl) as (Hn & _ & _ & _ & _ & nd & Hgx & Hext & Hkw & Hall). split; [by inversion Hn|].
  exists nd. split_and!; [done|done| |].
  - intros d w Hd. destruct (Hkw d w Hd) as [? Hst]. split; [done|]. by eapply good_eval.
  - intros d dt Hin Hnone. destruct (Hall d dt Hin) as [[w Hw]|(_ & ? & ?)]; [congruence|done].
Qed.

(** ** C60 *)
(** An exception that ends a run is not of the kind to catch; it is the exception of a function. *)
Theorem C60_caught_exceptions_do_not_escape :
  forall (V E : Type) role_of mk_list call gen catches (sentinel : V) try_all allow same tagged g (config inputs ov : gmap name V) fv (e : E) tr,
    wf_graph g -> acyclic g ->
    default_execute (fun _ => graceful role_of mk_list call gen catches sentinel try_all allow same tagged) g config inputs ov fv
      = Failed (EUser e) tr ->
    catches e = false /\ exists x kw, plain_fn role_of mk_list call gen x kw = Err e.
Proof.
  intros V E role_of mk_list call gen catches sentinel try_all allow same tagged g config inputs ov fv e tr Hwf Hac Hrun.
  pose proof (C09_failures _ _ _ _ _ _ _ _ _ _ Hwf Hac Hrun) as (t & x & kw & Htr).
  destruct (C07_arguments V E (fun _ => graceful role_of mk_list call gen catches sentinel try_all allow same tagged) g config inputs ov fv t x kw (Err e) [] Hwf Hac)
    as [He _]; [by rewrite Hrun|].
  symmetry in He. apply graceful_err in He as [? ?]. split; [done|]. by exists x, kw.
Qed.
Print Assumptions C60_caught_exceptions_do_not_escape.

(** If the functions raise nothing else, every request is answered. *)
Theorem C60_always_answers :
  forall (V E : Type) role_of mk_list call gen catches (sentinel : V) try_all allow same tagged g (config inputs ov : gmap name V) fv,
    wf_graph g -> acyclic g ->
    (forall x kw (e : E), plain_fn role_of mk_list call gen x kw = Err e -> catches e = true) ->
    (forall k, config !! k = None \/ inputs !! k = None) ->
    (forall P nd y, needed g ov (requested g fv) P -> g !! P = Some nd -> (y, REQUIRED) ∈ nd_deps nd ->
       ~ absent g (inputs ∪ config) ov y) ->
    exists out tr, default_execute (fun _ => graceful role_of mk_list call gen catches sentinel try_all allow same tagged) g config inputs ov fv
      = Answer out tr.
Proof.
  intros V E role_of mk_list call gen catches sentinel try_all allow same tagged g config inputs ov fv Hwf Hac Hc Hcl Hreq.
  apply C06_total; try done. intros _ x kw.
  destruct (graceful role_of mk_list call gen catches sentinel try_all allow same tagged x kw) as [v|e] eqn:HF; [by exists v|].
  apply graceful_err in HF as [H1 H2]. apply Hc in H2. congruence.
Qed.
Print Assumptions C60_always_answers.

(** The answers: a value other than the sentinel is what the functions compute; the sentinel is
    returned exactly for the variables that fail (their function raises an exception of the kind
    to catch, or their value is the sentinel anyway, or something they depend on fails); a
    variable that does not fail has the value it has without the adapter. *)
Theorem C60_values :
  forall (V E : Type) role_of carg as_list mk_list call gen catches (sentinel : V) try_all allow same tagged g (config inputs ov : gmap name V) fv out tr,
    wf_graph g -> acyclic g -> (forall x, role_of x = RStandard) -> same sentinel = true ->
    default_execute (E:=E) (fun _ => graceful role_of mk_list call gen catches sentinel try_all allow same tagged) g config inputs ov fv
      = Answer out tr ->
    forall x v, (x, Some v) ∈ out -> is_Some (g !! x) -> (forall y, needed g ov [x] y -> tagged y && allow = false) ->
      (same v = false -> eval call g (inputs ∪ config) ov x v) /\
      (same v = true <-> failed g role_of carg as_list mk_list call gen catches same (inputs ∪ config) ov x) /\
      (forall w, eval call g (inputs ∪ config) ov x w ->
         ~ failed g role_of carg as_list mk_list call gen catches same (inputs ∪ config) ov x -> v = w).
Proof.
  intros V E role_of carg as_list mk_list call gen catches sentinel try_all allow same tagged g config inputs ov fv out tr Hwf Hac Hstd Hss Hrun x v Hin Hg Htag.
  pose proof (C01_execute_returns_meaning _ _ _ _ _ _ _ _ _ _ Hwf Hac Hrun) as [_ Hv].
  destruct (Hv x (Some v) Hin) as [[_ Hev]|[Hn _]]; [|rewrite Hn in Hg; by destruct Hg].
  apply (C24_sequential_meaning V E g role_of carg as_list mk_list _ (inputs ∪ config) ov x v Hstd) in Hev.
  assert (Hord : ordinary g role_of allow tagged ov x) by (intros y Hy; split; [apply Hstd|by apply Htag]).
  assert (Hpl : forall w, peval g role_of carg as_list mk_list (plain_fn role_of mk_list call gen) (inputs ∪ config) ov x w <->
                          eval call g (inputs ∪ config) ov x w).
  { intros w. rewrite C24_sequential_meaning by done.
    assert (Heq : forall y kw, plain_fn role_of mk_list call gen y kw = call y kw).
    { intros y kw. unfold plain_fn. rewrite bool_decide_false; [done|]. by rewrite Hstd. }
    split; apply eval_same_fn; intros; by rewrite Heq. }
  assert (Hgen : same v = false -> eval call g (inputs ∪ config) ov x v).
  { intros Hs. apply Hpl. by eapply genuine. }
  assert (Hiff : same v = true <-> failed g role_of carg as_list mk_list call gen catches same (inputs ∪ config) ov x).
  { split; [intros Hs; by eapply sentinel_failed|]. intros Hf. by eapply failed_sentinel. }
  split; [done|]. split; [done|]. intros w Hw Hnf.
  eapply C01_meaning_unique; [|exact Hw]. apply Hgen. apply not_true_iff_false. by rewrite Hiff.
Qed.
Print Assumptions C60_values.

(** A function is not invoked when one of its dependencies has failed, and is invoked with its
    arguments otherwise. *)
Theorem C60_skips_downstream_functions :
  forall (V E : Type) role_of carg as_list mk_list call gen catches (sentinel : V) try_all allow same tagged g (config inputs ov : gmap name V) fv t1 x kw r t2,
    wf_graph g -> acyclic g -> (forall x, role_of x = RStandard) -> same sentinel = true ->
    trace_of (default_execute (E:=E) (fun _ => graceful role_of mk_list call gen catches sentinel try_all allow same tagged) g config inputs ov fv)
      = t1 ++ Call x kw r :: t2 ->
    (forall y, needed g ov [x] y -> tagged y && allow = false) ->
    let invocations := (run_to_execute_node role_of mk_list call gen catches sentinel try_all allow same tagged x kw).1 in
    ((exists d, edge g x d /\ failed g role_of carg as_list mk_list call gen catches same (inputs ∪ config) ov d) -> invocations = []) /\
    (~ (exists d, edge g x d /\ failed g role_of carg as_list mk_list call gen catches same (inputs ∪ config) ov d) -> invocations = [kw]).
Proof.
  intros V E role_of carg as_list mk_list call gen catches sentinel try_all allow same tagged g config inputs ov fv t1 x kw r t2 Hwf Hac Hstd Hss Htr Htag.
  destruct (call_evals _ _ _ _ _ _ _ _ _ _ _ Hwf Hac Htr) as (Ho & nd & Hg & Hext & Hkw & Hab).
  assert (Hord : ordinary g role_of allow tagged ov x) by (intros y Hy; split; [apply Hstd|by apply Htag]).
  destruct (ordinary_self _ _ _ _ _ _ Ho Hord) as [_ Htx].
  assert (Hp : forall d w, kw !! d = Some w -> edge g x d /\ ordinary g role_of allow tagged ov d /\
    peval g role_of carg as_list mk_list (graceful role_of mk_list call gen catches sentinel try_all allow same tagged) (inputs ∪ config) ov d w).
  { intros d w Hd. destruct (Hkw d w Hd) as [Hdn Hw]. assert (He : edge g x d) by by exists nd. split_and!; [done|by eapply ordinary_dep|].
    by apply C24_sequential_meaning. }
  assert (Hsk : has_sentinel same kw = true <-> exists d, edge g x d /\ failed g role_of carg as_list mk_list call gen catches same (inputs ∪ config) ov d).
  { rewrite has_sentinel_true. split.
    - intros (d & w & Hd & Hw). destruct (Hp d w Hd) as (He & Hod & Hpd). exists d. split; [done|]. by eapply sentinel_failed.
    - intros (d & (nd' & Hg' & Hd) & Hf). assert (nd' = nd) as -> by congruence. unfold dep_names in Hd.
      apply elem_of_list_fmap in Hd as ([d' dt] & -> & Hd). cbn in *.
      destruct (kw !! d') as [w|] eqn:Hw; [|exfalso; eapply failed_present; [exact Hf|by eapply Hab]].
      destruct (Hp d' w Hw) as (He & Hod & Hpd). exists d', w. split; [done|]. by eapply failed_sentinel. }
  cbn. unfold run_to_execute_node, can_inject. rewrite Htx. cbn [negb andb]. rewrite bool_decide_false by (by rewrite Hstd). cbn [negb]. split.
  - intros H. apply Hsk in H. by rewrite H.
  - intros H. destruct (has_sentinel same kw) eqn:Heq; [|done]. destruct H. by apply Hsk.
Qed.
Print Assumptions C60_skips_downstream_functions.

(** A function marked with [accept_error_sentinels] is invoked with whatever its arguments are. *)
Theorem C60_marked_functions_run :
  forall (V E : Type) role_of mk_list (call : name -> gmap name V -> res E V) gen catches sentinel try_all same tagged x kw,
    tagged x = true ->
    (run_to_execute_node role_of mk_list call gen catches sentinel try_all true same tagged x kw).1 = [kw].
Proof.
  intros V E role_of mk_list call gen catches sentinel try_all same tagged x kw Ht. unfold run_to_execute_node, can_inject.
  rewrite Ht. cbn [andb negb]. case_bool_decide; [|done]. by destruct try_all.
Qed.
Print Assumptions C60_marked_functions_run.

(** ** With Parallelizable and Collect *)
(** The items a Parallelizable function gives before it raises are kept, followed by one
    sentinel; with [try_all_parallel=False] there is just the sentinel. *)
Theorem C60_items :
  forall (V E : Type) role_of mk_list (call : name -> gmap name V -> res E V) gen catches sentinel try_all allow same tagged x kw items (e : E),
    role_of x = RExpand -> (forall d w, kw !! d = Some w -> same w = false) ->
    gen x kw = Ok (items, Some e) -> catches e = true ->
    graceful role_of mk_list call gen catches sentinel try_all allow same tagged x kw
      = Ok (mk_list (if try_all then items ++ [sentinel] else [sentinel])).
Proof.
  intros V E role_of mk_list call gen catches sentinel try_all allow same tagged x kw items e Hr Hns Hg Hc.
  apply has_sentinel_false in Hns. unfold graceful, run_to_execute_node. rewrite Hns, andb_false_r, bool_decide_true by done. cbn [negb].
  destruct try_all; by rewrite Hg, Hc.
Qed.
Print Assumptions C60_items.

(** A task-based run raises nothing of the kind to catch either. *)
Theorem C60_task_exceptions :
  forall (V E : Type) role_of carg as_list mk_list call gen catches (sentinel : V) try_all allow same tagged g (not_iterable : E) ord which limit fin
         (config inputs ov all : gmap name V) fv n e tr,
    (forall l, as_list (mk_list l) = Some l) -> (forall s, NoDup (ord s) /\ forall x, x ∈ ord s <-> x ∈ s) ->
    wf_graph g -> acyclic g -> (forall x, role_of x = RExpand -> is_ext g x = false) ->
    combine_config_and_inputs config inputs = Some all -> supported g role_of carg ov all (used g all ov fv) ->
    (forall x, x ∈ fv -> is_Some (g !! x)) -> (forall x, x ∈ fv -> ~ per_item_var g role_of carg ov all fv x) ->
    (forall x, used g all ov fv x -> ~ absent g all ov x) ->
    task_execute g role_of carg as_list mk_list (graceful role_of mk_list call gen catches sentinel try_all allow same tagged) not_iterable
      (group_by_blocks g role_of ord) ord which limit fin config n inputs ov fv = TRaised e tr ->
    exists e', e = XUser (EUser e') /\ catches e' = false /\ exists x kw, plain_fn role_of mk_list call gen x kw = Err e'.
Proof.
  intros V E role_of carg as_list mk_list call gen catches sentinel try_all allow same tagged g ni ord which limit fin config inputs ov all fv n e tr
    Hl Ho Hwf Hac Hext Hall Hsup Hfv Hper Hpres Hrun.
  pose proof (C24_only_user_exceptions V E g role_of carg as_list mk_list (graceful role_of mk_list call gen catches sentinel try_all allow same tagged)
    ni ord which limit fin config inputs ov all fv n Hl Ho Hwf Hac Hext Hall Hsup Hfv Hper Hpres) as H. rewrite Hrun in H.
  destruct H as (t & calls & e' & x & kw & -> & _ & _ & _ & [He|(v & Hv & Hr & Hal & _)]).
  - apply graceful_err in He as [? ?]. exists e'. split_and!; [done|done|]. by exists x, kw.
  - apply graceful_expand in Hv as [l ->]; [|done]. congruence.
Qed.
Print Assumptions C60_task_exceptions.

(** Failures stay with their item: what is collected for an item is the sentinel if the collected
    variable fails for that item, and what the functions compute from that item otherwise. *)
Theorem C60_items_isolated :
  forall (V E : Type) role_of carg as_list mk_list call gen catches (sentinel : V) try_all allow same tagged g (not_iterable : E) ord which limit fin
         (config inputs ov all : gmap name V) fv n t calls o c kw r,
    (forall l, as_list (mk_list l) = Some l) -> (forall s, NoDup (ord s) /\ forall x, x ∈ ord s <-> x ∈ s) ->
    wf_graph g -> acyclic g -> (forall x, role_of x = RExpand -> is_ext g x = false) ->
    combine_config_and_inputs config inputs = Some all -> supported g role_of carg ov all (used g all ov fv) ->
    same sentinel = true ->
    TRun t calls o ∈ answer_trace (task_execute g role_of carg as_list mk_list
      (graceful role_of mk_list call gen catches sentinel try_all allow same tagged) not_iterable
      (group_by_blocks g role_of ord) ord which limit fin config n inputs ov fv) ->
    Call c kw r ∈ calls -> role_of c = RCollect ->
    exists e w items vs, feeds g role_of e (carg c) /\
      peval g role_of carg as_list mk_list (graceful role_of mk_list call gen catches sentinel try_all allow same tagged) all ov e w /\
      as_list w = Some items /\ kw !! carg c = Some (mk_list vs) /\ length vs = length items /\
      forall i item u, items !! i = Some item -> vs !! i = Some u ->
        ordinary g role_of allow tagged (<[e := item]> ov) (carg c) ->
        (same u = true <-> failed g role_of carg as_list mk_list call gen catches same all (<[e := item]> ov) (carg c)) /\
        (same u = false -> peval g role_of carg as_list mk_list (plain_fn role_of mk_list call gen) all (<[e := item]> ov) (carg c) u).
Proof.
  intros V E role_of carg as_list mk_list call gen catches sentinel try_all allow same tagged g ni ord which limit fin config inputs ov all fv n t calls o c kw r
    Hl Ho Hwf Hac Hext Hall Hsup Hss Hin Hcall Hrole.
  destruct (C23_collect_order V E g role_of carg as_list mk_list _ ni ord which limit fin config inputs ov all fv n Hl Ho Hwf Hac Hext Hall Hsup
    t calls o c kw r Hin Hcall Hrole) as (e & w & items & vs & H1 & H2 & H3 & H4 & H5 & H6).
  exists e, w, items, vs. split_and!; try done. intros i item u Hi Hu Hord. specialize (H6 i item u Hi Hu). split; [split|].
  - intros Hs. by eapply sentinel_failed.
  - intros Hf. by eapply failed_sentinel.
  - intros Hs. by eapply genuine.
Qed.
Print Assumptions C60_items_isolated.

(** ** Examples *)
(** [half] fails, [other] and [report] do not, [both] depends on a failure, [report] asks for sentinels. *)
Definition gG : graph := {[
  "a" := Node true [] ["half"; "other"];
  "half" := Node false [("a", REQUIRED)] ["both"; "report"];
  "other" := Node false [("a", REQUIRED)] ["both"];
  "both" := Node false [("half", REQUIRED); ("other", REQUIRED)] [];
  "report" := Node false [("half", REQUIRED)] [] ]}.
Definition callG (x : name) (kw : gmap name nat) : res string nat :=
  if bool_decide (x = "half") then (if bool_decide (kw !! "a" = Some 0) then Err "ZeroDivisionError" else Ok 2)
  else if bool_decide (x = "other") then Ok 3
  else if bool_decide (x = "both") then Ok (default 0 (kw !! "half") + default 0 (kw !! "other"))
  else Ok (if bool_decide (kw !! "half" = Some 99) then 1 else 7).
Definition stdG (x : name) : role := RStandard.
Definition catchG (e : string) : bool := bool_decide (e = "ZeroDivisionError").
Definition genG (x : name) (kw : gmap name nat) : res string (list nat * option string) := Ok ([], None).
Definition sameG (v : nat) : bool := Nat.eqb v 99.
Definition tagG (x : name) : bool := bool_decide (x = "report").
Definition gracefulG := graceful stdG (fun _ => 0) callG genG catchG 99 true true sameG tagG.
Definition runG (a : nat) (fv : list name) := default_execute (fun _ => gracefulG) gG ∅ (<["a" := a]> ∅) ∅ fv.
Lemma gG_wf : wf_graph gG /\ acyclic gG.
Proof. split; [apply wf_graphb_ok; by vm_compute|]. apply (rankedb_acyclic (rank_in ["a"; "half"; "other"; "both"; "report"])). by vm_compute. Qed.

Example C60_nonvacuous :
  wf_graph gG /\ acyclic gG /\ (forall x, stdG x = RStandard) /\ sameG 99 = true /\
  (exists tr, runG 0 ["both"; "other"; "report"] = Answer [("both", Some 99); ("other", Some 3); ("report", Some 1)] tr /\
     exists t1 t2, tr = t1 ++ Call "both" (<["other" := 3]> (<["half" := 99]> ∅)) (Ok 99) :: t2) /\
  (exists tr, runG 1 ["both"; "other"; "report"] = Answer [("both", Some 5); ("other", Some 3); ("report", Some 7)] tr) /\
  (forall y, needed gG (∅ : gmap name nat) ["both"] y -> tagG y && true = false).
Proof.
  split_and!; [apply gG_wf|apply gG_wf|done|done| | |].
  - eexists. split; [vm_compute; reflexivity|].
    exists [Store "a" 0; Call "half" (<["a" := 0]> ∅) (Ok 99); Store "half" 99; Call "other" (<["a" := 0]> ∅) (Ok 3); Store "other" 3]. eexists.
    vm_compute. reflexivity.
  - eexists. vm_compute. reflexivity.
  - assert (H : forall y, needed gG (∅ : gmap name nat) ["both"] y -> y ∈ ["both"; "half"; "other"; "a"]).
    { intros y. induction 1 as [x Hx _|x d Hx IH He _].
      - apply elem_of_list_singleton in Hx as ->. left.
      - destruct He as (nd & Hg & Hd). unfold gG in Hg. rewrite !elem_of_cons, elem_of_nil in IH.
        destruct IH as [-> | [-> | [-> | [-> | []]]]]; vm_compute in Hg; injection Hg as <-; cbn in Hd; revert Hd;
          rewrite ?elem_of_cons, ?elem_of_nil; naive_solver. }
    intros y Hy. apply H in Hy. rewrite !elem_of_cons, elem_of_nil in Hy. destruct Hy as [-> | [-> | [-> | [-> | []]]]]; done.
Qed.
(** Other exceptions end the run, and are those of the functions. *)
Definition callG2 (x : name) (kw : gmap name nat) : res string nat := if bool_decide (x = "other") then Err "KeyError" else callG x kw.
Example C60_escape_nonvacuous :
  exists tr, default_execute (fun _ => graceful stdG (fun _ => 0) callG2 genG catchG 99 true true sameG tagG) gG ∅ (<["a" := 0]> ∅) ∅ ["both"; "other"]
    = Failed (EUser "KeyError") tr.
Proof. eexists. vm_compute. reflexivity. Qed.

(** A dataflow with Parallelizable and Collect: the second of three items fails. *)
Definition callP (x : name) (kw : gmap name val) : res string val :=
  if bool_decide (x = "work") then (if Nat.eqb (num (kw !! "items")) 2 then Err "boom" else fA x kw) else fA x kw.
Definition genP (x : name) (kw : gmap name val) : res string (list val * option string) := Ok ([VN 1; VN 2; VN 3], Some "late").
Definition sameP (v : val) : bool := match v with VN 99 => true | _ => false end.
Definition gracefulP := graceful rA VL callP genP (fun _ : string => true) (VN 99) true true sameP (fun _ => false).
Definition runP (n : nat) :=
  task_execute gA rA cA vlist VL gracefulP "TypeError" (group_by_blocks gA rA elements) elements whichA limitA finA ∅ n ∅ ∅ ["total"].
Example C60_items_nonvacuous :
  supported gA rA cA (∅ : gmap name val) ∅ (used gA (∅ : gmap name val) ∅ ["total"]) /\ wf_graph gA /\ acyclic gA /\
  (* three items, then the exception, which is one more item *)
  answer_of (runP 90) "total" = Some (VL [VN 17; VN 99; VN 37; VN 99]) /\
  passed (answer_trace (runP 90)) "total" "work" = [Some (VL [VN 17; VN 99; VN 37; VN 99])] /\
  ordinary gA rA true (fun _ => false) (<["items" := VN 2]> (∅ : gmap name val)) "work".
Proof.
  split_and!; [apply gA_supported|apply gA_wf|apply gA_wf|vm_compute; reflexivity|vm_compute; reflexivity|].
  intros y Hy. split; [|done].
  assert (H : y ∈ ["work"; "bias"]).
  { induction Hy as [x Hx _|x d Hx IH He Ho].
    - apply elem_of_list_singleton in Hx as ->. left.
    - destruct He as (nd & Hg & Hd). rewrite !elem_of_cons, elem_of_nil in IH.
      destruct IH as [-> | [-> | []]]; vm_compute in Hg; injection Hg as <-; cbn in Hd; revert Hd Ho;
        rewrite ?elem_of_cons, ?elem_of_nil; [|naive_solver]. intros [-> | [-> | []]] Ho; [by vm_compute in Ho|set_solver]. }
  rewrite !elem_of_cons, elem_of_nil in H. destruct H as [-> | [-> | []]]; done.
Qed.

(** ** Findings *)
(** A function whose own result equals the sentinel prunes what depends on it, although nothing
    has failed and every function would succeed. *)
Definition callG3 (x : name) (kw : gmap name nat) : res string nat := if bool_decide (x = "half") then Ok 99 else callG x kw.
Theorem C60_result_taken_for_failure_refuted :
  exists g call (inputs : gmap name nat) out tr tr',
    (forall x kw, exists v, call x kw = Ok v) /\
    default_execute (E:=string) (fun _ => call) g ∅ inputs ∅ ["both"] = Answer [("both", Some 102)] tr /\
    default_execute (fun _ => graceful stdG (fun _ => 0) call genG catchG 99 true true sameG tagG) g ∅ inputs ∅ ["both"] = Answer out tr' /\
    out = [("both", Some 99)].
Proof.
  exists gG, callG3, (<["a" := 1]> ∅). eexists _, _, _. split_and!; [|vm_compute; reflexivity|vm_compute; reflexivity|reflexivity].
  intros x kw. unfold callG3, callG. repeat case_bool_decide; by eexists.
Qed.
Print Assumptions C60_result_taken_for_failure_refuted.
(** A sentinel that is not equal to itself (a NaN) is never recognised: the functions downstream
    of a failure are invoked with it. *)
Theorem C60_unequal_sentinel_refuted :
  exists g (call : name -> gmap name nat -> res string nat) (inputs : gmap name nat) t1 kw t2,
    trace_of (default_execute (fun _ => graceful stdG (fun _ => 0) call genG catchG 99 true true (fun _ => false) tagG) g ∅ inputs ∅ ["both"])
      = t1 ++ Call "half" (<["a" := 0]> ∅) (Ok 99) :: t2 /\
    call "half" (<["a" := 0]> ∅) = Err "ZeroDivisionError" /\ kw !! "half" = Some 99 /\ Call "both" kw (Ok 102) ∈ t2 /\
    (run_to_execute_node stdG (fun _ => 0) call genG catchG 99 true true (fun _ => false) tagG "both" kw).1 = [kw].
Proof.
  exists gG, callG, (<["a" := 0]> ∅), [Store "a" 0], (<["other" := 3]> (<["half" := 99]> ∅)). eexists. split_and!; try (vm_compute; reflexivity).
  apply elem_of_list_In. vm_compute. tauto.
Qed.
Print Assumptions C60_unequal_sentinel_refuted.
