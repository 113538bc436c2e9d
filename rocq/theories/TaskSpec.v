(** What a dataflow with Parallelizable and Collect variables means, independently of groups,
    tasks and schedules. *)
From Verif Require Import Base ExecModel ExecSpec GroupModel.

Section Spec.
Context {V E : Type}.
Variable g : graph.
Variable role_of : name -> role.
(** The parameter annotated with Collect. *)
Variable carg : name -> name.
Variable as_list : V -> option (list V).
Variable mk_list : list V -> V.
Variable f : name -> gmap name V -> res E V.
Variable inputs : gmap name V.

(** [feeds e x]: [x] is computed per item of the Parallelizable variable [e]: it is reached from
    [e] through ordinary variables only. *)
Definition feeds (e x : name) : Prop :=
  role_of e = RExpand /\ rtc (fun x y => role_of x = RStandard /\ edge g x y) x e.

(** What the function of a variable contributes: the iterator of a Parallelizable one is drained. *)
Definition returns (x : name) (kw : gmap name V) (v : V) : Prop :=
  exists w, f x kw = Ok w /\
    match role_of x with
    | RExpand => exists l, as_list w = Some l /\ v = mk_list l
    | _ => v = w
    end.

(** [peval ov x v]: with the values [ov] given for some variables, [x] has value [v]. *)
Inductive peval : gmap name V -> name -> V -> Prop :=
| pe_given ov x v : ov !! x = Some v -> peval ov x v
| pe_input ov x nd v :
    ov !! x = None -> g !! x = Some nd -> nd_ext nd = true -> inputs !! x = Some v -> peval ov x v
| pe_fn ov x nd kw v :
    ov !! x = None -> g !! x = Some nd -> nd_ext nd = false -> role_of x <> RCollect ->
    (forall d w, kw !! d = Some w -> d ∈ dep_names nd) ->
    (forall d w, kw !! d = Some w -> peval ov d w) ->
    (forall d dt, (d, dt) ∈ nd_deps nd -> kw !! d = None -> absent g inputs ov d /\ dt = OPTIONAL) ->
    returns x kw v -> peval ov x v
(* the collected parameter is the list of its values for the items, in their order *)
| pe_collect ov x nd kw v e w items vs :
    ov !! x = None -> g !! x = Some nd -> nd_ext nd = false -> role_of x = RCollect ->
    feeds e (carg x) -> peval ov e w -> as_list w = Some items -> length vs = length items ->
    (forall i item u, items !! i = Some item -> vs !! i = Some u -> peval (<[e := item]> ov) (carg x) u) ->
    kw !! carg x = Some (mk_list vs) ->
    (forall d w', kw !! d = Some w' -> d ∈ dep_names nd) ->
    (forall d w', d <> carg x -> kw !! d = Some w' -> peval ov d w') ->
    (forall d dt, (d, dt) ∈ nd_deps nd -> kw !! d = None -> absent g inputs ov d /\ dt = OPTIONAL) ->
    returns x kw v -> peval ov x v.

(** ** Facts *)
Lemma returns_functional x kw v v' : returns x kw v -> returns x kw v' -> v = v'.
Proof.
  intros (w & Hf & Hw) (w' & Hf' & Hw'). assert (w' = w) as -> by congruence.
  destruct (role_of x); [congruence| |congruence].
  destruct Hw as (l & ? & ->), Hw' as (l' & ? & ->). congruence.
Qed.

Lemma absent_no_peval ov x v : absent g inputs ov x -> ~ peval ov x v.
Proof.
  intros (Ho & Hi & nd & Hg & Hx) Hp. inversion Hp; simplify_eq; congruence.
Qed.

Lemma peval_absent ov x : absent g inputs ov x -> forall v, ~ peval ov x v.
Proof. intros H v. by apply absent_no_peval. Qed.

(** One Parallelizable variable per collected parameter. *)
Definition one_expander : Prop :=
  forall c e e', role_of c = RCollect -> feeds e (carg c) -> feeds e' (carg c) -> e = e'.

Lemma peval_functional : one_expander -> forall ov x v, peval ov x v -> forall v', peval ov x v' -> v = v'.
Proof.
  intros Hone ov x v H. induction H as [ov x v Ho|ov x nd v Ho Hg Hx Hi|ov x nd kw v Ho Hg Hx Hr Hkw Hev IH Hab Hret
    |ov x nd kw v e w items vs Ho Hg Hx Hr Hfe Hpe IHe Hal Hlen Hvs IHvs Hc Hkw Hev IH Hab Hret]; intros v' H'.
  - inversion H'; simplify_eq; congruence.
  - inversion H'; simplify_eq; congruence.
  - inversion H' as [|?|ov' x' nd' kw' v1 Ho' Hg' Hx' Hr' Hkw' Hev' Hab' Hret'|]; simplify_eq; try congruence.
    eapply returns_functional; [exact Hret|]. assert (kw = kw') as ->; [|done].
    apply map_eq. intros d. destruct (kw !! d) as [a|] eqn:Ha.
    + pose proof (Hkw _ _ Ha) as Hd. apply elem_of_list_fmap in Hd as ([d' dt] & -> & Hd). cbn in *.
      destruct (kw' !! d') as [b|] eqn:Hb; [|exfalso; eapply absent_no_peval; [apply (Hab' _ _ Hd Hb)|by apply Hev]].
      f_equal. eapply IH; [done|]. by apply Hev'.
    + destruct (kw' !! d) as [b|] eqn:Hb; [|done]. exfalso.
      pose proof (Hkw' _ _ Hb) as Hd. apply elem_of_list_fmap in Hd as ([d' dt] & -> & Hd). cbn in *.
      eapply absent_no_peval; [apply (Hab _ _ Hd Ha)|by apply Hev'].
  - inversion H' as [|?|?|ov' x' nd' kw' v1 e' w' items' vs' Ho' Hg' Hx' Hr' Hfe' Hpe' Hal' Hlen' Hvs' Hc' Hkw' Hev' Hab' Hret'];
      simplify_eq; try congruence.
    assert (e' = e) as -> by (by eapply Hone). assert (w' = w) as -> by (symmetry; by apply IHe).
    assert (items' = items) as -> by congruence.
    assert (vs' = vs) as ->.
    { apply list_eq. intros i. destruct (items !! i) as [item|] eqn:Hit.
      - pose proof (lookup_lt_Some _ _ _ Hit).
        destruct (lookup_lt_is_Some_2 vs i) as [u Hu]; [lia|]. destruct (lookup_lt_is_Some_2 vs' i) as [u' Hu']; [lia|].
        rewrite Hu, Hu'. f_equal. symmetry. eapply IHvs; [done|done|]. by eapply Hvs'.
      - apply lookup_ge_None in Hit. rewrite !lookup_ge_None_2; [done|lia|lia]. }
    eapply returns_functional; [exact Hret|]. assert (kw = kw') as ->; [|done].
    apply map_eq. intros d. destruct (decide (d = carg x)) as [->|Hne]; [congruence|]. destruct (kw !! d) as [a|] eqn:Ha.
    + pose proof (Hkw _ _ Ha) as Hd. apply elem_of_list_fmap in Hd as ([d' dt] & -> & Hd). cbn in *.
      destruct (kw' !! d') as [b|] eqn:Hb; [|exfalso; eapply absent_no_peval; [apply (Hab' _ _ Hd Hb)|by apply Hev]].
      f_equal. eapply IH; [done|done|]. by apply Hev'.
    + destruct (kw' !! d) as [b|] eqn:Hb; [|done]. exfalso.
      pose proof (Hkw' _ _ Hb) as Hd. apply elem_of_list_fmap in Hd as ([d' dt] & -> & Hd). cbn in *.
      eapply absent_no_peval; [apply (Hab _ _ Hd Ha)|by apply Hev'].
Qed.

(** Giving a value to a variable that is not upstream changes nothing. *)
Lemma feeds_reaches e x : feeds e x -> rtc (edge g) x e.
Proof. intros [_ H]. induction H as [|x y z [_ Hxy] _ IH]; [constructor|by eapply rtc_l]. Qed.

Lemma edge_intro x nd d : g !! x = Some nd -> d ∈ dep_names nd -> edge g x d.
Proof. intros Hg Hd. exists nd. done. Qed.

Lemma peval_irrelevant e u ov x v : peval ov x v -> ~ rtc (edge g) x e -> peval (<[e := u]> ov) x v.
Proof.
  intros H. induction H as [ov x v Ho|ov x nd v Ho Hg Hx Hi|ov x nd kw v Ho Hg Hx Hr Hkw Hev IH Hab Hret
    |ov x nd kw v e' w items vs Ho Hg Hx Hr Hfe Hpe IHe Hal Hlen Hvs IHvs Hc Hkw Hev IH Hab Hret]; intros Hn.
  all: assert (Hxe : x <> e) by (intros ->; apply Hn; constructor).
  all: assert (Hdep : forall nd d, g !! x = Some nd -> d ∈ dep_names nd -> ~ rtc (edge g) d e)
    by (intros nd' d Hg' Hd Hr'; apply Hn; eapply rtc_l; [by eapply edge_intro|done]).
  - apply pe_given. by rewrite lookup_insert_ne.
  - eapply pe_input; try done. by rewrite lookup_insert_ne.
  - eapply pe_fn; try done.
    + by rewrite lookup_insert_ne.
    + intros d w Hd. eapply IH; [done|]. eauto.
    + intros d dt Hd Hnone. destruct (Hab _ _ Hd Hnone) as [(? & ? & ?) ?]. split; [|done]. split; [|done].
      rewrite lookup_insert_ne; [done|]. intros <-. eapply Hdep; [done| |constructor].
      apply elem_of_list_fmap. by exists (e, dt).
  - assert (Hca : ~ rtc (edge g) (carg x) e) by (eapply Hdep; eauto).
    assert (e <> e') by (intros <-; by apply Hca, feeds_reaches).
    eapply pe_collect; try done.
    + by rewrite lookup_insert_ne.
    + apply IHe. intros Hr'. apply Hca. etrans; [by apply feeds_reaches|done].
    + intros i item u' Hi Hu. rewrite insert_commute by done. by eapply IHvs.
    + intros d w' Hne Hd. eapply IH; [done|done|]. eauto.
    + intros d dt Hd Hnone. destruct (Hab _ _ Hd Hnone) as [(? & ? & ?) ?]. split; [|done]. split; [|done].
      rewrite lookup_insert_ne; [done|]. intros <-. eapply Hdep; [done| |constructor].
      apply elem_of_list_fmap. by exists (e, dt).
Qed.

End Spec.
