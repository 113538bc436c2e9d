(** Proofs about the caching graph adapter. *)
From Coq Require Import Ascii.
From Verif Require Import Base Strings ExecModel ExecSpec ExecProofs ExecResults ExecCong HCacheModel HCacheSpec.

(** The name of a variable and a format without dots can be told from the name of the file. *)
Lemma path_inj x y fm fm' : lacks "."%char fm -> lacks "."%char fm' -> path x fm = path y fm' -> x = y.
Proof.
  unfold path. intros H H'. revert y. induction x as [|a x IH]; intros [|b y] Heq.
  - done.
  - exfalso. change ("" +:+ "." +:+ fm) with (String "."%char fm) in Heq.
    change (String b y +:+ "." +:+ fm') with (String b (y +:+ String "."%char fm')) in Heq.
    injection Heq as _ Heq. subst fm. apply lacks_app in H as [_ [H _]]. done.
  - exfalso. change ("" +:+ "." +:+ fm') with (String "."%char fm') in Heq.
    change (String a x +:+ "." +:+ fm) with (String a (x +:+ String "."%char fm)) in Heq.
    injection Heq as _ Heq. subst fm'. apply lacks_app in H' as [_ [H' _]]. done.
  - rewrite !append_cons in Heq. injection Heq as -> Heq. f_equal. by apply IH.
Qed.

Lemma nodup_sub {A} (l k : list A) : sublist l k -> NoDup k -> NoDup l.
Proof.
  induction 1 as [|x l k Hs IH|x l k Hs IH]; [done| |].
  - rewrite !NoDup_cons. intros [Hx Hk]. split; [|by apply IH]. intros Hin. apply Hx.
    apply sublist_submseteq in Hs. by eapply elem_of_submseteq.
  - rewrite NoDup_cons. intros [_ ?]. by apply IH.
Qed.

(** Induction over the dependencies of an acyclic graph. *)
Lemma graph_ind (g : graph) (P : name -> Prop) : acyclic g ->
  (forall x, (forall d, edge g x d -> P d) -> P x) -> forall x, P x.
Proof.
  intros Hac Hstep.
  assert (H : forall n (S : gset name) x, size (dom g ∖ S) <= n -> (forall y, y ∈ S -> tc (edge g) y x) -> P x).
  { induction n as [|n IH]; intros S x Hs Hp; apply Hstep; intros d Hd.
    - exfalso. destruct Hd as (nd & Hg & Hin).
      assert (Hx : x ∈ dom g ∖ S).
      { apply elem_of_difference. split; [by apply elem_of_dom_2 in Hg|]. intros Hx. by apply (Hac x), Hp. }
      assert (size (dom g ∖ S) <> 0); [|lia]. intros Hz. apply size_empty_iff in Hz. set_solver.
    - apply (IH (S ∪ {[x]})).
      + assert (Hx : x ∈ dom g ∖ S).
        { destruct Hd as (nd & Hg & Hin). apply elem_of_difference. split; [by apply elem_of_dom_2 in Hg|].
          intros Hx. by apply (Hac x), Hp. }
        assert (size (dom g ∖ (S ∪ {[x]})) < size (dom g ∖ S)); [|lia].
        apply subset_size. split; [set_solver|]. intros Hsub. set_solver.
      + intros y. rewrite elem_of_union, elem_of_singleton. intros [Hy| ->]; [|by apply tc_once].
        eapply tc_r; [by apply Hp|done]. }
  intros x. apply (H (size (dom g)) ∅); [|set_solver]. apply subseteq_size. set_solver.
Qed.

Section P.
Context {V E C : Type}.
Variable g : graph.
Hypothesis Hwf : wf_graph g.
Hypothesis Hac : acyclic g.
Variable fmt : name -> option string.
Variable write : string -> name -> V -> option C * option E.
Variable read : string -> name -> C -> res E V.
Hypothesis Hfmt : plain_formats fmt.

Section Run.
Variable force : gset name.
Variable f : name -> gmap name V -> res E V.
Variable config inputs ov : gmap name V.
Variable fv : list name.
Variable st0 : hstate C.
Notation all := (inputs ∪ config).
Notation F := (hcached_fn g fmt write read force f st0).
Notation rep := (replay g fmt write read force f st0).
Notation run := (default_execute F g config inputs ov fv).
Notation node := (execute_node g fmt write read force f).
Notation must := (must_compute g fmt force st0 ov).

Lemma implicit_true (st : hstate C) x nd : g !! x = Some nd ->
  implicitly_forced g st x = true <-> exists d, d ∈ dep_names nd /\ d ∈ hs_computed st.
Proof.
  intros Hg. unfold implicitly_forced. rewrite Hg, existsb_exists. split.
  - intros (d & Hd & Hb). exists d. split; [by apply elem_of_list_In|by apply bool_decide_eq_true in Hb].
  - intros (d & Hd & Hc). exists d. split; [by apply elem_of_list_In|by apply bool_decide_eq_true].
Qed.

Lemma rep_snoc tr ev : rep (tr ++ [ev]) = match ev with Call x kw _ => (node (rep tr) x kw).1 | _ => rep tr end.
Proof. unfold replay. rewrite foldl_app. cbn. by destruct ev. Qed.

(** What one execution of a node does. *)
Definition to_compute (st : hstate C) (x : name) : Prop :=
  exists fm, fmt x = Some fm /\ (x ∈ force \/ implicitly_forced g st x = true \/ hs_files st !! path x fm = None).

Lemma node_cases (st : hstate C) x kw st' r : node st x kw = (st', r) ->
  (fmt x = None /\ r = f x kw /\ hs_files st' = hs_files st /\ hs_log st' = hs_log st ++ [x] /\
     hs_computed st' = if implicitly_forced g st x then {[x]} ∪ hs_computed st else hs_computed st) \/
  (exists fm, fmt x = Some fm /\
    ((x ∉ force /\ implicitly_forced g st x = false /\ st' = st /\
       exists c, hs_files st !! path x fm = Some c /\ r = read fm x c) \/
     (to_compute st x /\ hs_log st' = hs_log st ++ [x] /\
       ((exists e, f x kw = Err e /\ r = Err e /\ hs_files st' = hs_files st /\ hs_computed st' = hs_computed st) \/
        (exists v content err, f x kw = Ok v /\ write fm x v = (content, err) /\
          hs_files st' = match content with Some c => <[path x fm := c]> (hs_files st) | None => hs_files st end /\
          ((exists e, err = Some e /\ r = Err e /\ hs_computed st' = hs_computed st) \/
           (err = None /\ r = Ok v /\ hs_computed st' = {[x]} ∪ hs_computed st))))))).
Proof.
  unfold execute_node. destruct (fmt x) as [fm|] eqn:Hf.
  2: { intros [= <- <-]. left. cbn. done. }
  intros Heq. right. exists fm. split; [done|].
  assert (Hcomp : to_compute st x ->
    (match f x kw with
     | Err e => (HState (hs_files st) (hs_computed st) (hs_log st ++ [x]), Err e)
     | Ok v => let '(content, err) := write fm x v in
        let files := match content with Some c => <[path x fm := c]> (hs_files st) | None => hs_files st end in
        match err with
        | Some e => (HState files (hs_computed st) (hs_log st ++ [x]), Err e)
        | None => (HState files ({[x]} ∪ hs_computed st) (hs_log st ++ [x]), Ok v)
        end
     end) = (st', r) ->
    (to_compute st x /\ hs_log st' = hs_log st ++ [x] /\
       ((exists e, f x kw = Err e /\ r = Err e /\ hs_files st' = hs_files st /\ hs_computed st' = hs_computed st) \/
        (exists v content err, f x kw = Ok v /\ write fm x v = (content, err) /\
          hs_files st' = match content with Some c => <[path x fm := c]> (hs_files st) | None => hs_files st end /\
          ((exists e, err = Some e /\ r = Err e /\ hs_computed st' = hs_computed st) \/
           (err = None /\ r = Ok v /\ hs_computed st' = {[x]} ∪ hs_computed st)))))).
  { intros Ht. destruct (f x kw) as [v|e].
    - destruct (write fm x v) as [content [e|]] eqn:Hw; intros [= <- <-]; cbn; split_and!; try done; right;
        exists v, content; eexists; split_and!; try done; [left; by exists e|by right].
    - intros [= <- <-]. cbn. split_and!; try done. left. by exists e. }
  destruct (bool_decide (x ∈ force)) eqn:Hb; cbn [orb] in Heq.
  { right. apply Hcomp; [|exact Heq]. exists fm. split; [done|]. left. by apply bool_decide_eq_true in Hb. }
  destruct (implicitly_forced g st x) eqn:Hi.
  { right. apply Hcomp; [|exact Heq]. exists fm. split; [done|]. right. by left. }
  destruct (hs_files st !! path x fm) as [c|] eqn:Hc.
  - left. injection Heq as <- <-. apply bool_decide_eq_false in Hb. split_and!; try done. by exists c.
  - right. apply Hcomp; [|exact Heq]. exists fm. split; [done|]. right. by right.
Qed.

Lemma node_log st x kw st' r : node st x kw = (st', r) ->
  (hs_log st' = hs_log st ++ [x] /\ (fmt x = None \/ to_compute st x)) \/
  (hs_log st' = hs_log st /\ is_Some (fmt x) /\ ~ to_compute st x).
Proof.
  intros H. destruct (node_cases _ _ _ _ _ H) as [(Hf & _ & _ & Hl & _)|(fm & Hf & [(Hnf & Hi & -> & c & Hc & _)|(Ht & Hl & _)])].
  - left. auto.
  - right. split_and!; [done|by exists fm|]. intros (fm' & Hf' & [?|[?|?]]); [done|congruence|].
    assert (fm' = fm) as -> by congruence. congruence.
  - left. auto.
Qed.

(** Executing [x] touches only its own file. *)
Lemma node_files st x kw y fm : y <> x -> fmt y = Some fm ->
  hs_files (node st x kw).1 !! path y fm = hs_files st !! path y fm.
Proof.
  intros Hne Hfy. destruct (node st x kw) as [st' r] eqn:Hn. cbn [fst].
  destruct (node_cases _ _ _ _ _ Hn) as [(_ & _ & -> & _)|(fm' & Hf & [(_ & _ & -> & _)|(_ & _ & [(e & _ & _ & -> & _)|(v & content & err & _ & _ & -> & _)])])]; try done.
  destruct content as [c|]; [|done]. rewrite lookup_insert_ne; [done|].
  intros Heq. apply Hne. symmetry. eapply path_inj; [| |exact Heq]; by eapply Hfmt.
Qed.

Lemma node_computed_mono st x kw : hs_computed st ⊆ hs_computed (node st x kw).1.
Proof.
  destruct (node st x kw) as [st' r] eqn:Hn. cbn [fst].
  destruct (node_cases _ _ _ _ _ Hn) as [(_ & _ & _ & _ & ->)|(fm' & Hf & [(_ & _ & -> & _)|(_ & _ & [(e & _ & _ & _ & ->)|(v & content & err & _ & _ & _ & [(e & _ & _ & ->)|(_ & _ & ->)])])])];
    try destruct (implicitly_forced g st x); set_solver.
Qed.
Lemma node_computed_only st x kw y : y ∈ hs_computed (node st x kw).1 -> y = x \/ y ∈ hs_computed st.
Proof.
  destruct (node st x kw) as [st' r] eqn:Hn. cbn [fst].
  destruct (node_cases _ _ _ _ _ Hn) as [(_ & _ & _ & _ & ->)|(fm' & Hf & [(_ & _ & -> & _)|(_ & _ & [(e & _ & _ & _ & ->)|(v & content & err & _ & _ & _ & [(e & _ & _ & ->)|(_ & _ & ->)])])])];
    try destruct (implicitly_forced g st x); set_solver.
Qed.

(** The dependencies of a node that are computed by functions were computed before it. *)
Lemma call_deps t1 x kw r t2 : trace_of run = t1 ++ Call x kw r :: t2 ->
  exists nd, g !! x = Some nd /\ nd_ext nd = false /\ r = (node (rep t1) x kw).2 /\ x ∉ calls_of t1 /\ ov !! x = None /\
    needed g ov (requested g fv) x /\
    (forall d nd', d ∈ dep_names nd -> ov !! d = None -> g !! d = Some nd' -> nd_ext nd' = false ->
       exists kw' w, Call d kw' (Ok w) ∈ t1) /\
    (forall y kw' e, Call y kw' (Err e) ∉ t1).
Proof.
  intros Htr.
  assert (Hg := run_good g Hwf Hac F config inputs ov fv). rewrite Htr in Hg.
  destruct (Hg t1 _ t2 eq_refl) as (Hn & Hne & _ & Hx & Hr & nd & Hgx & Hext & Hkw & Hall).
  exists nd. split_and!; try done; [by inversion Hn|].
  intros d nd' Hd Ho Hgd Hde. apply elem_of_list_fmap in Hd as ([d' dt] & -> & Hin). cbn [fst] in *.
  destruct (run_call_args g Hwf Hac _ _ _ _ _ _ _ _ _ _ Htr) as (_ & nd2 & Hg2 & _ & Hav & Habs).
  assert (nd2 = nd) as -> by congruence.
  destruct (Hall d' dt Hin) as [[w Hw]|(_ & (_ & _ & nd3 & Hg3 & He3) & _)]; [|congruence].
  destruct (Hav d' w Hw) as [_ [?|(_ & nd3 & Hg3 & [[He3 _]|[_ [kw' Hc]]])]]; [congruence|congruence|].
  by exists kw', w.
Qed.

(** [x] has to be computed: because of itself or because of something it uses directly. *)
Lemma must_inv x : must x -> no_usable_file g fmt force st0 x \/
  exists d, edge g x d /\ ov !! d = None /\ must d.
Proof.
  intros (y & Hu & Hs). inversion Hu as [|? d ? [He Ho] Hr]; subst; [by left|].
  right. exists d. split_and!; try done. by exists y.
Qed.
Lemma must_dep x d : edge g x d -> ov !! d = None -> must d -> must x.
Proof. intros He Ho (y & Hu & Hs). exists y. split; [|done]. by eapply rtc_l. Qed.
Lemma must_function x : must x -> exists nd, g !! x = Some nd /\ nd_ext nd = false.
Proof.
  intros (y & Hu & nd & fm & Hg & He & _). destruct Hu as [x|x d y [Hd _] _]; [by exists nd|].
  destruct Hd as (nd' & Hg' & Hin). exists nd'. split; [done|].
  destruct (nd_ext nd') eqn:Hx; [|done]. exfalso.
  assert (H := wf_ext _ Hwf _ _ Hg' Hx). unfold dep_names in Hin. rewrite H in Hin. by apply elem_of_nil in Hin.
Qed.

(** ** What is invoked *)
Record kinv (t : list (event V E)) : Prop := {
  ki_files : forall y fm, fmt y = Some fm -> y ∉ calls_of t ->
     hs_files (rep t) !! path y fm = hs_files st0 !! path y fm;
  ki_must : forall y kw v, Call y kw (Ok v) ∈ t -> must y -> y ∈ hs_computed (rep t);
}.

Lemma to_compute_must t1 x kw r t2 : trace_of run = t1 ++ Call x kw r :: t2 -> kinv t1 ->
  must x -> implicitly_forced g (rep t1) x = true \/ to_compute (rep t1) x.
Proof.
  intros Htr [Hfi Hmu] Hm.
  destruct (call_deps _ _ _ _ _ Htr) as (nd & Hg & He & _ & Hx & _ & _ & Hdeps & _).
  destruct (must_inv x Hm) as [(nd' & fm & _ & _ & Hf & Hor)|(d & (nd' & Hg' & Hd) & Ho & Hmd)].
  - right. exists fm. split; [done|]. destruct Hor as [?|Hn]; [by left|]. right. right. by rewrite Hfi.
  - left. rewrite (implicit_true _ _ nd Hg). assert (nd' = nd) as -> by congruence.
    exists d. split; [done|].
    destruct (must_function d Hmd) as (nd' & Hgd & Hed).
    destruct (Hdeps d nd' Hd Ho Hgd Hed) as (kw' & w & Hin). by eapply Hmu.
Qed.

Lemma run_kinv t1 t2 : trace_of run = t1 ++ t2 -> kinv t1.
Proof.
  revert t2. induction t1 as [|ev t1 IH] using rev_ind; intros t2 Htr.
  { constructor; [done|]. intros y kw v H. by apply elem_of_nil in H. }
  rewrite <-app_assoc in Htr. cbn [app] in Htr. assert (Hk := IH _ Htr).
  destruct ev as [x kw r|x v|x].
  2-3: destruct Hk as [H1 H2]; constructor;
    [intros y fm Hf Hy; rewrite rep_snoc; apply H1; [done|]; rewrite calls_of_app in Hy; set_solver
    |intros y kw v' Hin; rewrite rep_snoc; apply elem_of_app in Hin as [Hin|Hin]; [by eapply H2|];
     by apply elem_of_list_singleton in Hin].
  destruct (call_deps _ _ _ _ _ Htr) as (nd & Hg & He & Hr & Hx & _ & _ & Hdeps & _).
  constructor.
  - intros y fm Hf Hy. rewrite calls_of_app, elem_of_app in Hy. cbn in Hy.
    rewrite rep_snoc. rewrite node_files; [|set_solver|done]. apply (ki_files _ Hk); [done|]. set_solver.
  - intros y kw' v Hin Hm. rewrite rep_snoc. apply elem_of_app in Hin as [Hin|Hin].
    { apply node_computed_mono. by eapply (ki_must _ Hk). }
    apply elem_of_list_singleton in Hin. injection Hin as -> -> Hrv.
    assert (Ht := to_compute_must _ _ _ _ _ Htr Hk Hm).
    destruct (node (rep t1) x kw) as [st' r'] eqn:Hn. cbn [fst snd] in *. subst r' r.
    destruct (node_cases _ _ _ _ _ Hn) as [(Hf & _ & _ & _ & ->)|(fm' & Hf & [(Hnf & Hi & -> & c & Hc & _)|(_ & _ & [(e & _ & [=] & _)|(v' & content & err & _ & _ & _ & [(e & _ & [=] & _)|(_ & _ & ->)])])])].
    + destruct Ht as [->|(fm & Hf' & _)]; [set_solver|congruence].
    + destruct Ht as [?|(fm & Hf' & [?|[?|Hn']])]; [congruence|done|congruence|].
      assert (fm' = fm) as -> by congruence. congruence.
    + set_solver.
Qed.

(** ** Exactly what is invoked *)
Section Exact.
Hypothesis Hclear : hs_computed st0 = ∅.

Lemma run_computed t1 t2 : trace_of run = t1 ++ t2 ->
  forall y, y ∈ hs_computed (rep t1) -> y ∈ calls_of t1 /\ must y.
Proof.
  revert t2. induction t1 as [|ev t1 IH] using rev_ind; intros t2 Htr y Hy.
  { cbn in Hy. rewrite Hclear in Hy. set_solver. }
  rewrite <-app_assoc in Htr. cbn [app] in Htr. specialize (IH _ Htr).
  rewrite calls_of_app, elem_of_app. rewrite rep_snoc in Hy.
  destruct ev as [x kw r|x v|x]; [|destruct (IH y Hy); auto..].
  destruct (call_deps _ _ _ _ _ Htr) as (nd & Hg & He & Hr & Hx & _ & _ & Hdeps & _).
  destruct (node_computed_only _ _ _ _ Hy) as [->|Hy']; [|destruct (IH y Hy'); auto].
  destruct (decide (x ∈ hs_computed (rep t1))) as [Hx'|Hnx]; [destruct (IH x Hx'); auto|].
  split; [right; cbn; set_solver|].
  assert (Hor : implicitly_forced g (rep t1) x = true \/ to_compute (rep t1) x).
  { destruct (node (rep t1) x kw) as [st' r'] eqn:Hn. cbn [fst snd] in *.
    destruct (node_cases _ _ _ _ _ Hn) as [(Hf & _ & _ & _ & Hs)|(fm' & Hf & [(Hnf & Hi & -> & c & Hc & _)|(Ht & _)])]; [|done|by right].
    left. destruct (implicitly_forced g (rep t1) x); [done|]. rewrite Hs in Hy. done. }
  assert (Himp : implicitly_forced g (rep t1) x = true -> must x).
  { rewrite (implicit_true _ _ nd Hg). intros (d & Hd & Hc). destruct (IH d Hc) as [Hin Hm].
    eapply must_dep; [by exists nd| |done].
    assert (Hdc : d ∈ calls_of (trace_of run)).
    { rewrite Htr, calls_of_app. apply elem_of_app. by left. }
    destruct (run_calls_needed g Hwf Hac F config inputs ov fv d Hdc) as [Hn _].
    by destruct Hn. }
  destruct Hor as [?|(fm & Hf & [Hfo|[?|Hnone]])]; [by apply Himp| |by apply Himp|].
  - exists x. split; [by apply rtc_refl|]. exists nd, fm. auto.
  - exists x. split; [by apply rtc_refl|]. exists nd, fm. split_and!; auto. right.
    by rewrite <-(ki_files _ (run_kinv _ _ Htr) x fm Hf Hx).
Qed.

Lemma run_log t1 t2 : trace_of run = t1 ++ t2 ->
  exists new, hs_log (rep t1) = hs_log st0 ++ new /\ sublist new (calls_of t1) /\
    forall x, x ∈ new <-> x ∈ calls_of t1 /\ (fmt x = None \/ must x).
Proof.
  revert t2. induction t1 as [|ev t1 IH] using rev_ind; intros t2 Htr.
  { exists []. rewrite app_nil_r. cbn. split_and!; [done|constructor|]. set_solver. }
  rewrite <-app_assoc in Htr. cbn [app] in Htr. destruct (IH _ Htr) as (new & Hl & Hsub & Hnew).
  rewrite rep_snoc, calls_of_app.
  destruct ev as [x kw r|x v|x]; [|exists new; cbn; rewrite app_nil_r; auto..].
  destruct (call_deps _ _ _ _ _ Htr) as (nd & Hg & He & Hr & Hx & _ & _ & Hdeps & _).
  assert (Hk := run_kinv _ _ Htr).
  destruct (node (rep t1) x kw) as [st' r'] eqn:Hn. cbn [fst snd] in *.
  assert (Hback : to_compute (rep t1) x -> must x).
  { intros (fm & Hf & Hor).
    assert (Himp : implicitly_forced g (rep t1) x = true -> must x).
    { rewrite (implicit_true _ _ nd Hg). intros (d & Hd & Hc). destruct (run_computed _ _ Htr d Hc) as [Hin Hm].
      eapply must_dep; [by exists nd| |done].
      assert (Hdc : d ∈ calls_of (trace_of run)).
      { rewrite Htr, calls_of_app. apply elem_of_app. by left. }
      destruct (run_calls_needed g Hwf Hac F config inputs ov fv d Hdc) as [Hn' _]. by destruct Hn'. }
    destruct Hor as [Hfo|[?|Hnone]]; [|by apply Himp|].
    - exists x. split; [by apply rtc_refl|]. exists nd, fm. auto.
    - exists x. split; [by apply rtc_refl|]. exists nd, fm. split_and!; auto. right.
      by rewrite <-(ki_files _ Hk x fm Hf Hx). }
  destruct (node_log _ _ _ _ _ Hn) as [[Hl' Hor]|(Hl' & [fm Hf] & Hnt)].
  - exists (new ++ [x]). rewrite Hl', Hl, app_assoc. cbn. split_and!; [done|by apply sublist_app|].
    intros y. rewrite !elem_of_app, !elem_of_list_singleton, Hnew. split.
    + intros [[? ?]| ->]; [auto|]. split; [auto|]. destruct Hor; auto.
    + intros [[? | ->] ?]; auto.
  - exists new. rewrite Hl', Hl. cbn. split_and!; [done|by apply sublist_inserts_r|].
    intros y. rewrite elem_of_app, elem_of_list_singleton, Hnew. split.
    + intros [? ?]; auto.
    + intros [[? | ->] Hor]; [auto|]. destruct Hor as [?|Hm]; [congruence|]. exfalso.
      destruct (to_compute_must _ _ _ _ _ Htr Hk Hm) as [Hi|?]; [|done].
      apply Hnt. exists fm. auto.
Qed.
End Exact.

(** ** What is returned *)
Section Values.
Variable f0 : name -> gmap name V -> res E V.
Variable ins0 : gmap name V.
Hypothesis Hff : faithful_files write read.
Hypothesis Hold : files_hold g fmt read f0 ins0 st0.
Hypothesis Hcover : forall x, needed g ov (requested g fv) x -> is_Some (fmt x) ->
  must x \/ forall y, rtc (edge g) x y -> unchanged f0 f ins0 all ov y.

Lemma eval_unchanged x v : (forall y, rtc (edge g) x y -> unchanged f0 f ins0 all ov y) ->
  eval f0 g ins0 ∅ x v -> eval f g all ov x v.
Proof.
  intros Hun Hev. induction Hev as [x v Ho|x nd v _ Hg He Hi|x nd kw v _ Hg He Hdep Hev IH Habs Hf].
  - by rewrite lookup_empty in Ho.
  - destruct (Hun x) as (Ho & Hi' & _); [by apply rtc_refl|]. eapply eval_input; try done. by rewrite Hi'.
  - destruct (Hun x) as (Ho & _ & Hf'); [by apply rtc_refl|].
    eapply eval_fn; try done.
    + intros d w Hd. apply IH; [done|]. intros y Hy. apply Hun. eapply rtc_l; [|done]. exists nd. eauto.
    + intros d dt Hin Hnone. destruct (Habs d dt Hin Hnone) as [(Ho' & Hi' & nd' & Hg' & He') ->].
      split; [|done]. destruct (Hun d) as (Hod & Hid & _).
      { apply rtc_once. exists nd. split; [done|]. apply elem_of_list_fmap. by exists (d, OPTIONAL). }
      split_and!; [done|by rewrite Hid|by exists nd'].
    + by rewrite Hf'.
Qed.

(** Every call that returns returns what the function returns on its arguments. *)
Lemma run_calls_plain t1 x kw v t2 : trace_of run = t1 ++ Call x kw (Ok v) :: t2 ->
  (forall a y kw' w b, t1 = a ++ Call y kw' (Ok w) :: b -> f y kw' = Ok w) -> f x kw = Ok v.
Proof.
  intros Htr Hprev.
  destruct (call_deps _ _ _ _ _ Htr) as (nd & Hg & He & Hr & Hx & Ho & Hneed & _ & Hne).
  assert (Hk := run_kinv _ _ Htr).
  destruct (node (rep t1) x kw) as [st' r'] eqn:Hn. cbn [fst snd] in *. subst r'.
  destruct (node_cases _ _ _ _ _ Hn) as [(Hf & -> & _)|(fm & Hf & [(Hnf & Hi & -> & c & Hc & Hrd)|(_ & _ & [(e & _ & [=] & _)|(v' & content & err & Hfx & Hw & _ & [(e & _ & [=] & _)|(_ & [= ->] & _)])])])];
    [done| |done].
  rewrite (ki_files _ Hk x fm Hf Hx) in Hc.
  destruct (Hold x nd fm c Hg He Hf Hc) as (v' & Hv' & Hev).
  assert (v' = v) as -> by congruence.
  destruct (Hcover x Hneed) as [Hm|Hun]; [by exists fm| |].
  { exfalso. destruct (to_compute_must _ _ _ _ _ Htr Hk Hm) as [?|(fm' & Hf' & [?|[?|Hnone]])]; [congruence|done|congruence|].
    rewrite (ki_files _ Hk x fm' Hf' Hx) in Hnone. assert (fm' = fm) as -> by congruence. congruence. }
  apply eval_unchanged in Hev; [|done].
  (* the events before are those of a plain run *)
  assert (Hgood : good (fun _ => f) g all ov (requested g fv) t1).
  { assert (Hg1 := run_good g Hwf Hac F config inputs ov fv). rewrite Htr in Hg1.
    intros a ev b Heq. assert (Hok := Hg1 a ev (b ++ Call x kw (Ok v) :: t2)).
    rewrite Heq in Hok. specialize (Hok ltac:(by rewrite <-app_assoc)).
    destruct ev as [y kw' r|y w|y]; [|exact Hok..].
    destruct Hok as (H1 & H2 & H3 & H4 & H5 & H6). split_and!; try done.
    destruct r as [w|e].
    - symmetry. by eapply Hprev.
    - exfalso. apply (Hne y kw' e). rewrite Heq. apply elem_of_app. right. by left. }
  destruct (run_call_args g Hwf Hac _ _ _ _ _ _ _ _ _ _ Htr) as (_ & nd2 & Hg2 & _ & Hav & Habs).
  assert (nd2 = nd) as -> by congruence.
  assert (Hstored : forall d w, kw !! d = Some w -> eval f g all ov d w).
  { assert (Hg1 := run_good g Hwf Hac F config inputs ov fv). rewrite Htr in Hg1.
    destruct (Hg1 t1 _ t2 eq_refl) as (_ & _ & _ & _ & _ & nd3 & _ & _ & Hkw & _).
    intros d w Hd. eapply good_eval; [exact Hgood|]. by apply Hkw. }
  inversion Hev as [|? nd' ? Ho' Hg' Hext'|? nd' kw' ? Ho' Hg' Hext' Hdep' Hev'' Habs' Hf']; subst;
    [congruence|congruence|].
  assert (nd' = nd) as -> by congruence.
  assert (kw = kw') as <-; [|done].
  eapply (kw_unique f g all ov nd); try done.
  - intros d w Hd. by apply (Hav d w).
  - intros d w w' Hd Hw'. by eapply eval_functional; [by apply Hstored|].
Qed.

Lemma run_all_plain t1 t2 : trace_of run = t1 ++ t2 ->
  forall a x kw v b, t1 = a ++ Call x kw (Ok v) :: b -> f x kw = Ok v.
Proof.
  revert t2. induction t1 as [|ev t1 IH] using rev_ind; intros t2 Htr a x kw v b Heq.
  { by destruct a. }
  rewrite <-app_assoc in Htr. cbn [app] in Htr. specialize (IH _ Htr).
  destruct b as [|ev' b _] using rev_ind.
  - apply app_inj_tail in Heq as [-> ->]. eapply run_calls_plain; [exact Htr|]. exact IH.
  - rewrite app_comm_cons, app_assoc in Heq. apply app_inj_tail in Heq as [Heq _]. by eapply IH.
Qed.

Lemma answer_plain out tr : run = Answer out tr ->
  default_execute (fun _ => f) g config inputs ov fv = Answer out tr.
Proof.
  intros Hrun. rewrite <-Hrun. apply default_cong; [by rewrite Hrun|].
  intros t1 x kw r t2 Htr. destruct r as [v|e].
  - eapply (run_all_plain (t1 ++ [Call x kw (Ok v)]) t2); [by rewrite <-app_assoc|done].
  - exfalso. destruct (run_error g Hwf Hac F config inputs ov fv x kw e) as (t & Hf & _).
    { rewrite Htr. apply elem_of_app. right. by left. }
    congruence.
Qed.

Lemma run_plain : writes_succeed fmt write ->
  run = default_execute (fun _ => f) g config inputs ov fv.
Proof.
  intros Hws. symmetry. apply default_cong; [by apply run_not_diverged|].
  intros t1 x kw r t2 Htr. destruct r as [v|e].
  - eapply (run_all_plain (t1 ++ [Call x kw (Ok v)]) t2); [by rewrite <-app_assoc|done].
  - destruct (call_deps _ _ _ _ _ Htr) as (nd & Hg & He & Hr & Hx & Ho & Hneed & _ & Hne).
    destruct (node (rep t1) x kw) as [st' r'] eqn:Hn. cbn [fst snd] in *. subst r'.
    destruct (node_cases _ _ _ _ _ Hn) as [(Hf & -> & _)|(fm & Hf & [(Hnf & Hi & -> & c & Hc & Hrd)|(_ & _ & [(e' & Hfx & [= ->] & _)|(v' & content & err & Hfx & Hw & _ & [(e' & -> & _)|(_ & [=] & _)])])])];
      [done| |done|].
    + rewrite (ki_files _ (run_kinv _ _ Htr) x fm Hf Hx) in Hc.
      destruct (Hold x nd fm c Hg He Hf Hc) as (v' & Hv' & _). congruence.
    + specialize (Hws fm x v' Hf). by rewrite Hw in Hws.
Qed.

(** Afterwards the files written hold the new values, the others what they held. *)
Lemma run_files t1 t2 : trace_of run = t1 ++ t2 ->
  forall x fm c, fmt x = Some fm -> hs_files (rep t1) !! path x fm = Some c ->
    hs_files st0 !! path x fm = Some c \/
    exists v, read fm x c = Ok v /\ eval f g all ov x v.
Proof.
  revert t2. induction t1 as [|ev t1 IH] using rev_ind; intros t2 Htr x fm c Hf Hc.
  { by left. }
  rewrite <-app_assoc in Htr. cbn [app] in Htr. specialize (IH _ Htr).
  rewrite rep_snoc in Hc. destruct ev as [y kw r|y v|y]; [|by eapply IH..].
  destruct (decide (x = y)) as [<-|Hne].
  2: { rewrite node_files in Hc; [|done..]. by eapply IH. }
  destruct (call_deps _ _ _ _ _ Htr) as (nd & Hg & He & Hr & Hx & Ho & Hneed & _ & Hne).
  destruct (node (rep t1) x kw) as [st' r'] eqn:Hn. cbn [fst snd] in *. subst r'.
  destruct (node_cases _ _ _ _ _ Hn) as [(Hf' & _)|(fm' & Hf' & [(_ & _ & -> & _)|(_ & _ & [(e & _ & _ & Hs & _)|(v & content & err & Hfx & Hw & Hs & _)])])].
  - congruence.
  - by eapply IH.
  - rewrite Hs in Hc. by eapply IH.
  - rewrite Hs in Hc. assert (fm' = fm) as -> by congruence.
    destruct content as [c'|]; [|by eapply IH]. rewrite lookup_insert in Hc. injection Hc as ->.
    right. exists v. split; [by eapply (ff_read _ _ Hff)|].
    assert (Hprev := run_all_plain _ _ Htr).
    assert (Hg1 := run_good g Hwf Hac F config inputs ov fv). rewrite Htr in Hg1.
    assert (Hgood : good (fun _ => f) g all ov (requested g fv) t1).
    { intros a ev b Heq. assert (Hok := Hg1 a ev (b ++ Call x kw r :: t2)).
      rewrite Heq in Hok. specialize (Hok ltac:(by rewrite <-app_assoc)).
      destruct ev as [y kw' r'|y w|y]; [|exact Hok..].
      destruct Hok as (H1 & H2 & H3 & H4 & H5 & H6). split_and!; try done.
      destruct r' as [w|e].
      - symmetry. by eapply Hprev.
      - exfalso. apply (Hne y kw' e). rewrite Heq. apply elem_of_app. right. by left. }
    destruct (Hg1 t1 _ t2 eq_refl) as (_ & _ & _ & _ & _ & nd3 & Hg3 & _ & Hkw & Hall).
    assert (nd3 = nd) as -> by congruence.
    eapply eval_fn; try done.
    + intros d w Hd. by apply (Hkw d w).
    + intros d w Hd. eapply good_eval; [exact Hgood|]. by apply Hkw.
    + intros d dt Hin Hnone. destruct (Hall d dt Hin) as [[w Hw']|(_ & ? & ?)]; [congruence|done].
Qed.

(** After the execution of a cached function the file of the variable exists. *)
Lemma run_exists t1 t2 : trace_of run = t1 ++ t2 -> forall x kw v fm, Call x kw (Ok v) ∈ t1 -> fmt x = Some fm ->
  is_Some (hs_files (rep t1) !! path x fm).
Proof.
  revert t2. induction t1 as [|ev t1 IH] using rev_ind; intros t2 Htr x kw v fm Hin Hf.
  { by apply elem_of_nil in Hin. }
  rewrite <-app_assoc in Htr. cbn [app] in Htr. specialize (IH _ Htr).
  rewrite rep_snoc. apply elem_of_app in Hin as [Hin|Hin].
  - destruct ev as [y kw' r|y w|y]; [|by eapply IH..].
    destruct (call_deps _ _ _ _ _ Htr) as (nd & _ & _ & _ & Hy & _).
    rewrite node_files; [by eapply IH| |done]. intros ->. apply Hy. by eapply elem_calls_of.
  - apply elem_of_list_singleton in Hin. subst ev.
    destruct (call_deps _ _ _ _ _ Htr) as (nd & Hg & He & Hr & _).
    destruct (node (rep t1) x kw) as [st' r'] eqn:Hn. cbn [fst snd] in *. subst r'.
    destruct (node_cases _ _ _ _ _ Hn) as [(Hf' & _)|(fm' & Hf' & [(_ & _ & -> & c & Hc & _)|(_ & _ & [(e & _ & [=] & _)|(v' & content & err & Hfx & Hw & Hs & [(e & _ & [=] & _)|(-> & _)])])])].
    + congruence.
    + assert (fm' = fm) as -> by congruence. by rewrite Hc.
    + assert (fm' = fm) as -> by congruence. rewrite Hs.
      destruct content as [c|]; [by rewrite lookup_insert|]. by destruct (ff_done _ _ Hff _ _ _ _ Hw).
Qed.

(** A variable that had to be computed has a new file. *)
Lemma run_written t1 t2 : trace_of run = t1 ++ t2 -> forall x kw v fm, Call x kw (Ok v) ∈ t1 -> must x -> fmt x = Some fm ->
  exists c w, hs_files (rep t1) !! path x fm = Some c /\ read fm x c = Ok w /\ eval f g all ov x w.
Proof.
  revert t2. induction t1 as [|ev t1 IH] using rev_ind; intros t2 Htr x kw v fm Hin Hm Hf.
  { by apply elem_of_nil in Hin. }
  assert (Htr' := Htr). rewrite <-app_assoc in Htr'. cbn [app] in Htr'. specialize (IH _ Htr').
  apply elem_of_app in Hin as [Hin|Hin].
  - rewrite rep_snoc. destruct ev as [y kw' r|y w|y]; [|by eapply IH..].
    destruct (call_deps _ _ _ _ _ Htr') as (nd & _ & _ & _ & Hy & _).
    rewrite node_files; [by eapply IH| |done]. intros ->. apply Hy. by eapply elem_calls_of.
  - apply elem_of_list_singleton in Hin. subst ev.
    destruct (call_deps _ _ _ _ _ Htr') as (nd & Hg & He & Hr & Hx & Ho & Hneed & _ & Hne).
    destruct (run_exists _ _ Htr x kw v fm) as [c Hc]; [apply elem_of_app; right; by left|done|].
    exists c. destruct (run_files _ _ Htr x fm c Hf Hc) as [Hst|(w & ? & ?)]; [|by exists w].
    assert (Ht := to_compute_must _ _ _ _ _ Htr' (run_kinv _ _ Htr') Hm).
    rewrite rep_snoc in Hc |- *.
    destruct (node (rep t1) x kw) as [st' r'] eqn:Hn. cbn [fst snd] in *. subst r'.
    destruct (node_cases _ _ _ _ _ Hn) as [(Hf' & _)|(fm' & Hf' & [(Hnf & Hi & -> & c' & Hc' & _)|(_ & _ & [(e & _ & [=] & _)|(v' & content & err & Hfx & Hw & Hs & [(e & _ & [=] & _)|(-> & _)])])])].
    + congruence.
    + exfalso. assert (fm' = fm) as -> by congruence.
      destruct Ht as [?|(fm' & Hf'' & [?|[?|?]])]; [congruence|done|congruence|]. assert (fm' = fm) as -> by congruence. congruence.
    + assert (fm' = fm) as -> by congruence. rewrite Hs in Hc.
      destruct content as [c'|]; [|by destruct (ff_done _ _ Hff _ _ _ _ Hw)].
      rewrite lookup_insert in Hc. injection Hc as ->.
      exists v'. split_and!; [by rewrite Hs, lookup_insert|by eapply (ff_read _ _ Hff)|].
      assert (Hprev := run_all_plain _ _ Htr').
      assert (Hg1 := run_good g Hwf Hac F config inputs ov fv). rewrite Htr' in Hg1.
      assert (Hgood : good (fun _ => f) g all ov (requested g fv) t1).
      { intros a ev b Heq. assert (Hok := Hg1 a ev (b ++ Call x kw (Ok v) :: t2)).
        rewrite Heq in Hok. specialize (Hok ltac:(by rewrite <-app_assoc)).
        destruct ev as [y kw' r'|y w|y]; [|exact Hok..].
        destruct Hok as (H1 & H2 & H3 & H4 & H5 & H6). split_and!; try done.
        destruct r' as [w|e].
        - symmetry. by eapply Hprev.
        - exfalso. apply (Hne y kw' e). rewrite Heq. apply elem_of_app. right. by left. }
      destruct (Hg1 t1 _ t2 eq_refl) as (_ & _ & _ & _ & _ & nd3 & Hg3 & _ & Hkw & Hall).
      assert (nd3 = nd) as -> by congruence.
      eapply eval_fn; try done.
      * intros d w Hd. by apply (Hkw d w).
      * intros d w Hd. eapply good_eval; [exact Hgood|]. by apply Hkw.
      * intros d dt Hin Hnone. destruct (Hall d dt Hin) as [[w Hw']|(_ & ? & ?)]; [congruence|done].
Qed.
End Values.
End Run.

(** ** Requests *)
Notation exec := (hcached_execute g fmt write read).

Lemma exec_state force st rq : exists b : bool,
  (exec force st rq).1 = (if b then build_result else id) (replay g fmt write read force (rq_fns rq) st (trace_of (exec force st rq).2)).
Proof.
  unfold hcached_execute. cbn [fst snd].
  destruct (default_execute _ _ _ _ _ _); [|by exists false..]. destruct (rq_builds rq); [by exists true|by exists false].
Qed.
Lemma exec_files force st rq : hs_files (exec force st rq).1 =
  hs_files (replay g fmt write read force (rq_fns rq) st (trace_of (exec force st rq).2)).
Proof. destruct (exec_state force st rq) as [[|] ->]; done. Qed.
Lemma exec_log force st rq : hs_log (exec force st rq).1 =
  hs_log (replay g fmt write read force (rq_fns rq) st (trace_of (exec force st rq).2)).
Proof. destruct (exec_state force st rq) as [[|] ->]; done. Qed.

Lemma exec_exact force st rq : hs_computed st = ∅ ->
  exists new, hs_log (exec force st rq).1 = hs_log st ++ new /\ NoDup new /\
    forall x, x ∈ new <-> x ∈ calls_of (trace_of (exec force st rq).2) /\
      (fmt x = None \/ must_compute g fmt force st (rq_overrides rq) x).
Proof.
  intros Hc. rewrite exec_log.
  destruct (run_log force (rq_fns rq) (rq_config rq) (rq_inputs rq) (rq_overrides rq) (rq_final rq) st Hc
    (trace_of (exec force st rq).2) []) as (new & ? & Hs & ?).
  { by rewrite app_nil_r. }
  exists new. split_and!; try done. eapply nodup_sub; [exact Hs|]. by apply run_calls_nodup.
Qed.

(** The calls of a successful execution. *)
Lemma exec_calls force st rq out tr x : (exec force st rq).2 = Answer out tr ->
  x ∈ calls_of tr <-> needed g (rq_overrides rq) (requested g (rq_final rq)) x /\
    exists nd, g !! x = Some nd /\ nd_ext nd = false.
Proof.
  unfold hcached_execute. cbn [snd]. intros Heq. split.
  - intros Hx. apply (run_calls_needed g Hwf Hac (hcached_fn g fmt write read force (rq_fns rq) st) (rq_config rq) (rq_inputs rq)).
    by rewrite Heq.
  - intros [Hn (nd & Hg & He)]. by eapply run_needed_called.
Qed.

Section Same.
Variable f : name -> gmap name V -> res E V.
Variable ins : gmap name V.
Hypothesis Hff : faithful_files write read.

Definition same_request (rq : request V E) : Prop :=
  rq_fns rq = f /\ rq_inputs rq ∪ rq_config rq = ins /\ rq_overrides rq = ∅.

Lemma same_cover force (st : hstate C) rq : same_request rq ->
  forall x, needed g (rq_overrides rq) (requested g (rq_final rq)) x -> is_Some (fmt x) ->
  must_compute g fmt force st (rq_overrides rq) x \/
  forall y, rtc (edge g) x y -> unchanged f (rq_fns rq) ins (rq_inputs rq ∪ rq_config rq) (rq_overrides rq) y.
Proof.
  intros (-> & -> & ->) x _ _. right. intros y _. split_and!; done.
Qed.

Lemma exec_hold force st rq : same_request rq -> files_hold g fmt read f ins st ->
  files_hold g fmt read f ins (exec force st rq).1.
Proof.
  intros Hrq Hh x nd fm c Hg He Hf Hc. rewrite exec_files in Hc.
  destruct (run_files force (rq_fns rq) (rq_config rq) (rq_inputs rq) (rq_overrides rq) (rq_final rq) st
    f ins Hff Hh (same_cover force st rq Hrq) (trace_of (exec force st rq).2) [] ltac:(by rewrite app_nil_r) x fm c Hf Hc) as [Hst|(v & Hr & Hev)].
  - by eapply Hh.
  - destruct Hrq as (E1 & E2 & E3). rewrite E1, E2, E3 in Hev. by exists v.
Qed.

Lemma exec_answer force st rq out tr : same_request rq -> files_hold g fmt read f ins st ->
  (exec force st rq).2 = Answer out tr -> plain g rq = Answer out tr.
Proof.
  intros Hrq Hh. unfold hcached_execute. cbn [snd].
  exact (answer_plain force (rq_fns rq) (rq_config rq) (rq_inputs rq) (rq_overrides rq) (rq_final rq) st
    f ins Hh (same_cover force st rq Hrq) out tr).
Qed.
Lemma exec_plain force st rq : writes_succeed fmt write -> same_request rq -> files_hold g fmt read f ins st ->
  (exec force st rq).2 = plain g rq.
Proof.
  intros Hw Hrq Hh. unfold hcached_execute. cbn [snd].
  exact (run_plain force (rq_fns rq) (rq_config rq) (rq_inputs rq) (rq_overrides rq) (rq_final rq) st
    f ins Hh (same_cover force st rq Hrq) Hw).
Qed.

Lemma session_ok acts : forall force st, Forall same_request (requests acts) -> files_hold g fmt read f ins st ->
  files_hold g fmt read f ins (session g fmt write read force st acts).1.2 /\
  Forall2 (fun rq a => (forall out tr, a = Answer out tr -> plain g rq = Answer out tr) /\
                       (writes_succeed fmt write -> a = plain g rq))
    (requests acts) (session g fmt write read force st acts).2.
Proof.
  induction acts as [|[rq|force'|p] acts IH]; intros force st Hall Hh; cbn [session requests omap list_omap] in *.
  - by split; [|constructor].
  - apply Forall_cons in Hall as [Hrq Hall].
    assert (H1 := exec_hold force st rq Hrq Hh).
    assert (H2 := fun out tr => exec_answer force st rq out tr Hrq Hh).
    assert (H3 := fun Hw => exec_plain force st rq Hw Hrq Hh).
    destruct (exec force st rq) as [st' a]. cbn [fst snd] in *.
    destruct (IH force st' Hall H1) as [H4 H5].
    destruct (session _ _ _ _ _ st' acts) as [r l]. cbn [fst snd] in *. split; [done|]. by constructor.
  - by apply IH.
  - apply IH; [done|]. intros x nd fm c Hg He Hf Hc. cbn in Hc.
    apply lookup_delete_Some in Hc as [_ Hc]. by eapply Hh.
Qed.
End Same.

Lemma exec_calls_ok force st rq out tr x : (exec force st rq).2 = Answer out tr -> x ∈ calls_of tr ->
  exists kw v, Call x kw (Ok v) ∈ tr.
Proof.
  unfold hcached_execute. cbn [snd]. intros Heq Hx.
  apply elem_of_list_omap in Hx as ([y kw r|y v|y] & Hin & [= ->]).
  destruct r as [v|e]; [by exists kw, v|]. exfalso.
  destruct (run_error g Hwf Hac (hcached_fn g fmt write read force (rq_fns rq) st) (rq_config rq) (rq_inputs rq)
    (rq_overrides rq) (rq_final rq) x kw e) as (t & Hf & _); [by rewrite Heq|congruence].
Qed.

(** After a successful execution a second one loads everything that is cached. *)
Lemma second_run force st rq out tr rq2 : faithful_files write read ->
  (exec force st rq).2 = Answer out tr -> rq_builds rq = true ->
  rq_overrides rq2 = rq_overrides rq -> rq_final rq2 ⊆ rq_final rq ->
  exists new, hs_log (exec ∅ (exec force st rq).1 rq2).1 = hs_log (exec force st rq).1 ++ new /\ NoDup new /\
    forall x, x ∈ new -> fmt x = None.
Proof.
  intros Hff Ha Hb Ho Hfv.
  destruct (exec_exact ∅ (exec force st rq).1 rq2) as (new & Hl & Hnd & Hnew).
  { unfold hcached_execute in Ha |- *. cbn [fst snd] in *. rewrite Ha, Hb. done. }
  exists new. split_and!; try done. intros x Hx. apply Hnew in Hx as [Hx [?|(y & Hu & nd & fm & Hg & He & Hf & Hor)]]; [done|].
  exfalso. destruct Hor as [?|Hnone]; [set_solver|].
  assert (Hnx : needed g (rq_overrides rq2) (requested g (rq_final rq2)) x).
  { unfold hcached_execute in Hx. cbn [snd] in Hx. by apply (run_calls_needed g Hwf Hac) in Hx as [? _]. }
  assert (Hmono : forall z, needed g (rq_overrides rq2) (requested g (rq_final rq2)) z -> needed g (rq_overrides rq) (requested g (rq_final rq)) z).
  { rewrite Ho. induction 1 as [z Hz Hoz|z d Hz IH He' Hoz].
    - apply needed_root; [|done]. apply requested_elem in Hz as [Hz ?]. apply requested_elem. split; [by apply Hfv|done].
    - by eapply needed_dep. }
  apply Hmono in Hnx.
  assert (Hny : needed g (rq_overrides rq) (requested g (rq_final rq)) y).
  { rewrite Ho in Hu. clear -Hu Hnx. induction Hu as [|a b c [He Hob] _ IH]; [done|]. apply IH. by eapply needed_dep. }
  assert (Hyc : y ∈ calls_of tr) by (apply (exec_calls force st rq out tr y Ha); by eauto).
  destruct (exec_calls_ok force st rq out tr y Ha Hyc) as (kw & v & Hin).
  rewrite exec_files, Ha in Hnone. cbn [trace_of] in Hnone.
  destruct (run_exists force (rq_fns rq) (rq_config rq) (rq_inputs rq) (rq_overrides rq) (rq_final rq) st Hff tr [] ) with (x := y) (kw := kw) (v := v) (fm := fm) as [c Hc]; try done.
  { unfold hcached_execute in Ha. cbn [snd] in Ha. rewrite Ha. by rewrite app_nil_r. }
  congruence.
Qed.

(** Refreshing the cache after a change. *)
Section Refresh.
Variable f0 : name -> gmap name V -> res E V.
Variable ins0 : gmap name V.
Hypothesis Hff : faithful_files write read.
Variable force : gset name.
Variable st : hstate C.
Variable rq : request V E.
Hypothesis Hold : files_hold g fmt read f0 ins0 st.
Definition covered (x : name) : Prop :=
  must_compute g fmt force st (rq_overrides rq) x \/
  forall y, rtc (edge g) x y -> unchanged f0 (rq_fns rq) ins0 (rq_inputs rq ∪ rq_config rq) (rq_overrides rq) y.
Hypothesis Hcov : forall x, needed g (rq_overrides rq) (requested g (rq_final rq)) x -> is_Some (fmt x) -> covered x.

Lemma refresh_answer out tr : (exec force st rq).2 = Answer out tr -> plain g rq = Answer out tr.
Proof. exact (answer_plain _ _ _ _ _ _ _ _ _ Hold Hcov out tr). Qed.
Lemma refresh_plain : writes_succeed fmt write -> (exec force st rq).2 = plain g rq.
Proof. exact (run_plain _ _ _ _ _ _ _ _ _ Hold Hcov). Qed.

Lemma refresh_hold out tr : (exec force st rq).2 = Answer out tr -> rq_overrides rq = ∅ ->
  (forall x nd fm, g !! x = Some nd -> nd_ext nd = false -> fmt x = Some fm ->
    needed g (rq_overrides rq) (requested g (rq_final rq)) x \/
    forall y, rtc (edge g) x y -> unchanged f0 (rq_fns rq) ins0 (rq_inputs rq ∪ rq_config rq) (rq_overrides rq) y) ->
  files_hold g fmt read (rq_fns rq) (rq_inputs rq ∪ rq_config rq) (exec force st rq).1.
Proof.
  intros Ha Ho Hnd x nd fm c Hg He Hf Hc. rewrite exec_files, Ha in Hc. cbn [trace_of] in Hc.
  assert (Htr : trace_of (default_execute (hcached_fn g fmt write read force (rq_fns rq) st) g (rq_config rq) (rq_inputs rq) (rq_overrides rq) (rq_final rq)) = tr ++ []).
  { unfold hcached_execute in Ha. cbn [snd] in Ha. rewrite Ha. by rewrite app_nil_r. }
  assert (Hun : (forall y, rtc (edge g) x y -> unchanged f0 (rq_fns rq) ins0 (rq_inputs rq ∪ rq_config rq) (rq_overrides rq) y) ->
    exists v, read fm x c = Ok v /\ eval (rq_fns rq) g (rq_inputs rq ∪ rq_config rq) (rq_overrides rq) x v).
  { intros Hun. destruct (run_files _ _ _ _ _ _ _ _ _ Hff Hold Hcov tr [] Htr x fm c Hf Hc) as [Hst|?]; [|done].
    destruct (Hold x nd fm c Hg He Hf Hst) as (v & ? & ?). exists v. split; [done|]. by eapply eval_unchanged. }
  cut (exists v, read fm x c = Ok v /\ eval (rq_fns rq) g (rq_inputs rq ∪ rq_config rq) (rq_overrides rq) x v); [by rewrite Ho|].
  destruct (Hnd x nd fm Hg He Hf) as [Hn|?]; [|by apply Hun].
  destruct (Hcov x Hn) as [Hm|?]; [by exists fm| |by apply Hun].
  assert (Hxc : x ∈ calls_of tr) by (apply (exec_calls force st rq out tr x Ha); by eauto).
  destruct (exec_calls_ok force st rq out tr x Ha Hxc) as (kw & v & Hin).
  destruct (run_written _ _ _ _ _ _ _ _ _ Hff Hold Hcov tr [] Htr x kw v fm Hin Hm Hf) as (c' & w & Hc' & ? & ?).
  exists w. assert (c' = c) as -> by congruence. done.
Qed.
End Refresh.

(** Forcing the changed variables covers everything. *)
Lemma forced_covered (f0 : name -> gmap name V -> res E V) ins0 force (st : hstate C) (rq : request V E) :
  rq_overrides rq = ∅ -> rq_inputs rq ∪ rq_config rq = ins0 ->
  (forall x, (x ∈ force /\ is_Some (fmt x) /\ exists nd, g !! x = Some nd /\ nd_ext nd = false) \/
             forall kw, rq_fns rq x kw = f0 x kw) ->
  forall x, covered f0 ins0 force st rq x.
Proof.
  intros Ho Hi Hch. apply (graph_ind g); [done|]. intros x IH. unfold covered in *.
  rewrite Ho in *.
  destruct (Hch x) as [(Hfo & [fm Hf] & nd & Hg & He)|Hsame].
  { left. exists x. split; [by apply rtc_refl|]. exists nd, fm. auto. }
  assert (Hdeps : (exists d, edge g x d /\ must_compute g fmt force st (∅ : gmap name V) d) \/
    forall d, edge g x d -> forall y, rtc (edge g) d y -> unchanged f0 (rq_fns rq) ins0 (rq_inputs rq ∪ rq_config rq) (∅ : gmap name V) y).
  { destruct (g !! x) as [nd|] eqn:Hg; [|right; intros d (nd & ? & _); congruence].
    assert (Hl : forall l : list name, (forall d, d ∈ l -> edge g x d) ->
      (exists d, d ∈ l /\ must_compute g fmt force st (∅ : gmap name V) d) \/
      forall d, d ∈ l -> forall y, rtc (edge g) d y -> unchanged f0 (rq_fns rq) ins0 (rq_inputs rq ∪ rq_config rq) (∅ : gmap name V) y).
    { induction l as [|d l IHl]; intros Hin; [right; set_solver|].
      destruct IHl as [(d' & ? & ?)|Hl]; [set_solver|left; exists d'; set_solver|].
      destruct (IH d) as [?|Hd]; [apply Hin; set_solver|left; exists d; set_solver|].
      right. intros d' [-> |Hd']%elem_of_cons; [done|by apply Hl]. }
    destruct (Hl (dep_names nd)) as [(d & Hd & ?)|Hd].
    - intros d Hd. by exists nd.
    - left. exists d. split; [by exists nd|done].
    - right. intros d (nd' & Hg' & Hin). assert (nd' = nd) as -> by congruence. by apply Hd. }
  destruct Hdeps as [(d & Hd & y & Hu & Hn)|Hdeps].
  - left. exists y. split; [|done]. eapply rtc_l; [split; [exact Hd|by rewrite lookup_empty]|done].
  - right. intros y Hy. inversion Hy as [|? d ? Hd Hr]; subst.
    + split_and!; [by rewrite lookup_empty|done|done].
    + by apply (Hdeps d).
Qed.
End P.
