(** Types of the values that flow through a built graph. *)
From Verif Require Import Base Dict ExecModel ExecSpec ExecProofs ExecResults ExecCong GraphModel GraphSpec GraphProofs GraphResults RelinkModel RelinkSpec RelinkProofs TypesModel TypesSpec TypesProofs.

(** ** Edges of built graphs *)
Section Edges.
Context {T : Type}.
Definition asked_f (fns : name -> option (fdef T)) (x : name) (t : T) : Prop :=
  exists y d dt, fns y = Some d /\ (x, (t, dt)) ∈ fd_params d.
Definition offered_f (fns : name -> option (fdef T)) (x : name) (u : T) : Prop :=
  match fns x with Some d => u = fd_type d | None => asked_f fns x u end.
Variable tm : T -> T -> bool.
Notation am := (fun _ _ : T => false).
Variable any_type : T.
(** [inc t u]: [u] is narrower than [t]. *)
Variable inc : T -> T -> Prop.
Hypothesis Hrefl : forall t, inc t t.
Hypothesis Htrans : forall t u v, inc t u -> inc u v -> inc t v.
Variable fns : name -> option (fdef T).
Hypothesis Hinc : forall x t u, asked_f fns x t -> offered_f fns x u -> tm t u = true -> inc t u.

Record narrowed (ask : list (name * T)) (nodes : dict (gnode T)) : Prop := {
  na_inc : forall p t n, (p, t) ∈ ask -> dget nodes p = Some n -> inc t (gn_type n);
  na_off : forall p n, dget nodes p = Some n -> offered_f fns p (gn_type n);
  na_ext : forall p n, dget nodes p = Some n -> gn_ext n = true -> fns p = None;
  na_none : forall p, dget nodes p = None -> fns p = None;
  na_key : forall p t, (p, t) ∈ ask -> p ∈ dkeys nodes;
}.
Lemma narrowed_dmod ask nodes k f : narrowed ask nodes -> (forall n, gn_type (f n) = gn_type n /\ gn_ext (f n) = gn_ext n) -> narrowed ask (dmod nodes k f).
Proof.
  intros [H1 H2 H3 H4 H5] Hf.
  assert (Hget : forall p n, dget (dmod nodes k f) p = Some n -> exists m, dget nodes p = Some m /\ gn_type n = gn_type m /\ gn_ext n = gn_ext m).
  { intros p n. rewrite dget_dmod. case_decide as Hk; [subst|intros Hn; by exists n].
    destruct (dget nodes k) as [m|] eqn:Hm; [|done]. intros [= <-]. exists m. destruct (Hf m). done. }
  constructor.
  - intros p t n Hin Hn. apply Hget in Hn as (m & Hm & -> & _). by eapply H1.
  - intros p n Hn. apply Hget in Hn as (m & Hm & -> & _). by eapply H2.
  - intros p n Hn He. apply Hget in Hn as (m & Hm & _ & Heq). eapply H3; [done|congruence].
  - intros p Hp. apply H4. apply dget_None_key. apply dget_None_key in Hp. by rewrite dkeys_dmod in Hp.
  - intros p t Hin. rewrite dkeys_dmod. by eapply H5.
Qed.
Lemma narrowed_more ask nodes p t n : narrowed ask nodes -> dget nodes p = Some n -> inc t (gn_type n) -> narrowed (ask ++ [(p, t)]) nodes.
Proof.
  intros [H1 H2 H3 H4 H5] Hp Hi. constructor; [|done..|].
  - intros q u m Hin Hq. apply elem_of_app in Hin as [Hin|Hin]; [by eapply H1|]. apply elem_of_list_singleton in Hin as [= -> ->].
    assert (m = n) as -> by congruence. done.
  - intros q u Hin. apply elem_of_app in Hin as [Hin|Hin]; [by eapply H5|]. apply elem_of_list_singleton in Hin as [= -> ->].
    apply dget_Some_key. by eexists.
Qed.
Lemma narrowed_dset ask nodes p t n : narrowed ask nodes -> asked_f fns p t -> gn_ext n = true -> gn_type n = t ->
  fns p = None -> (forall u, (p, u) ∈ ask -> inc u t) -> narrowed ask (dset nodes p n).
Proof.
  intros [H1 H2 H3 H4 H5] Ha He Ht Hf Hi. constructor.
  - intros q u m Hin. rewrite dget_dset. case_decide as Hq; [|by apply H1]. subst q. intros [= <-]. rewrite Ht. by apply Hi.
  - intros q m. rewrite dget_dset. case_decide as Hq; [|by apply H2]. subst q. intros [= <-]. unfold offered_f. by rewrite Hf, Ht.
  - intros q m. rewrite dget_dset. case_decide as Hq; [|by apply H3]. by subst q.
  - intros q. rewrite dget_dset. case_decide as Hq; [done|by apply H4].
  - intros q u Hin. rewrite dkeys_dset_elem. right. by eapply H5.
Qed.
Lemma narrowed_add_dependency ask nodes func p pt nodes' : narrowed ask nodes -> asked_f fns p pt ->
  add_dependency tm am nodes func p pt = Ok nodes' -> narrowed (ask ++ [(p, pt)]) nodes'.
Proof.
  intros Hn Ha. unfold add_dependency. destruct (dget nodes p) as [rn|] eqn:Hp.
  - rewrite !orb_false_r. destruct (tm pt (gn_type rn)) eqn:Hm.
    + intros [= <-]. apply narrowed_dmod; [|done]. apply narrowed_dmod; [|done].
      eapply narrowed_more; [done|exact Hp|]. eapply Hinc; [done| |done]. by eapply na_off.
    + destruct (gn_ext rn) eqn:He; [|done]. destruct (tm (gn_type rn) pt) eqn:Hm'; [|done]. intros [= <-].
      assert (Hf : fns p = None) by (by eapply na_ext).
      assert (Hri : inc (gn_type rn) pt).
      { eapply Hinc; [|unfold offered_f; by rewrite Hf|done]. assert (Ho := na_off _ _ Hn p rn Hp). unfold offered_f in Ho. by rewrite Hf in Ho. }
      apply narrowed_dmod; [|done]. apply narrowed_dmod; [|done].
      eapply narrowed_more with (n := set_type rn pt); [|by rewrite dget_dset, decide_True|apply Hrefl].
      eapply narrowed_dset; [done|exact Ha|done|done|done|]. intros u Hu. eapply Htrans; [|exact Hri]. by eapply na_inc.
  - intros [= <-]. apply narrowed_dmod; [|done]. apply narrowed_dmod; [|done].
    eapply narrowed_more with (n := GNode true pt [] [] []); [|by rewrite dget_dset, decide_True|apply Hrefl].
    eapply narrowed_dset; [done|exact Ha|done|done|by eapply na_none|].
    intros u Hu. exfalso. apply dget_None_key in Hp. apply Hp. by eapply na_key.
Qed.
Lemma narrowed_add_params func ps : forall ask nodes nodes', narrowed ask nodes -> (forall p t dt, (p, (t, dt)) ∈ ps -> asked_f fns p t) ->
  add_params tm am nodes func ps = Ok nodes' -> narrowed (ask ++ map (fun p => (p.1, p.2.1)) ps) nodes'.
Proof.
  induction ps as [|[p [pt dt]] ps IH]; intros ask nodes nodes' Hn Hps; cbn [add_params map].
  - intros [= <-]. by rewrite app_nil_r.
  - destruct (add_dependency _ _ nodes func p pt) as [n1|] eqn:H1; [|done]. intros H2.
    apply narrowed_add_dependency with (ask := ask) in H1; [|done|apply (Hps p pt dt); by left].
    rewrite cons_middle, app_assoc. eapply IH; [exact H1| |done]. intros q t qdt Hq. eapply Hps. by right.
Qed.
Lemma narrowed_add_all snapshot : forall ask nodes nodes', narrowed ask nodes -> (forall p t, (p, t) ∈ all_params snapshot -> asked_f fns p t) ->
  add_all tm am nodes snapshot = Ok nodes' -> narrowed (ask ++ all_params snapshot) nodes'.
Proof.
  induction snapshot as [|[x n] rest IH]; intros ask nodes nodes' Hn Hps; cbn [add_all].
  - intros [= <-]. change (all_params []) with (@nil (name * T)). by rewrite app_nil_r.
  - destruct (add_params _ _ nodes x (gn_params n)) as [n1|] eqn:H1; [|done]. intros H2.
    change (all_params ((x, n) :: rest)) with (map (fun p => (p.1, p.2.1)) (gn_params n) ++ all_params rest) in *.
    apply narrowed_add_params with (ask := ask) in H1; [|done|].
    + rewrite app_assoc. eapply IH; [exact H1| |done]. intros p t Hin. apply Hps, elem_of_app. by right.
    + intros p t dt Hin. apply Hps, elem_of_app. left. apply elem_of_list_fmap. by exists (p, (t, dt)).
Qed.
End Edges.

Lemma built_narrowed {T} (tm : T -> T -> bool) (any_type : T) (inc : T -> T -> Prop) defs config allow g :
  (forall t, inc t t) -> (forall t u v, inc t u -> inc u v -> inc t v) ->
  (forall x t u, asked config defs x t -> offered config defs x u -> tm t u = true -> inc t u) ->
  create_function_graph tm (fun _ _ => false) any_type defs config allow = Ok g ->
  forall P x t n, asks_typed g P x t -> dget g x = Some n -> inc t (gn_type n).
Proof.
  intros Hrefl Htrans Hinc0 Hc.
  assert (Hask : forall x t, asked_f (in_force config defs) x t -> asked config defs x t).
  { intros x t (y & d & dt & Hd & Ht). exists y, d, dt. split; [|done]. by apply in_force_iff. }
  assert (Hinc : forall x t u, asked_f (in_force config defs) x t -> offered_f (in_force config defs) x u -> tm t u = true -> inc t u).
  { intros x t u Ha Ho. apply (Hinc0 x); [by apply Hask|]. unfold offered_f in Ho. destruct (in_force config defs x) as [d|] eqn:Hd.
    - left. exists d. split; [by apply in_force_iff|done].
    - right. split; [by apply in_force_none|by apply Hask]. }
  assert (Hb := create_function_graph_ok _ _ _ _ _ _ _ Hc).
  unfold create_function_graph in Hc. destruct (collect config allow [] defs) as [base|] eqn:Hcol; [|done].
  destruct (update_dependencies _ _ base false) as [n1|] eqn:Hu; [|done]. injection Hc as Hc.
  destruct (collect_ok _ _ _ _ _ (NoDup_nil_2 : NoDup (dkeys ([] : dict (gnode T)))) Hcol) as [Hndb Hgetb].
  assert (Hbase : forall x, dget base x = gnode_of <$> in_force config defs x).
  { intros x. rewrite Hgetb. unfold in_force. case_decide; [done|]. by destruct (last_def defs x). }
  assert (Hpar : forall p t, (p, t) ∈ all_params base -> asked_f (in_force config defs) p t).
  { intros p t Hin. apply elem_all_params in Hin as (x & n & dt & Hx & Ht); [|done]. rewrite Hbase in Hx.
    destruct (in_force config defs x) as [d|] eqn:Hf; [|done]. injection Hx as <-. by exists x, d, dt. }
  unfold update_dependencies in Hu.
  apply (narrowed_add_all tm inc Hrefl Htrans (in_force config defs) Hinc base [] base) in Hu as Hgood; [| |done].
  2: { constructor.
    - intros p t n Hin. by apply elem_of_nil in Hin.
    - intros p n. rewrite Hbase. unfold offered_f. destruct (in_force config defs p) as [d|]; [|done]. by intros [= <-].
    - intros p n. rewrite Hbase. destruct (in_force config defs p) as [d|]; [|done]. by intros [= <-].
    - intros p. rewrite Hbase. by destruct (in_force config defs p).
    - intros p t Hin. by apply elem_of_nil in Hin. }
  cbn [app] in Hgood.
  assert (Hb1 : building base (all_edges base) n1).
  { apply (update_dependencies_ok tm (fun _ _ => false)); [done| |done]. intros k n. rewrite Hbase.
    destruct (in_force config defs k); cbn; [|done]. by intros [= <-]. }
  destruct (add_config_ok any_type config n1 (b_nodup _ _ _ Hb1)) as [_ Hget].
  intros P x t n (nP & dt & HP & Ht) Hn.
  assert (Hin : (x, t) ∈ all_params base).
  { apply elem_all_params; [done|]. destruct (in_force config defs P) as [d|] eqn:Hf.
    - destruct (bt_fn _ _ _ Hb P d Hf) as (n' & Hn' & _ & Hp & _). exists P, (gnode_of d), dt. rewrite Hbase, Hf. split; [done|].
      cbn. rewrite <-Hp. congruence.
    - destruct (bt_ext _ _ _ Hb P nP Hf HP) as (_ & Hp & _). rewrite Hp in Ht. by apply elem_of_nil in Ht. }
  subst g. rewrite Hget in Hn. destruct (dget n1 x) as [m|] eqn:Hm.
  - injection Hn as <-. by eapply na_inc.
  - exfalso. apply dget_None_key in Hm. apply Hm. by eapply na_key.
Qed.

(** ** Values *)
Section Run.
Context {T V E : Type}.
(** [has t v]: [v] is of type [t]. *)
Variable has : T -> V -> Prop.
Variable g : dict (gnode T).
Hypothesis Hl : linked g.
Notation gg := (to_graph g).
Hypothesis Hac : acyclic gg.
Hypothesis Hedges : forall P x t n, asks_typed g P x t -> dget g x = Some n -> forall v, has (gn_type n) v -> has t v.
Variable F : list (event V E) -> name -> gmap name V -> res E V.
Hypothesis HF : forall tr x n kw v, dget g x = Some n -> gn_ext n = false ->
  (forall p t dt w, (p, (t, dt)) ∈ gn_params n -> kw !! p = Some w -> has t w) -> F tr x kw = Ok v -> has (gn_type n) v.
Variable config inputs overrides : gmap name V.
Hypothesis Hin : forall x n v, (inputs ∪ config) !! x = Some v -> dget g x = Some n -> gn_ext n = true -> has (gn_type n) v.
Hypothesis Hov : forall x n v, overrides !! x = Some v -> dget g x = Some n -> has (gn_type n) v.
Variable fv : list name.
Notation run := (default_execute F gg config inputs overrides fv).

Lemma graph_node x nd : gg !! x = Some nd -> exists n, dget g x = Some n /\ nd = to_node n.
Proof.
  rewrite to_graph_lookup by (apply sn_nodup, ln_sensible; done). destruct (dget g x) as [n|]; [|done]. intros [= <-]. by exists n.
Qed.
Lemma available_typed (t1 : list (event V E)) d w n : available gg (inputs ∪ config) overrides t1 d w -> dget g d = Some n ->
  (forall kw, Call d kw (Ok w) ∈ t1 -> has (gn_type n) w) -> has (gn_type n) w.
Proof.
  intros [Ho|(Ho & nd & Hd & Hc)] Hn Hcall; [by eapply Hov|]. apply graph_node in Hd as (n' & Hn' & ->). assert (n' = n) as -> by congruence.
  destruct Hc as [[He Hi]|(He & kw & Hc)]; [by eapply Hin|by eapply Hcall].
Qed.
Lemma run_typed k : forall t1 x kw r t2, length t1 <= k -> trace_of run = t1 ++ Call x kw r :: t2 ->
  exists n, dget g x = Some n /\ (forall p t dt w, (p, (t, dt)) ∈ gn_params n -> kw !! p = Some w -> has t w) /\
    (forall v, r = Ok v -> has (gn_type n) v).
Proof.
  induction k as [k IH] using lt_wf_ind. intros t1 x kw r t2 Hk Heq.
  destruct (run_call_args gg (linked_wf g Hl) Hac F config inputs overrides fv t1 x kw r t2 Heq) as (Hr & nd & Hx & He & Hkw & _).
  apply graph_node in Hx as (n & Hn & ->). exists n. split; [done|].
  assert (Hargs : forall p t dt w, (p, (t, dt)) ∈ gn_params n -> kw !! p = Some w -> has t w).
  { intros p t dt w Hp Hw. destruct (Hkw p w Hw) as [_ Hav].
    assert (Ha : asks_typed g x p t) by (by exists n, dt).
    assert (Hpk : p ∈ dkeys g). { apply (ln_closed _ Hl x). exists n. split; [done|]. apply elem_of_list_fmap. by exists (p, (t, dt)). }
    apply dget_Some_key in Hpk as [np Hnp]. apply (Hedges x p t np Ha Hnp).
    apply (available_typed t1 p w np Hav Hnp). intros kw' Hc.
    apply elem_of_list_split in Hc as (u1 & u2 & ->).
    destruct (IH (length u1)) with (t1 := u1) (x := p) (kw := kw') (r := @Ok E V w) (t2 := u2 ++ Call x kw r :: t2) as (m & Hm & _ & Hres).
    - rewrite app_length in Hk. cbn in Hk. lia.
    - lia.
    - by rewrite Heq, <-app_assoc.
    - assert (m = np) as -> by congruence. by apply Hres. }
  split; [done|]. intros v ->. symmetry in Hr. by eapply HF.
Qed.
Lemma run_call_typed x kw r : Call x kw r ∈ trace_of run ->
  exists n, dget g x = Some n /\ (forall p t dt w, (p, (t, dt)) ∈ gn_params n -> kw !! p = Some w -> has t w) /\
    (forall v, r = Ok v -> has (gn_type n) v).
Proof. intros Hc. apply elem_of_list_split in Hc as (t1 & t2 & Heq). by eapply (run_typed (length t1)). Qed.
Lemma run_answer_typed out tr x v n : run = Answer out tr -> (x, Some v) ∈ out -> dget g x = Some n -> has (gn_type n) v.
Proof.
  intros Hrun Ho Hn. assert (Htr : trace_of run = tr) by (by rewrite Hrun).
  assert (Hwf := linked_wf g Hl).
  destruct (default_cases gg Hwf Hac F config inputs overrides fv)
    as [(k & _ & _ & Heq)|[Hdisj [(s & Hs & Heq)|(s & e & Hs & Heq)]]]; try (rewrite Heq in Hrun; done).
  rewrite Heq in Hrun. injection Hrun as <- <-. apply elem_of_list_fmap in Ho as (y & [= -> Hv] & Hy).
  assert (Hgy : gg !! y = Some (to_node n)). { rewrite to_graph_lookup by (apply sn_nodup, ln_sensible; done). by rewrite Hn. }
  destruct (root_in_memory gg Hwf Hac F config inputs overrides fv s y Hs) as [(w & Hw & Hst)|[Hc Habs]].
  { apply requested_elem. split; [done|by eexists]. }
  - rewrite Hw in Hv. injection Hv as ->.
    destruct (exec_done gg Hwf Hac F config inputs overrides fv s Hs) as [Hi _].
    assert (Hav := good_available gg (inputs ∪ config) overrides _ F _ _ _ (inv_good _ _ _ _ _ _ Hi) Hst).
    apply (available_typed _ _ _ n Hav Hn). intros kw Hcall.
    destruct (run_call_typed y kw (Ok w)) as (m & Hm & _ & Hres); [rewrite Htr; exact Hcall|].
    assert (m = n) as -> by congruence. by apply Hres.
  - rewrite Hc in Hv. destruct Habs as (_ & Hai & _). apply lookup_union_None in Hai as [Hi _]. congruence.
Qed.
End Run.

(** ** The checking adapter *)
Section Checker.
Context {V E : Type} `{!EqDecision V}.
Variable class_of : V -> cls.
Variable sub : cls -> cls -> bool.
Variable items : V -> list V.
Variable entries : V -> list (V * V).
Variable none : V.
Hypothesis Hh : hierarchy sub.
Notation means := (means class_of sub items entries).
Notation passes := (passes class_of sub items entries).
Variable bad_input bad_output : name -> E.
Variable check_in check_out : bool.
Variable params : name -> list (name * ann V).
Variable returns : name -> ann V.
Notation inputs_pass := (inputs_pass class_of sub items entries params).
Notation checked := (checked class_of sub items entries none bad_input bad_output check_in check_out params returns).

Lemma passes_means t v : checkable t -> passes t v = true <-> means t v.
Proof.
  intros Hc. unfold TypesModel.passes.
  destruct (check_instance_decides class_of sub items entries Hh t Hc v) as [[-> H]|[-> H]]; [done|]. split; [done|]. intros Hm. by destruct H.
Qed.
Lemma inputs_pass_means x (kw : gmap name V) : (forall p t, (p, t) ∈ params x -> checkable t) -> NoDup (params x).*1 ->
  inputs_pass x kw = true <-> forall p w, kw !! p = Some w -> exists t, (p, t) ∈ params x /\ means t w.
Proof.
  intros Hc Hnd. unfold TypesModel.inputs_pass. rewrite forallb_forall. split.
  - intros H p w Hw. apply elem_of_map_to_list in Hw. apply elem_of_list_In in Hw. specialize (H _ Hw). cbn in H.
    destruct (dget (params x) p) as [t|] eqn:Ht; [|done]. apply dget_elem in Ht. exists t. split; [done|]. apply passes_means; [by eapply Hc|done].
  - intros H [p w] Hw. apply elem_of_list_In, elem_of_map_to_list in Hw. destruct (H p w Hw) as (t & Ht & Hm). cbn.
    rewrite (elem_dget _ _ _ Hnd Ht). apply passes_means; [by eapply Hc|done].
Qed.
End Checker.
