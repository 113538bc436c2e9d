(** Graph construction: types, errors and the statements of the property file. *)
From Verif Require Import Base Dict GraphModel GraphSpec GraphProofs.

Section Results.
Context {T : Type}.
Variable types_match adapter_match : T -> T -> bool.
Variable any_type : T.
Implicit Types (config : list name) (defs : list (fdef T)).

Lemma last_def_iff defs x d : last_def defs x = Some d <-> last_definition defs x d.
Proof.
  split.
  - induction defs as [|d0 defs IH]; cbn; [done|].
    destruct (last_def defs x) as [d'|] eqn:Hl.
    + intros [= ->]. destruct IH as (a & b & -> & ? & ?); [done|]. exists (d0 :: a), b. done.
    + case_decide as Hn; [|done]. intros [= ->]. exists [], defs. split_and!; try done.
      by apply last_def_none.
  - intros (a & b & -> & Hn & Hb). induction a as [|d0 a IH]; cbn.
    + assert (Hl : last_def b x = None) by (by apply last_def_none). rewrite Hl. by rewrite decide_True.
    + by rewrite IH.
Qed.

Lemma in_force_iff config defs x d : in_force config defs x = Some d <-> in_effect config defs x d.
Proof.
  unfold in_force, in_effect. case_decide.
  - split; [done|]. naive_solver.
  - rewrite last_def_iff. naive_solver.
Qed.

Lemma in_force_none config defs x :
  in_force config defs x = None <-> forall d, ~ in_effect config defs x d.
Proof.
  split.
  - intros Hn d Hd. apply in_force_iff in Hd. congruence.
  - intros H. destruct (in_force config defs x) as [d|] eqn:Hf; [|done].
    apply in_force_iff in Hf. by destruct (H d).
Qed.

Lemma graph_nodes config defs allow nodes :
  create_function_graph types_match adapter_match any_type defs config allow = Ok nodes ->
  NoDup (dkeys nodes) /\
  (forall x, x ∈ dkeys nodes <->
     (exists d, in_effect config defs x d) \/ x ∈ config \/ exists P, takes config defs P x) /\
  (forall x n, dget nodes x = Some n ->
     (gn_ext n = false -> exists d, in_effect config defs x d /\ gn_params n = fd_params d /\
                                    gn_deps n = (fd_params d).*1) /\
     (gn_ext n = true -> (forall d, ~ in_effect config defs x d) /\ gn_deps n = []) /\
     (forall P, P ∈ gn_rdeps n <-> takes config defs P x) /\
     ((forall d, d ∈ defs -> NoDup (fd_params d).*1) -> NoDup (gn_rdeps n))).
Proof.
  intros Hc. apply create_function_graph_ok in Hc. split_and!.
  - apply (bt_nodup _ _ _ Hc).
  - intros x. rewrite (bt_keys _ _ _ Hc). unfold takes. split.
    + intros [[d Hd]|[?|(P & d & Hd & Hx)]].
      * left. exists d. by apply in_force_iff.
      * right. by left.
      * right. right. exists P, d. split; [by apply in_force_iff|done].
    + intros [[d Hd]|[?|(P & d & Hd & Hx)]].
      * left. exists d. by apply in_force_iff.
      * right. by left.
      * right. right. exists P, d. split; [by apply in_force_iff|done].
  - intros x n Hn. split_and!.
    + intros He. destruct (in_force config defs x) as [d|] eqn:Hf.
      * destruct (bt_fn _ _ _ Hc x d Hf) as (n' & Hn' & ? & ? & ?).
        assert (n' = n) as -> by congruence. exists d. split_and!; try done. by apply in_force_iff.
      * destruct (bt_ext _ _ _ Hc x n Hf Hn). congruence.
    + intros He. destruct (in_force config defs x) as [d|] eqn:Hf.
      * destruct (bt_fn _ _ _ Hc x d Hf) as (n' & Hn' & ? & ? & ?). congruence.
      * split; [by apply in_force_none|]. by destruct (bt_ext _ _ _ Hc x n Hf Hn) as (_ & _ & ?).
    + intros P. rewrite (bt_rdeps _ _ _ Hc x n P Hn). unfold takes. split.
      * intros (d & Hd & ?). exists d. split; [by apply in_force_iff|done].
      * intros (d & Hd & ?). exists d. split; [by apply in_force_iff|done].
    + intros Hps. by eapply (bt_rdeps_nodup _ _ _ Hc).
Qed.

Lemma graph_wf config defs allow nodes :
  create_function_graph types_match adapter_match any_type defs config allow = Ok nodes ->
  (forall d, d ∈ defs -> NoDup (fd_params d).*1) -> wf_graph (to_graph nodes).
Proof. intros Hc. eapply built_wf. by eapply create_function_graph_ok. Qed.

Lemma graph_edge config defs allow nodes x p :
  create_function_graph types_match adapter_match any_type defs config allow = Ok nodes ->
  edge (to_graph nodes) x p <-> takes config defs x p.
Proof.
  intros Hc. rewrite (built_edge config defs) by (by eapply create_function_graph_ok).
  unfold takes. split; intros (d & Hd & ?); exists d; (split; [by apply in_force_iff|done]).
Qed.

(** ** Duplicates *)
Lemma graph_duplicate config defs x : x ∉ config -> defined_twice defs x ->
  exists y, create_function_graph types_match adapter_match any_type defs config false = Err (Duplicate y)
            /\ y ∉ config /\ defined_twice defs y.
Proof.
  intros Hx (a & d & b & d' & c & Heq & Hd & Hd').
  destruct (collect_dup config (a ++ d :: b) d' c []) as [e He].
  { by rewrite Hd'. }
  { right. exists d. split; [|by rewrite Hd]. rewrite elem_of_app, elem_of_cons. tauto. }
  replace ((a ++ d :: b) ++ d' :: c) with defs in He.
  2: { rewrite Heq. by rewrite <-app_assoc. }
  unfold create_function_graph. rewrite He.
  apply collect_err in He as (_ & y & a' & d0 & b' & -> & Hy & Hdefs & Hd0 & Hor).
  exists y. split_and!; try done.
  destruct Hor as [[? ?]|(d1 & Hd1 & Hn1)]; [done|].
  apply elem_of_list_split in Hd1 as (u & v & ->). rewrite Hdefs.
  exists u, d1, v, d0, b'. split_and!; try done. by rewrite <-app_assoc.
Qed.

Lemma graph_no_spurious_duplicate config defs allow y :
  create_function_graph types_match adapter_match any_type defs config allow = Err (Duplicate y) ->
  allow = false /\ y ∉ config /\ defined_twice defs y.
Proof.
  unfold create_function_graph.
  destruct (collect config allow [] defs) as [base|e] eqn:Hcol.
  - intros Herr. exfalso.
    assert (Hadd : forall nodes func p pt, add_dependency types_match adapter_match nodes func p pt <> Err (Duplicate y)).
    { intros nodes func p pt. unfold add_dependency. destruct (dget nodes p); [|done].
      destruct (_ || _); [done|]. destruct (gn_ext g); [|done]. by destruct (_ || _). }
    assert (Hps : forall ps nodes func, add_params types_match adapter_match nodes func ps <> Err (Duplicate y)).
    { induction ps as [|[p [pt dt]] ps IH]; intros nodes func; cbn; [done|].
      destruct (add_dependency _ _ nodes func p pt) eqn:Ha; [apply IH|].
      intros [= ->]. by eapply Hadd. }
    assert (Hall : forall snap nodes, add_all types_match adapter_match nodes snap <> Err (Duplicate y)).
    { induction snap as [|[x n] snap IH]; intros nodes; cbn; [done|].
      destruct (add_params _ _ nodes x (gn_params n)) eqn:Ha; [apply IH|].
      intros [= ->]. by eapply Hps. }
    destruct (update_dependencies _ _ base false) eqn:Hu; [done|]. injection Herr as ->.
    by eapply Hall.
  - intros [= ->]. apply collect_err in Hcol as (-> & z & a' & d0 & b' & [= ->] & Hy & Hdefs & Hd0 & Hor).
    split_and!; try done. destruct Hor as [[? ?]|(d1 & Hd1 & Hn1)]; [done|].
    apply elem_of_list_split in Hd1 as (u & v & ->). rewrite Hdefs.
    exists u, d1, v, d0, b'. split_and!; try done. by rewrite <-app_assoc.
Qed.

(** ** Types *)
Definition okt (pt t : T) : bool := types_match pt t || adapter_match pt t.

Record typed (base : dict (gnode T)) (asked : list (name * T)) (nodes : dict (gnode T)) : Prop := {
  ty_fn : forall k n0, dget base k = Some n0 ->
     exists n, dget nodes k = Some n /\ gn_type n = gn_type n0 /\ gn_ext n = false;
  ty_ext : forall k n, dget base k = None -> dget nodes k = Some n ->
     (k, gn_type n) ∈ asked /\ gn_ext n = true;
}.

Lemma typed_dmod base asked nodes k f :
  typed base asked nodes -> (forall n, gn_type (f n) = gn_type n /\ gn_ext (f n) = gn_ext n) ->
  typed base asked (dmod nodes k f).
Proof.
  intros Ht Hf. constructor.
  - intros x n0 Hx. destruct (ty_fn _ _ _ Ht x n0 Hx) as (n & Hn & Hty & Hext).
    rewrite dget_dmod. destruct (decide (x = k)) as [->|]; [|by exists n].
    rewrite Hn. exists (f n). destruct (Hf n) as [-> ->]. done.
  - intros x n Hx. rewrite dget_dmod. destruct (decide (x = k)) as [->|]; [|by eapply (ty_ext _ _ _ Ht)].
    destruct (dget nodes k) as [n1|] eqn:Hn1; [|done]. intros [= <-].
    destruct (Hf n1) as [-> ->]. by eapply (ty_ext _ _ _ Ht).
Qed.

Lemma typed_mono base asked asked' nodes :
  typed base asked nodes -> (forall kt, kt ∈ asked -> kt ∈ asked') -> typed base asked' nodes.
Proof.
  intros Ht Hsub. constructor; [apply Ht|]. intros k n Hk Hn.
  destruct (ty_ext _ _ _ Ht k n Hk Hn). auto.
Qed.

Lemma typed_add_dependency base asked nodes func p pt :
  typed base asked nodes ->
  match add_dependency types_match adapter_match nodes func p pt with
  | Ok nodes' =>
      typed base (asked ++ [(p, pt)]) nodes' /\
      forall n0, dget base p = Some n0 -> okt pt (gn_type n0) = true
  | Err (EdgeTypes q) => q = p /\ exists n0, dget base p = Some n0 /\ okt pt (gn_type n0) = false
  | Err (InputTypes q) => q = p /\ dget base p = None /\
      exists t0, (p, t0) ∈ asked /\ okt pt t0 = false /\ types_match t0 pt = false
  | Err (Duplicate _) => False
  end.
Proof.
  intros Ht.
  assert (Hedges : forall nodes1, typed base (asked ++ [(p, pt)]) nodes1 ->
    typed base (asked ++ [(p, pt)]) (dmod (dmod nodes1 func (fun n => add_dep n p)) p (fun n => add_rdep n func))).
  { intros nodes1 H1. apply typed_dmod; [|done]. by apply typed_dmod. }
  assert (Hmono : typed base (asked ++ [(p, pt)]) nodes).
  { eapply typed_mono; [done|]. intros kt ?. apply elem_of_app. by left. }
  unfold add_dependency. destruct (dget nodes p) as [rn|] eqn:Hp.
  - fold (okt pt (gn_type rn)). destruct (okt pt (gn_type rn)) eqn:Hok.
    + split; [by apply Hedges|]. intros n0 H0.
      destruct (ty_fn _ _ _ Ht p n0 H0) as (n & Hn & Hty & _). congruence.
    + destruct (gn_ext rn) eqn:Hext.
      * destruct (dget base p) as [n0|] eqn:H0.
        { exfalso. destruct (ty_fn _ _ _ Ht p n0 H0) as (n & Hn & _ & ?). congruence. }
        destruct (types_match (gn_type rn) pt || adapter_match pt (gn_type rn)) eqn:Hrev.
        -- split; [|done]. apply Hedges. constructor.
           ++ intros k n0 Hk. rewrite dget_dset_ne by congruence. by apply (ty_fn _ _ _ Ht).
           ++ intros k n Hk. rewrite dget_dset. destruct (decide (k = p)) as [->|Hne].
              ** intros [= <-]. cbn. split; [|done]. apply elem_of_app. right. by left.
              ** intros Hn. destruct (ty_ext _ _ _ Hmono k n Hk Hn). done.
        -- split_and!; try done. exists (gn_type rn). apply orb_false_iff in Hrev as [? _].
           split_and!; try done. by apply (ty_ext _ _ _ Ht).
      * split; [done|]. destruct (dget base p) as [n0|] eqn:H0.
        -- exists n0. split; [done|]. destruct (ty_fn _ _ _ Ht p n0 H0) as (n & Hn & Hty & _). congruence.
        -- exfalso. destruct (ty_ext _ _ _ Ht p rn H0 Hp). congruence.
  - split.
    + apply Hedges. constructor.
      * intros k n0 Hk. destruct (ty_fn _ _ _ Ht k n0 Hk) as (n & Hn & ? & ?).
        rewrite dget_dset_ne by congruence. by exists n.
      * intros k n Hk. rewrite dget_dset. destruct (decide (k = p)) as [->|Hne].
        -- intros [= <-]. cbn. split; [|done]. apply elem_of_app. right. by left.
        -- intros Hn. by destruct (ty_ext _ _ _ Hmono k n Hk Hn).
    + intros n0 H0. destruct (ty_fn _ _ _ Ht p n0 H0) as (n & Hn & _). congruence.
Qed.

(** Outcome of checking the parameters [ps] (in order) after [asked]. *)
Definition types_outcome base asked (ps : list (name * T)) (r : res build_error (dict (gnode T))) : Prop :=
  match r with
  | Ok nodes' =>
      typed base (asked ++ ps) nodes' /\
      forall p pt n0, (p, pt) ∈ ps -> dget base p = Some n0 -> okt pt (gn_type n0) = true
  | Err (EdgeTypes p) => exists pt n0, (p, pt) ∈ ps /\ dget base p = Some n0 /\ okt pt (gn_type n0) = false
  | Err (InputTypes p) => dget base p = None /\
      exists pt t0, (p, pt) ∈ ps /\ (p, t0) ∈ asked ++ ps /\ okt pt t0 = false /\ types_match t0 pt = false
  | Err (Duplicate _) => False
  end.

Lemma typed_add_params base func ps : forall asked nodes,
  typed base asked nodes ->
  types_outcome base asked (map (fun p => (p.1, p.2.1)) ps) (add_params types_match adapter_match nodes func ps).
Proof.
  induction ps as [|[p [pt dt]] ps IH]; intros asked nodes Ht; cbn.
  - rewrite app_nil_r. split; [done|]. intros ? ? ? Hin. by apply elem_of_nil in Hin.
  - pose proof (typed_add_dependency base asked nodes func p pt Ht) as Hd.
    destruct (add_dependency _ _ nodes func p pt) as [n1|e].
    + destruct Hd as [Ht1 Hok]. specialize (IH _ _ Ht1).
      destruct (add_params _ _ n1 func ps) as [n2|[q|q|q]]; cbn in *; [|done| |].
      * destruct IH as [Ht2 Hall]. split.
        -- by rewrite cons_middle, app_assoc.
        -- intros q qt n0 Hq. apply elem_of_cons in Hq as [[= -> ->]|Hq]; [by apply Hok|by apply Hall].
      * destruct IH as (H0 & qt & t0 & Hq & Ht0 & ? & ?). split; [done|]. exists qt, t0.
        split_and!; try done; [by right|]. rewrite cons_middle, app_assoc. done.
      * destruct IH as (qt & n0 & Hq & ? & ?). exists qt, n0. split_and!; try done. by right.
    + destruct e as [q|q|q]; cbn; [done| |].
      * destruct Hd as (-> & H0 & t0 & Ht0 & ? & ?). split; [done|]. exists pt, t0.
        split_and!; try done; [by left|]. apply elem_of_app. by left.
      * destruct Hd as (-> & n0 & ? & ?). exists pt, n0. split_and!; try done. by left.
Qed.

Definition all_params (snapshot : dict (gnode T)) : list (name * T) :=
  concat (map (fun kn => map (fun p => (p.1, p.2.1)) (gn_params kn.2)) snapshot).

Lemma typed_add_all base snapshot : forall asked nodes,
  typed base asked nodes ->
  types_outcome base asked (all_params snapshot) (add_all types_match adapter_match nodes snapshot).
Proof.
  induction snapshot as [|[x n] rest IH]; intros asked nodes Ht.
  - cbn. rewrite app_nil_r. split; [done|]. intros ? ? ? Hin. by apply elem_of_nil in Hin.
  - change (all_params ((x, n) :: rest)) with (map (fun p => (p.1, p.2.1)) (gn_params n) ++ all_params rest).
    cbn [add_all]. set (qs := map (fun p => (p.1, p.2.1)) (gn_params n)).
    pose proof (typed_add_params base x (gn_params n) asked nodes Ht) as Hd. fold qs in Hd.
    destruct (add_params _ _ nodes x (gn_params n)) as [n1|e].
    + destruct Hd as [Ht1 Hok]. specialize (IH _ _ Ht1).
      destruct (add_all _ _ n1 rest) as [n2|[q|q|q]]; cbn [types_outcome] in *; [|done| |].
      * destruct IH as [Ht2 Hall]. split; [by rewrite app_assoc|].
        intros q qt n0 Hq. apply elem_of_app in Hq as [Hq|Hq]; [by eapply Hok|by eapply Hall].
      * destruct IH as (H0 & qt & t0 & Hq & Ht0 & ? & ?). split; [done|]. exists qt, t0.
        split_and!; try done; [apply elem_of_app; by right|]. by rewrite app_assoc.
      * destruct IH as (qt & n0 & Hq & ? & ?). exists qt, n0. split_and!; try done. apply elem_of_app. by right.
    + destruct e as [q|q|q]; cbn [types_outcome] in *; [done| |].
      * destruct Hd as (H0 & qt & t0 & Hq & Ht0 & ? & ?). split; [done|]. exists qt, t0.
        split_and!; try done; [apply elem_of_app; by left|]. rewrite app_assoc. apply elem_of_app. by left.
      * destruct Hd as (qt & n0 & Hq & ? & ?). exists qt, n0. split_and!; try done. apply elem_of_app. by left.
Qed.

Lemma elem_all_params snapshot p pt : NoDup (dkeys snapshot) ->
  (p, pt) ∈ all_params snapshot <->
  exists x n dt, dget snapshot x = Some n /\ (p, (pt, dt)) ∈ gn_params n.
Proof.
  intros Hnd. unfold all_params. rewrite elem_of_concat. split.
  - intros (l & Hin & Hl). apply elem_of_list_fmap in Hl as ([k n] & -> & Hkn).
    apply elem_of_list_fmap in Hin as ([q [tq dt]] & [= -> ->] & Hq). cbn in *.
    exists k, n, dt. split; [by apply elem_dget|done].
  - intros (x & n & dt & Hn & Hp).
    exists (map (fun p => (p.1, p.2.1)) (gn_params n)). split.
    + apply elem_of_list_fmap. by exists (p, (pt, dt)).
    + apply elem_of_list_fmap. exists (x, n). split; [done|]. by apply dget_elem.
Qed.

(** [P] takes a parameter [x] annotated with [t]. *)
Definition takes_typed config defs (P x : name) (t : T) : Prop :=
  exists d dt, in_effect config defs P d /\ (x, (t, dt)) ∈ fd_params d.

Lemma graph_types config defs allow :
  match create_function_graph types_match adapter_match any_type defs config allow with
  | Ok nodes => forall P x t d, takes_typed config defs P x t -> in_effect config defs x d ->
      types_match t (fd_type d) = true \/ adapter_match t (fd_type d) = true
  | Err (EdgeTypes x) => exists P t d, takes_typed config defs P x t /\ in_effect config defs x d /\
      types_match t (fd_type d) = false /\ adapter_match t (fd_type d) = false
  | Err (InputTypes x) => (forall d, ~ in_effect config defs x d) /\
      exists P t P' t', takes_typed config defs P x t /\ takes_typed config defs P' x t' /\
        types_match t t' = false /\ types_match t' t = false /\ adapter_match t t' = false
  | Err (Duplicate x) => x ∉ config /\ defined_twice defs x
  end.
Proof.
  destruct (create_function_graph types_match adapter_match any_type defs config allow)
    as [nodes|e] eqn:Hc.
  2: destruct e as [x|x|x]; [by apply graph_no_spurious_duplicate in Hc as (_ & ? & ?)| |].
  all: unfold create_function_graph in Hc;
    destruct (collect config allow [] defs) as [base|e'] eqn:Hcol;
      [|try (apply collect_err in Hcol as (_ & z & ? & ? & ? & -> & _); done); done].
  all: destruct (collect_ok _ _ _ _ _ (NoDup_nil_2 : NoDup (dkeys ([] : dict (gnode T)))) Hcol) as [Hndb Hgetb].
  all: assert (Hbase : forall x, dget base x = gnode_of <$> in_force config defs x)
    by (intros y; rewrite Hgetb; unfold in_force; case_decide; [done|]; by destruct (last_def defs y)).
  all: assert (Hty0 : typed base [] base)
    by (constructor; [intros k n0 Hk; exists n0; split_and!; try done;
          rewrite Hbase in Hk; destruct (in_force config defs k); [|done]; by injection Hk as <-
        |congruence]).
  all: pose proof (typed_add_all base base [] base Hty0) as Hout.
  all: unfold update_dependencies in Hc; cbn [andb] in Hc.
  all: assert (Hparams : forall p pt, (p, pt) ∈ all_params base <-> exists P, takes_typed config defs P p pt).
  1,3,5: intros p pt; rewrite elem_all_params by done; split.
  1,3,5: intros (P & n & dt & Hn & Hin); rewrite Hbase in Hn;
    destruct (in_force config defs P) as [d|] eqn:Hf; [|done]; injection Hn as <-;
    exists P, d, dt; split; [by apply in_force_iff|done].
  1,2,3: intros (P & d & dt & Hd & Hin); exists P, (gnode_of d), dt;
    split; [rewrite Hbase; apply in_force_iff in Hd; by rewrite Hd|done].
  - destruct (add_all _ _ base base) as [n1|]; [|done]. destruct Hout as [_ Hok].
    intros P x t d Htk Hd. apply in_force_iff in Hd.
    assert (Ho : okt t (gn_type (gnode_of d)) = true).
    { apply (Hok x). - apply Hparams. by exists P. - by rewrite Hbase, Hd. }
    unfold okt in Ho. by apply orb_true_iff in Ho.
  - destruct (add_all _ _ base base) as [n1|]; [done|]. injection Hc as ->. cbn [types_outcome] in Hout.
    destruct Hout as (H0 & pt & t0 & Hp & Hp0 & Ho & Hm). split.
    { apply in_force_none. rewrite Hbase in H0. by destruct (in_force config defs x). }
    apply Hparams in Hp as [P HP]. cbn [app] in Hp0. apply Hparams in Hp0 as [P' HP'].
    apply orb_false_iff in Ho as [? ?]. exists P, pt, P', t0. done.
  - destruct (add_all _ _ base base) as [n1|]; [done|]. injection Hc as ->. cbn [types_outcome] in Hout.
    destruct Hout as (pt & n0 & Hp & H0 & Ho). apply Hparams in Hp as [P HP].
    rewrite Hbase in H0. destruct (in_force config defs x) as [d|] eqn:Hf; [|done]. injection H0 as <-.
    apply orb_false_iff in Ho as [? ?]. exists P, pt, d. split_and!; try done. by apply in_force_iff.
Qed.

End Results.
