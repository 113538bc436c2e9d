(** Invariants of the depth-first executor. *)
From Verif Require Import Base ExecModel ExecSpec.

Section Traces.
Context {V E : Type}.
Implicit Types (tr : list (event V E)).

Definition stored tr (x : name) : Prop := exists v, Store x v ∈ tr.
Definition no_err tr : Prop := forall x kw e, Call x kw (Err e) ∉ tr.


Lemma stored_app t1 t2 x : stored (t1 ++ t2) x <-> stored t1 x \/ stored t2 x.
Proof.
  unfold stored. setoid_rewrite elem_of_app. naive_solver.
Qed.

Lemma stored_single ev x : stored [ev] x <-> exists v, ev = Store x v.
Proof.
  unfold stored. setoid_rewrite elem_of_list_singleton. naive_solver.
Qed.

Lemma stored_dec tr x : stored tr x \/ ~ stored tr x.
Proof.
  induction tr as [|ev tr IH].
  - right. intros [v Hv]. by apply elem_of_nil in Hv.
  - destruct IH as [[v Hv]|Hn]; [left; exists v; by right|].
    destruct ev as [y kw r|y v|y].
    + right. intros [v Hv]. apply elem_of_cons in Hv as [?|?]; [done|apply Hn; by exists v].
    + destruct (decide (x = y)) as [->|Hne]; [left; exists v; by left|].
      right. intros [w Hv]. apply elem_of_cons in Hv as [?|?]; [congruence|apply Hn; by exists w].
    + right. intros [v Hv]. apply elem_of_cons in Hv as [?|?]; [done|apply Hn; by exists v].
Qed.

Lemma drop_in_trace tr x : Drop x ∈ tr \/ Drop x ∉ tr.
Proof.
  induction tr as [|ev tr IH]; [right; apply not_elem_of_nil|].
  destruct IH as [H|Hn]; [left; by right|].
  destruct ev as [y kw r|y v|y].
  - right. rewrite elem_of_cons. naive_solver.
  - right. rewrite elem_of_cons. naive_solver.
  - destruct (decide (x = y)) as [->|]; [left; by left|].
    right. rewrite elem_of_cons. naive_solver.
Qed.

Lemma no_err_snoc tr ev :
  no_err tr -> (forall x kw e, ev <> Call x kw (Err e)) -> no_err (tr ++ [ev]).
Proof.
  intros Hn Hev x kw e Hin. apply elem_of_app in Hin as [Hin|Hin].
  - by apply (Hn x kw e).
  - apply elem_of_list_singleton in Hin. by apply (Hev x kw e).
Qed.

Lemma calls_of_app t1 t2 : calls_of (V:=V) (E:=E) (t1 ++ t2) = calls_of t1 ++ calls_of t2.
Proof. apply omap_app. Qed.

Lemma stores_of_app t1 t2 : stores_of (V:=V) (E:=E) (t1 ++ t2) = stores_of t1 ++ stores_of t2.
Proof. apply omap_app. Qed.

Lemma drops_no_stored t : (forall e : event V E, e ∈ t -> exists d, e = Drop d) -> forall x, ~ stored t x.
Proof. intros H x [v Hv]. destruct (H _ Hv). done. Qed.
End Traces.

Section Inv.
Context {V E : Type}.
Implicit Types (tr : list (event V E)) (s : state V E).
Variable F : list (event V E) -> name -> gmap name V -> res E V.
Variable g : graph.
Variable inputs overrides : gmap name V.
Variable roots : list name.

Hypothesis Hwf : wf_graph g.
Hypothesis Hacyc : acyclic g.

Notation absent := (absent g inputs overrides).
Notation needed := (needed g overrides roots).

(** What is true when an event happens after the events [tr]. *)
Definition ok_event tr (ev : event V E) : Prop :=
  match ev with
  | Call x kw r =>
      needed x /\ no_err tr /\ ~ stored tr x /\ x ∉ calls_of tr /\ r = F tr x kw /\
      exists nd, g !! x = Some nd /\ nd_ext nd = false /\
        (forall d w, kw !! d = Some w -> d ∈ dep_names nd /\ Store d w ∈ tr) /\
        (forall d dt, (d, dt) ∈ nd_deps nd ->
           (exists w, kw !! d = Some w) \/ (kw !! d = None /\ absent d /\ dt = OPTIONAL))
  | Store x v =>
      ~ stored tr x /\ no_err tr /\
      (x ∈ roots \/ exists P, needed P /\ edge g P x) /\
      (overrides !! x = Some v \/
       (overrides !! x = None /\ needed x /\ exists nd, g !! x = Some nd /\
          ((nd_ext nd = true /\ inputs !! x = Some v) \/
           (nd_ext nd = false /\ exists kw t, tr = t ++ [Call x kw (Ok v)]))))
  | Drop x =>
      x ∉ roots /\ stored tr x /\ Drop x ∉ tr /\ no_err tr /\
      forall P, edge g P x -> stored tr P /\ P ∉ roots
  end.

Definition good tr : Prop := forall t1 ev t2, tr = t1 ++ ev :: t2 -> ok_event t1 ev.

Lemma good_nil : good [].
Proof. intros t1 ev t2 H. by destruct t1. Qed.

Lemma good_snoc tr ev : good tr -> ok_event tr ev -> good (tr ++ [ev]).
Proof.
  intros Hg Hok t1 ev' t2 Heq.
  destruct t2 as [|e2 t2 _] using rev_ind.
  - apply app_inj_tail in Heq as [-> ->]. done.
  - rewrite app_comm_cons, app_assoc in Heq.
    apply app_inj_tail in Heq as [Heq _]. eapply Hg. exact Heq.
Qed.

Lemma good_app_inv t1 t2 : good (t1 ++ t2) -> good t1.
Proof.
  intros Hg a ev b ->. eapply (Hg a ev (b ++ t2)). by rewrite <-app_assoc.
Qed.

(** The memory agrees with the trace. *)
Definition mem_ok s : Prop :=
  forall x v, computed s !! x = Some v <-> Store x v ∈ trace s /\ Drop x ∉ trace s.

(** Every function that returned has its value stored. *)
Definition calls_stored tr : Prop :=
  forall x, x ∈ calls_of tr -> stored tr x.

Record inv s : Prop := {
  inv_good : good (trace s);
  inv_mem : mem_ok s;
  inv_noerr : no_err (trace s);
  inv_calls : calls_stored (trace s);
}.





(** An element of a good trace satisfied its condition when it was emitted. *)
Lemma good_elem tr ev : good tr -> ev ∈ tr -> exists t1 t2, tr = t1 ++ ev :: t2 /\ ok_event t1 ev.
Proof.
  intros Hg Hin. apply elem_of_list_split in Hin as (t1 & t2 & ->).
  exists t1, t2. split; [done|]. by eapply Hg.
Qed.

(** A stored but dropped value is needed by nobody any more. *)
Lemma dropped_consumers s x :
  inv s -> stored (trace s) x -> computed s !! x = None ->
  x ∉ roots /\ forall P, edge g P x -> stored (trace s) P /\ P ∉ roots.
Proof.
  intros Hi [v Hv] Hc.
  assert (Hd : Drop x ∈ trace s).
  { destruct (drop_in_trace (trace s) x) as [?|Hn]; [done|].
    assert (computed s !! x = Some v) by (by apply (inv_mem s Hi)). congruence. }
  destruct (good_elem _ _ (inv_good s Hi) Hd) as (t1 & t2 & Heq & Hok).
  destruct Hok as (Hr & _ & _ & _ & HP). split; [done|].
  intros P HPx. destruct (HP P HPx) as [Hs Hnr]. split; [|done].
  rewrite Heq. apply stored_app. by left.
Qed.

Lemma computed_stored s x v : inv s -> computed s !! x = Some v -> stored (trace s) x.
Proof. intros Hi Hc. exists v. by apply (inv_mem s Hi) in Hc as [? _]. Qed.

(** ** Elementary steps preserve the invariant *)




Lemma inv_drop s d nd :
  inv s -> is_Some (computed s !! d) -> g !! d = Some nd -> d ∉ roots ->
  may_drop roots s nd = true -> inv (drop_ s d).
Proof.
  intros Hi [v Hc] Hg Hr Hmay.
  assert (Hmay' : forall w, w ∈ nd_rdeps nd -> is_Some (computed s !! w) /\ w ∉ roots).
  { intros w Hw. unfold may_drop in Hmay.
    rewrite forallb_forall in Hmay. specialize (Hmay w).
    apply elem_of_list_In in Hw. specialize (Hmay Hw).
    apply andb_prop in Hmay as [H1 H2]. apply negb_true_iff in H2.
    by apply bool_decide_eq_true in H1; apply bool_decide_eq_false in H2. }
  pose proof Hc as Hc'. apply (inv_mem s Hi) in Hc' as [Hst Hnd].
  constructor.
  - apply good_snoc; [by apply inv_good|]. cbn.
    split_and!; [done|by exists v|done|by apply inv_noerr|].
    intros P HP. destruct (Hmay' P) as [[w Hw] HPr].
    { by eapply wf_rdeps. }
    split; [by eapply computed_stored|done].
  - intros x w. cbn. rewrite lookup_delete_Some.
    rewrite (inv_mem s Hi x w). rewrite !elem_of_app, !elem_of_list_singleton. naive_solver.
  - apply no_err_snoc; [by apply inv_noerr|done].
  - intros x. cbn [trace drop_ store emit]. rewrite calls_of_app, stored_app. cbn. rewrite app_nil_r.
    intros Hx. left. by apply (inv_calls s Hi).
Qed.

Definition ext_only tr tr' : Prop := exists t, tr' = tr ++ t.

Lemma prune_inv ds : forall s, inv s ->
  inv (prune g roots s ds) /\
  (exists t, trace (prune g roots s ds) = trace s ++ t /\ forall e, e ∈ t -> exists d, e = Drop d).
Proof.
  induction ds as [|d ds IH]; intros s Hi; cbn.
  { split; [done|]. exists []. split; [by rewrite app_nil_r|]. intros e He. by apply elem_of_nil in He. }
  destruct (computed s !! d) as [v|] eqn:Hc; [|by apply IH].
  destruct (g !! d) as [nd|] eqn:Hg; [|by apply IH].
  case_bool_decide as Hr; [by apply IH|].
  destruct (may_drop roots s nd) eqn:Hm; [|by apply IH].
  assert (Hi' : inv (drop_ s d)) by (eapply inv_drop; eauto).
  destruct (IH _ Hi') as (Hi2 & t & Ht & Hall). split; [done|].
  exists (Drop d :: t). split.
  - rewrite Ht. cbn. by rewrite <-app_assoc.
  - intros e He. apply elem_of_cons in He as [->|He]; [by exists d|by apply Hall].
Qed.


Lemma inv_store s x v :
  inv s -> (~ stored (trace s) x) ->
  ok_event (trace s) (Store x v) -> inv (store s x v).
Proof.
  intros Hi Hns Hok. constructor.
  - apply good_snoc; [by apply inv_good|done].
  - intros y w. cbn. rewrite lookup_insert_Some.
    rewrite (inv_mem s Hi y w). rewrite !elem_of_app, !elem_of_list_singleton.
    split.
    + intros [[-> ->]|[Hne [Hs Hd]]].
      * split; [by right|]. intros [Hd|Hd]; [|done].
        apply Hns. destruct (good_elem _ _ (inv_good s Hi) Hd) as (t1 & t2 & Heq & Hok').
        destruct Hok' as (_ & [u Hu] & _). exists u. rewrite Heq. apply elem_of_app. by left.
      * split; [by left|]. intros [Hd'|Hd']; done.
    + intros [[Hs|Heq] Hd].
      * right. split; [intros ->; apply Hns; by exists w|]. split; [done|]. intros ?. apply Hd. by left.
      * injection Heq as -> ->. by left.
  - apply no_err_snoc; [by apply inv_noerr|done].
  - intros y. cbn [trace drop_ store emit]. rewrite calls_of_app, stored_app. cbn. rewrite app_nil_r.
    intros Hy. left. by apply (inv_calls s Hi).
Qed.

(** ** Gathering the arguments *)

Lemma gather_lookup_aux s ds (kw : gmap name V) d :
  foldl (fun (kw : gmap name V) d => match computed s !! d with Some v => <[d := v]> kw | None => kw end) kw ds !! d
  = (if decide (d ∈ ds) then match computed s !! d with Some v => Some v | None => kw !! d end
     else kw !! d).
Proof.
  revert kw. induction ds as [|a ds IH]; intros kw; cbn [foldl].
  - destruct (decide (d ∈ [])) as [H|H]; [by apply elem_of_nil in H|done].
  - rewrite IH. destruct (decide (d ∈ ds)) as [H|H].
    + rewrite decide_True by (by right).
      destruct (computed s !! d) eqn:Hd; [done|].
      destruct (computed s !! a) eqn:Ha; [|done].
      rewrite lookup_insert_ne; [done|congruence].
    + destruct (decide (d ∈ a :: ds)) as [H'|H'].
      * apply elem_of_cons in H' as [->|]; [|done].
        destruct (computed s !! a); [by rewrite lookup_insert|done].
      * assert (d <> a) by (intros ->; apply H'; by left).
        destruct (computed s !! a); [by rewrite lookup_insert_ne|done].
Qed.

Lemma gather_lookup s ds d :
  gather s ds !! d = if decide (d ∈ ds) then computed s !! d else None.
Proof.
  unfold gather. rewrite gather_lookup_aux. rewrite lookup_empty.
  destruct (decide (d ∈ ds)); [|done]. by destruct (computed s !! d).
Qed.

(** ** The traversal *)

(** How [x] may come to be visited with dependency type [dt]. *)
Definition visitable tr (x : name) (dt : deptype) : Prop :=
  (x ∈ roots /\ (exists nd, g !! x = Some nd /\ (nd_ext nd = true -> dt = OPTIONAL))) \/
  (exists P nd, needed P /\ g !! P = Some nd /\ (x, dt) ∈ nd_deps nd /\ ~ stored tr P).

Lemma visitable_needed tr x dt : visitable tr x dt -> overrides !! x = None -> needed x.
Proof.
  intros [[Hr _]|(P & nd & HP & Hg & Hin & _)] Ho.
  - by apply needed_root.
  - eapply needed_dep; [done| |done]. exists nd. split; [done|].
    apply elem_of_list_fmap. by exists (x, dt).
Qed.

Lemma visitable_origin tr x dt : visitable tr x dt -> x ∈ roots \/ exists P, needed P /\ edge g P x.
Proof.
  intros [[Hr _]|(P & nd & HP & Hg & Hin & _)]; [by left|right].
  exists P. split; [done|]. exists nd. split; [done|].
  apply elem_of_list_fmap. by exists (x, dt).
Qed.

Lemma visitable_fresh s x dt :
  inv s -> visitable (trace s) x dt -> computed s !! x = None -> ~ stored (trace s) x.
Proof.
  intros Hi Hv Hc Hs. destruct (dropped_consumers s x Hi Hs Hc) as [Hr HP].
  destruct Hv as [[Hr' _]|(P & nd & HPn & Hg & Hin & Hns)]; [done|].
  apply Hns. apply HP. exists nd. split; [done|]. apply elem_of_list_fmap. by exists (x, dt).
Qed.

(** The exceptions a run can end with. *)
Definition bad_end tr (e : exn E) : Prop :=
  match e with
  | EUser e' => exists t x kw, tr = t ++ [Call x kw (Err e')] /\ no_err t
  | EMissing y =>
      absent y /\ no_err tr /\
      exists P nd, needed P /\ g !! P = Some nd /\ (y, REQUIRED) ∈ nd_deps nd
  end.

(** Postcondition of a traversal started in [s] that may store only nodes satisfying [up]. *)
Definition post s (up : name -> Prop) (Q : state V E -> Prop) (o : outcome V E) : Prop :=
  match o with
  | Done s' =>
      inv s' /\ ext_only (trace s) (trace s') /\
      (forall y, stored (trace s') y -> stored (trace s) y \/ up y) /\ Q s'
  | Raise s' e =>
      good (trace s') /\ bad_end (trace s') e /\ ext_only (trace s) (trace s')
  | Fuel | Stuck => False
  end.

Definition dfs_spec (fuel : nat) : Prop :=
  forall (stk : list name) s x dt,
    inv s -> is_Some (g !! x) -> visitable (trace s) x dt ->
    NoDup stk -> (forall y, y ∈ stk -> is_Some (g !! y) /\ tc (edge g) y x) ->
    S (size g) <= length stk + fuel ->
    post s (rtc (edge g) x)
         (fun s' => stored (trace s') x \/ (absent x /\ dt = OPTIONAL))
         (dfs F g inputs overrides roots fuel s x dt).

Lemma stack_bound (stk : list name) :
  NoDup stk -> (forall y, y ∈ stk -> is_Some (g !! y)) -> length stk <= size g.
Proof.
  intros Hnd Hin. rewrite <-(size_list_to_set (C:=gset name)) by done.
  assert (Hsz : size (dom g : gset name) = size g) by apply size_dom.
  rewrite <-Hsz. apply subseteq_size. intros y Hy.
  apply elem_of_list_to_set in Hy. apply elem_of_dom. by apply Hin.
Qed.

Lemma ext_only_refl tr : ext_only tr tr.
Proof. exists []. by rewrite app_nil_r. Qed.
Lemma ext_only_trans a b c : ext_only a b -> ext_only b c -> ext_only a c.
Proof. intros [t ->] [u ->]. exists (t ++ u). by rewrite app_assoc. Qed.
Lemma ext_only_stored a b x : ext_only a b -> stored a x -> stored b x.
Proof. intros [t ->] H. apply stored_app. by left. Qed.
Lemma ext_only_snoc a e : ext_only a (a ++ [e]).
Proof. by exists [e]. Qed.

Lemma visit_deps_spec fuel (Hrec : dfs_spec fuel) stk x nd :
  g !! x = Some nd -> needed x ->
  NoDup (x :: stk) -> (forall y, y ∈ x :: stk -> is_Some (g !! y)) ->
  (forall y, y ∈ stk -> tc (edge g) y x) ->
  S (size g) <= length (x :: stk) + fuel ->
  forall ds s, (forall d dt, (d, dt) ∈ ds -> (d, dt) ∈ nd_deps nd) ->
    inv s -> ~ stored (trace s) x ->
    post s (fun y => exists d, edge g x d /\ rtc (edge g) d y)
         (fun s' => ~ stored (trace s') x /\
                    forall d dt, (d, dt) ∈ ds -> stored (trace s') d \/ (absent d /\ dt = OPTIONAL))
         (visit_deps (dfs F g inputs overrides roots fuel) s ds).
Proof.
  intros Hg Hneed Hnd Hin Htc Hfuel.
  induction ds as [|[d dt] ds IH]; intros s Hsub Hi Hns; cbn.
  { split_and!; [done|apply ext_only_refl|by left|done|].
    intros d dt Hd. by apply elem_of_nil in Hd. }
  assert (Hdd : (d, dt) ∈ nd_deps nd) by (apply Hsub; by left).
  assert (Hed : edge g x d).
  { exists nd. split; [done|]. apply elem_of_list_fmap. by exists (d, dt). }
  assert (Hsub' : forall d dt, (d, dt) ∈ ds -> (d, dt) ∈ nd_deps nd)
    by (intros; apply Hsub; by right).
  destruct (computed s !! d) as [v|] eqn:Hc.
  - specialize (IH s Hsub' Hi Hns).
    destruct (visit_deps _ s ds) as [s'|s' e| |]; cbn in *; [|done|done|done].
    destruct IH as (Hi' & Hx & Hup & Hns' & Hall). split_and!; try done.
    intros d' dt' Hd'. apply elem_of_cons in Hd' as [Heq|Hd']; [|by apply Hall].
    injection Heq as -> ->. left. eapply ext_only_stored; [done|]. by eapply computed_stored.
  - assert (Hpre : post s (rtc (edge g) d)
         (fun s' => stored (trace s') d \/ (absent d /\ dt = OPTIONAL))
         (dfs F g inputs overrides roots fuel s d dt)).
    { apply (Hrec (x :: stk)); try done.
      - by eapply wf_closed.
      - right. exists x, nd. split_and!; done.
      - intros y Hy. split; [by apply Hin|].
        apply elem_of_cons in Hy as [->|Hy]; [by apply tc_once|].
        eapply tc_r; [by apply Htc|done]. }
    destruct (dfs F g inputs overrides roots fuel s d dt) as [s1|s1 e| |]; cbn in *; [|done|done|done].
    destruct Hpre as (Hi1 & Hx1 & Hup1 & Hd1).
    assert (Hns1 : ~ stored (trace s1) x).
    { intros Hs. destruct (Hup1 x Hs) as [?|Hr]; [done|].
      apply (Hacyc x). by eapply tc_rtc_r; [apply tc_once|]. }
    specialize (IH s1 Hsub' Hi1 Hns1).
    destruct (visit_deps _ s1 ds) as [s'|s' e| |]; cbn in *; [| |done|done].
    + destruct IH as (Hi' & Hx & Hup & Hns' & Hall). split_and!; try done.
      * by eapply ext_only_trans.
      * intros y Hy. destruct (Hup y Hy) as [Hy1|?]; [|by right].
        destruct (Hup1 y Hy1) as [?|Hr]; [by left|]. right. by exists d.
      * intros d' dt' Hd'. apply elem_of_cons in Hd' as [Heq|Hd']; [|by apply Hall].
        injection Heq as -> ->. destruct Hd1 as [Hd1|?]; [|by right].
        left. by eapply ext_only_stored.
    + destruct IH as (? & ? & ?). split_and!; try done. by eapply ext_only_trans.
Qed.

Lemma absent_dec x nd : g !! x = Some nd -> nd_ext nd = true ->
  overrides !! x = None -> inputs !! x = None -> absent x.
Proof. intros. split_and!; try done. by exists nd. Qed.

(** Nothing is stored for an absent variable. *)
Lemma absent_not_stored tr x : good tr -> absent x -> ~ stored tr x.
Proof.
  intros Hg (Ho & Hin & nd & Hgx & Hext) [v Hv].
  destruct (good_elem _ _ Hg Hv) as (t1 & t2 & _ & _ & _ & _ & Hcase).
  destruct Hcase as [?|(_ & _ & nd' & Hg' & [[_ ?]|[? _]])]; congruence.
Qed.

Lemma dfs_ok fuel : dfs_spec fuel.
Proof.
  induction fuel as [|fuel IHf]; intros stk s x dt Hi Hgx Hvis Hnd Hstk Hfuel.
  { exfalso. assert (length stk <= size g) by (apply stack_bound; [done|]; intros; by apply Hstk). lia. }
  destruct Hgx as [nd Hg]. cbn [dfs]. rewrite Hg.
  destruct (computed s !! x) as [v|] eqn:Hc.
  { cbn. split_and!; [done|apply ext_only_refl|by left|left; by eapply computed_stored]. }
  assert (Hfresh : ~ stored (trace s) x) by (by eapply visitable_fresh).
  destruct (overrides !! x) as [v|] eqn:Ho.
  { cbn. assert (Hok : ok_event (trace s) (Store x v)).
    { cbn. split_and!; [done|by apply inv_noerr|by eapply visitable_origin|by left]. }
    split_and!; [by apply inv_store|apply ext_only_snoc| |].
    - intros y. rewrite stored_app, stored_single. intros [?|[w [= -> ->]]]; [by left|by right].
    - left. apply stored_app. right. apply stored_single. by exists v. }
  assert (Hneed : needed x) by (by eapply visitable_needed).
  assert (Hxs : x ∉ stk) by (intros Hx; apply (Hacyc x); by apply Hstk).
  pose proof (visit_deps_spec fuel IHf stk x nd Hg Hneed) as Hvd.
  assert (Hpost := Hvd ltac:(by constructor)
    ltac:(intros y Hy; apply elem_of_cons in Hy as [->|Hy]; [by eexists|by apply Hstk])
    ltac:(intros y Hy; by apply Hstk) ltac:(cbn [length]; lia)
    (nd_deps nd) s ltac:(done) Hi Hfresh).
  clear Hvd.
  destruct (visit_deps _ s (nd_deps nd)) as [s1|s1 e| |] eqn:Hvisit; [|done|done|done].
  destruct Hpost as (Hi1 & Hx1 & Hup1 & Hns1 & Hall).
  assert (Hup1' : forall y, stored (trace s1) y -> stored (trace s) y \/ rtc (edge g) x y).
  { intros y Hy. destruct (Hup1 y Hy) as [?|(d & Hed & Hr)]; [by left|right].
    by eapply rtc_l. }
  destruct (nd_ext nd) eqn:Hext.
  - destruct (inputs !! x) as [v|] eqn:Hin.
    + assert (Hok : ok_event (trace s1) (Store x v)).
      { cbn. split_and!; [done|by apply inv_noerr|by eapply visitable_origin|].
        right. split_and!; [done|done|]. exists nd. split; [done|]. by left. }
      assert (Hi2 : inv (store s1 x v)) by (by apply inv_store).
      destruct (prune_inv (dep_names nd) _ Hi2) as (Hi3 & t & Ht & Hdrops).
      cbn [post]. split_and!; [done| | |].
      * rewrite Ht. eapply ext_only_trans; [done|]. eapply ext_only_trans; [apply ext_only_snoc|].
        by exists t.
      * intros y. rewrite Ht, stored_app. intros [Hy|Hy]; [|by apply drops_no_stored in Hy].
        cbn in Hy. rewrite stored_app, stored_single in Hy.
        destruct Hy as [Hy|[w [= -> ->]]]; [by apply Hup1'|by right].
      * left. rewrite Ht. apply stored_app. left. cbn. apply stored_app. right.
        apply stored_single. by exists v.
    + destruct dt.
      * cbn [post]. split_and!; [by apply inv_good| |done].
        cbn. split_and!; [by eapply absent_dec|by apply inv_noerr|].
        destruct Hvis as [[_ (nd' & Hg' & Hopt)]|(P & ndP & HP & HgP & HinP & _)].
        -- rewrite Hg in Hg'. injection Hg' as <-. specialize (Hopt Hext). done.
        -- by exists P, ndP.
      * cbn [post]. split_and!; [done|done|done|].
        right. split; [by eapply absent_dec|done].
  - set (kw := gather s1 (dep_names nd)).
    set (r := F (trace s1) x kw).
    assert (Hok : ok_event (trace s1) (Call x kw r)).
    { cbn. split_and!; [done|by apply inv_noerr|done| |done|].
      - intros Hcall. apply Hns1. by apply (inv_calls s1 Hi1).
      - exists nd. split_and!; [done|done| |].
        + intros d w. unfold kw. rewrite gather_lookup.
          destruct (decide (d ∈ dep_names nd)) as [Hd|Hd]; [|done].
          intros Hcd. split; [done|]. by apply (inv_mem s1 Hi1) in Hcd as [? _].
        + intros d dt' Hd. unfold kw. rewrite gather_lookup.
          rewrite decide_True by (apply elem_of_list_fmap; by exists (d, dt')).
          destruct (computed s1 !! d) as [w|] eqn:Hcd; [left; by exists w|].
          right. split; [done|]. destruct (Hall d dt' Hd) as [Hst|?]; [|done].
          exfalso. destruct (dropped_consumers s1 d Hi1 Hst Hcd) as [_ HP].
          apply Hns1. apply HP. exists nd. split; [done|].
          apply elem_of_list_fmap. by exists (d, dt'). }
    assert (Hgood2 : good (trace s1 ++ [Call x kw r])) by (apply good_snoc; [by apply inv_good|done]).
    destruct r as [v|e] eqn:Hr.
    + set (s2 := emit s1 (Call x kw (Ok v))).
      assert (Hns2 : ~ stored (trace s2) x).
      { unfold s2. cbn. rewrite stored_app, stored_single. intros [?|[? ?]]; done. }
      assert (Hstore : ok_event (trace s2) (Store x v)).
      { cbn. split_and!; [done| |by eapply visitable_origin|].
        - apply no_err_snoc; [by apply inv_noerr|done].
        - right. split_and!; [done|done|]. exists nd. split; [done|]. right. split; [done|].
          by exists kw, (trace s1). }
      (* the state after the call does not satisfy [inv] (the call is not stored yet) *)
      assert (Hi3 : inv (store s2 x v)).
      { constructor.
        - apply good_snoc; [done|done].
        - intros y w. cbn. rewrite lookup_insert_Some.
          rewrite (inv_mem s1 Hi1 y w). rewrite !elem_of_app, !elem_of_list_singleton.
          split.
          + intros [[-> ->]|[Hne [Hs Hd]]].
            * split; [by right|]. intros [[Hd|Hd]|Hd]; [|done|done].
              destruct (good_elem _ _ (inv_good s1 Hi1) Hd) as (t1 & t2 & Heq & Hok').
              destruct Hok' as (_ & Hst & _). apply Hns1. rewrite Heq. apply stored_app. by left.
            * split; [left; by left|]. intros [[Hd'|Hd']|Hd']; done.
          + intros [[[Hs|Heq]|Heq] Hd].
            * right. split; [intros ->; apply Hns1; by exists w|].
              split; [done|]. intros ?. apply Hd. left. by left.
            * done.
            * injection Heq as -> ->. by left.
        - apply no_err_snoc; [|done]. apply no_err_snoc; [by apply inv_noerr|done].
        - intros y. cbn [trace drop_ store emit]. unfold s2. cbn [trace emit].
          rewrite !calls_of_app, !stored_app.
          change (calls_of [Call x kw (Ok v)]) with [x].
          change (calls_of [Store x v]) with (@nil name).
          rewrite !elem_of_app. rewrite elem_of_list_singleton.
          intros [[Hy|Hy]|Hy].
          + left. left. by apply (inv_calls s1 Hi1).
          + right. apply stored_single. exists v. by rewrite Hy.
          + by apply elem_of_nil in Hy. }
      destruct (prune_inv (dep_names nd) _ Hi3) as (Hi4 & t & Ht & Hdrops).
      cbn [post]. split_and!; [done| | |].
      * rewrite Ht. eapply ext_only_trans; [done|].
        exists ([Call x kw (Ok v)] ++ [Store x v] ++ t). cbn. by rewrite <-!app_assoc.
      * intros y. rewrite Ht, stored_app. intros [Hy|Hy]; [|by apply drops_no_stored in Hy].
        cbn in Hy. rewrite !stored_app, !stored_single in Hy.
        destruct Hy as [[Hy|[w ?]]|[w [= -> ->]]]; [by apply Hup1'|done|by right].
      * left. rewrite Ht. apply stored_app. left. cbn. apply stored_app. right.
        apply stored_single. by exists v.
    + cbn [post]. split_and!; [done| |].
      * exists (trace s1), x, kw. split; [done|]. by apply inv_noerr.
      * eapply ext_only_trans; [done|]. apply ext_only_snoc.
Qed.

Lemma inv_init : inv (State ∅ []).
Proof.
  constructor.
  - apply good_nil.
  - intros x v. cbn. rewrite lookup_empty. split; [done|]. intros [H _]. by apply elem_of_nil in H.
  - intros x kw e H. by apply elem_of_nil in H.
  - intros x H. by apply elem_of_nil in H.
Qed.

Lemma run_roots_ok xs : forall s,
  inv s -> (forall x, x ∈ xs -> x ∈ roots /\ is_Some (g !! x)) ->
  post s (fun _ => True)
       (fun s' => forall x, x ∈ xs -> stored (trace s') x \/ absent x)
       (run_roots F g inputs overrides roots (S (size g)) s xs).
Proof.
  induction xs as [|x xs IH]; intros s Hi Hxs; cbn [run_roots].
  { split_and!; [done|apply ext_only_refl|by left|]. intros x Hx. by apply elem_of_nil in Hx. }
  destruct (Hxs x ltac:(by left)) as [Hr [nd Hg]]. rewrite Hg.
  set (dt := if nd_ext nd then OPTIONAL else REQUIRED).
  assert (Hpre : post s (rtc (edge g) x)
         (fun s' => stored (trace s') x \/ (absent x /\ dt = OPTIONAL))
         (dfs F g inputs overrides roots (S (size g)) s x dt)).
  { apply (dfs_ok (S (size g)) []); try done; try (by eexists); try (by constructor); try (cbn [length]; lia).
    - left. split; [done|]. exists nd. split; [done|]. unfold dt. by intros ->.
    - intros y Hy. by apply elem_of_nil in Hy. }
  destruct (dfs F g inputs overrides roots (S (size g)) s x dt) as [s1|s1 e| |]; cbn [post] in *; [|done|done|done].
  destruct Hpre as (Hi1 & Hx1 & _ & Hd1).
  specialize (IH s1 Hi1 ltac:(intros; apply Hxs; by right)).
  destruct (run_roots F g inputs overrides roots (S (size g)) s1 xs) as [s'|s' e| |]; cbn [post] in *; [| |done|done].
  - destruct IH as (Hi' & Hx & _ & Hall). split_and!; try done.
    + by eapply ext_only_trans.
    + by right.
    + intros y Hy. apply elem_of_cons in Hy as [->|Hy]; [|by apply Hall].
      destruct Hd1 as [Hd1|[? _]]; [|by right]. left. by eapply ext_only_stored.
  - destruct IH as (? & ? & ?). split_and!; try done. by eapply ext_only_trans.
Qed.

Lemma execute_subdag_ok :
  (forall x, x ∈ roots -> is_Some (g !! x)) ->
  post (State ∅ []) (fun _ => True)
       (fun s' => forall x, x ∈ roots -> stored (trace s') x \/ absent x)
       (execute_subdag F g inputs overrides roots).
Proof. intros H. unfold execute_subdag. apply run_roots_ok; [apply inv_init|]. auto. Qed.

(** ** Consequences for traces *)

Lemma good_calls_nodup tr : good tr -> NoDup (calls_of tr).
Proof.
  induction tr as [|ev tr IH] using rev_ind; intros Hg; [constructor|].
  assert (Hg' := good_app_inv _ _ Hg). specialize (IH Hg').
  assert (Hev : ok_event tr ev) by (by eapply (Hg tr ev [])).
  rewrite calls_of_app. destruct ev as [x kw r|x v|x]; cbn; [|by rewrite app_nil_r..].
  apply NoDup_app. split_and!; [done| |apply NoDup_singleton].
  intros y Hy Hy'. apply elem_of_list_singleton in Hy' as ->. by destruct Hev as (_ & _ & _ & ? & _).
Qed.

Lemma stores_of_elem tr x : x ∈ stores_of tr <-> stored tr x.
Proof.
  unfold stores_of, stored. rewrite elem_of_list_omap. split.
  - intros (ev & Hin & Hev). destruct ev; simplify_eq. eauto.
  - intros (v & Hin). eauto.
Qed.

Lemma good_stores_nodup tr : good tr -> NoDup (stores_of tr).
Proof.
  induction tr as [|ev tr IH] using rev_ind; intros Hg; [constructor|].
  assert (Hg' := good_app_inv _ _ Hg). specialize (IH Hg').
  assert (Hev : ok_event tr ev) by (by eapply (Hg tr ev [])).
  rewrite stores_of_app. destruct ev as [x kw r|x v|x]; cbn; [by rewrite app_nil_r| |by rewrite app_nil_r].
  apply NoDup_app. split_and!; [done| |apply NoDup_singleton].
  intros y Hy Hy'. apply elem_of_list_singleton in Hy' as ->. destruct Hev as (Hn & _).
  apply Hn. by apply stores_of_elem.
Qed.

(** A value stored by a function node comes right after its call. *)
Lemma stored_called tr x v :
  good tr -> Store x v ∈ tr -> overrides !! x = None ->
  (exists nd, g !! x = Some nd /\ nd_ext nd = false) -> 
  exists kw t1 t2, tr = t1 ++ Call x kw (Ok v) :: Store x v :: t2.
Proof.
  intros Hg Hin Ho (nd & Hgx & Hext).
  destruct (good_elem _ _ Hg Hin) as (t1 & t2 & -> & _ & _ & _ & Hcase).
  destruct Hcase as [?|(_ & _ & nd' & Hg' & [[? _]|(_ & kw & t & ->)])]; [congruence|congruence|].
  exists kw, t, t2. by rewrite <-app_assoc.
Qed.

End Inv.
