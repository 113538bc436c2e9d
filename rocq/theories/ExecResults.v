(** Consequences of the executor invariants, at the level of [default_execute]. *)
From Verif Require Import Base ExecModel ExecSpec ExecProofs.

Section EvalFacts.
Context {V E : Type}.
Variable f : name -> gmap name V -> res E V.
Variable g : graph.
Variable inputs overrides : gmap name V.
Notation eval := (eval f g inputs overrides).
Notation absent := (absent g inputs overrides).

Lemma absent_no_eval x v : absent x -> ~ eval x v.
Proof.
  intros (Ho & Hi & nd & Hg & Hext) Hev. destruct Hev; congruence.
Qed.

(** Two argument dictionaries for the same node agree as soon as the values of the
    dependencies are determined. *)
Lemma kw_unique nd (kw kw' : gmap name V) :
  (forall d w, kw !! d = Some w -> d ∈ dep_names nd) ->
  (forall d w, kw !! d = Some w -> eval d w) ->
  (forall d dt, (d, dt) ∈ nd_deps nd -> kw !! d = None -> absent d /\ dt = OPTIONAL) ->
  (forall d w, kw' !! d = Some w -> d ∈ dep_names nd) ->
  (forall d w, kw' !! d = Some w -> eval d w) ->
  (forall d dt, (d, dt) ∈ nd_deps nd -> kw' !! d = None -> absent d /\ dt = OPTIONAL) ->
  (forall d w w', kw !! d = Some w -> eval d w' -> w = w') ->
  kw = kw'.
Proof.
  intros Hd He Ha Hd' He' Ha' Huniq. apply map_eq. intros d.
  destruct (kw !! d) as [w|] eqn:Hk; destruct (kw' !! d) as [w'|] eqn:Hk'; [| | |done].
  - f_equal. eapply Huniq; [done|]. by apply He'.
  - specialize (Hd _ _ Hk). apply elem_of_list_fmap in Hd as ([d0 dt] & -> & Hin). cbn in *.
    destruct (Ha' _ _ Hin Hk') as [Habs _]. by destruct (absent_no_eval _ w Habs); apply He.
  - specialize (Hd' _ _ Hk'). apply elem_of_list_fmap in Hd' as ([d0 dt] & -> & Hin). cbn in *.
    destruct (Ha _ _ Hin Hk) as [Habs _]. by destruct (absent_no_eval _ w' Habs); apply He'.
Qed.

Lemma eval_functional x v : eval x v -> forall v', eval x v' -> v = v'.
Proof.
  induction 1 as [x v Ho|x nd v Ho Hg Hext Hin|x nd kw v Ho Hg Hext Hdep Hev IH Habs Hf];
    intros v' Hev'.
  - destruct Hev'; congruence.
  - destruct Hev'; congruence.
  - inversion Hev' as [|? nd' ? Ho' Hg' Hext'|? nd' kw' ? Ho' Hg' Hext' Hdep' Hev'' Habs' Hf']; subst;
      [congruence|congruence|].
    assert (nd' = nd) as -> by congruence.
    assert (kw = kw') as <- by (eapply kw_unique; eauto). congruence.
Qed.
End EvalFacts.

Section Results.
Context {V E : Type}.
Implicit Types (tr : list (event V E)) (s : state V E).
Variable g : graph.
Variable inputs overrides : gmap name V.
Variable roots : list name.
Hypothesis Hwf : wf_graph g.

Notation absent := (absent g inputs overrides).
Notation needed := (needed g overrides roots).

(** ** Everything needed is executed *)
Section AnyF.
Variable F : list (event V E) -> name -> gmap name V -> res E V.
Notation good := (good F g inputs overrides roots).

Lemma good_available tr d w : good tr -> Store d w ∈ tr -> available g inputs overrides tr d w.
Proof.
  intros Hg Hin. destruct (good_elem _ _ _ _ _ _ _ Hg Hin) as (t1 & t2 & -> & _ & _ & _ & Hc).
  destruct Hc as [Ho|(Ho & Hn & nd & Hgd & Hc)]; [by left|right].
  split; [done|]. exists nd. split; [done|].
  destruct Hc as [?|(Hext & kw & t & ->)]; [by left|right]. split; [done|].
  exists kw. rewrite !elem_of_app. left. right. by left.
Qed.

Lemma needed_stored tr x :
  good tr -> no_err tr -> (forall y, y ∈ calls_of tr -> stored tr y) ->
  (forall y, y ∈ roots -> stored tr y \/ absent y) ->
  needed x -> stored tr x \/ absent x.
Proof.
  intros Hg Hne Hcs Hroots. induction 1 as [x Hr Ho|x d Hn IH Hed Ho].
  - by apply Hroots.
  - assert (Hox : overrides !! x = None) by (by inversion Hn).
    destruct Hed as (nd & Hgx & Hd).
    destruct IH as [[v Hv]|(_ & _ & nd' & Hgx' & Hext')].
    + destruct (nd_ext nd) eqn:Hext.
      { apply (wf_ext _ Hwf x nd Hgx) in Hext. unfold dep_names in Hd. rewrite Hext in Hd.
        by apply elem_of_nil in Hd. }
      destruct (stored_called F g inputs overrides roots tr x v Hg Hv Hox) as (kw & t1 & t2 & Heq).
      { by exists nd. }
      assert (Hok := Hg _ _ _ Heq).
      destruct Hok as (_ & _ & _ & _ & _ & nd' & Hgx' & _ & Hkw & Hall).
      assert (nd' = nd) as -> by congruence.
      unfold dep_names in Hd. apply elem_of_list_fmap in Hd as ([d0 dt] & -> & Hin). cbn in *.
      destruct (Hall _ _ Hin) as [[w Hw]|(_ & Habs & _)]; [|by right].
      left. exists w. rewrite Heq. apply elem_of_app. left. by apply (Hkw d0 w).
    + exfalso. assert (nd' = nd) as -> by congruence. apply (wf_ext _ Hwf x nd Hgx) in Hext'.
      unfold dep_names in Hd. rewrite Hext' in Hd. by apply elem_of_nil in Hd.
Qed.

Lemma calls_needed tr x : good tr -> x ∈ calls_of tr ->
  needed x /\ exists nd, g !! x = Some nd /\ nd_ext nd = false.
Proof.
  intros Hg Hin. unfold calls_of in Hin. apply elem_of_list_omap in Hin as (ev & Hev & Hx).
  destruct ev as [y kw r|?|?]; simplify_eq.
  destruct (good_elem _ _ _ _ _ _ _ Hg Hev) as (t1 & t2 & -> & Hn & _ & _ & _ & _ & nd & Hgx & Hext & _).
  split; [done|]. by exists nd.
Qed.

Lemma elem_calls_of tr x kw r : Call x kw r ∈ tr -> x ∈ calls_of tr.
Proof. intros Hin. apply elem_of_list_omap. by exists (Call x kw r). Qed.

Lemma needed_called tr x nd :
  good tr -> no_err tr -> (forall y, y ∈ calls_of tr -> stored tr y) ->
  (forall y, y ∈ roots -> stored tr y \/ absent y) ->
  needed x -> g !! x = Some nd -> nd_ext nd = false -> x ∈ calls_of tr.
Proof.
  intros Hg Hne Hcs Hroots Hn Hgx Hext.
  destruct (needed_stored tr x Hg Hne Hcs Hroots Hn) as [[v Hv]|(_ & _ & nd' & ? & ?)]; [|congruence].
  assert (Hox : overrides !! x = None) by (by inversion Hn).
  destruct (stored_called F g inputs overrides roots tr x v Hg Hv Hox) as (kw & t1 & t2 & ->).
  { by exists nd. }
  eapply elem_calls_of. rewrite elem_of_app, elem_of_cons. by right; left.
Qed.

(** ** Memory *)
Lemma memory_after_app (t1 t2 : list (event V E)) (m : gmap name V) :
  memory_after (t1 ++ t2) m = memory_after t2 (memory_after t1 m).
Proof. revert m. induction t1 as [|[] t1 IH]; intros m; cbn; auto. Qed.

(** A stored value is in memory until it is dropped. *)
Lemma memory_good tr x v : good tr ->
  memory_after tr ∅ !! x = Some v <-> Store x v ∈ tr /\ Drop x ∉ tr.
Proof.
  revert v. induction tr as [|ev tr IH] using rev_ind; intros v Hg.
  - cbn. rewrite lookup_empty, elem_of_nil. naive_solver.
  - assert (Hg' := good_app_inv _ _ _ _ _ _ _ Hg).
    assert (Hok := Hg tr ev [] eq_refl).
    rewrite memory_after_app. rewrite !elem_of_app, !elem_of_list_singleton.
    destruct ev as [y kw r|y w|y]; cbn.
    + rewrite IH by done. naive_solver.
    + destruct Hok as (Hns & _). rewrite lookup_insert_Some. rewrite IH by done. split.
      * intros [[-> ->]|(Hne & Hs & Hd)].
        -- split; [by right|]. intros [Hd|Hd]; [|done].
           destruct (good_elem _ _ _ _ _ _ _ Hg' Hd) as (t1 & t2 & -> & _ & [u Hu] & _).
           apply Hns. exists u. apply elem_of_app. by left.
        -- naive_solver.
      * intros [[Hs|[= -> ->]] Hd].
        -- right. split; [|naive_solver]. intros ->. apply Hns. by exists v.
        -- by left.
    + rewrite lookup_delete_Some. rewrite IH by done. naive_solver.
Qed.

Lemma drop_consumers_done tr t1 x t2 P kw r :
  good tr -> tr = t1 ++ Drop x :: t2 -> Call P kw r ∈ t2 -> ~ edge g P x.
Proof.
  intros Hg -> Hin Hed.
  destruct (Hg t1 (Drop x) t2 eq_refl) as (_ & _ & _ & _ & Hc).
  destruct (Hc P Hed) as [Hst _].
  apply elem_of_list_split in Hin as (u1 & u2 & ->).
  destruct (Hg (t1 ++ Drop x :: u1) (Call P kw r) u2) as (_ & _ & Hns & _).
  { by rewrite <-app_assoc. }
  apply Hns. rewrite stored_app. by left.
Qed.
End AnyF.

(** ** Values *)
Section Pure.
Variable f : name -> gmap name V -> res E V.
Notation good := (good (fun _ => f) g inputs overrides roots).
Notation eval := (eval f g inputs overrides).

Lemma good_eval tr x v : good tr -> Store x v ∈ tr -> eval x v.
Proof.
  remember (length tr) as n eqn:Hlen. assert (Hle : length tr <= n) by lia. clear Hlen.
  revert tr x v Hle. induction n as [|n IH]; intros tr x v Hle Hg Hin.
  { destruct tr; [by apply elem_of_nil in Hin|cbn in Hle; lia]. }
  destruct (good_elem _ _ _ _ _ _ _ Hg Hin) as (t1 & t2 & Heq & _ & _ & _ & Hc).
  destruct Hc as [Ho|(Ho & Hn & nd & Hgx & Hc)]; [by apply eval_override|].
  destruct Hc as [[Hext Hi]|(Hext & kw & t & Ht)]; [by eapply eval_input|].
  subst tr t1.
  assert (Hg1 : good t).
  { eapply good_app_inv. rewrite <-!app_assoc in Hg. exact Hg. }
  assert (Hok := Hg t (Call x kw (Ok v)) (Store x v :: t2)).
  destruct Hok as (_ & _ & _ & _ & Hr & nd' & Hgx' & _ & Hkw & Hall).
  { by rewrite <-!app_assoc. }
  assert (nd' = nd) as -> by congruence.
  rewrite !app_length in Hle. cbn in Hle.
  eapply eval_fn; try done.
  - intros d w Hd. by apply (Hkw d w).
  - intros d w Hd. apply (IH t); [lia|done|]. by apply (Hkw d w).
  - intros d dt Hin' Hnone. destruct (Hall d dt Hin') as [[w Hw]|(_ & ? & ?)]; [congruence|done].
Qed.

(** The arguments of a call are determined. *)
Lemma call_args tr t1 x kw r t2 v :
  good tr -> tr = t1 ++ Call x kw r :: t2 -> eval x v -> r = Ok v.
Proof.
  intros Hg -> Hev.
  assert (Hg1 : good t1) by (by eapply good_app_inv).
  destruct (Hg t1 _ t2 eq_refl) as (Hn & _ & _ & _ & -> & nd & Hgx & Hext & Hkw & Hall).
  assert (Ho : overrides !! x = None) by (by inversion Hn).
  inversion Hev as [|? nd' ? Ho' Hg' Hext'|? nd' kw' ? Ho' Hg' Hext' Hdep' Hev'' Habs' Hf']; subst;
    [congruence|congruence|].
  assert (nd' = nd) as -> by congruence.
  assert (kw = kw') as <-; [|done].
  eapply (kw_unique f g inputs overrides nd); try done.
  - intros d w Hd. by apply (Hkw d w).
  - intros d w Hd. eapply good_eval; [done|]. by apply (Hkw d w).
  - intros d dt Hin' Hnone. destruct (Hall d dt Hin') as [[w Hw]|(_ & ? & ?)]; [congruence|done].
  - intros d w w' Hd Hw'. eapply eval_functional; [|done]. eapply good_eval; [done|]. by apply (Hkw d w).
Qed.
End Pure.
End Results.

(** ** The default executor *)
Section Default.
Context {V E : Type}.
Variable g : graph.
Hypothesis Hwf : wf_graph g.
Hypothesis Hacyc : acyclic g.

(** The part of the request that names variables of the graph. *)
Definition requested (final_vars : list name) : list name :=
  filter (fun x => is_Some (g !! x)) final_vars.

Lemma requested_elem fv x : x ∈ requested fv <-> x ∈ fv /\ is_Some (g !! x).
Proof. unfold requested. rewrite elem_of_list_filter. naive_solver. Qed.

Section Any.
Variable F : list (event V E) -> name -> gmap name V -> res E V.
Variable config inputs overrides : gmap name V.
Variable fv : list name.
Notation all_inputs := (inputs ∪ config).
Notation run := (default_execute F g config inputs overrides fv).

Lemma default_cases :
  (exists k, is_Some (config !! k) /\ is_Some (inputs !! k) /\ run = Clash) \/
  ((forall k, config !! k = None \/ inputs !! k = None) /\
   ((exists s, execute_subdag F g all_inputs overrides (requested fv) = Done s /\
       run = Answer (map (fun x => (x, match computed s !! x with
                                    | Some v => Some v
                                    | None => inputs !! x
                                    end)) fv) (trace s)) \/
    (exists s e, execute_subdag F g all_inputs overrides (requested fv) = Raise s e /\
       run = Failed e (trace s)))).
Proof.
  unfold default_execute, combine_config_and_inputs. fold (requested fv).
  case_bool_decide as Hd.
  - right. split.
    { intros k. destruct (inputs !! k) as [v|] eqn:Hk; [left; by apply (Hd k v)|by right]. }
    assert (Hok := execute_subdag_ok F g all_inputs overrides (requested fv) Hwf Hacyc).
    specialize (Hok ltac:(intros x Hx; by apply requested_elem in Hx as [_ ?])).
    destruct (execute_subdag F g all_inputs overrides (requested fv)) as [s|s e| |]; [| |done|done].
    + left. by exists s.
    + right. by exists s, e.
  - left. apply map_not_Forall in Hd as (k & v & Hk & Hne); [|apply _].
    exists k. split_and!; [|by eexists|done].
    destruct (config !! k) as [w|] eqn:Hc; [by eexists|done].
Qed.

Lemma run_not_diverged : run <> Diverged.
Proof.
  destruct default_cases as [(k & _ & _ & ->)|[_ [(s & _ & ->)|(s & e & _ & ->)]]]; done.
Qed.

Lemma exec_done s : execute_subdag F g all_inputs overrides (requested fv) = Done s ->
  inv F g all_inputs overrides (requested fv) s /\
  forall x, x ∈ requested fv -> stored (trace s) x \/ absent g all_inputs overrides x.
Proof.
  intros Heq.
  assert (Hok := execute_subdag_ok F g all_inputs overrides (requested fv) Hwf Hacyc).
  specialize (Hok ltac:(intros x Hx; by apply requested_elem in Hx as [_ ?])).
  rewrite Heq in Hok. by destruct Hok as (? & _ & _ & ?).
Qed.

Lemma exec_raise s e : execute_subdag F g all_inputs overrides (requested fv) = Raise s e ->
  good F g all_inputs overrides (requested fv) (trace s) /\
  bad_end g all_inputs overrides (requested fv) (trace s) e.
Proof.
  intros Heq.
  assert (Hok := execute_subdag_ok F g all_inputs overrides (requested fv) Hwf Hacyc).
  specialize (Hok ltac:(intros x Hx; by apply requested_elem in Hx as [_ ?])).
  rewrite Heq in Hok. by destruct Hok as (? & ? & _).
Qed.

Lemma run_good : good F g all_inputs overrides (requested fv) (trace_of run).
Proof.
  destruct default_cases as [(k & _ & _ & ->)|[_ [(s & Hs & ->)|(s & e & Hs & ->)]]]; cbn.
  - apply good_nil.
  - apply exec_done in Hs as [Hi _]. apply (inv_good _ _ _ _ _ _ Hi).
  - by apply exec_raise in Hs as [? _].
Qed.

(** A requested variable is in memory at the end. *)
Lemma root_in_memory s x :
  execute_subdag F g all_inputs overrides (requested fv) = Done s -> x ∈ requested fv ->
  (exists v, computed s !! x = Some v /\ Store x v ∈ trace s) \/
  (computed s !! x = None /\ absent g all_inputs overrides x).
Proof.
  intros Hs Hx. destruct (exec_done s Hs) as [Hi Hall].
  destruct (Hall x Hx) as [[v Hv]|Habs].
  - left. exists v. split; [|done]. apply (inv_mem _ _ _ _ _ _ Hi). split; [done|].
    intros Hd. destruct (good_elem _ _ _ _ _ _ _ (inv_good _ _ _ _ _ _ Hi) Hd) as (t1 & t2 & _ & Hr & _).
    done.
  - right. split; [|done]. destruct (computed s !! x) as [v|] eqn:Hc; [|done].
    exfalso. eapply absent_not_stored; [apply (inv_good _ _ _ _ _ _ Hi)|done|].
    by eapply computed_stored.
Qed.

(** C02 *)
Lemma run_calls_nodup : NoDup (calls_of (trace_of run)).
Proof. eapply good_calls_nodup. apply run_good. Qed.

(** C03 *)
Lemma run_calls_needed x : x ∈ calls_of (trace_of run) ->
  needed g overrides (requested fv) x /\ exists nd, g !! x = Some nd /\ nd_ext nd = false.
Proof. eapply calls_needed. apply run_good. Qed.

Lemma run_needed_called out tr x nd : run = Answer out tr ->
  needed g overrides (requested fv) x -> g !! x = Some nd -> nd_ext nd = false -> x ∈ calls_of tr.
Proof.
  intros Hrun Hn Hg Hext.
  destruct default_cases as [(k & _ & _ & Heq)|[_ [(s & Hs & Heq)|(s & e & Hs & Heq)]]];
    rewrite Heq in Hrun; try done. injection Hrun as _ <-.
  destruct (exec_done s Hs) as [Hi Hall].
  eapply needed_called; try done; apply Hi.
Qed.

(** C07 *)
Lemma run_call_args t1 x kw r t2 : trace_of run = t1 ++ Call x kw r :: t2 ->
  r = F t1 x kw /\
  exists nd, g !! x = Some nd /\ nd_ext nd = false /\
   (forall d w, kw !! d = Some w ->
      d ∈ dep_names nd /\ available g all_inputs overrides t1 d w) /\
   (forall d dt, (d, dt) ∈ nd_deps nd -> kw !! d = None ->
      absent g all_inputs overrides d /\ dt = OPTIONAL).
Proof.
  intros Heq. assert (Hg := run_good). rewrite Heq in Hg.
  destruct (Hg t1 _ t2 eq_refl) as (_ & _ & _ & _ & Hr & nd & Hgx & Hext & Hkw & Hall).
  split; [done|]. exists nd. split_and!; try done.
  - intros d w Hd. destruct (Hkw d w Hd) as [? Hst]. split; [done|].
    eapply good_available; [|done]. by eapply good_app_inv.
  - intros d dt Hin Hnone. destruct (Hall d dt Hin) as [[w Hw]|(_ & ? & ?)]; [congruence|done].
Qed.

(** C09 *)
Lemma run_error x kw e : Call x kw (Err e) ∈ trace_of run ->
  exists t, run = Failed (EUser e) (t ++ [Call x kw (Err e)]) /\
    forall y kw' e', Call y kw' (Err e') ∉ t.
Proof.
  intros Hin.
  destruct default_cases as [(k & _ & _ & Heq)|[_ [(s & Hs & Heq)|(s & e' & Hs & Heq)]]];
    rewrite Heq in *; cbn in Hin.
  - by apply elem_of_nil in Hin.
  - destruct (exec_done s Hs) as [Hi _]. exfalso. by apply (inv_noerr _ _ _ _ _ _ Hi x kw e).
  - destruct (exec_raise s e' Hs) as [Hg Hb]. destruct e' as [e0|y]; cbn in Hb.
    + destruct Hb as (t & x0 & kw0 & Ht & Hne). rewrite Ht in Hin.
      apply elem_of_app in Hin as [Hin|Hin]; [exfalso; by apply (Hne x kw e)|].
      apply elem_of_list_singleton in Hin. injection Hin as -> -> ->.
      exists t. split; [by rewrite Ht|done].
    + destruct Hb as (_ & Hne & _). exfalso. by apply (Hne x kw e).
Qed.

Lemma run_failed e tr : run = Failed e tr ->
  match e with
  | EUser e' => exists t x kw, tr = t ++ [Call x kw (Err e')]
  | EMissing y => absent g all_inputs overrides y /\
      (forall x kw e', Call x kw (Err e') ∉ tr) /\
      exists P nd, needed g overrides (requested fv) P /\ g !! P = Some nd /\ (y, REQUIRED) ∈ nd_deps nd
  end.
Proof.
  intros Hrun.
  destruct default_cases as [(k & _ & _ & Heq)|[_ [(s & Hs & Heq)|(s & e' & Hs & Heq)]]];
    rewrite Heq in Hrun; try done. injection Hrun as <- <-.
  destruct (exec_raise s e' Hs) as [Hg Hb]. destruct e' as [e0|y]; cbn in Hb; [|done].
  destruct Hb as (t & x0 & kw0 & Ht & Hne). by exists t, x0, kw0.
Qed.

(** C10 *)
Lemma run_memory t1 t2 x v : trace_of run = t1 ++ t2 -> x ∈ fv -> is_Some (g !! x) ->
  Store x v ∈ t1 -> memory_after t1 ∅ !! x = Some v.
Proof.
  intros Heq Hx Hgx Hst. assert (Hg := run_good). rewrite Heq in Hg. apply good_app_inv in Hg.
  apply (memory_good g all_inputs overrides (requested fv) F _ _ _ Hg).
  split; [done|]. intros Hd.
  destruct (good_elem _ _ _ _ _ _ _ Hg Hd) as (u1 & u2 & _ & Hr & _).
  apply Hr. by apply requested_elem.
Qed.

Lemma run_drop t1 x t2 : trace_of run = t1 ++ Drop x :: t2 ->
  x ∉ fv /\ is_Some (memory_after t1 ∅ !! x) /\
  (forall P, edge g P x -> exists v, Store P v ∈ t1) /\
  (forall P kw r, Call P kw r ∈ t2 -> ~ edge g P x).
Proof.
  intros Heq. assert (Hg := run_good). rewrite Heq in Hg.
  destruct (Hg t1 _ t2 eq_refl) as (Hr & [v Hv] & Hnd & _ & Hc).
  assert (Hg1 : good F g all_inputs overrides (requested fv) t1) by (by eapply good_app_inv).
  split_and!.
  - intros Hx. apply Hr. apply requested_elem. split; [done|].
    destruct (good_elem _ _ _ _ _ _ _ Hg1 Hv) as (u1 & u2 & _ & _ & _ & Horig & _).
    destruct Horig as [Hr'|(P & _ & Hed)]; [done|]. by eapply wf_closed.
  - exists v. by apply (memory_good g all_inputs overrides (requested fv) F _ _ _ Hg1).
  - intros P HP. destruct (Hc P HP) as [? _]. done.
  - intros P kw r Hin. eapply drop_consumers_done; [exact Hg|reflexivity|exact Hin].
Qed.

End Any.

Section Pure.
Variable f : name -> gmap name V -> res E V.
Variable config inputs overrides : gmap name V.
Variable fv : list name.
Notation all_inputs := (inputs ∪ config).
Notation run := (default_execute (fun _ => f) g config inputs overrides fv).
Notation eval := (eval f g all_inputs overrides).

(** C01 *)
Lemma run_values out tr : run = Answer out tr ->
  out.*1 = fv /\
  forall x r, (x, r) ∈ out ->
    match r with
    | Some v => (is_Some (g !! x) /\ eval x v) \/ (g !! x = None /\ inputs !! x = Some v)
    | None => absent g all_inputs overrides x \/ (g !! x = None /\ inputs !! x = None)
    end.
Proof.
  intros Hrun.
  destruct (default_cases (fun _ => f) config inputs overrides fv)
    as [(k & _ & _ & Heq)|[Hdisj [(s & Hs & Heq)|(s & e & Hs & Heq)]]];
    rewrite Heq in Hrun; try done. injection Hrun as <- _.
  split.
  { clear. induction fv as [|x l IH]; cbn; [done|]. by f_equal. }
  intros x r Hin. apply elem_of_list_fmap in Hin as (y & [= -> ->] & Hy).
  destruct (exec_done _ _ _ _ _ _ Hs) as [Hi _].
  destruct (g !! y) as [nd|] eqn:Hgy.
  - destruct (root_in_memory _ _ _ _ _ s y Hs) as [(v & -> & Hst)|[-> Habs]].
    { apply requested_elem. split; [done|by eexists]. }
    + left. split; [by eexists|]. eapply good_eval; [apply (inv_good _ _ _ _ _ _ Hi)|done].
    + destruct Habs as (Ho & Hai & Hx). apply lookup_union_None in Hai as [Hin Hcf].
      rewrite Hin. left. split_and!; try done. by apply lookup_union_None.
  - assert (Hc : computed s !! y = None).
    { destruct (computed s !! y) as [v|] eqn:Hc; [|done]. exfalso.
      apply (computed_stored _ _ _ _ _ _ _ _ Hi) in Hc as [w Hw].
      destruct (good_elem _ _ _ _ _ _ _ (inv_good _ _ _ _ _ _ Hi) Hw) as (u1 & u2 & _ & _ & _ & Horig & _).
      destruct Horig as [Hr|(P & _ & Hed)].
      - apply requested_elem in Hr as [_ [? ?]]. congruence.
      - destruct (wf_closed _ Hwf _ _ Hed). congruence. }
    rewrite Hc. destruct (inputs !! y); by right.
Qed.

Definition can_run : Prop :=
  (forall k, config !! k = None \/ inputs !! k = None) /\
  forall x nd, needed g overrides (requested fv) x -> g !! x = Some nd -> nd_ext nd = false ->
    exists v, eval x v.

(** C06 *)
Lemma run_success : (exists out tr, run = Answer out tr) <-> can_run.
Proof.
  split.
  - intros (out & tr & Hrun). split.
    { destruct (default_cases (fun _ => f) config inputs overrides fv)
        as [(k & _ & _ & Heq)|[Hdisj _]]; [congruence|done]. }
    intros x nd Hn Hg Hext.
    destruct (default_cases (fun _ => f) config inputs overrides fv)
      as [(k & _ & _ & Heq)|[Hdisj [(s & Hs & Heq)|(s & e & Hs & Heq)]]];
      rewrite Heq in Hrun; try done.
    destruct (exec_done _ _ _ _ _ _ Hs) as [Hi Hall].
    destruct (needed_stored g all_inputs overrides (requested fv) Hwf (fun _ => f) (trace s) x)
      as [[v Hv]|(_ & _ & nd' & ? & ?)]; try done; try apply Hi; [|congruence].
    exists v. eapply good_eval; [apply (inv_good _ _ _ _ _ _ Hi)|done].
  - intros [Hdisj Hall].
    destruct (default_cases (fun _ => f) config inputs overrides fv)
      as [(k & [? ?] & [? ?] & Heq)|[_ [(s & Hs & Heq)|(s & e & Hs & Heq)]]].
    + destruct (Hdisj k); congruence.
    + eauto.
    + exfalso. destruct (exec_raise _ _ _ _ _ _ _ Hs) as [Hg Hb]. destruct e as [e|y]; cbn in Hb.
      * destruct Hb as (t & x & kw & Ht & _).
        destruct (calls_needed g all_inputs overrides (requested fv) (fun _ => f) (trace s) x)
          as [Hn (nd & Hgx & Hext)]; [done| |].
        { rewrite Ht. eapply elem_calls_of. rewrite elem_of_app. right. by left. }
        destruct (Hall x nd Hn Hgx Hext) as [v Hv].
        assert (Herr : @Err E V e = Ok v) by (eapply call_args; [exact Hg|exact Ht|exact Hv]). done.
      * destruct Hb as (Habs & _ & P & nd & Hn & HgP & Hin).
        assert (HextP : nd_ext nd = false).
        { destruct (nd_ext nd) eqn:He; [|done]. apply (wf_ext _ Hwf _ _ HgP) in He.
          rewrite He in Hin. by apply elem_of_nil in Hin. }
        destruct (Hall P nd Hn HgP HextP) as [v Hv].
        assert (HoP : overrides !! P = None) by (by inversion Hn).
        inversion Hv as [|? nd' ? Ho' Hg' Hext'|? nd' kw' ? Ho' Hg' Hext' Hdep' Hev'' Habs' Hf']; subst;
          [congruence|congruence|].
        assert (nd' = nd) as -> by congruence.
        destruct (kw' !! y) as [w|] eqn:Hk.
        -- eapply absent_no_eval; [exact Habs|]. by apply Hev''.
        -- by destruct (Habs' _ _ Hin Hk).
Qed.

(** The answer is determined by the meaning of the dataflow. *)
Lemma run_answer_unique out tr x r : run = Answer out tr -> (x, r) ∈ out ->
  forall v, is_Some (g !! x) -> eval x v -> r = Some v.
Proof.
  intros Hrun Hin v Hgx Hev. destruct (run_values out tr Hrun) as [_ Hall].
  specialize (Hall x r Hin). destruct r as [w|].
  - destruct Hall as [[_ Hw]|[? _]]; [|destruct Hgx; congruence].
    f_equal. symmetry. eapply eval_functional; eauto.
  - destruct Hall as [Habs|[? _]]; [|destruct Hgx; congruence].
    by eapply absent_no_eval in Hev.
Qed.
End Pure.
End Default.

(** ** Comparing two runs *)
Section Compare.
Context {V E : Type}.

(** [needed] only depends on the graph at needed nodes. *)
Lemma needed_transfer (g g' : graph) (overrides : gmap name V) roots roots' x :
  (forall y, needed g overrides roots y -> g !! y = g' !! y) ->
  (forall y, y ∈ roots -> y ∈ roots') ->
  needed g overrides roots x -> needed g' overrides roots' x.
Proof.
  intros Hag Hsub. induction 1 as [x Hr Ho|x d Hn IH Hed Ho].
  - apply needed_root; auto.
  - eapply needed_dep; [done| |done]. destruct Hed as (nd & Hg & Hd). exists nd.
    split; [|done]. by rewrite <-(Hag x Hn).
Qed.

Lemma eval_transfer (f f' : name -> gmap name V -> res E V) (g g' : graph) inputs inputs' overrides roots :
  (forall y, needed g overrides roots y ->
     g !! y = g' !! y /\ (forall kw, f y kw = f' y kw) /\ inputs !! y = inputs' !! y) ->
  forall x v, eval f g inputs overrides x v ->
    (is_Some (overrides !! x) \/ needed g overrides roots x) ->
    eval f' g' inputs' overrides x v.
Proof.
  intros Hag x v. induction 1 as [x v Ho|x nd v Ho Hg Hext Hin|x nd kw v Ho Hg Hext Hdep Hev IH Habs Hf];
    intros Hn.
  - by apply eval_override.
  - destruct Hn as [[? ?]|Hn]; [congruence|]. destruct (Hag x Hn) as (Hg' & _ & Hi').
    eapply eval_input; [done| |done|]; congruence.
  - destruct Hn as [[? ?]|Hn]; [congruence|]. destruct (Hag x Hn) as (Hg' & Hf' & Hi').
    assert (Hdn : forall d, d ∈ dep_names nd -> is_Some (overrides !! d) \/ needed g overrides roots d).
    { intros d Hd. destruct (overrides !! d) as [w|] eqn:Hod; [left; by eexists|right].
      eapply needed_dep; [done| |done]. by exists nd. }
    eapply eval_fn; [done|by rewrite <-Hg'|done|done| | |by rewrite <-Hf'].
    + intros d w Hd. apply IH; [done|]. apply Hdn. by eapply Hdep.
    + intros d dt Hin Hnone. destruct (Habs d dt Hin Hnone) as [(Hod & Hid & nd' & Hgd & Hextd) Hopt].
      split; [|done].
      destruct (Hdn d) as [[? ?]|Hnd]; [by apply elem_of_list_fmap; exists (d, dt)|congruence|].
      destruct (Hag d Hnd) as (Hgd' & _ & Hid'). split_and!; [done|congruence|].
      exists nd'. split; [congruence|done].
Qed.

Lemma absent_transfer (g g' : graph) (inputs inputs' overrides : gmap name V) x :
  g !! x = g' !! x -> inputs !! x = inputs' !! x ->
  absent g inputs overrides x -> absent g' inputs' overrides x.
Proof.
  intros Hg Hi (Ho & Hin & nd & Hgx & Hext). split_and!; [done|congruence|]. exists nd.
  split; [congruence|done].
Qed.

Lemma list_eq_assoc {A} (l l' : list (name * A)) :
  l.*1 = l'.*1 -> (forall x r r', (x, r) ∈ l -> (x, r') ∈ l' -> r = r') ->
  l = l'.
Proof.
  revert l'. induction l as [|[x r] l IH]; intros [|[x' r'] l']; cbn; try done.
  intros [= -> Heq] Hall. f_equal.
  - f_equal. apply (Hall x'); by left.
  - apply IH; [done|]. intros y a a' Ha Ha'. by apply (Hall y); right.
Qed.

(** The part of two executions that can matter. *)
Definition agree (f f' : name -> gmap name V -> res E V) (g g' : graph)
    (inputs inputs' overrides : gmap name V) (fv : list name) : Prop :=
  (forall x, x ∈ fv -> is_Some (g !! x) <-> is_Some (g' !! x)) /\
  (forall x, x ∈ fv -> g !! x = None -> inputs !! x = inputs' !! x) /\
  (forall x, needed g overrides (requested g fv) x ->
     g !! x = g' !! x /\ (forall kw, f x kw = f' x kw) /\ inputs !! x = inputs' !! x).

Lemma requested_agree (g g' : graph) fv :
  (forall x, x ∈ fv -> is_Some (g !! x) <-> is_Some (g' !! x)) ->
  requested g fv = requested g' fv.
Proof.
  intros H. unfold requested. induction fv as [|x l IH]; [done|].
  rewrite !filter_cons. assert (Hx : is_Some (g !! x) <-> is_Some (g' !! x)) by (apply H; by left).
  rewrite IH by (intros; apply H; by right).
  destruct (decide (is_Some (g !! x))); destruct (decide (is_Some (g' !! x))); tauto.
Qed.

Lemma noninterference f f' g g' config inputs inputs' overrides fv out tr :
  wf_graph g -> acyclic g -> wf_graph g' -> acyclic g' ->
  (forall k, config !! k = None \/ inputs' !! k = None) ->
  agree f f' g g' inputs inputs' overrides fv ->
  default_execute (fun _ => f) g config inputs overrides fv = Answer out tr ->
  exists tr', default_execute (E:=E) (fun _ => f') g' config inputs' overrides fv = Answer out tr'.
Proof.
  intros Hwf Hac Hwf' Hac' Hdisj (Hdom & Hext & Hag) Hrun.
  assert (Hreq := requested_agree g g' fv Hdom).
  assert (Hag' : forall y, needed g overrides (requested g fv) y ->
     g !! y = g' !! y /\ (forall kw, f y kw = f' y kw) /\ (inputs ∪ config) !! y = (inputs' ∪ config) !! y).
  { intros y Hy. destruct (Hag y Hy) as (? & ? & Hi). split_and!; try done.
    rewrite !lookup_union. by rewrite Hi. }
  assert (Hback : forall y, needed g' overrides (requested g' fv) y -> needed g overrides (requested g fv) y).
  { induction 1 as [y Hr Ho|y d Hn IH Hed Ho].
    - apply needed_root; [by rewrite Hreq|done].
    - eapply needed_dep; [done| |done]. destruct Hed as (nd & Hg & Hd). exists nd.
      split; [|done]. destruct (Hag y IH) as (-> & _). done. }
  assert (Hev : forall x v, is_Some (overrides !! x) \/ needed g overrides (requested g fv) x ->
     eval f g (inputs ∪ config) overrides x v -> eval f' g' (inputs' ∪ config) overrides x v).
  { intros x v Hn Hx. eapply eval_transfer; eauto. }
  assert (Hcan : can_run g f config inputs overrides fv).
  { apply run_success; eauto. }
  destruct Hcan as [_ Hcan].
  assert (Hcan' : can_run g' f' config inputs' overrides fv).
  { split; [done|]. intros x nd Hn Hg Hnext. apply Hback in Hn.
    destruct (Hag x Hn) as (Hgg & _). destruct (Hcan x nd Hn ltac:(congruence) Hnext) as [v Hv].
    exists v. apply Hev; [by right|done]. }
  apply run_success in Hcan' as (out' & tr' & Hrun'); [|done|done].
  exists tr'. rewrite Hrun'. f_equal. symmetry.
  destruct (run_values g Hwf Hac f config inputs overrides fv out tr Hrun) as [Hk Hv].
  destruct (run_values g' Hwf' Hac' f' config inputs' overrides fv out' tr' Hrun') as [Hk' Hv'].
  apply list_eq_assoc; [congruence|].
  intros x r r' Hin Hin'.
  assert (Hxfv : x ∈ fv). { rewrite <-Hk. apply elem_of_list_fmap. by exists (x, r). }
  specialize (Hv x r Hin).
  destruct (g !! x) as [nd|] eqn:Hgx.
  - assert (Hin_g : is_Some (g !! x)) by (by eexists).
    assert (Hxn : is_Some (overrides !! x) \/ needed g overrides (requested g fv) x).
    { destruct (overrides !! x) eqn:Ho; [left; by eexists|right]. apply needed_root; [|done].
      apply requested_elem. done. }
    destruct r as [v|].
    + destruct Hv as [[_ Hv]|[? _]]; [|done]. symmetry.
      eapply run_answer_unique; [exact Hwf'|exact Hac'|exact Hrun'|exact Hin'| |by apply Hev].
      by apply Hdom.
    + destruct Hv as [Habs|[? _]]; [|done].
      assert (Habs' : absent g' (inputs' ∪ config) overrides x).
      { assert (Hn : needed g overrides (requested g fv) x).
        { destruct Hxn as [[? ?]|?]; [|done]. destruct Habs as (? & _). congruence. }
        destruct (Hag' x Hn) as (? & _ & ?).
        by eapply absent_transfer. }
      specialize (Hv' x r' Hin'). destruct r' as [v'|]; [|done].
      destruct Hv' as [[_ Hv']|[Hnone _]].
      * by eapply absent_no_eval in Hv'.
      * destruct Habs' as (_ & _ & nd' & ? & _). congruence.
  - assert (Hgx' : g' !! x = None).
    { destruct (g' !! x) eqn:Hx'; [|done]. assert (Hs : is_Some (g !! x)) by (apply Hdom; [done|by eexists]).
      destruct Hs. congruence. }
    specialize (Hext x Hxfv Hgx). specialize (Hv' x r' Hin').
    destruct r as [v|], r' as [v'|]; [| | |done].
    + destruct Hv as [[[? ?] _]|[_ Hv]]; [congruence|].
      destruct Hv' as [[[? ?] _]|[_ Hv']]; [congruence|]. congruence.
    + destruct Hv as [[[? ?] _]|[_ Hv]]; [congruence|].
      destruct Hv' as [(_ & _ & ? & ? & _)|[_ Hv']]; congruence.
    + destruct Hv' as [[[? ?] _]|[_ Hv']]; [congruence|].
      destruct Hv as [(_ & _ & ? & ? & _)|[_ Hv]]; congruence.
Qed.

(** C08 *)
Lemma request_order (f : name -> gmap name V -> res E V) g config inputs overrides fv fv' out
    (tr : list (event V E)) :
  wf_graph g -> acyclic g -> (forall x, x ∈ fv <-> x ∈ fv') ->
  default_execute (fun _ => f) g config inputs overrides fv = Answer out tr ->
  exists out' (tr' : list (event V E)),
    default_execute (E:=E) (fun _ => f) g config inputs overrides fv' = Answer out' tr' /\
    (forall x r, (x, r) ∈ out <-> (x, r) ∈ out') /\
    Permutation (calls_of tr) (calls_of tr').
Proof.
  intros Hwf Hac Hset Hrun.
  assert (Hreq : forall x, x ∈ requested g fv <-> x ∈ requested g fv').
  { intros x. rewrite !requested_elem. by rewrite Hset. }
  assert (Hn : forall x, needed g overrides (requested g fv) x <-> needed g overrides (requested g fv') x).
  { intros x. split; apply needed_transfer; try done; intros y; apply Hreq. }
  assert (Hcan : can_run g f config inputs overrides fv) by (apply run_success; eauto).
  assert (Hcan' : can_run g f config inputs overrides fv').
  { destruct Hcan as [? Hc]. split; [done|]. intros x nd Hx. apply Hc. by apply Hn. }
  apply run_success in Hcan' as (out' & tr' & Hrun'); [|done|done].
  exists out', tr'. split; [done|].
  destruct (run_values g Hwf Hac f config inputs overrides fv out tr Hrun) as [Hk Hv].
  destruct (run_values g Hwf Hac f config inputs overrides fv' out' tr' Hrun') as [Hk' Hv'].
  assert (Hsame : forall x r r', (x, r) ∈ out -> (x, r') ∈ out' -> r = r').
  { intros x r r' Hin Hin'. specialize (Hv x r Hin). specialize (Hv' x r' Hin').
    destruct r as [v|], r' as [v'|]; [| | |done].
    - destruct Hv as [[Hs Hv]|[? Hv]], Hv' as [[Hs' Hv']|[? Hv']].
      + f_equal. eapply eval_functional; eauto.
      + destruct Hs; congruence.
      + destruct Hs'; congruence.
      + congruence.
    - destruct Hv as [[Hs Hv]|[? Hv]], Hv' as [Hv'|[? Hv']].
      + by eapply absent_no_eval in Hv.
      + destruct Hs; congruence.
      + destruct Hv' as (_ & _ & ? & ? & _). congruence.
      + congruence.
    - destruct Hv' as [[Hs' Hv']|[? Hv']], Hv as [Hv|[? Hv]].
      + by eapply absent_no_eval in Hv'.
      + destruct Hs'; congruence.
      + destruct Hv as (_ & _ & ? & ? & _). congruence.
      + congruence. }
  assert (Hex : forall x, x ∈ fv <-> exists r, (x, r) ∈ out).
  { intros x. rewrite <-Hk. rewrite elem_of_list_fmap. split.
    - intros ([y r] & -> & ?). by exists r.
    - intros (r & ?). by exists (x, r). }
  assert (Hex' : forall x, x ∈ fv' <-> exists r, (x, r) ∈ out').
  { intros x. rewrite <-Hk'. rewrite elem_of_list_fmap. split.
    - intros ([y r] & -> & ?). by exists r.
    - intros (r & ?). by exists (x, r). }
  split.
  - intros x r. split; intros Hin.
    + assert (Hx : x ∈ fv') by (apply Hset, Hex; eauto). apply Hex' in Hx as [r' Hr'].
      by rewrite (Hsame x r r' Hin Hr').
    + assert (Hx : x ∈ fv) by (apply Hset, Hex'; eauto). apply Hex in Hx as [r' Hr'].
      by rewrite <-(Hsame x r' r Hr' Hin).
  - apply NoDup_Permutation.
    + pose proof (run_calls_nodup g Hwf Hac (fun _ => f) config inputs overrides fv) as H. by rewrite Hrun in H.
    + pose proof (run_calls_nodup g Hwf Hac (fun _ => f) config inputs overrides fv') as H. by rewrite Hrun' in H.
    + intros x. split; intros Hx.
      * pose proof (run_calls_needed g Hwf Hac (fun _ => f) config inputs overrides fv x) as H.
        rewrite Hrun in H. destruct (H Hx) as (Hnx & nd & Hg & Hext).
        eapply run_needed_called; [done|done|done| |done|done]. by apply Hn.
      * pose proof (run_calls_needed g Hwf Hac (fun _ => f) config inputs overrides fv' x) as H.
        rewrite Hrun' in H. destruct (H Hx) as (Hnx & nd & Hg & Hext).
        eapply run_needed_called; [done|done|done| |done|done]. by apply Hn.
Qed.
End Compare.
