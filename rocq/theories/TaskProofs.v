(** Values computed by a task-based run. *)
From stdpp Require Import pretty.
From Coq Require Import Ascii.
From Verif Require Import Base Dict ExecModel ExecSpec ExecProofs ExecResults TraverseModel TopoModel GroupModel StateModel StateProofs StateLive Strings PlanProofs
  StateResults TaskSpec TaskLocal.

(** ** Groupings that keep the meaning of the dataflow *)
Section Good.
Context {V : Type}.
Variable g : graph.
Variable role_of : name -> role.
Variable carg : name -> name.
Variable ov inputs : gmap name V.
Variable groups : list ngroup.

Notation feeds := (feeds g role_of).

(** The group of one Parallelizable variable. *)
Definition expand_group (T : string) (e : name) : Prop :=
  exists ng, ng ∈ groups /\ ng_base ng = T /\ ng_spawn ng = None /\ ng_purpose ng = EXPAND /\ ng_nodes ng = [e] /\
    role_of e = RExpand /\ ov !! e = None /\ is_ext g e = false.
(** The group of ordinary variables computed once per item of [T]. *)
Definition block_group (T : string) (ng : ngroup) : Prop :=
  ng ∈ groups /\ ng_spawn ng = Some T /\ ng_purpose ng <> EXPAND /\ ng_purpose ng <> GATHER.

Record good_groups : Prop := {
  gg_wf : wf_graph g;
  gg_acyc : acyclic g;
  gg_dis : disjoint_groups groups;
  gg_nodes : forall ng x, ng ∈ groups -> x ∈ ng_nodes ng -> is_Some (g !! x);
  gg_names : forall x, is_Some (g !! x) -> lacks ":" x;
  gg_given : forall x, is_Some (ov !! x) \/ is_Some (inputs !! x) -> lacks ":" x;
  gg_spawn_names : forall ng T, ng ∈ groups -> ng_spawn ng = Some T -> lacks ":" T;
  gg_once : forall x v, ov !! x = Some v -> inputs !! x = None;
  (* dependencies are grouped too, except absent inputs *)
  gg_cover : forall ng x d, ng ∈ groups -> x ∈ ng_nodes ng -> ov !! x = None -> edge g x d -> ov !! d = None ->
    (exists ng', ng' ∈ groups /\ d ∈ ng_nodes ng') \/ absent g inputs ov d;
  gg_static : forall ng, ng ∈ groups -> ng_spawn ng = None ->
    (ng_purpose ng <> EXPAND /\ ng_purpose ng <> GATHER /\ forall x, x ∈ ng_nodes ng -> role_of x <> RCollect) \/
    (exists e, expand_group (ng_base ng) e /\ ng_purpose ng = EXPAND /\ ng_nodes ng = [e]);
  gg_block : forall T ng, block_group T ng -> exists e, expand_group T e /\
    (forall x, x ∈ ng_nodes ng -> role_of x <> RCollect /\ ov !! x = None /\ inputs !! x = None) /\
    (* whatever a block uses from outside does not depend on the item *)
    (forall x d, x ∈ ng_nodes ng -> edge g x d -> d ∉ ng_nodes ng -> d <> e -> ~ rtc (edge g) d e);
  gg_gather : forall T ng, ng ∈ groups -> ng_spawn ng = Some T -> ng_purpose ng = GATHER ->
    exists c e ngB, expand_group T e /\ block_group T ngB /\ ng_nodes ng = [c] /\ role_of c = RCollect /\ ov !! c = None /\
      edge g c (carg c) /\ carg c ∈ ng_nodes ngB /\ feeds e (carg c);
  gg_one_block : forall T ng ng', block_group T ng -> block_group T ng' -> ng_base ng = ng_base ng';
  gg_no_expand : forall ng T, ng ∈ groups -> ng_spawn ng = Some T -> ng_purpose ng <> EXPAND;
  (* variables of a block are used in the block or collected *)
  gg_escape : forall T ngB ng x w, block_group T ngB -> x ∈ ng_nodes ngB -> ng ∈ groups -> w ∈ ng_nodes ng -> ov !! w = None ->
    edge g w x -> w ∈ ng_nodes ngB \/ (ng_purpose ng = GATHER /\ ng_spawn ng = Some T /\ x = carg w);
}.
End Good.

Section Cache.
Context {V E : Type}.
Variable role_of : name -> role.
Variable as_list : V -> option (list V).
Variable mk_list : list V -> V.
Hypothesis Hlist : forall l, as_list (mk_list l) = Some l.
Variable cache0 : gmap string V.

Notation timpl := (timpl V).
Notation tevent := (tevent V E).
Notation cache_at := (cache_at (E:=E) role_of as_list mk_list cache0).
Notation replay := (replay (E:=E) role_of as_list mk_list cache0).
Notation written := (written role_of as_list mk_list).
Notation finished := (finished (V:=V) (E:=E)).

(** What a task that is in no branch leaves in the cache. *)
Definition wr (t : timpl) (r : gmap name V) : gmap name V :=
  match (if bool_decide (ts_purpose (ti_spec t) = EXPAND) then expander_node role_of (ti_spec t) else None) with
  | Some x => match r !! x ≫= as_list with Some l => <[x := mk_list l]> r | None => ∅ end
  | None => r
  end.
Definition plain (t : timpl) : Prop := ti_spawner t = None /\ ti_group t = None.
Definition in_branch (t : timpl) (T : string) (i : nat) : Prop :=
  ti_spawner t = Some T /\ ti_group t = Some (pretty i) /\ ts_purpose (ti_spec t) <> EXPAND.

Lemma written_plain c t r : plain t -> written c t r = wr t r ∪ c.
Proof.
  intros [H1 H2]. unfold StateProofs.written, wr. rewrite H1, H2. destruct (if bool_decide _ then _ else _) as [x|].
  - destruct (r !! x ≫= as_list) as [l|]; [|by rewrite (left_id_L ∅ (∪))]. rewrite !cache_write_plain.
    apply map_eq. intros k. destruct (decide (k = x)) as [->|Hne].
    + rewrite lookup_union_r by apply lookup_delete. rewrite <-(insert_union_l r), lookup_insert. 
      erewrite lookup_union_Some_l; [reflexivity|]. apply lookup_singleton.
    + rewrite <-(insert_union_l r), lookup_insert_ne by done. rewrite !lookup_union, lookup_delete_ne by done.
      rewrite lookup_singleton_ne by done. f_equal. by destruct (c !! k).
  - apply cache_write_plain.
Qed.
Lemma written_branch c t T i r : in_branch t T i -> written c t r = cache_write c r (Some (pretty i)) (Some T).
Proof. intros (H1 & H2 & H3). unfold StateProofs.written. rewrite H1, H2, bool_decide_false by done. done. Qed.

Definition wrote (tr : list tevent) (x : name) (v : V) : Prop :=
  exists t calls r, TRun t calls (Ok r) ∈ tr /\ finished tr (task_id t) /\ plain t /\ wr t r !! x = Some v.
Definition wrote_branch (tr : list tevent) (T : string) (i : nat) (x : name) (v : V) : Prop :=
  exists t calls r, TRun t calls (Ok r) ∈ tr /\ finished tr (task_id t) /\ in_branch t T i /\ r !! x = Some v.

Definition shaped (tr : list tevent) : Prop :=
  fin_ok tr /\ NoDup (run_ids tr) /\
  forall t calls r, TRun t calls r ∈ tr -> plain t \/ exists T i, in_branch t T i /\ lacks ":" T.
Lemma shaped_prefix tr tr' : shaped (tr ++ tr') -> shaped tr.
Proof.
  intros (H1 & H2 & H3). split_and!.
  - by eapply fin_ok_prefix.
  - rewrite run_ids_app in H2. by apply NoDup_app in H2 as (? & _).
  - intros t calls r Hin. eapply H3. apply elem_of_app. by left.
Qed.
Lemma finished_app tr tr' id : finished tr id -> finished (tr ++ tr') id.
Proof. intros H. apply elem_of_app. by left. Qed.
Lemma finished_run tr id : fin_ok tr -> finished tr id -> exists t calls r, TRun t calls (Ok r) ∈ tr /\ task_id t = id.
Proof.
  intros Hf H. apply elem_of_list_split in H as (a & b & ->). destruct (Hf a id b eq_refl) as (t & calls & r & Hin & Hid).
  exists t, calls, r. split; [|done]. apply elem_of_app. by left.
Qed.

(** Adding one event. *)
Lemma cache_snoc tr e : shaped (tr ++ [e]) ->
  cache_at (tr ++ [e]) = match e with
    | TFinish id => match dget (replay tr).1 id with Some (t, r) => written (cache_at tr) t r | None => cache_at tr end
    | _ => cache_at tr end.
Proof.
  intros _. unfold StateProofs.cache_at. rewrite replay_snoc. destruct e as [t calls [r|]|t|id]; try done. cbn.
  by destruct (dget _ id) as [[? ?]|].
Qed.
Lemma last_finish tr id : shaped (tr ++ [TFinish id]) ->
  exists t calls r, TRun t calls (Ok r) ∈ tr /\ task_id t = id /\ dget (replay tr).1 id = Some (t, r).
Proof.
  intros Hs. pose proof Hs as (Hf & _). pose proof (shaped_prefix _ _ Hs) as (_ & Hnd & _).
  destruct (Hf tr id [] eq_refl) as (t & calls & r & Hin & Hid). exists t, calls, r. split_and!; [done|done|].
  rewrite <-Hid. by eapply replay_run.
Qed.
Lemma finished_snoc_run tr t calls o id : finished (tr ++ [TRun t calls o]) id <-> finished tr id.
Proof.
  unfold StateProofs.finished. rewrite elem_of_app, elem_of_list_singleton. naive_solver.
Qed.
Lemma run_snoc_unfinished tr t calls o : shaped (tr ++ [TRun t calls o]) -> ~ finished tr (task_id t).
Proof.
  intros Hs Hfin. pose proof Hs as (_ & Hnd & _). pose proof (shaped_prefix _ _ Hs) as (Hf & _ & _).
  destruct (finished_run _ _ Hf Hfin) as (t' & calls' & r' & Hin & Hid).
  rewrite run_ids_app in Hnd. apply NoDup_app in Hnd as (_ & Hd & _). eapply (Hd (task_id t)); [|cbn; by left].
  rewrite <-Hid. by eapply run_ids_elem.
Qed.

Lemma cache_plain tr x : lacks ":" x -> shaped tr ->
  (exists v, cache_at tr !! x = Some v /\ wrote tr x v) \/
  (cache_at tr !! x = cache0 !! x /\ forall v, ~ wrote tr x v).
Proof.
  intros Hx. induction tr as [|e tr IH] using rev_ind; intros Hs.
  { right. split; [done|]. intros v (t & calls & r & Hin%elem_of_nil & _). done. }
  pose proof (shaped_prefix _ _ Hs) as Hs'. specialize (IH Hs').
  assert (Hold : forall v, wrote tr x v -> wrote (tr ++ [e]) x v).
  { intros v (t & calls & r & H1 & H2 & H3 & H4). exists t, calls, r. split_and!; [|by apply finished_app|done|done].
    apply elem_of_app. by left. }
  assert (Hkeep : cache_at (tr ++ [e]) !! x = cache_at tr !! x -> (forall v, wrote (tr ++ [e]) x v -> wrote tr x v) ->
    (exists v, cache_at (tr ++ [e]) !! x = Some v /\ wrote (tr ++ [e]) x v) \/
    (cache_at (tr ++ [e]) !! x = cache0 !! x /\ forall v, ~ wrote (tr ++ [e]) x v)).
  { intros -> Hback. destruct IH as [(v & ? & ?)|[? Hn]]; [left; eauto|right]. split; [done|]. intros v Hw. by eapply Hn, Hback. }
  rewrite (cache_snoc tr e Hs) in *. destruct e as [t0 calls0 o0|t0|id].
  - apply Hkeep; [done|]. intros v (t & calls & r & H1 & H2 & H3 & H4). apply finished_snoc_run in H2.
    exists t, calls, r. split_and!; try done. apply elem_of_app in H1 as [?|H1%elem_of_list_singleton]; [done|].
    injection H1 as -> -> <-. by apply (run_snoc_unfinished _ _ _ _ Hs) in H2.
  - apply Hkeep; [done|]. intros v (t & calls & r & H1 & H2 & H3 & H4).
    apply elem_of_app in H1 as [?|H1%elem_of_list_singleton]; [|done].
    apply elem_of_app in H2 as [?|H2%elem_of_list_singleton]; [|done]. by exists t, calls, r.
  - destruct (last_finish _ _ Hs) as (t & calls & r & Hin & Hid & Hd). rewrite Hd in *.
    assert (Hnew : forall v, wrote (tr ++ [TFinish id]) x v -> wrote tr x v \/ (plain t /\ wr t r !! x = Some v)).
    { intros v (t' & calls' & r' & H1 & H2 & H3 & H4). apply elem_of_app in H1 as [H1|H1%elem_of_list_singleton]; [|done].
      apply elem_of_app in H2 as [H2|H2%elem_of_list_singleton]; [left; by exists t', calls', r'|]. injection H2 as H2.
      destruct (run_unique tr t calls (Ok r) t' calls' (Ok r')) as (<- & _ & [= <-]); [apply Hs'|done|done|congruence|]. by right. }
    destruct Hs' as (_ & _ & Hsh). destruct (Hsh _ _ _ Hin) as [Hp|(T & i & Hb & HT)].
    + rewrite written_plain in * by done. destruct (wr t r !! x) as [v|] eqn:Hv.
      * left. exists v. split; [by apply lookup_union_Some_l|]. exists t, calls, r. split_and!; try done.
        -- apply elem_of_app. by left.
        -- rewrite Hid. apply elem_of_app. right. by left.
      * apply Hkeep; [by apply lookup_union_r|]. intros v [?|[_ ?]]%Hnew; [done|congruence].
    + rewrite (written_branch _ _ _ _ _ Hb) in *. apply Hkeep.
      * change x with (format_key None None x) at 1 2. apply cache_write_other. intros y v _. by apply branch_key_plain.
      * intros v [?|[[? ?] _]]%Hnew; [done|]. destruct Hb as (? & ? & _). congruence.
Qed.

Lemma cache_branch tr T i x v : (forall k, is_Some (cache0 !! k) -> lacks ":" k) -> lacks ":" T -> shaped tr ->
  (forall t calls r y, TRun t calls (Ok r) ∈ tr -> is_Some (r !! y) -> lacks ":" y) ->
  cache_at tr !! format_key (Some (pretty i)) (Some T) x = Some v -> wrote_branch tr T i x v.
Proof.
  intros Hc0 HT. induction tr as [|e tr IH] using rev_ind; intros Hs Hnames Hv.
  { exfalso. change (cache0 !! format_key (Some (pretty i)) (Some T) x = Some v) in Hv. apply mk_is_Some, Hc0 in Hv. revert Hv. rewrite branch_key_eq. rewrite lacks_app. by intros [_ [? _]]. }
  pose proof (shaped_prefix _ _ Hs) as Hs'.
  assert (Hnames' : forall t calls r y, TRun t calls (Ok r) ∈ tr -> is_Some (r !! y) -> lacks ":" y).
  { intros t calls r y Hin. eapply Hnames. apply elem_of_app. by left. }
  specialize (IH Hs' Hnames').
  assert (Hold : wrote_branch tr T i x v -> wrote_branch (tr ++ [e]) T i x v).
  { intros (t & calls & r & H1 & H2 & H3 & H4). exists t, calls, r. split_and!; [|by apply finished_app|done|done].
    apply elem_of_app. by left. }
  rewrite (cache_snoc tr e Hs) in Hv. destruct e as [t0 calls0 o0|t0|id]; [by apply Hold, IH|by apply Hold, IH|].
  destruct (last_finish _ _ Hs) as (t & calls & r & Hin & Hid & Hd). rewrite Hd in *.
  destruct Hs' as (_ & _ & Hsh). destruct (Hsh _ _ _ Hin) as [Hp|(T' & i' & Hb & HT')].
  - rewrite written_plain in Hv by done. apply lookup_union_Some_raw in Hv as [Hv|[_ Hv]]; [|by apply Hold, IH].
    exfalso. assert (Hlk : lacks ":" (format_key (Some (pretty i)) (Some T) x)).
    { revert Hv. unfold wr. destruct (if bool_decide _ then _ else _) as [X|] eqn:HX.
      - destruct (r !! X ≫= as_list) as [l|] eqn:Hl; [|done]. apply bind_Some in Hl as (w & Hw & _).
        destruct (decide (format_key (Some (pretty i)) (Some T) x = X)) as [<-|Hne].
        + intros _. eapply Hnames'; [done|by eexists].
        + rewrite lookup_insert_ne by done. intros ?. eapply Hnames'; [done|by eexists].
      - intros ?. eapply Hnames'; [done|by eexists]. }
    revert Hlk. rewrite branch_key_eq. rewrite lacks_app. by intros [_ [? _]].
  - rewrite (written_branch _ _ _ _ _ Hb) in Hv. destruct (decide (T = T' /\ i = i')) as [[<- <-]|Hne].
    + destruct (r !! x) as [u|] eqn:Hu.
      * rewrite (cache_write_own _ _ _ _ _ u) in Hv; [|intros y Heq; by apply branch_key_inj in Heq as (_ & _ & ?)|done].
        injection Hv as <-. exists t, calls, r. split_and!; try done; [apply elem_of_app; by left|].
        rewrite Hid. apply elem_of_app. right. by left.
      * rewrite cache_write_other in Hv; [by apply Hold, IH|]. intros y w Hy Heq. apply branch_key_inj in Heq as (_ & _ & ->); [|done|done].
        congruence.
    + rewrite cache_write_other in Hv; [by apply Hold, IH|]. intros y w Hy Heq. apply Hne.
      by apply branch_key_inj in Heq as (-> & -> & _).
Qed.

(** What a finished task of a branch computed is in the cache. *)
Lemma cache_write_keeps (c : gmap string V) r gr sp k : is_Some (c !! k) -> is_Some (cache_write c r gr sp !! k).
Proof. intros H. unfold cache_write. apply lookup_union_is_Some. by right. Qed.
Lemma written_keeps c t r k : is_Some (c !! k) -> is_Some (written c t r !! k).
Proof.
  intros H. unfold StateProofs.written. destruct (if bool_decide _ then _ else _) as [x|]; [|by apply cache_write_keeps].
  destruct (r !! x ≫= as_list); [|done]. by do 2 apply cache_write_keeps.
Qed.
Lemma cache_branch_has tr t calls r T i x v : shaped tr -> TRun t calls (Ok r) ∈ tr -> finished tr (task_id t) -> in_branch t T i -> lacks ":" T ->
  r !! x = Some v -> is_Some (cache_at tr !! format_key (Some (pretty i)) (Some T) x).
Proof.
  intros Hs Hin Hfin Hb HT Hx. induction tr as [|e tr IH] using rev_ind; [by apply elem_of_nil in Hin|].
  pose proof (shaped_prefix _ _ Hs) as Hs'. rewrite (cache_snoc tr e Hs).
  assert (Hold : TRun t calls (Ok r) ∈ tr -> finished tr (task_id t) -> is_Some (match e with
    | TFinish id => match dget (replay tr).1 id with Some (t, r) => written (cache_at tr) t r | None => cache_at tr end
    | _ => cache_at tr end !! format_key (Some (pretty i)) (Some T) x)).
  { intros H1 H2. specialize (IH Hs' H1 H2). destruct e as [| |id]; [done|done|].
    destruct (dget _ id) as [[? ?]|]; [by apply written_keeps|done]. }
  destruct e as [t0 calls0 o0|t0|id].
  - apply Hold.
    + apply elem_of_app in Hin as [?|Hin%elem_of_list_singleton]; [done|]. exfalso. injection Hin as <- <- <-.
      apply finished_snoc_run in Hfin. by apply (run_snoc_unfinished _ _ _ _ Hs) in Hfin.
    + by apply finished_snoc_run in Hfin.
  - apply Hold; [by apply elem_of_app in Hin as [?|Hin%elem_of_list_singleton]|by apply elem_of_app in Hfin as [?|?%elem_of_list_singleton]].
  - apply elem_of_app in Hin as [Hin|Hin%elem_of_list_singleton]; [|done].
    apply elem_of_app in Hfin as [Hfin|Hfin%elem_of_list_singleton]; [by apply Hold|]. injection Hfin as Hid.
    destruct (last_finish _ _ Hs) as (t' & calls' & r' & Hin' & Hid' & Hd).
    destruct (run_unique tr t calls (Ok r) t' calls' (Ok r')) as (<- & _ & [= <-]); [apply Hs'|done|done|congruence|].
    rewrite Hd, (written_branch _ _ _ _ _ Hb), (cache_write_own _ _ _ _ _ v); [by eexists| |done].
    intros y Heq. by apply branch_key_inj in Heq as (_ & _ & ?).
Qed.
End Cache.

Section Values.
Context {V E : Type}.
Variable g : graph.
Variable role_of : name -> role.
Variable carg : name -> name.
Variable as_list : V -> option (list V).
Variable mk_list : list V -> V.
Variable f : name -> gmap name V -> res E V.
Variable not_iterable : E.
Variable ov inputs : gmap name V.
Variable groups : list ngroup.
Variable outputs : list name.
Variable tasks : list (tspec V).
Hypothesis Hlist : forall l, as_list (mk_list l) = Some l.
Hypothesis HG : good_groups g role_of carg ov inputs groups.
Hypothesis Htasks : create_task_plan g ov groups outputs = Some tasks.
Hypothesis Hplan : wf_plan tasks.

(** driver.py 236: [{**overrides, **inputs}] *)
Definition cache0 : gmap string V := inputs ∪ ov.

Notation timpl := (timpl V).
Notation estate := (estate V).
Notation tevent := (tevent V E).
Notation inv0 := (inv0 (E:=E) role_of as_list tasks).
Notation expanded := (expanded (E:=E) role_of as_list tasks).
Notation form := (form (E:=E) role_of as_list tasks).
Notation finished := (finished (V:=V) (E:=E)).
Notation bind_task := (bind_task (E:=E) g role_of carg mk_list).
Notation base_execute_task := (base_execute_task g role_of as_list mk_list f not_iterable).
Notation runs_ok := (runs_ok g role_of carg as_list mk_list f not_iterable tasks cache0).
Notation bound := (bound (E:=E) g role_of carg as_list mk_list tasks cache0).
Notation cache_at := (cache_at (E:=E) role_of as_list mk_list cache0).
Notation peval := (peval g role_of carg as_list mk_list f inputs).
Notation expand_group := (expand_group g role_of ov groups).
Notation block_group := (block_group groups).
Notation wr := (wr role_of as_list mk_list).
Notation wrote := (wrote (E:=E) role_of as_list mk_list).

(** ** Tasks and their groups *)
Record of_group (sp : tspec V) (ng : ngroup) : Prop := {
  og_in : ng ∈ groups;
  og_base : ts_base sp = ng_base ng;
  og_spawn : ts_spawn sp = ng_spawn ng;
  og_nodes : ts_nodes sp = ng_nodes ng;
  og_purpose : ts_purpose sp = ng_purpose ng;
  og_deps : forall u, u ∈ ts_deps sp <-> exists x d ng', ng' ∈ groups /\ ng_base ng' = u /\ x ∈ ng_nodes ng /\ edge g x d /\
        d ∈ ng_nodes ng' /\ d ∉ ng_nodes ng /\ ov !! x = None /\ ov !! d = None;
  og_nodup : NoDup (ts_deps sp);
  og_outputs : forall x, x ∈ ts_outputs sp <-> x ∈ ng_nodes ng /\ ov !! x = None /\
        (x ∈ outputs \/ exists w, is_Some (g !! x) /\ edge g w x /\ ov !! w = None /\ w ∉ ng_nodes ng);
  og_overrides : forall x, ts_overrides sp !! x = if bool_decide (x ∈ ng_nodes ng) then ov !! x else None }.

Lemma task_group sp : sp ∈ tasks -> exists ng, of_group sp ng.
Proof.
  intros Hin. destruct (plan_spec g ov groups outputs tasks (gg_wf _ _ _ _ _ _ HG) (gg_dis _ _ _ _ _ _ HG) Htasks) as (_ & H & _).
  destruct (H sp Hin) as (ng & ? & ? & ? & ? & ? & ? & ? & ? & ?). by exists ng.
Qed.
Lemma base_group_inj ng ng' : ng ∈ groups -> ng' ∈ groups -> ng_base ng = ng_base ng' -> ng = ng'.
Proof.
  intros H1 H2 Heq. destruct (plan_spec g ov groups outputs tasks (gg_wf _ _ _ _ _ _ HG) (gg_dis _ _ _ _ _ _ HG) Htasks) as (Hm & _ & _).
  pose proof (wp_nodup _ Hplan) as Hnd. rewrite Hm in Hnd.
  apply elem_of_list_lookup in H1 as [i Hi], H2 as [j Hj]. assert (i = j) as ->; [|congruence].
  eapply (NoDup_lookup (map ng_base groups)); [done| |].
  - by rewrite list_lookup_fmap, Hi.
  - rewrite list_lookup_fmap, Hj. cbn. congruence.
Qed.
Lemma group_task ng : ng ∈ groups -> exists sp, sp ∈ tasks /\ of_group sp ng.
Proof.
  intros Hin. destruct (plan_spec g ov groups outputs tasks (gg_wf _ _ _ _ _ _ HG) (gg_dis _ _ _ _ _ _ HG) Htasks) as (_ & _ & H).
  destruct (H ng Hin) as (sp & Hsp & Hb & _). exists sp. split; [done|].
  destruct (task_group sp Hsp) as (ng' & Hog). assert (ng' = ng) as <-; [|done].
  apply base_group_inj; [apply Hog|done|]. rewrite <-Hb. symmetry. apply Hog.
Qed.
Lemma of_group_inj sp ng ng' : of_group sp ng -> of_group sp ng' -> ng = ng'.
Proof. intros H1 H2. apply base_group_inj; [apply H1|apply H2|]. rewrite <-(og_base _ _ H1). apply H2. Qed.
Lemma node_group ng ng' x : ng ∈ groups -> ng' ∈ groups -> x ∈ ng_nodes ng -> x ∈ ng_nodes ng' -> ng = ng'.
Proof. intros. apply base_group_inj; [done|done|]. by eapply (gg_dis _ _ _ _ _ _ HG). Qed.
Lemma group_task_eq sp sp' ng : sp ∈ tasks -> sp' ∈ tasks -> of_group sp ng -> of_group sp' ng -> sp = sp'.
Proof. intros. eapply (base_inj tasks Hplan); [done|done|]. etrans; [eapply og_base; eauto|symmetry; eapply og_base; eauto]. Qed.
Lemma expand_group_inj T e e' : expand_group T e -> expand_group T e' -> e = e'.
Proof.
  intros (ng & H1 & H2 & _ & _ & H3 & _) (ng' & H1' & H2' & _ & _ & H3' & _).
  assert (ng = ng') as <- by (apply base_group_inj; [done|done|congruence]). congruence.
Qed.

(** ** Facts about traces *)
Definition env_for (tr : list tevent) (t : timpl) (env : gmap name V) : Prop :=
  (plain t /\ env = ov) \/
  exists T i X l item, in_branch t T i /\ expanded tr T X l /\ l !! i = Some item /\ env = <[X := item]> ov.
Definition sem (tr : list tevent) (t : timpl) (r : gmap name V) : Prop :=
  (exists env, env_for tr t env /\ forall x v, r !! x = Some v -> peval env x v) /\
  (forall x, x ∈ ts_outputs (ti_spec t) -> is_Some (r !! x)) /\
  (forall x, is_Some (r !! x) -> x ∈ ts_nodes (ti_spec t)).
Definition vals (tr : list tevent) : Prop := forall t calls r, TRun t calls (Ok r) ∈ tr -> sem tr t r.

Lemma runs_ok_prefix tr tr' : runs_ok (tr ++ tr') -> runs_ok tr.
Proof. intros H tr1 t calls o tr2 ->. eapply (H tr1 t calls o (tr2 ++ tr')). by rewrite <-app_assoc. Qed.

Lemma run_form tr t calls o : runs_ok tr -> TRun t calls o ∈ tr -> exists t0, form tr t0 /\ core t = core t0.
Proof.
  intros Hr Hin. apply elem_of_list_split in Hin as (tr1 & tr2 & ->).
  destruct (Hr _ _ _ _ _ eq_refl) as (_ & t0 & tb & s & fu & Hform & Hb & _ & _ & _ & Hbind).
  exists t0. split; [by apply form_app|]. apply bind_core in Hbind. apply bound_core in Hb. congruence.
Qed.
Lemma core_eq (t t0 : timpl) : core t = core t0 -> ti_spec t = ti_spec t0 /\ ti_spawner t = ti_spawner t0 /\ ti_group t = ti_group t0.
Proof. unfold core. by intros [= -> -> ->]. Qed.

Lemma form_shape tr t : form tr t -> ti_spec t ∈ tasks /\ (plain t \/ exists T i, in_branch t T i /\ lacks ":" T).
Proof.
  intros [sp Hin Hn|T X l i v sp Hex Hi Hin|T X l sp Hex Hin].
  - split; [done|]. left. done.
  - apply (elem_to_repeat tasks Hplan) in Hin as (Hin & Hsp & He & Hg). split; [done|]. right. exists T, i. split.
    + done.
    + destruct (task_group sp Hin) as (ng & Hog). eapply (gg_spawn_names _ _ _ _ _ _ HG); [apply Hog|]. rewrite <-(og_spawn _ _ Hog). done.
  - apply (elem_to_collect tasks Hplan) in Hin as (Hin & _). split; [done|]. left. done.
Qed.
Lemma shape_of tr : runs_ok tr -> fin_ok tr -> NoDup (run_ids tr) -> shaped tr.
Proof.
  intros H1 H2 H3. split_and!; [done|done|]. intros t calls r Hin.
  destruct (run_form _ _ _ _ H1 Hin) as (t0 & Hform & (_ & Hs & Hg)%core_eq).
  destruct (run_form _ _ _ _ H1 Hin) as (t1 & Hform1 & Hc1).
  destruct (form_shape _ _ Hform1) as [_ Hsh]. apply core_eq in Hc1 as (Hsp1 & Hs1 & Hg1).
  unfold plain, in_branch in *. by rewrite Hsp1, Hs1, Hg1.
Qed.
Lemma run_task tr t calls o : runs_ok tr -> TRun t calls o ∈ tr -> ti_spec t ∈ tasks.
Proof.
  intros Hr Hin. destruct (run_form _ _ _ _ Hr Hin) as (t0 & Hform & (-> & _)%core_eq). by apply (form_shape tr).
Qed.

(** A task whose id is a base id is the one task of that group. *)
Lemma form_base tr t sp : form tr t -> sp ∈ tasks -> task_id t = ts_base sp -> ti_spec t = sp /\ plain t.
Proof.
  intros Hform Hsp Hid. destruct Hform as [sp' Hin Hn|T X l i v sp' Hex Hi Hin|T X l sp' Hex Hin]; cbn in *.
  - split; [|done]. by eapply (base_inj tasks Hplan).
  - exfalso. apply (elem_to_repeat tasks Hplan) in Hin as (Hin & Hs & _). by eapply (wp_ids _ Hplan sp' T i sp).
  - apply (elem_to_collect tasks Hplan) in Hin as (Hin & _). split; [|done]. by eapply (base_inj tasks Hplan).
Qed.
Lemma form_branch_id tr t sp T i : form tr t -> sp ∈ tasks -> ts_spawn sp = Some T ->
  task_id t = mk_task_id (ts_base sp) (Some T) (Some (pretty i)) -> ti_spec t = sp /\ in_branch t T i.
Proof.
  intros Hform Hsp HT Hid. destruct Hform as [sp' Hin Hn|T' X l i' v sp' Hex Hi Hin|T' X l sp' Hex Hin].
  - exfalso. by eapply (wp_ids _ Hplan sp T i sp').
  - apply (elem_to_repeat tasks Hplan) in Hin as (Hin & Hs & He & Hg).
    destruct (wp_ids_inj _ Hplan sp' T' i' sp T i) as (-> & -> & Hb); [done|done|done|done|done|].
    assert (sp' = sp) as -> by (by eapply (base_inj tasks Hplan)). done.
  - exfalso. apply (elem_to_collect tasks Hplan) in Hin as (Hin & _). by eapply (wp_ids _ Hplan sp T i sp').
Qed.

Lemma finished_base tr sp : runs_ok tr -> fin_ok tr -> sp ∈ tasks -> finished tr (ts_base sp) ->
  exists t calls r, TRun t calls (Ok r) ∈ tr /\ ti_spec t = sp /\ plain t /\ task_id t = ts_base sp.
Proof.
  intros Hr Hf Hsp Hfin. destruct (finished_run _ _ Hf Hfin) as (t & calls & r & Hin & Hid).
  destruct (run_form _ _ _ _ Hr Hin) as (t0 & Hform & Hc).
  destruct (form_base _ _ _ Hform Hsp) as [Hs0 Hp0]; [by rewrite <-(core_id _ _ Hc)|].
  apply core_eq in Hc as (Hs & H1 & H2). exists t, calls, r. unfold plain. rewrite Hs, H1, H2. done.
Qed.

Lemma expanded_fun tr T X l X' l' : NoDup (run_ids tr) -> expanded tr T X l -> expanded tr T X' l' -> X = X' /\ l = l'.
Proof.
  intros Hnd (_ & t & calls & r & v & Hin & Hid & _ & _ & _ & Hx & Hv & Hl) (_ & t' & calls' & r' & v' & Hin' & Hid' & _ & _ & _ & Hx' & Hv' & Hl').
  destruct (run_unique tr t calls (Ok r) t' calls' (Ok r')) as (<- & _ & [= <-]); [done|done|done|congruence|].
  rewrite Hx in Hx'. injection Hx' as ->. split; [done|]. congruence.
Qed.

(** ** Values already computed *)
Section Prefix.
Variable tr : list tevent.
Hypothesis Hr : runs_ok tr.
Hypothesis Hf : fin_ok tr.
Hypothesis Hnd : NoDup (run_ids tr).
Hypothesis Hvals : vals tr.

Lemma plain_sem t calls r : TRun t calls (Ok r) ∈ tr -> plain t -> forall x v, r !! x = Some v -> peval ov x v.
Proof.
  intros Hin [Hp1 Hp2] x v Hx. destruct (Hvals _ _ _ Hin) as ((env & [[_ ->]|(T & i & X & l & item & (Hs & _) & _)] & H) & _); [by apply H|].
  congruence.
Qed.

Lemma expander_is sp e ng : of_group sp ng -> ng_nodes ng = [e] -> role_of e = RExpand -> expander_node role_of sp = Some e.
Proof.
  intros Hog Hn He. unfold expander_node. rewrite (og_nodes _ _ Hog), Hn. cbn.
  destruct (decide (role_of e = RExpand)); [done|congruence].
Qed.
Lemma expander_val e v : role_of e = RExpand -> ov !! e = None -> is_ext g e = false -> peval ov e v -> exists l, v = mk_list l.
Proof.
  intros He Ho Hx Hp. inversion Hp as [|? ? nd ? ? Hg Hext|? ? nd kw ? ? ? ? ? ? ? ? Hret|]; simplify_eq; try congruence.
  - unfold is_ext in Hx. rewrite Hg in Hx. congruence.
  - destruct Hret as (w & _ & Hw). rewrite He in Hw. destruct Hw as (l & _ & ->). by exists l.
Qed.

Lemma wr_peval t calls r x v : TRun t calls (Ok r) ∈ tr -> plain t -> wr t r !! x = Some v -> peval ov x v.
Proof.
  intros Hin Hp. unfold TaskProofs.wr. destruct (bool_decide (ts_purpose (ti_spec t) = EXPAND)) eqn:Hb; [|by eapply plain_sem].
  apply bool_decide_eq_true in Hb. pose proof (run_task _ _ _ _ Hr Hin) as Hsp. destruct (task_group _ Hsp) as (ng & Hog).
  assert (Hns : ng_spawn ng = None). { rewrite <-(og_spawn _ _ Hog). by apply (wp_expand _ Hplan). }
  destruct (gg_static _ _ _ _ _ _ HG ng (og_in _ _ Hog) Hns) as [[He _]|(e & (ng' & ? & ? & _ & _ & _ & He & Ho & Hx) & _ & Hn)].
  { rewrite <-(og_purpose _ _ Hog) in He. done. }
  rewrite (expander_is _ e ng Hog Hn He). destruct (r !! e ≫= as_list) as [l|] eqn:Hl; [|done].
  apply bind_Some in Hl as (w & Hw & Hl). pose proof (plain_sem _ _ _ Hin Hp _ _ Hw) as Hpw.
  destruct (expander_val e w He Ho Hx Hpw) as (l' & ->). rewrite Hlist in Hl. injection Hl as ->.
  destruct (decide (x = e)) as [->|Hne]; [rewrite lookup_insert; by intros [= <-]|].
  rewrite lookup_insert_ne by done. by eapply plain_sem.
Qed.
Lemma wr_has t calls r x : TRun t calls (Ok r) ∈ tr -> plain t -> is_Some (r !! x) -> is_Some (wr t r !! x).
Proof.
  intros Hin Hp Hx. unfold TaskProofs.wr. destruct (bool_decide (ts_purpose (ti_spec t) = EXPAND)) eqn:Hb; [|done].
  apply bool_decide_eq_true in Hb. pose proof (run_task _ _ _ _ Hr Hin) as Hsp. destruct (task_group _ Hsp) as (ng & Hog).
  assert (Hns : ng_spawn ng = None). { rewrite <-(og_spawn _ _ Hog). by apply (wp_expand _ Hplan). }
  destruct (gg_static _ _ _ _ _ _ HG ng (og_in _ _ Hog) Hns) as [[He _]|(e & (ng' & ? & ? & _ & _ & _ & He & Ho & Hext) & _ & Hn)].
  { rewrite <-(og_purpose _ _ Hog) in He. done. }
  rewrite (expander_is _ e ng Hog Hn He).
  assert (x = e) as ->. { destruct (Hvals _ _ _ Hin) as (_ & _ & Hdom). apply Hdom in Hx. rewrite (og_nodes _ _ Hog), Hn in Hx. by apply elem_of_list_singleton in Hx. }
  destruct Hx as [w Hw]. rewrite Hw. cbn. destruct (expander_val e w He Ho Hext) as (l' & ->); [by eapply plain_sem|].
  rewrite Hlist, lookup_insert. by eexists.
Qed.
Lemma wrote_peval x v : wrote tr x v -> peval ov x v.
Proof. intros (t & calls & r & Hin & _ & Hp & Hx). by eapply wr_peval. Qed.

Lemma expanded_peval T X l : expanded tr T X l -> exists e v, expand_group T e /\ X = e /\ peval ov e v /\ as_list v = Some l.
Proof.
  intros (_ & t & calls & r & v & Hin & Hid & Hsp & HT & Hp & Hx & Hv & Hl).
  destruct (task_group _ Hsp) as (ng & Hog).
  assert (Hns : ng_spawn ng = None). { rewrite <-(og_spawn _ _ Hog). by apply (wp_expand _ Hplan). }
  destruct (gg_static _ _ _ _ _ _ HG ng (og_in _ _ Hog) Hns) as [[He _]|(e & Heg & _ & Hn)].
  { rewrite <-(og_purpose _ _ Hog) in He. done. }
  pose proof Heg as (ng' & ? & ? & _ & _ & _ & He & Ho & Hext).
  rewrite (expander_is _ e ng Hog Hn He) in Hx. injection Hx as <-. exists e, v. split_and!; [|done| |done].
  - rewrite HT, (og_base _ _ Hog). done.
  - eapply plain_sem; [done| |done]. destruct (run_form _ _ _ _ Hr Hin) as (t0 & Hform & Hc).
    destruct (form_base _ _ _ Hform Hsp) as [_ Hpl]; [rewrite <-(core_id _ _ Hc); congruence|].
    apply core_eq in Hc as (_ & H1 & H2). unfold plain. by rewrite H1, H2.
Qed.

(** The values a task of group [ng] finds in the cache once its dependencies have finished. *)
Definition deps_finished (ng : ngroup) : Prop :=
  forall x d ng', x ∈ ng_nodes ng -> ov !! x = None -> edge g x d -> ov !! d = None -> d ∉ ng_nodes ng ->
    ng' ∈ groups -> d ∈ ng_nodes ng' -> (forall T, ~ block_group T ng') -> finished tr (ng_base ng').

Lemma cache_settled ng sp d : sp ∈ tasks -> of_group sp ng -> deps_finished ng -> wants g (ts_nodes sp) (ts_overrides sp) d ->
  (ng_purpose ng = GATHER -> forall c, ng_nodes ng = [c] -> d <> carg c) ->
  (exists v, cache_at tr !! d = Some v /\ peval ov d v) \/ (cache_at tr !! d = None /\ absent g inputs ov d).
Proof.
  intros Hsp Hog Hdeps (x & Hxn & Hxo & Hcase) Hgather.
  rewrite (og_nodes _ _ Hog) in *. rewrite (og_overrides _ _ Hog), bool_decide_true in Hxo by done.
  assert (Hgd : is_Some (g !! d)).
  { destruct Hcase as [[<- ?]|[Hed _]]; [by eapply (gg_nodes _ _ _ _ _ _ HG ng); [apply Hog|]|]. eapply wf_closed; [apply HG|done]. }
  destruct (cache_plain (E:=E) role_of as_list mk_list cache0 tr d (gg_names _ _ _ _ _ _ HG d Hgd) (shape_of tr Hr Hf Hnd)) as [(v & Hv & Hw)|[Hc Hnw]].
  { left. exists v. split; [done|by apply wrote_peval]. }
  rewrite Hc. unfold cache0.
  (* an unwritten variable is given or an external one *)
  assert (Hext : ov !! d = None -> is_ext g d = true).
  { intros Ho. destruct Hcase as [[<- ?]|(Hed & Hod & Hor)]; [done|]. destruct Hor as [?|Hdn]; [done|].
    destruct (gg_cover _ _ _ _ _ _ HG ng x d (og_in _ _ Hog) Hxn Hxo Hed Ho) as [(ng' & Hng' & Hd)|(_ & _ & nd & Hnd' & Hx')].
    2: { unfold is_ext. by rewrite Hnd'. }
    exfalso. assert (Hnb : forall T, ~ block_group T ng').
    { intros T Hb. destruct (gg_escape _ _ _ _ _ _ HG T ng' ng d x Hb Hd (og_in _ _ Hog) Hxn Hxo Hed) as [Hx'|(Hga & _ & ->)].
      - apply Hdn. by rewrite (node_group ng ng' x (og_in _ _ Hog) Hng' Hxn Hx').
      - destruct (ng_spawn ng) as [T'|] eqn:HT'.
        + destruct (gg_gather _ _ _ _ _ _ HG T' ng (og_in _ _ Hog) HT' Hga) as (c & ? & ? & _ & _ & Hn & _).
          rewrite Hn in Hxn. apply elem_of_list_singleton in Hxn as ->. by eapply (Hgather Hga c).
        + destruct (gg_static _ _ _ _ _ _ HG ng (og_in _ _ Hog) HT') as [(_ & ? & _)|(? & _ & ? & _)]; [done|congruence]. }
    pose proof (Hdeps x d ng' Hxn Hxo Hed Ho Hdn Hng' Hd Hnb) as Hfin.
    destruct (group_task ng' Hng') as (sp' & Hsp' & Hog').
    destruct (finished_base tr sp' Hr Hf Hsp') as (t & calls & r & Hin & Hts & Hpl & Hid); [by rewrite (og_base _ _ Hog')|].
    destruct (Hvals _ _ _ Hin) as (_ & Hout & _).
    destruct (wr_has t calls r d Hin Hpl) as [v Hv].
    { apply Hout. rewrite Hts. apply (og_outputs _ _ Hog'). split_and!; [done|done|]. right. exists x. split_and!; [done|done|done|].
      intros Hx'. apply Hdn. by rewrite (node_group ng ng' x (og_in _ _ Hog) Hng' Hxn Hx'). }
    apply (Hnw v). exists t, calls, r. split_and!; [done| |done|done]. by rewrite Hid, (og_base _ _ Hog'). }
  destruct (ov !! d) as [v|] eqn:Hod.
  - left. exists v. split; [|by apply pe_given]. rewrite lookup_union_r; [done|]. by eapply (gg_once _ _ _ _ _ _ HG).
  - specialize (Hext eq_refl). unfold is_ext in Hext. destruct (g !! d) as [nd|] eqn:Hgnd; [|done].
    destruct (inputs !! d) as [v|] eqn:Hi.
    + left. exists v. split; [by apply lookup_union_Some_l|]. by eapply pe_input.
    + right. split; [by rewrite lookup_union_None|]. split_and!; try done. by exists nd.
Qed.
End Prefix.
(** ** One more task *)
Notation bind_spec := (bind_spec (E:=E) g role_of carg as_list mk_list f (gg_wf _ _ _ _ _ _ HG) (gg_acyc _ _ _ _ _ _ HG)).

Definition good (tr : list tevent) : Prop :=
  runs_ok tr /\ fin_ok tr /\ NoDup (run_ids tr) /\ forall tr1 tr2, tr = tr1 ++ tr2 -> vals tr1.
Lemma good_prefix tr tr' : good (tr ++ tr') -> good tr.
Proof.
  intros (H1 & H2 & H3 & H4). split_and!.
  - by eapply runs_ok_prefix.
  - by eapply fin_ok_prefix.
  - rewrite run_ids_app in H3. by apply NoDup_app in H3 as (? & _).
  - intros tr1 tr2 ->. apply (H4 tr1 (tr2 ++ tr')). by rewrite <-app_assoc.
Qed.
Lemma good_vals tr : good tr -> vals tr.
Proof. intros (_ & _ & _ & H). apply (H tr []). by rewrite app_nil_r. Qed.

Lemma not_repeat T ng : ng ∈ groups -> (forall T, ~ block_group T ng) -> ng_base ng ∉ map ts_base (to_repeat tasks T).
Proof.
  intros Hng Hnb Hin. apply elem_of_list_In, in_map_iff in Hin as (sp & Hb & Hin). apply elem_of_list_In in Hin.
  apply (elem_to_repeat tasks Hplan) in Hin as (Hin & Hs & He & Hg). destruct (task_group sp Hin) as (ng' & Hog).
  assert (ng' = ng) as -> by (apply base_group_inj; [apply Hog|done|rewrite <-(og_base _ _ Hog); done]).
  apply (Hnb T). split_and!; [done|rewrite <-(og_spawn _ _ Hog); done|rewrite <-(og_purpose _ _ Hog); done|rewrite <-(og_purpose _ _ Hog); done].
Qed.
Lemma ready_deps tr1 s fu tr0 t0 ng : inv0 s fu tr1 -> form tr0 t0 -> of_group (ti_spec t0) ng -> ready (es_states s) t0 ->
  deps_finished tr1 ng.
Proof.
  intros HI Hform Hog Hready x d ng' Hx Hox Hed Hod Hdn Hng' Hd Hnb.
  assert (Hdep : ng_base ng' ∈ ts_deps (ti_spec t0)). { apply (og_deps _ _ Hog). exists x, d, ng'. done. }
  apply (i_fin _ _ _ _ _ _ HI). apply (Hready (ng_base ng') [ng_base ng'] (ng_base ng')); [|by left].
  destruct Hform as [sp Hin Hn|T X l i v sp Hex Hi Hin|T X l sp Hex Hin]; cbn in *.
  - apply elem_of_list_In, in_map_iff. exists (ng_base ng'). split; [done|]. by apply elem_of_list_In.
  - apply elem_of_list_In, in_map_iff. exists (ng_base ng'). split; [|by apply elem_of_list_In].
    rewrite bool_decide_false by (by apply not_repeat). done.
  - apply elem_of_list_In, in_map_iff. exists (ng_base ng'). split; [|by apply elem_of_list_In].
    rewrite bool_decide_false by (by apply not_repeat). done.
Qed.

Lemma bound_mono tr t0 t d v : bound tr t0 t -> ti_dyn t0 !! d = Some v -> ti_dyn t !! d = Some v.
Proof.
  intros Hb Hd. induction Hb as [|tr1 tr2 t0 t s fu t' Hb IH HI Hc Hready Hbind]; [done|].
  destruct (bind_spec _ _ _ Hbind) as (dyn & req & opt & _ & -> & _). apply lookup_union_Some_l. by apply IH.
Qed.
Lemma bound_spec tr t0 t : bound tr t0 t -> ti_spec t = ti_spec t0.
Proof. intros Hb. apply bound_core in Hb. by apply core_eq in Hb as (? & _). Qed.
Lemma ext_no_peval d v : is_ext g d = true -> ov !! d = None -> inputs !! d = None -> ~ peval ov d v.
Proof.
  intros Hx Ho Hi Hp. unfold is_ext in Hx. destruct (g !! d) as [nd|] eqn:Hg; [|done].
  inversion Hp; simplify_eq; congruence.
Qed.

(** The environment in which the nodes of a task are to be understood. *)
Definition task_env (t0 : timpl) (ng : ngroup) (env : gmap name V) : Prop :=
  (ng_spawn ng = None /\ ti_dyn t0 = ∅ /\ env = ov) \/
  (exists T X item, block_group T ng /\ expand_group T X /\ ti_dyn t0 = {[X := item]} /\ env = <[X := item]> ov).

Lemma env_settle t0 ng env d v : of_group (ti_spec t0) ng -> task_env t0 ng env ->
  wants g (ts_nodes (ti_spec t0)) (ts_overrides (ti_spec t0)) d -> peval ov d v -> ti_dyn t0 !! d = None -> peval env d v.
Proof.
  intros Hog [(_ & _ & ->)|(T & X & item & Hb & He & Hdyn & ->)] (x & Hxn & Hxo & Hcase) Hp Hd; [done|].
  rewrite (og_nodes _ _ Hog) in *. destruct (gg_block _ _ _ _ _ _ HG T ng Hb) as (e & He' & Hin & Hout).
  rewrite (expand_group_inj T X e He He') in *.
  assert (Hdn : d ∉ ng_nodes ng \/ is_ext g d = true) by (destruct Hcase as [[<- ?]|(_ & _ & [?|?])]; auto).
  assert (Hdn' : d ∉ ng_nodes ng).
  { intros Hdin. destruct (Hin d Hdin) as (_ & H1 & H2). destruct Hdn as [?|Hx]; [done|]. by eapply (ext_no_peval d v). }
  destruct Hcase as [[<- _]|(Hed & _ & _)]; [done|].
  apply peval_irrelevant; [done|]. apply (Hout x d); [done|done|done|]. intros ->. rewrite Hdyn, lookup_singleton in Hd. done.
Qed.

Lemma bind_env tr s fu t0 t t' ng env tr0 : good tr -> form tr0 t0 -> of_group (ti_spec t0) ng -> task_env t0 ng env ->
  ng_purpose ng <> GATHER ->
  (forall d v, ti_dyn t0 !! d = Some v -> ti_dyn t !! d = Some v) -> ti_spec t = ti_spec t0 ->
  (forall d v, ti_dyn t !! d = Some v -> peval env d v) ->
  inv0 s fu tr -> es_cache s = cache_at tr -> ready (es_states s) t0 -> bind_task s t = Ok t' ->
  forall d v, ti_dyn t' !! d = Some v -> peval env d v.
Proof.
  intros HGd Hform Hog Henv Hng Hmono Hspec Hdyn HI Hc Hready Hbind d v.
  pose proof HGd as (Hr & Hf & Hnd & _).
  destruct (bind_spec _ _ _ Hbind) as (dyn & req & opt & Hio & -> & Hsrc & _ & _ & _).
  rewrite Hspec in *.
  intros [Hd|[Hn Hd]]%lookup_union_Some_raw; [by apply Hdyn|].
  assert (Hsp : ti_spec t0 ∈ tasks) by (by apply (form_shape tr0)).
  destruct (Hsrc _ _ Hd) as [[Hro Hcd]|[[_ Ho]|[Hgat _]]].
  - assert (Hw : wants g (ts_nodes (ti_spec t0)) (ts_overrides (ti_spec t0)) d).
    { pose proof (input_vars_spec g (ti_spec t0)) as Hiv. rewrite Hio in Hiv. by apply Hiv. }
    destruct (cache_settled tr Hr Hf Hnd (good_vals _ HGd) ng (ti_spec t0) d Hsp Hog) as [(v' & Hv & Hp)|[Hv _]].
    + by eapply ready_deps.
    + done.
    + done.
    + rewrite Hc, Hv in Hcd. injection Hcd as ->. eapply env_settle; [done|done|done|done|].
      destruct (ti_dyn t0 !! d) eqn:Heq; [|done]. apply Hmono in Heq. congruence.
    + rewrite Hc, Hv in Hcd. done.
  - rewrite (og_overrides _ _ Hog) in Ho. case_bool_decide as Hdn; [|done].
    destruct Henv as [(_ & _ & ->)|(T & X & item & Hb & _)]; [by apply pe_given|].
    destruct (gg_block _ _ _ _ _ _ HG T ng Hb) as (e & _ & Hin & _). destruct (Hin d Hdn) as (_ & ? & _). congruence.
  - rewrite (og_purpose _ _ Hog) in Hgat. done.
Qed.
Lemma bound_env tr t0 t ng env tr0 : good tr -> bound tr t0 t -> form tr0 t0 -> of_group (ti_spec t0) ng -> task_env t0 ng env ->
  ng_purpose ng <> GATHER -> forall d v, ti_dyn t !! d = Some v -> peval env d v.
Proof.
  intros HGd Hb Hform Hog Henv Hng. induction Hb as [tr t0|tr1 tr2 t0 t s fu t' Hb IH HI Hc Hready Hbind].
  - intros d v Hd. destruct Henv as [(_ & Hemp & ->)|(T & X & item & _ & _ & Hemp & ->)]; rewrite Hemp in Hd.
    + by rewrite lookup_empty in Hd.
    + apply lookup_singleton_Some in Hd as [<- <-]. apply pe_given. by rewrite lookup_insert.
  - apply good_prefix in HGd. eapply (bind_env tr1 s fu t0 t t' ng env tr0); try done.
    + intros. by eapply bound_mono.
    + by eapply bound_spec.
    + by apply IH.
Qed.

(** *** Collectors *)
Lemma collect_values_ok (s : estate) arg ids : forall vs, collect_values (E:=E) s arg ids = Ok vs ->
  Forall2 (fun id v => exists t, dget (es_pool s) id = Some t /\ es_cache s !! format_key (ti_group t) (ti_spawner t) arg = Some v) ids vs.
Proof.
  induction ids as [|id ids IH]; intros vs; cbn [collect_values]; [intros [= <-]; constructor|].
  destruct (dget (es_pool s) id) as [t|] eqn:Ht; [|done].
  destruct (es_cache s !! format_key (ti_group t) (ti_spawner t) arg) as [v|] eqn:Hv; [|done].
  destruct (collect_values s arg ids) as [vs'|]; [|done]. intros [= <-]. constructor; [by exists t|by apply IH].
Qed.
Lemma collect_deps_other (s : estate) arg rd : forall acc vs rest,
  (forall b id ids t, (b, id :: ids) ∈ rd -> dget (es_pool s) id = Some t -> arg ∉ ts_nodes (ti_spec t)) ->
  collect_deps (E:=E) s arg acc rd = Ok (vs, rest) -> vs = acc.
Proof.
  induction rd as [|[b ids] rd IH]; intros acc vs rest Hno; cbn [collect_deps]; [by intros [= <- _]|].
  assert (Hno' : forall b id ids t, (b, id :: ids) ∈ rd -> dget (es_pool s) id = Some t -> arg ∉ ts_nodes (ti_spec t)).
  { intros b' id ids' t Hin. eapply Hno. by right. }
  destruct ids as [|id ids].
  - destruct (collect_deps s arg acc rd) as [[vs' rest']|] eqn:Hrec; [|done]. intros [= <- _]. by eapply IH.
  - destruct (dget (es_pool s) id) as [t|] eqn:Ht; [|done].
    rewrite bool_decide_false by (eapply Hno; [by left|done]).
    destruct (collect_deps s arg acc rd) as [[vs' rest']|] eqn:Hrec; [|done]. intros [= <- _]. by eapply IH.
Qed.
Lemma collect_deps_block (s : estate) arg bB ids rd : forall acc vs rest,
  NoDup (dkeys rd) -> (bB, ids) ∈ rd ->
  (forall b id ids t, (b, id :: ids) ∈ rd -> dget (es_pool s) id = Some t -> (arg ∈ ts_nodes (ti_spec t) <-> b = bB)) ->
  collect_deps (E:=E) s arg acc rd = Ok (vs, rest) -> exists vs', vs = acc ++ vs' /\ collect_values (E:=E) s arg ids = Ok vs'.
Proof.
  induction rd as [|[b ids'] rd IH]; intros acc vs rest Hnd Hin Hiff; [by apply elem_of_nil in Hin|].
  unfold dkeys in Hnd. cbn in Hnd. apply NoDup_cons in Hnd as [Hnb Hnd].
  assert (Hiff' : forall b id ids t, (b, id :: ids) ∈ rd -> dget (es_pool s) id = Some t -> (arg ∈ ts_nodes (ti_spec t) <-> b = bB)).
  { intros b' id ids0 t Hin'. eapply Hiff. by right. }
  assert (Hoth : b = bB -> forall b id ids t, (b, id :: ids) ∈ rd -> dget (es_pool s) id = Some t -> arg ∉ ts_nodes (ti_spec t)).
  { intros -> b' id ids0 t Hin' Ht Ha. apply (Hiff' _ _ _ _ Hin' Ht) in Ha as ->. apply Hnb.
    apply elem_of_list_fmap. by exists (bB, id :: ids0). }
  assert (Hhere : b = bB -> ids' = ids).
  { intros ->. apply elem_of_cons in Hin as [[= ->]|Hin]; [done|]. exfalso. apply Hnb. apply elem_of_list_fmap. by exists (bB, ids). }
  assert (Hthere : b <> bB -> (bB, ids) ∈ rd). { intros Hne. apply elem_of_cons in Hin as [[= -> ->]|Hin]; done. }
  cbn [collect_deps]. destruct ids' as [|id ids'].
  - destruct (collect_deps s arg acc rd) as [[vs' rest']|] eqn:Hrec; [|done]. intros [= <- _].
    destruct (decide (b = bB)) as [Hb|Hne].
    + rewrite <-(Hhere Hb). exists []. split; [|done]. rewrite app_nil_r. eapply collect_deps_other; [by apply Hoth|done].
    + eapply IH; [done|by apply Hthere|done|done].
  - destruct (dget (es_pool s) id) as [t|] eqn:Ht; [|done].
    pose proof (Hiff b id ids' t (elem_of_list_here _ _) Ht) as Hb. case_bool_decide as Ha.
    + apply Hb in Ha. destruct (collect_values s arg (id :: ids')) as [vs'|] eqn:Hcv; [|done]. intros Hrec.
      exists vs'. rewrite <-(Hhere Ha). split; [|done]. eapply collect_deps_other; [by apply Hoth|done].
    + destruct (collect_deps s arg acc rd) as [[vs' rest']|] eqn:Hrec; [|done]. intros [= <- _].
      eapply IH; [done|apply Hthere; tauto|done|done].
Qed.

Lemma pretty_nat_inj (i j : nat) : pretty i = pretty j -> i = j.
Proof. apply (inj (pretty : nat -> string)). Qed.

Section Gather.
Variable tr0 : list tevent.
Hypothesis Hgood0 : good tr0.
Variable T : string.
Variable X c : name.
Variable l : list V.
Variable sp : tspec V.
Variable ng ngB : ngroup.
Hypothesis Hex : expanded tr0 T X l.
Hypothesis Hsp : sp ∈ to_collect tasks T.
Hypothesis Hog : of_group sp ng.
Hypothesis HexG : expand_group T X.
Hypothesis HblB : block_group T ngB.
Hypothesis Hnodes : ng_nodes ng = [c].
Hypothesis Hrole : role_of c = RCollect.
Hypothesis Hovc : ov !! c = None.
Hypothesis Hedge : edge g c (carg c).
Hypothesis HinB : carg c ∈ ng_nodes ngB.

Notation t0 := (collect_task tasks T (length l) sp).

Definition goodlist (vs : list V) : Prop :=
  length vs = length l /\
  forall i item u, l !! i = Some item -> vs !! i = Some u -> peval (<[X := item]> ov) (carg c) u.

Lemma sp_in : sp ∈ tasks /\ ts_spawn sp = Some T /\ ts_purpose sp = GATHER.
Proof. by apply (elem_to_collect tasks Hplan). Qed.
Lemma ng_gather : ng_purpose ng = GATHER.
Proof. rewrite <-(og_purpose _ _ Hog). apply sp_in. Qed.
Lemma collector_is : collector_node role_of sp = Some c.
Proof.
  unfold collector_node. rewrite (og_nodes _ _ Hog), Hnodes. cbn. destruct (decide (role_of c = RCollect)); [done|congruence].
Qed.
Lemma carg_out : carg c ∉ ng_nodes ng.
Proof.
  intros Hin. destruct HblB as (HB & _ & _ & Hg). assert (ng = ngB) as <- by (by eapply (node_group ng ngB (carg c)); [apply Hog| | |]).
  by rewrite ng_gather in Hg.
Qed.

(** The collected variable itself is never in the cache. *)
Lemma no_plain_carg tr1 : good tr1 -> cache_at tr1 !! carg c = None.
Proof.
  intros HGd. pose proof HGd as (Hr & Hf & Hnd & _).
  assert (Hgc : is_Some (g !! carg c)) by (eapply wf_closed; [apply HG|done]).
  destruct (gg_block _ _ _ _ _ _ HG T ngB HblB) as (e & _ & Hin & _). destruct (Hin _ HinB) as (_ & Ho & Hi).
  destruct (cache_plain (E:=E) role_of as_list mk_list cache0 tr1 (carg c) (gg_names _ _ _ _ _ _ HG _ Hgc) (shape_of tr1 Hr Hf Hnd)) as [(v & Hv & Hw)|[Hc _]].
  - exfalso. destruct Hw as (t & calls & r & Hrun & _ & Hpl & Hwr).
    destruct (run_form _ _ _ _ Hr Hrun) as (tt & Hform & Hcore). apply core_eq in Hcore as (Hs & Hs1 & Hs2).
    pose proof (run_task _ _ _ _ Hr Hrun) as Htk. destruct (task_group _ Htk) as (ng' & Hog').
    destruct (good_vals _ HGd _ _ _ Hrun) as (_ & _ & Hdom).
    assert (Hcn : carg c ∈ ng_nodes ng').
    { rewrite <-(og_nodes _ _ Hog'). unfold TaskProofs.wr in Hwr. destruct (bool_decide (ts_purpose (ti_spec t) = EXPAND)).
      - destruct (expander_node role_of (ti_spec t)) as [y|] eqn:Hy; [|apply Hdom; by eexists].
        destruct (r !! y ≫= as_list) as [l'|] eqn:Hl; [|by rewrite lookup_empty in Hwr].
        apply lookup_insert_Some in Hwr as [[<- _]|[_ Hwr]]; [|apply Hdom; by eexists].
        apply bind_Some in Hl as (w & Hw & _). apply Hdom. by eexists.
      - apply Hdom; by eexists. }
    destruct HblB as (HB & HsB & HeB & HgB).
    assert (ng' = ngB) as -> by (by eapply (node_group ng' ngB (carg c)); [apply Hog'| | |]).
    destruct Hpl as [Hp1 Hp2]. destruct Hform as [sp' Hin' Hn|T' X' l' i v' sp' Hex' Hi' Hin'|T' X' l' sp' Hex' Hin']; cbn in *.
    + rewrite Hs in Hog'. rewrite (og_spawn _ _ Hog') in Hn. congruence.
    + congruence.
    + rewrite Hs in Hog'. apply (elem_to_collect tasks Hplan) in Hin' as (_ & _ & Hg'). rewrite (og_purpose _ _ Hog') in Hg'. congruence.
  - rewrite Hc. unfold cache0. by rewrite lookup_union_None.
Qed.

(** What a collector finds: one value per item, in order. *)
Lemma collected tr1 tr2 s fu vs rest : tr0 = tr1 ++ tr2 -> inv0 s fu tr1 -> es_cache s = cache_at tr1 ->
  collect_deps (E:=E) s (carg c) [] (ti_rdeps t0) = Ok (vs, rest) -> goodlist vs.
Proof.
  intros Htr HI Hc Hcd. pose proof Hgood0 as Hg1. rewrite Htr in Hg1. apply good_prefix in Hg1.
  pose proof Hg1 as (Hr1 & Hf1 & Hnd1 & _). pose proof Hgood0 as (Hr0 & Hf0 & Hnd0 & _).
  destruct sp_in as (Hspt & Hspawn & Hgat). pose proof HblB as (HB & HsB & HeB & HgB).
  destruct (group_task ngB HB) as (spB & HspB & HogB).
  assert (Hov_carg : ov !! carg c = None).
  { destruct (gg_block _ _ _ _ _ _ HG T ngB HblB) as (e & _ & Hin & _). by destruct (Hin _ HinB) as (_ & ? & _). }
  assert (HrepB : spB ∈ to_repeat tasks T).
  { apply (elem_to_repeat tasks Hplan). rewrite (og_spawn _ _ HogB), (og_purpose _ _ HogB). done. }
  assert (Hdep : ts_base spB ∈ ts_deps sp).
  { apply (og_deps _ _ Hog). exists c, (carg c), ngB. split_and!; try done.
    - symmetry. apply HogB.
    - rewrite Hnodes. by left.
    - apply carg_out. }
  set (ids := map (fun i : nat => mk_task_id (ts_base spB) (Some T) (Some (pretty i))) (seq 0 (length l))) in *.
  destruct (collect_deps_block s (carg c) (ts_base spB) ids (ti_rdeps t0) [] vs rest) as (vs' & -> & Hcv); [| | |done|].
  - unfold dkeys. cbn. rewrite map_map. cbn. rewrite map_id. apply Hog.
  - cbn. apply elem_of_list_In, in_map_iff. exists (ts_base spB). split; [|by apply elem_of_list_In].
    rewrite bool_decide_true; [done|]. apply elem_of_list_In, in_map_iff. exists spB. split; [done|]. by apply elem_of_list_In.
  - intros b id ids' t Hin Ht. cbn in Hin. apply elem_of_list_In, in_map_iff in Hin as (d & Heq & Hd). apply elem_of_list_In in Hd.
    pose proof (i_form _ _ _ _ _ _ HI _ _ Ht) as Hform. pose proof (i_ids _ _ _ _ _ _ HI _ _ Ht) as Hid.
    injection Heq as -> Heq.
    assert (Hgt : exists spd, spd ∈ tasks /\ ts_base spd = b /\ ti_spec t = spd).
    { case_bool_decide as Hrep.
      - apply elem_of_list_In, in_map_iff in Hrep as (spd & Hbd & Hrep). apply elem_of_list_In in Hrep.
        apply (elem_to_repeat tasks Hplan) in Hrep as (Hspd & Hsd & _). exists spd. split_and!; [done|done|].
        assert (Hidi : exists i : nat, id = mk_task_id b (Some T) (Some (pretty i))).
        { pose proof (elem_of_list_here id ids') as Hin. rewrite <-Heq in Hin.
          apply elem_of_list_In, in_map_iff in Hin as (i & <- & _). by exists i. }
        destruct Hidi as (i & Hidi).
        destruct (form_branch_id _ _ spd T i Hform Hspd Hsd) as [? _]; [|done]. by rewrite Hid, Hbd.
      - injection Heq as <- <-. apply (og_deps _ _ Hog) in Hd as (x' & d' & ng' & Hng' & Hb' & _).
        destruct (group_task ng' Hng') as (spd & Hspd & Hogd). exists spd.
        assert (Hbd : ts_base spd = b) by (rewrite (og_base _ _ Hogd); done).
        split_and!; [done|done|]. apply (form_base _ _ spd Hform Hspd). by rewrite Hid, Hbd. }
    destruct Hgt as (spd & Hspd & Hbd & ->). destruct (task_group spd Hspd) as (ngd & Hogd). split.
    + intros Ha. rewrite (og_nodes _ _ Hogd) in Ha.
      assert (ngd = ngB) as -> by (by eapply (node_group ngd ngB (carg c)); [apply Hogd| | |]).
      by rewrite <-Hbd, (og_base _ _ Hogd), (og_base _ _ HogB).
    + intros ->. assert (spd = spB) as -> by (by eapply (base_inj tasks Hplan)). by rewrite (og_nodes _ _ HogB).
  - cbn. apply collect_values_ok in Hcv. split.
    + apply Forall2_length in Hcv. unfold ids in Hcv. by rewrite map_length, seq_length in Hcv.
    + intros i item u Hi Hu. eapply Forall2_lookup_r in Hcv as (id & Hid & t & Ht & Hv); [|done].
      unfold ids in Hid. rewrite list_lookup_fmap in Hid. apply fmap_Some in Hid as (j & Hj & ->).
      apply lookup_seq in Hj as [-> Hj]. cbn in *.
      pose proof (i_form _ _ _ _ _ _ HI _ _ Ht) as Hform. pose proof (i_ids _ _ _ _ _ _ HI _ _ Ht) as Hidt.
      destruct (form_branch_id _ _ spB T i Hform HspB) as [_ (Hs1 & Hs2 & _)]; [by rewrite (og_spawn _ _ HogB)|done|].
      rewrite Hs1, Hs2, Hc in Hv.
      assert (HTn : lacks ":" T) by (by eapply (gg_spawn_names _ _ _ _ _ _ HG ngB)).
      assert (Hgc : is_Some (g !! carg c)) by (eapply wf_closed; [apply HG|done]).
      eapply cache_branch in Hv; [| |done|by apply shape_of|].
      2: { intros k Hk. apply (gg_given _ _ _ _ _ _ HG). apply lookup_union_is_Some in Hk. tauto. }
      2: { intros t1 calls1 r1 y Hrun1 Hy. destruct (good_vals _ Hg1 _ _ _ Hrun1) as (_ & _ & Hdom). apply Hdom in Hy.
           destruct (task_group _ (run_task _ _ _ _ Hr1 Hrun1)) as (ng1 & Hog1). rewrite (og_nodes _ _ Hog1) in Hy.
           apply (gg_names _ _ _ _ _ _ HG). eapply (gg_nodes _ _ _ _ _ _ HG); [apply Hog1|done]. }
      destruct Hv as (t' & calls & r & Hrun & _ & (Hb1 & Hb2 & _) & Hx).
      destruct (good_vals _ Hg1 _ _ _ Hrun) as ((env & [[[? _] _]|(T' & i' & X' & l' & item' & (Hb1' & Hb2' & _) & Hex' & Hi' & ->)] & Hsem) & _); [congruence|].
      rewrite Hb1 in Hb1'. injection Hb1' as <-. rewrite Hb2 in Hb2'. injection Hb2' as Hpi. apply pretty_nat_inj in Hpi as <-.
      apply (expanded_app (E:=E) role_of as_list tasks tr1 tr2) in Hex'. rewrite <-Htr in Hex'.
      destruct (expanded_fun tr0 T X l X' l' Hnd0 Hex Hex') as [<- <-]. rewrite Hi in Hi'. injection Hi' as <-.
      by apply Hsem.
Qed.

Lemma bind_gather tr1 tr2 t s fu t' : tr0 = tr1 ++ tr2 ->
  inv0 s fu tr1 -> es_cache s = cache_at tr1 -> ready (es_states s) t0 -> ti_spec t = sp -> bind_task s t = Ok t' ->
  (forall d v, d <> carg c -> ti_dyn t !! d = Some v -> peval ov d v) ->
  (t = t0 \/ is_Some (ti_dyn t !! carg c)) ->
  (forall v, ti_dyn t !! carg c = Some v -> exists vs, v = mk_list vs /\ goodlist vs) ->
  (forall d v, d <> carg c -> ti_dyn t' !! d = Some v -> peval ov d v) /\
  is_Some (ti_dyn t' !! carg c) /\
  (forall v, ti_dyn t' !! carg c = Some v -> exists vs, v = mk_list vs /\ goodlist vs).
Proof.
  intros Htr HI Hc Hready Hspec Hbind IH1 IH2 IH3.
  pose proof Hgood0 as Hg1. rewrite Htr in Hg1. apply good_prefix in Hg1. pose proof Hg1 as (Hr1 & Hf1 & Hnd1 & _).
  destruct (bind_spec _ _ _ Hbind) as (dyn & req & opt & Hio & -> & Hsrc & _ & _ & Hgat). rewrite Hspec in *.
  destruct sp_in as (Hspt & Hspawn & Hpg).
  assert (Hov0 : forall d v, ts_overrides sp !! d = Some v -> False).
  { intros d v Ho. rewrite (og_overrides _ _ Hog), Hnodes in Ho. case_bool_decide as Hd; [|done].
    apply elem_of_list_singleton in Hd as ->. congruence. }
  split_and!.
  - intros d v Hne [Hd|[Hn Hd]]%lookup_union_Some_raw; [by apply IH1|].
    destruct (Hsrc _ _ Hd) as [[Hro Hcd]|[[? _]|(_ & c' & vs & rest & Hc' & -> & _)]]; [|done|].
    + assert (Hw : wants g (ts_nodes sp) (ts_overrides sp) d).
      { pose proof (input_vars_spec g sp) as Hiv. rewrite Hio in Hiv. by apply Hiv. }
      destruct (cache_settled tr1 Hr1 Hf1 Hnd1 (good_vals _ Hg1) ng sp d Hspt Hog) as [(v' & Hv & Hp)|[Hv _]].
      * eapply (ready_deps tr1 s fu tr0 t0); [done| |done|done]. by apply (form_collect _ _ _ _ T X l sp).
      * done.
      * intros _ c' Hc'. rewrite Hnodes in Hc'. injection Hc' as <-. done.
      * rewrite Hc, Hv in Hcd. by injection Hcd as ->.
      * rewrite Hc, Hv in Hcd. done.
    + rewrite collector_is in Hc'. by injection Hc' as <-.
  - destruct (Hgat Hpg) as (c' & Hc' & Hd). rewrite collector_is in Hc'. injection Hc' as <-.
    apply lookup_union_is_Some. by right.
  - intros v [Hd|[Hn Hd]]%lookup_union_Some_raw; [by apply IH3|].
    destruct IH2 as [->|[? ?]]; [|congruence].
    destruct (Hsrc _ _ Hd) as [[Hro Hcd]|[[? _]|(_ & c' & vs & rest & Hc' & Heq & -> & Hcd)]]; [|done|].
    + rewrite Hc, no_plain_carg in Hcd by done. done.
    + rewrite <-Heq in Hcd. exists vs. split; [done|]. by eapply collected.
Qed.
Lemma bound_gather tr1 tr2 t : tr0 = tr1 ++ tr2 -> bound tr1 t0 t ->
  (forall d v, d <> carg c -> ti_dyn t !! d = Some v -> peval ov d v) /\
  (t = t0 \/ is_Some (ti_dyn t !! carg c)) /\
  (forall v, ti_dyn t !! carg c = Some v -> exists vs, v = mk_list vs /\ goodlist vs).
Proof.
  intros Htr Hb. remember t0 as tt eqn:Htt. revert tr2 Htr. induction Hb as [tr1 tx|tr1 tr1' tx t s fu t' Hb IH HI Hc Hready Hbind]; intros tr2 Htr.
  - subst tx. cbn. split_and!; [|by left|]; intros *; [intros _|]; by rewrite lookup_empty.
  - rewrite <-app_assoc in Htr. destruct (IH Htt _ Htr) as (IH1 & IH2 & IH3). subst tx.
    destruct (bind_gather tr1 _ t s fu t' Htr HI Hc Hready (bound_spec _ _ _ Hb) Hbind IH1 IH2 IH3) as (? & ? & ?). auto.
Qed.
End Gather.

(** *** The step *)
Lemma form_cases tr t0 ng : good tr -> form tr t0 -> of_group (ti_spec t0) ng ->
  (ng_purpose ng <> GATHER /\ exists env, task_env t0 ng env /\ env_for tr t0 env) \/
  (exists T X c l ngB, expanded tr T X l /\ ti_spec t0 ∈ to_collect tasks T /\ expand_group T X /\ block_group T ngB /\ ng_nodes ng = [c] /\
     role_of c = RCollect /\ ov !! c = None /\ edge g c (carg c) /\ carg c ∈ ng_nodes ngB /\ feeds g role_of X (carg c) /\
     t0 = collect_task tasks T (length l) (ti_spec t0) /\ plain t0).
Proof.
  intros HGd Hform Hog. pose proof HGd as (Hr & Hf & Hnd & _). pose proof (good_vals _ HGd) as Hvals.
  destruct Hform as [sp Hin Hn|T X l i v sp Hex Hi Hin|T X l sp Hex Hin]; cbn in Hog.
  - left. assert (Hns : ng_spawn ng = None) by (rewrite <-(og_spawn _ _ Hog); done). split.
    + destruct (gg_static _ _ _ _ _ _ HG ng (og_in _ _ Hog) Hns) as [(_ & ? & _)|(? & _ & ? & _)]; [done|congruence].
    + exists ov. split; [by left|]. left. done.
  - apply (elem_to_repeat tasks Hplan) in Hin as (Hin & Hs & He & Hg). rewrite (og_purpose _ _ Hog) in He, Hg.
    left. split; [done|]. exists (<[X := v]> ov). destruct (expanded_peval tr Hr Hvals T X l Hex) as (e & w & HeG & -> & _). split.
    + right. exists T, e, v. split_and!; [|done|done|done].
      split_and!; [apply Hog|rewrite <-(og_spawn _ _ Hog); done|done|done].
    + right. exists T, i, e, l, v. split_and!; [|done|done|done]. split_and!; [done|done|].
      cbn. rewrite (og_purpose _ _ Hog). done.
  - right. pose proof Hin as Hin'. apply (elem_to_collect tasks Hplan) in Hin as (Hin & Hs & Hg).
    rewrite (og_purpose _ _ Hog) in Hg. rewrite (og_spawn _ _ Hog) in Hs.
    destruct (gg_gather _ _ _ _ _ _ HG T ng (og_in _ _ Hog) Hs Hg) as (c & e & ngB & HeG & HB & Hn & Hrole & Hoc & Hed & HinB & Hfeeds).
    destruct (expanded_peval tr Hr Hvals T X l Hex) as (e' & w & HeG' & -> & _).
    rewrite (expand_group_inj T e' e HeG' HeG) in *.
    exists T, e, c, l, ngB. split_and!; done.
Qed.

Lemma step_sem tr t calls r : good tr -> runs_ok (tr ++ [TRun t calls (Ok r)]) -> sem tr t r.
Proof.
  intros HGd Hrun. pose proof HGd as (Hr & Hf & Hnd & _).
  destruct (Hrun tr t calls (Ok r) [] eq_refl) as (Hexec & t0 & tb & s & fu & Hform & Hb & HI & Hc & Hready & Hbind).
  assert (Hcore : core t = core t0) by (rewrite (bind_core _ _ _ _ _ _ _ Hbind); by eapply bound_core).
  apply core_eq in Hcore as (Hs & Hs1 & Hs2).
  pose proof (form_shape _ _ Hform) as [Hsp _]. destruct (task_group _ Hsp) as (ng & Hog).
  destruct (bind_spec _ _ _ Hbind) as (dyn & req & opt & Hio & Hdyn & _ & Hreq & Hopt & Hgat).
  rewrite (bound_spec _ _ _ Hb) in *. pose proof (input_vars_spec g (ti_spec t0)) as Hiv. rewrite Hio in Hiv. destruct Hiv as [Hiv1 Hiv2].
  set (tov := ts_overrides (ti_spec t0) ∪ ti_dyn t).
  assert (Hread : forall d, wants g (ts_nodes (ti_spec t0)) (ts_overrides (ti_spec t0)) d ->
     (ng_purpose ng = GATHER -> forall c, ng_nodes ng = [c] -> d <> carg c) -> is_Some (tov !! d) \/ absent g inputs ov d).
  { intros d Hw Hng. pose proof Hw as Hro. apply Hiv2 in Hro. apply elem_of_union in Hro as [Hd|Hd].
    - left. unfold tov. rewrite Hdyn, !lookup_union_is_Some. destruct (Hreq d Hd); auto.
    - destruct (cache_settled tr Hr Hf Hnd (good_vals _ HGd) ng (ti_spec t0) d Hsp Hog (ready_deps _ _ _ _ _ _ HI Hform Hog Hready) Hw Hng)
        as [(v & Hv & _)|[_ Ha]]; [|by right].
      left. unfold tov. rewrite Hdyn, !lookup_union_is_Some. right. right. apply Hopt; [done|]. rewrite Hc, Hv. by eexists. }
  assert (Hovd : forall x, ts_overrides (ti_spec t0) !! x = if bool_decide (x ∈ ng_nodes ng) then ov !! x else None) by apply Hog.
  destruct (task_results g role_of carg as_list mk_list f not_iterable (gg_wf _ _ _ _ _ _ HG) (gg_acyc _ _ _ _ _ _ HG) t calls r) as [Hsound Hcompl].
  { intros x Hx. rewrite Hs, (og_nodes _ _ Hog) in Hx. eapply (gg_nodes _ _ _ _ _ _ HG); [apply Hog|done]. }
  { intros x Hx. rewrite Hs, Hovd in Hx. rewrite Hs, (og_nodes _ _ Hog). case_bool_decide; [done|]. by destruct Hx. }
  { intros x Hx. rewrite Hs in Hx |- *. apply (og_outputs _ _ Hog) in Hx as [Hx _]. by rewrite (og_nodes _ _ Hog). }
  { done. }
  rewrite Hs in Hsound, Hcompl. fold tov in Hsound, Hcompl.
  assert (Htov : forall d v, tov !! d = Some v -> (d ∈ ng_nodes ng /\ ov !! d = Some v) \/ ti_dyn t !! d = Some v).
  { intros d v. unfold tov. intros [Hd|[_ Hd]]%lookup_union_Some_raw; [|by right]. left. rewrite Hovd in Hd. by case_bool_decide. }
  (* external nodes of the task have been read *)
  assert (Hextn : forall x, x ∈ ts_nodes (ti_spec t0) -> is_ext g x = true -> is_Some (tov !! x)).
  { intros x Hx Hxe. destruct (ts_overrides (ti_spec t0) !! x) as [v|] eqn:Ho.
    - unfold tov. rewrite lookup_union_is_Some, Ho. left. by eexists.
    - unfold tov. rewrite Hdyn, !lookup_union_is_Some. destruct (Hreq x (Hiv1 x Hx Ho Hxe)); auto. }
  assert (Hout : forall x, x ∈ ts_outputs (ti_spec t) -> is_Some (r !! x)).
  { intros x Hx. rewrite Hs in Hx. destruct (Hcompl x (or_introl Hx)) as [?|Ha]; [done|]. exfalso.
    destruct Ha as (Ha1 & Ha2 & nd & Ha3 & Ha4). apply (og_outputs _ _ Hog) in Hx as [Hx _].
    destruct (Hextn x) as [? ?]; [by rewrite (og_nodes _ _ Hog)|by unfold is_ext; rewrite Ha3|]. congruence. }
  assert (Hdom : forall x, is_Some (r !! x) -> x ∈ ts_nodes (ti_spec t)).
  { intros x [v Hx]. rewrite Hs. by eapply Hsound. }
  destruct (form_cases tr t0 ng HGd Hform Hog) as [[Hng (env & Henv & Hfor)]|(T & X & c & l & ngB & Hex & Hcol & HeG & HB & Hn & Hrole & Hoc & Hed & HinB & Hfeeds & Ht0 & Hpl)].
  - split_and!; [|done|done]. exists env. split.
    { destruct Hfor as [[[? ?] ->]|(T & i & X & l & item & (? & ? & ?) & ? & ? & ->)]; [left|right].
      - split; [|done]. unfold plain. by rewrite Hs1, Hs2.
      - exists T, i, X, l, item. split_and!; [|done|done|done]. unfold in_branch. by rewrite Hs, Hs1, Hs2. }
    intros x v Hx. destruct (Hsound x v Hx) as [Hxn Hev].
    assert (Hdynok : forall d w, ti_dyn t !! d = Some w -> peval env d w).
    { eapply (bind_env tr s fu t0 tb t ng env tr); try done.
      - intros. by eapply bound_mono.
      - by eapply bound_spec.
      - by eapply bound_env. }
    assert (Hdt0 : forall d, ti_dyn t !! d = None -> ti_dyn t0 !! d = None).
    { intros d Hd. destruct (ti_dyn t0 !! d) eqn:Heq; [|done]. eapply bound_mono in Heq; [|done].
      rewrite Hdyn in Hd. apply lookup_union_None in Hd as [Hd _]. congruence. }
    assert (Henvx : forall d, ti_dyn t !! d = None -> env !! d = ov !! d).
    { intros d Hd. apply Hdt0 in Hd. destruct Henv as [(_ & _ & ->)|(T & X & item & _ & _ & Hd0 & ->)]; [done|].
      rewrite lookup_insert_ne; [done|]. intros <-. by rewrite Hd0, lookup_singleton in Hd. }
    assert (Hcl : forall x, x ∈ ng_nodes ng -> role_of x <> RCollect).
    { intros y Hy. destruct Henv as [(Hns & _)|(T & X & item & HB & _)].
      - destruct (gg_static _ _ _ _ _ _ HG ng (og_in _ _ Hog) Hns) as [(_ & _ & H)|(e & (ng' & ? & ? & ? & ? & ? & He & _) & _ & Hn)]; [by apply H|].
        rewrite Hn in Hy. apply elem_of_list_singleton in Hy as ->. congruence.
      - destruct (gg_block _ _ _ _ _ _ HG T ng HB) as (e & _ & Hin & _). by apply Hin. }
    eapply (eval_peval g role_of carg as_list mk_list f not_iterable inputs t env).
    + rewrite Hs. fold tov. intros y Hy Hty. rewrite (og_nodes _ _ Hog) in Hy. split; [|by apply Hcl].
      apply lookup_union_None in Hty as [Hty Hty']. rewrite Henvx by done. by rewrite Hovd, bool_decide_true in Hty.
    + rewrite Hs. fold tov. intros d w [[Hdn Hd]|Hd]%Htov; [|by apply Hdynok].
      destruct Henv as [(_ & _ & ->)|(T & X & item & HB & _)]; [by apply pe_given|].
      destruct (gg_block _ _ _ _ _ _ HG T ng HB) as (e & _ & Hin & _). destruct (Hin d Hdn) as (_ & ? & _). congruence.
    + rewrite Hs. fold tov. done.
    + rewrite Hs. fold tov. intros y d Hy Hty Hed Hd.
      destruct (tov !! d) as [w|] eqn:Htd; [left; by eexists|]. right.
      apply lookup_union_None in Htd as [Htd1 Htd2]. apply lookup_union_None in Hty as [Hty _].
      destruct (Hread d) as [[w Hw]|(Ha1 & Ha2 & Ha3)].
      * exists y. split_and!; [done|done|]. right. auto.
      * intros ?. done.
      * unfold tov in Hw. apply lookup_union_Some_raw in Hw as [?|[_ ?]]; congruence.
      * split_and!; [by rewrite Henvx|done|done].
    + rewrite Hs. fold tov. done.
    + rewrite Hs. by left.
  - split_and!; [|done|done]. exists ov. split.
    { left. split; [|done]. destruct Hpl as [? ?]. unfold plain. by rewrite Hs1, Hs2. }
    intros x v Hx. destruct (Hsound x v Hx) as [Hxn Hev]. rewrite (og_nodes _ _ Hog), Hn in Hxn. apply elem_of_list_singleton in Hxn as ->.
    destruct (expanded_peval tr Hr (good_vals _ HGd) T X l Hex) as (e & w & _ & <- & Hpw & Hlw).
    assert (Hbg : (forall d v, d <> carg c -> ti_dyn t !! d = Some v -> peval ov d v) /\
       is_Some (ti_dyn t !! carg c) /\
       (forall v, ti_dyn t !! carg c = Some v -> exists vs, v = mk_list vs /\ goodlist X c l vs)).
    { rewrite Ht0 in Hb, Hready.
      destruct (bound_gather tr HGd T X c l (ti_spec t0) ng ngB Hex Hcol Hog HB Hn Hrole Hoc Hed HinB tr [] tb) as (H1 & H2 & H3); [by rewrite app_nil_r|done|].
      eapply (bind_gather tr HGd T X c l (ti_spec t0) ng ngB Hex Hcol Hog HB Hn Hrole Hoc Hed HinB tr [] tb s fu t); try done.
      - by rewrite app_nil_r.
      - by rewrite (bound_spec _ _ _ Hb). }
    destruct Hbg as (Hd1 & [u Hu] & Hd3). destruct (Hd3 u Hu) as (vs & -> & Hlen & Hgl).
    assert (Hcn : carg c ∉ ng_nodes ng) by (eapply carg_out; try done).
    assert (Htovc : ts_overrides (ti_spec t0) !! c = None). { rewrite Hovd, Hn, bool_decide_true by (by left). done. }
    assert (Hwant : forall d, edge g c d -> wants g (ts_nodes (ti_spec t0)) (ts_overrides (ti_spec t0)) d).
    { intros d Hd. exists c. split_and!; [rewrite (og_nodes _ _ Hog), Hn; by left|done|]. right.
      assert (d ∉ ts_nodes (ti_spec t0)) as Hdn.
      { rewrite (og_nodes _ _ Hog), Hn. intros ->%elem_of_list_singleton. by eapply (gg_acyc _ _ _ _ _ _ HG), tc_once. }
      split_and!; [done| |by right]. rewrite Hovd, bool_decide_false; [done|]. by rewrite <-(og_nodes _ _ Hog). }
    assert (Hcc : c <> carg c). { intros Heq. rewrite <-Heq in Hed. by eapply (gg_acyc _ _ _ _ _ _ HG), tc_once. }
    destruct (ti_dyn t !! c) as [u|] eqn:Hdc.
    { rewrite (eval_given g _ _ _ _ _ u Hev); [by apply Hd1|]. unfold tov. by rewrite lookup_union_r. }
    eapply (eval_gather g role_of carg as_list mk_list f not_iterable inputs t ov c X w l vs); rewrite ?Hs; fold tov; try done.
    + rewrite (og_nodes _ _ Hog). done.
    + by apply lookup_union_None.
    + unfold tov. rewrite lookup_union_r; [done|]. by rewrite Hovd, bool_decide_false.
    + intros d u Hne [[_ Hd]|Hd]%Htov; [by apply pe_given|by apply Hd1].
    + intros d Hd. destruct (decide (d = carg c)) as [->|Hne].
      * left. unfold tov. rewrite lookup_union_is_Some. right. by eexists.
      * apply Hread; [by apply Hwant|]. intros _ c' Hc'. rewrite Hn in Hc'. by injection Hc' as <-.
Qed.
(** *** All runs *)
Lemma sem_app tr tr' t r : sem tr t r -> sem (tr ++ tr') t r.
Proof.
  intros ((env & He & Hs) & H2 & H3). split_and!; [|done|done]. exists env. split; [|done].
  destruct He as [?|(T & i & X & l & item & H4 & H5 & H6 & H7)]; [by left|right].
  exists T, i, X, l, item. split_and!; [done|by apply expanded_app|done|done].
Qed.
Lemma all_good tr : runs_ok tr -> fin_ok tr -> NoDup (run_ids tr) -> good tr.
Proof.
  induction tr as [|e tr IH] using rev_ind; intros H1 H2 H3.
  - split_and!; [done|done|done|]. intros tr1 tr2 Heq. symmetry in Heq. apply app_eq_nil in Heq as [-> _].
    intros t calls r Hin. by apply elem_of_nil in Hin.
  - assert (Hg : good tr).
    { apply IH; [by eapply runs_ok_prefix|by eapply fin_ok_prefix|]. rewrite run_ids_app in H3. by apply NoDup_app in H3 as (? & _). }
    split_and!; [done|done|done|]. intros tr1 tr2 Heq. destruct tr2 as [|e' tr2 _] using rev_ind.
    + rewrite app_nil_r in Heq. subst tr1. intros t calls r Hin. apply elem_of_app in Hin as [Hin|Hin].
      * apply sem_app. by eapply (good_vals _ Hg).
      * apply elem_of_list_singleton in Hin as <-. apply sem_app. by eapply step_sem.
    + rewrite app_assoc in Heq. apply app_inj_tail in Heq as [-> _]. destruct Hg as (_ & _ & _ & Hg). by eapply Hg.
Qed.

Variable which : timpl -> nat.
Variable limit : nat -> option nat.
Variable fin : nat -> string -> bool.
Notation run_graph := (run_graph g role_of carg as_list mk_list f not_iterable tasks which limit fin).

Lemma run_good n : good (trace_of_loop (run_graph n cache0)).
Proof.
  pose proof (run_trace_ok g role_of carg as_list mk_list f not_iterable tasks which limit fin Hlist Hplan cache0 n) as (H1 & s & fu & HI).
  pose proof (run_fin_ok g role_of carg as_list mk_list f not_iterable tasks which limit fin Hlist Hplan cache0 n) as H2.
  apply all_good; [done|done|]. by eapply i_runs_nodup.
Qed.

(** The value of a variable outside parallel blocks once the run is over. *)
Lemma run_final n r x : live_plan tasks -> run_graph n cache0 = LDone r -> is_Some (g !! x) ->
  (is_Some (ov !! x) \/ (x ∈ outputs /\ exists ng, ng ∈ groups /\ x ∈ ng_nodes ng /\ forall T, ~ block_group T ng)) ->
  exists v, es_cache (r_es r) !! x = Some v /\ peval ov x v.
Proof.
  intros Hlive Hrun Hgx Hx. pose proof (run_good n) as HGd. rewrite Hrun in HGd. cbn in HGd.
  pose proof HGd as (Hr & Hf & Hnd & _). pose proof (good_vals _ HGd) as Hvals.
  assert (HR : rinv g role_of carg as_list mk_list f not_iterable tasks cache0 r /\ is_terminal (graph_state (r_es r)) = true).
  { pose proof (loop_inv g role_of carg as_list mk_list f not_iterable tasks which limit fin Hlist Hplan cache0 n 0 _
      (init_inv g role_of carg as_list mk_list f not_iterable tasks Hplan cache0)) as H.
    unfold StateModel.run_graph in Hrun. rewrite Hrun in H. exact H. }
  destruct HR as [HR Hterm].
  rewrite (h_cache _ _ _ _ _ _ _ _ _ _ _ (ri_hist _ _ _ _ _ _ _ _ _ _ HR)).
  destruct (cache_plain (E:=E) role_of as_list mk_list cache0 (r_trace r) x (gg_names _ _ _ _ _ _ HG x Hgx) (shape_of _ Hr Hf Hnd)) as [(v & Hv & Hw)|[Hc Hnw]].
  { exists v. split; [done|]. by eapply wrote_peval. }
  rewrite Hc. unfold cache0. destruct (ov !! x) as [v|] eqn:Ho.
  { exists v. split; [|by apply pe_given]. rewrite lookup_union_r; [done|]. by eapply (gg_once _ _ _ _ _ _ HG). }
  destruct Hx as [[? ?]|(Hout & ng & Hng & Hxn & Hnb)]; [done|]. exfalso.
  destruct (group_task ng Hng) as (sp & Hsp & Hog).
  pose proof (terminal_done g role_of carg as_list mk_list f not_iterable tasks Hplan Hlive cache0 r HR Hterm sp Hsp) as Hdone.
  apply (done_base role_of as_list) in Hdone.
  2: { intros [[T HT] Hg']. rewrite (og_spawn _ _ Hog) in HT. rewrite (og_purpose _ _ Hog) in Hg'.
       apply (Hnb T). split_and!; [done|done| |done]. by eapply (gg_no_expand _ _ _ _ _ _ HG). }
  destruct (finished_base _ _ Hr Hf Hsp Hdone) as (t & calls & res & Hin & Hts & Hpl & Hid).
  destruct (Hvals _ _ _ Hin) as (_ & Hcompl & _).
  destruct (wr_has _ Hr Hvals t calls res x Hin Hpl) as [v Hv].
  { apply Hcompl. rewrite Hts. apply (og_outputs _ _ Hog). auto. }
  apply (Hnw v). exists t, calls, res. split_and!; [done| |done|done]. by rewrite Hid.
Qed.

(** *** What a collector is called with *)
Lemma step_collect tr t calls o c kw res : good tr -> runs_ok (tr ++ [TRun t calls o]) ->
  Call c kw res ∈ calls -> role_of c = RCollect ->
  exists e w items vs, feeds g role_of e (carg c) /\ peval ov e w /\ as_list w = Some items /\
    kw !! carg c = Some (mk_list vs) /\ length vs = length items /\
    forall i item u, items !! i = Some item -> vs !! i = Some u -> peval (<[e := item]> ov) (carg c) u.
Proof.
  intros HGd Hrun Hcall Hrole. pose proof HGd as (Hr & Hf & Hnd & _).
  destruct (Hrun tr t calls o [] eq_refl) as (Hexec & t0 & tb & s & fu & Hform & Hb & HI & Hc & Hready & Hbind).
  assert (Hcore : core t = core t0) by (rewrite (bind_core _ _ _ _ _ _ _ Hbind); by eapply bound_core).
  apply core_eq in Hcore as (Hs & Hs1 & Hs2).
  pose proof (form_shape _ _ Hform) as [Hsp _]. destruct (task_group _ Hsp) as (ng & Hog).
  destruct (bind_spec _ _ _ Hbind) as (dyn & req & opt & Hio & Hdyn & _ & Hreq & Hopt & Hgat).
  rewrite (bound_spec _ _ _ Hb) in *. pose proof (input_vars_spec g (ti_spec t0)) as Hiv. rewrite Hio in Hiv. destruct Hiv as [Hiv1 Hiv2].
  set (tov := ts_overrides (ti_spec t0) ∪ ti_dyn t) in *.
  assert (Hread : forall d, wants g (ts_nodes (ti_spec t0)) (ts_overrides (ti_spec t0)) d ->
     (ng_purpose ng = GATHER -> forall c, ng_nodes ng = [c] -> d <> carg c) -> is_Some (tov !! d) \/ absent g inputs ov d).
  { intros d Hw Hng. pose proof Hw as Hro. apply Hiv2 in Hro. apply elem_of_union in Hro as [Hd|Hd].
    - left. unfold tov. rewrite Hdyn, !lookup_union_is_Some. destruct (Hreq d Hd); auto.
    - destruct (cache_settled tr Hr Hf Hnd (good_vals _ HGd) ng (ti_spec t0) d Hsp Hog (ready_deps _ _ _ _ _ _ HI Hform Hog Hready) Hw Hng)
        as [(v & Hv & _)|[_ Ha]]; [|by right].
      left. unfold tov. rewrite Hdyn, !lookup_union_is_Some. right. right. apply Hopt; [done|]. rewrite Hc, Hv. by eexists. }
  assert (Hgat' : forall c', ng_purpose ng = GATHER -> ng_nodes ng = [c'] -> role_of c' = RCollect -> is_Some (tov !! carg c')).
  { intros c' Hg Hn Hr'. destruct Hgat as (c1 & Hc1 & Hd1); [by rewrite (og_purpose _ _ Hog)|].
    unfold collector_node in Hc1. rewrite (og_nodes _ _ Hog), Hn in Hc1. cbn in Hc1.
    destruct (decide (role_of c' = RCollect)); [|done]. injection Hc1 as ->. unfold tov. rewrite Hdyn, !lookup_union_is_Some. auto. }
  (* only nodes of the task are computed *)
  unfold StateModel.base_execute_task in Hexec. rewrite Hs in Hexec. fold tov in Hexec.
  assert (Hroots : forall x, x ∈ ts_nodes (ti_spec t0) -> is_Some (g !! x)).
  { intros x Hx. rewrite (og_nodes _ _ Hog) in Hx. eapply (gg_nodes _ _ _ _ _ _ HG); [apply Hog|done]. }
  pose proof (execute_subdag_ok (fun _ => modify_callable role_of as_list mk_list f not_iterable) g (ti_dyn t) tov
    (ts_nodes (ti_spec t0)) (gg_wf _ _ _ _ _ _ HG) (gg_acyc _ _ _ _ _ _ HG) Hroots) as Hpost.
  assert (Hgd : ExecProofs.good (fun _ => modify_callable role_of as_list mk_list f not_iterable) g (ti_dyn t) tov (ts_nodes (ti_spec t0)) calls).
  { destruct (execute_subdag _ _ _ _ _) as [st|st e| |]; cbn [post] in Hpost; try done; injection Hexec as <- _.
    - destruct Hpost as (Hi & _). apply Hi.
    - apply Hpost. }
  assert (Hin : needed g tov (ts_nodes (ti_spec t0)) c /\ exists nd, g !! c = Some nd /\ nd_ext nd = false).
  { eapply calls_needed; [done|]. by eapply elem_calls_of. }
  destruct Hin as [Hneed (nd & Hgc & Hnext)].
  assert (Hcn : c ∈ ng_nodes ng).
  { assert (Hgen : forall y, needed g tov (ts_nodes (ti_spec t0)) y -> y ∈ ng_nodes ng \/ is_ext g y = true).
    { clear Hneed. intros y Hy. induction Hy as [y Hy Hty|y d Hy IHy Hed Htd].
      - left. by rewrite <-(og_nodes _ _ Hog).
      - destruct (decide (d ∈ ng_nodes ng)) as [|Hdn]; [by left|]. right.
        destruct IHy as [Hyn|Hye].
        2: { exfalso. destruct Hed as (ndy & Hgy & Hdy). unfold is_ext in Hye. rewrite Hgy in Hye.
             pose proof (wf_ext _ (gg_wf _ _ _ _ _ _ HG) _ _ Hgy Hye) as Hno. unfold dep_names in Hdy. rewrite Hno in Hdy. by apply elem_of_nil in Hdy. }
        assert (Hty : tov !! y = None) by (by inversion Hy).
        apply lookup_union_None in Hty as [Hty _]. pose proof Htd as Htd'. apply lookup_union_None in Htd' as [Htd' _].
        assert (Hw : wants g (ts_nodes (ti_spec t0)) (ts_overrides (ti_spec t0)) d).
        { exists y. rewrite (og_nodes _ _ Hog). split_and!; [done|done|]. right. auto. }
        destruct (Hread d Hw) as [[? ?]|(_ & _ & nd' & Hg' & Hx')]; [|congruence|].
        + intros Hg c' Hn ->. destruct (Hgat' c') as [? ?]; [done|done| |congruence].
          destruct (ng_spawn ng) as [T'|] eqn:HT'.
          * destruct (gg_gather _ _ _ _ _ _ HG T' ng (og_in _ _ Hog) HT' Hg) as (c2 & ? & ? & _ & _ & Hn2 & ? & _). congruence.
          * destruct (gg_static _ _ _ _ _ _ HG ng (og_in _ _ Hog) HT') as [(_ & ? & _)|(? & _ & ? & _)]; [done|congruence].
        + unfold is_ext. by rewrite Hg'. }
    destruct (Hgen c Hneed) as [?|Hx]; [done|]. unfold is_ext in Hx. rewrite Hgc in Hx. congruence. }
  destruct (form_cases tr t0 ng HGd Hform Hog) as [[Hng (env & Henv & Hfor)]|(T & X & c' & l & ngB & Hex & Hcol & HeG & HB & Hn & _ & Hoc & Hed & HinB & Hfeeds & Ht0 & Hpl)].
  { exfalso. destruct Henv as [(Hns & _)|(T & X & item & HB & _)].
    - destruct (gg_static _ _ _ _ _ _ HG ng (og_in _ _ Hog) Hns) as [(_ & _ & H)|(e & (ng' & ? & ? & ? & ? & ? & He & _) & _ & Hn)]; [by apply (H c)|].
      rewrite Hn in Hcn. apply elem_of_list_singleton in Hcn as ->. congruence.
    - destruct (gg_block _ _ _ _ _ _ HG T ng HB) as (e & _ & Hin & _). by apply (Hin c). }
  rewrite Hn in Hcn. apply elem_of_list_singleton in Hcn as <-.
  destruct (expanded_peval tr Hr (good_vals _ HGd) T X l Hex) as (e & w & _ & <- & Hpw & Hlw).
  assert (Hbg : (forall d v, d <> carg c -> ti_dyn t !! d = Some v -> peval ov d v) /\
     is_Some (ti_dyn t !! carg c) /\
     (forall v, ti_dyn t !! carg c = Some v -> exists vs, v = mk_list vs /\ goodlist X c l vs)).
  { rewrite Ht0 in Hb, Hready.
    destruct (bound_gather tr HGd T X c l (ti_spec t0) ng ngB Hex Hcol Hog HB Hn Hrole Hoc Hed HinB tr [] tb) as (H1 & H2 & H3); [by rewrite app_nil_r|done|].
    eapply (bind_gather tr HGd T X c l (ti_spec t0) ng ngB Hex Hcol Hog HB Hn Hrole Hoc Hed HinB tr [] tb s fu t); try done.
    - by rewrite app_nil_r.
    - by rewrite (bound_spec _ _ _ Hb). }
  destruct Hbg as (_ & [u Hu] & Hd3). destruct (Hd3 u Hu) as (vs & -> & Hlen & Hgl).
  exists X, w, l, vs. split_and!; try done.
  assert (Hcn : carg c ∉ ng_nodes ng) by (eapply carg_out; try done).
  assert (Htc : tov !! carg c = Some (mk_list vs)).
  { unfold tov. rewrite lookup_union_r; [done|]. rewrite (og_overrides _ _ Hog), bool_decide_false by done. done. }
  apply elem_of_list_split in Hcall as (c1 & c2 & ->).
  destruct (Hgd c1 _ c2 eq_refl) as (_ & _ & _ & _ & _ & nd' & Hgx & _ & Hkw & Hall).
  destruct Hed as (nd'' & Hg'' & Hd''). assert (nd'' = nd') as -> by congruence.
  unfold dep_names in Hd''. apply elem_of_list_fmap in Hd'' as ([d dt] & Hd & Hdin). cbn in Hd. subst d.
  destruct (Hall _ _ Hdin) as [[w' Hw']|(_ & (Ha & _) & _)]; [|congruence].
  destruct (Hkw _ _ Hw') as [_ Hst]. eapply good_available in Hst; [|by eapply good_app_inv].
  destruct Hst as [Hst|[Hst _]]; [|congruence]. rewrite Htc in Hst. by injection Hst as <-.
Qed.
Lemma run_collects n t calls o c kw res : TRun t calls o ∈ trace_of_loop (run_graph n cache0) ->
  Call c kw res ∈ calls -> role_of c = RCollect ->
  exists e w items vs, feeds g role_of e (carg c) /\ peval ov e w /\ as_list w = Some items /\
    kw !! carg c = Some (mk_list vs) /\ length vs = length items /\
    forall i item u, items !! i = Some item -> vs !! i = Some u -> peval (<[e := item]> ov) (carg c) u.
Proof.
  intros Hin. pose proof (run_good n) as HGd. apply elem_of_list_split in Hin as (a & b & Heq). rewrite Heq in HGd.
  replace (a ++ TRun t calls o :: b) with ((a ++ [TRun t calls o]) ++ b) in HGd by (by rewrite <-app_assoc).
  apply good_prefix in HGd. pose proof HGd as (Hr & _). apply good_prefix in HGd. by apply step_collect with (tr:=a) (o:=o) (t:=t).
Qed.

(** ** What can go wrong in a run *)
(** No variable of a group is an input that was not supplied, nor a required dependency of one. *)
Section Safe.
Hypothesis Hpres : forall ng x, ng ∈ groups -> x ∈ ng_nodes ng -> ~ absent g inputs ov x.
Hypothesis Hpres_dep : forall ng x d, ng ∈ groups -> x ∈ ng_nodes ng -> ov !! x = None -> (d, REQUIRED) ∈ deps_of g x -> ~ absent g inputs ov d.

Lemma collect_values_total (s : estate) arg ids :
  (forall id, id ∈ ids -> exists t, dget (es_pool s) id = Some t /\ is_Some (es_cache s !! format_key (ti_group t) (ti_spawner t) arg)) ->
  exists vs, collect_values (E:=E) s arg ids = Ok vs.
Proof.
  induction ids as [|id ids IH]; intros H; cbn [collect_values]; [by eexists|].
  destruct (H id) as (t & -> & [v ->]); [by left|]. destruct IH as [vs ->]; [|by eexists]. intros id' Hid'. apply H. by right.
Qed.
Lemma collect_deps_total (s : estate) arg rd : forall acc,
  (forall b id ids, (b, id :: ids) ∈ rd -> is_Some (dget (es_pool s) id)) ->
  (forall b id ids t, (b, id :: ids) ∈ rd -> dget (es_pool s) id = Some t -> arg ∈ ts_nodes (ti_spec t) ->
     exists vs, collect_values (E:=E) s arg (id :: ids) = Ok vs) ->
  exists p, collect_deps (E:=E) s arg acc rd = Ok p.
Proof.
  induction rd as [|[b ids] rd IH]; intros acc H1 H2; cbn [collect_deps]; [by eexists|].
  assert (IH' : forall acc, exists p, collect_deps (E:=E) s arg acc rd = Ok p).
  { intros acc'. apply IH; [intros b' id ids' Hin; eapply H1; by right|]. intros b' id ids' t Hin. eapply H2. by right. }
  clear IH. destruct ids as [|id ids].
  - destruct (IH' acc) as [[vs rest] ->]. by eexists.
  - destruct (H1 b id ids) as [t Ht]; [by left|]. rewrite Ht. case_bool_decide as Ha.
    + destruct (H2 b id ids t) as [vs ->]; [by left|done|done|]. apply IH'.
    + destruct (IH' acc) as [[vs rest] ->]. by eexists.
Qed.
Lemma collect_deps_rest (s : estate) arg rd : forall acc vs rest, collect_deps (E:=E) s arg acc rd = Ok (vs, rest) -> forall p, p ∈ rest -> p ∈ rd.
Proof.
  induction rd as [|[b ids] rd IH]; intros acc vs rest; cbn [collect_deps]; [intros [= <- <-]; done|].
  destruct ids as [|id ids].
  - destruct (collect_deps s arg acc rd) as [[vs' rest']|] eqn:Hrec; [|done]. intros [= <- <-] p [->|Hp]%elem_of_cons; [by left|right]. by eapply IH.
  - destruct (dget (es_pool s) id) as [t|]; [|done]. destruct (bool_decide _).
    + destruct (collect_values s arg (id :: ids)) as [vs'|]; [|done]. intros Hrec p Hp. right. by eapply IH.
    + destruct (collect_deps s arg acc rd) as [[vs' rest']|] eqn:Hrec; [|done]. intros [= <- <-] p [->|Hp]%elem_of_cons; [by left|right]. by eapply IH.
Qed.
Lemma bind_rdeps s t t' : bind_task s t = Ok t' -> forall p, p ∈ ti_rdeps t' -> p ∈ ti_rdeps t.
Proof.
  unfold StateModel.bind_task. destruct (get_input_vars g (ti_spec t)) as [req opt].
  destruct (bool_decide (ts_purpose (ti_spec t) = GATHER)).
  - destruct (collector_node role_of (ti_spec t)) as [c|]; [|done].
    destruct (collect_deps s (carg c) [] (ti_rdeps t)) as [[vs rest]|] eqn:Hc; [|done].
    destruct (cache_read _ _); [|done]. intros [= <-]. cbn. by eapply collect_deps_rest.
  - destruct (cache_read _ _); [|done]. intros [= <-]. done.
Qed.
Lemma bound_rdeps tr t0 t : bound tr t0 t -> forall p, p ∈ ti_rdeps t -> p ∈ ti_rdeps t0.
Proof.
  intros Hb. induction Hb as [|tr1 tr2 t0 t s fu t' Hb IH HI Hc Hready Hbind]; [done|]. intros p Hp. apply IH. by eapply bind_rdeps.
Qed.

Lemma cache_read_total (c : gmap string V) ks : (forall k, k ∈ ks -> is_Some (c !! k)) -> exists m, cache_read c ks = Ok m.
Proof.
  induction ks as [|k ks IH]; intros H; cbn [cache_read]; [by eexists|]. change (format_key None None k) with k.
  destruct (H k) as [v ->]; [by left|]. destruct IH as [m ->]; [|by eexists]. intros k' Hk'. apply H. by right.
Qed.

(** The branches of a finished block have left their values of the collected variable. *)
Lemma block_values tr s fu T X l sp ng ngB c b id ids t :
  good tr -> inv0 s fu tr -> es_cache s = cache_at tr -> expanded tr T X l -> sp ∈ to_collect tasks T -> of_group sp ng ->
  block_group T ngB -> ng_nodes ng = [c] -> edge g c (carg c) -> ov !! c = None -> carg c ∈ ng_nodes ngB ->
  ready (es_states s) (collect_task tasks T (length l) sp) ->
  (b, id :: ids) ∈ ti_rdeps (collect_task tasks T (length l) sp) -> dget (es_pool s) id = Some t -> carg c ∈ ts_nodes (ti_spec t) ->
  exists vs, collect_values (E:=E) s (carg c) (id :: ids) = Ok vs.
Proof.
  intros HGd HI Hc Hex Hspc Hog HblB Hnodes Hedge Hovc HinB Hready Hin Ht Ha. pose proof HGd as (Hr & Hf & Hnd & _).
  pose proof HblB as (HB & HsB & HeB & HgB). destruct (group_task ngB HB) as (spB & HspB & HogB).
  pose proof Hspc as (Hspt & Hspawn & Hgat)%(elem_to_collect tasks Hplan).
  assert (Hov_carg : ov !! carg c = None).
  { destruct (gg_block _ _ _ _ _ _ HG T ngB HblB) as (e & _ & Hin' & _). by destruct (Hin' _ HinB) as (_ & ? & _). }
  assert (Hgc : is_Some (g !! carg c)) by (eapply wf_closed; [apply HG|done]).
  assert (HTn : lacks ":" T) by (by eapply (gg_spawn_names _ _ _ _ _ _ HG ngB)).
  pose proof Hin as Hrd. cbn in Hin. apply elem_of_list_In, in_map_iff in Hin as (d & Heq & Hd). apply elem_of_list_In in Hd.
  pose proof (i_form _ _ _ _ _ _ HI _ _ Ht) as Hform. pose proof (i_ids _ _ _ _ _ _ HI _ _ Ht) as Hid. injection Heq as -> Heq.
  assert (Hgrp : forall spd, spd ∈ tasks -> ti_spec t = spd -> spd = spB).
  { intros spd Hspd Hs. destruct (task_group spd Hspd) as (ngd & Hogd). rewrite Hs, (og_nodes _ _ Hogd) in Ha.
    assert (ngd = ngB) as -> by (by eapply (node_group ngd ngB (carg c)); [apply Hogd| | |]).
    by eapply group_task_eq. }
  case_bool_decide as Hrep.
  - apply elem_of_list_In, in_map_iff in Hrep as (spd & Hbd & Hrep). apply elem_of_list_In in Hrep.
    apply (elem_to_repeat tasks Hplan) in Hrep as (Hspd & Hsd & _).
    assert (Hids : forall id', id' ∈ id :: ids -> exists i : nat, id' = mk_task_id b (Some T) (Some (pretty i))).
    { intros id' Hin'. rewrite <-Heq in Hin'. apply elem_of_list_In, in_map_iff in Hin' as (i & <- & _). by exists i. }
    assert (spd = spB) as ->.
    { apply Hgrp; [done|]. destruct (Hids id) as (i & Hidi); [by left|].
      destruct (form_branch_id _ _ spd T i Hform Hspd Hsd) as [? _]; [by rewrite Hid, Hbd|done]. }
    apply collect_values_total. intros id' Hin'. destruct (Hids id' Hin') as (i & Hidi).
    pose proof (Hready b (id :: ids) id' Hrd Hin') as Hsucc.
    destruct (i_state_pool _ _ _ _ _ _ HI _ _ Hsucc) as [t1 Ht1]; [done|]. exists t1. split; [done|].
    destruct (form_branch_id _ _ spB T i (i_form _ _ _ _ _ _ HI _ _ Ht1) HspB Hsd) as [Hs1 (Hb1 & Hb2 & _)].
    { rewrite (i_ids _ _ _ _ _ _ HI _ _ Ht1), Hbd. done. }
    rewrite Hb1, Hb2, Hc. apply (i_fin _ _ _ _ _ _ HI) in Hsucc.
    destruct (finished_run _ _ Hf Hsucc) as (t2 & calls & r & Hrun & Hid2).
    destruct (run_form _ _ _ _ Hr Hrun) as (t3 & Hform3 & Hcore).
    destruct (form_branch_id _ _ spB T i Hform3 HspB Hsd) as [Hs3 Hb3]; [by rewrite <-(core_id _ _ Hcore), Hid2, Hbd|].
    apply core_eq in Hcore as (Hc1 & Hc2 & Hc3).
    destruct (good_vals _ HGd _ _ _ Hrun) as (_ & Hout & _). rewrite Hc1, Hs3 in Hout.
    destruct (Hout (carg c)) as [v Hv].
    { apply (og_outputs _ _ HogB). split_and!; [done|done|]. right. exists c. split_and!; [done|done|done|].
      intros Hcin. assert (ng = ngB) as <- by (eapply (node_group ng ngB c); [apply Hog|done|rewrite Hnodes; by left|done]).
      apply HgB. rewrite <-(og_purpose _ _ Hog). done. }
    eapply (cache_branch_has (E:=E) role_of as_list mk_list cache0 tr t2 calls r T i (carg c) v); [by apply shape_of|done| | |done|done].
    + by rewrite Hid2.
    + unfold in_branch in *. by rewrite Hc1, Hc2, Hc3.
  - exfalso. injection Heq as <- <-. apply (og_deps _ _ Hog) in Hd as (x' & d' & ng' & Hng' & Hb' & _).
    destruct (group_task ng' Hng') as (spd & Hspd & Hogd).
    assert (Hbd : ts_base spd = b) by (rewrite (og_base _ _ Hogd); done).
    destruct (form_base _ _ spd Hform Hspd) as [Hs _]; [by rewrite Hid, Hbd|].
    pose proof (Hgrp spd Hspd Hs) as ->. apply Hrep. apply elem_of_list_In, in_map_iff. exists spB. split; [done|]. apply elem_of_list_In.
    apply (elem_to_repeat tasks Hplan). rewrite (og_spawn _ _ HogB), (og_purpose _ _ HogB). done.
Qed.

(** A task taken from the queue can be given its inputs. *)
Lemma bind_total tr s fu t0 t : good tr -> inv0 s fu tr -> es_cache s = cache_at tr -> form tr t0 -> ready (es_states s) t0 -> bound tr t0 t ->
  exists t', bind_task s t = Ok t'.
Proof.
  intros HGd HI Hc Hform Hready Hb. pose proof HGd as (Hr & Hf & Hnd & _).
  pose proof (form_shape _ _ Hform) as [Hsp _]. destruct (task_group _ Hsp) as (ng & Hog).
  pose proof (bound_spec _ _ _ Hb) as Hs.
  unfold StateModel.bind_task. destruct (get_input_vars g (ti_spec t)) as [req opt] eqn:Hio. rewrite Hs in *.
  pose proof (input_vars_spec g (ti_spec t0)) as Hiv. rewrite Hio in Hiv. destruct Hiv as [_ Hiv].
  pose proof (required_spec g (ti_spec t0)) as Hreq. rewrite Hio in Hreq. cbn in Hreq.
  assert (Hread : forall dyn : gmap name V, (forall c, ng_purpose ng = GATHER -> ng_nodes ng = [c] -> is_Some (dyn !! carg c)) ->
    exists m, cache_read (es_cache s) (filter (fun x => dyn !! x = None /\ ts_overrides (ti_spec t0) !! x = None) (elements req)) = Ok m).
  { intros dyn Hdyn. apply cache_read_total. intros d Hd. apply elem_of_list_filter in Hd as [[Hd1 Hd2] Hd]. apply elem_of_elements in Hd.
    assert (Hw : wants g (ts_nodes (ti_spec t0)) (ts_overrides (ti_spec t0)) d) by (apply Hiv; set_solver).
    destruct (cache_settled tr Hr Hf Hnd (good_vals _ HGd) ng (ti_spec t0) d Hsp Hog (ready_deps _ _ _ _ _ _ HI Hform Hog Hready) Hw)
      as [(v & Hv & _)|[_ Ha]].
    - intros Hg c Hn ->. destruct (Hdyn c Hg Hn) as [? ?]. congruence.
    - rewrite Hc, Hv. by eexists.
    - exfalso. destruct (Hreq d Hd) as (x & Hx & Hxo & Hcase). rewrite (og_nodes _ _ Hog) in Hx.
      rewrite (og_overrides _ _ Hog), bool_decide_true in Hxo by done. destruct Hcase as [[<- _]|[Hdep _]].
      + by eapply (Hpres ng x); [apply Hog|..].
      + by eapply (Hpres_dep ng x d); [apply Hog|..]. }
  case_bool_decide as Hg.
  - destruct (form_cases tr t0 ng HGd Hform Hog) as [[Hng _]|(T & X & c & l & ngB & Hex & Hcol & HeG & HB & Hn & Hrole & Hoc & Hed & HinB & _ & Ht0 & _)].
    { rewrite (og_purpose _ _ Hog) in Hg. done. }
    assert (Hcn : collector_node role_of (ti_spec t0) = Some c).
    { unfold collector_node. rewrite (og_nodes _ _ Hog), Hn. cbn. destruct (decide (role_of c = RCollect)); [done|congruence]. }
    rewrite Hcn. destruct (collect_deps_total s (carg c) (ti_rdeps t) []) as [[vs rest] ->].
    + intros b id ids Hin. apply (bound_rdeps _ _ _ Hb) in Hin. eapply (i_state_pool _ _ _ _ _ _ HI _ SUCCESSFUL); [|done]. eapply Hready; [done|by left].
    + intros b id ids t1 Hin Ht1 Ha. apply (bound_rdeps _ _ _ Hb) in Hin. rewrite Ht0 in Hin, Hready.
      by eapply (block_values tr s fu T X l (ti_spec t0) ng ngB c b id ids t1).
    + destruct (Hread {[carg c := mk_list vs]}) as [m ->]; [|by eexists].
      intros c' _ Hn'. rewrite Hn in Hn'. injection Hn' as <-. rewrite lookup_singleton. by eexists.
  - destruct (Hread (ts_overrides (ti_spec t0))) as [m ->]; [|by eexists].
    intros c' Hg'. rewrite (og_purpose _ _ Hog) in Hg. done.
Qed.

(** The call of [x] with [kw], which has all the required arguments, raises [e]: the function
    does, or it is Parallelizable and does not return an iterable. *)
Definition raises (x : name) (kw : gmap name V) (e : E) : Prop :=
  (exists nd, g !! x = Some nd /\ forall d, (d, REQUIRED) ∈ nd_deps nd -> is_Some (kw !! d)) /\
  (f x kw = Err e \/ exists v, f x kw = Ok v /\ role_of x = RExpand /\ as_list v = None /\ e = not_iterable).

(** Executing a task fails only because a function raised. *)
Lemma step_user tr t calls e : good tr -> runs_ok (tr ++ [TRun t calls (Err e)]) ->
  exists e' x kw, e = XUser (EUser e') /\ Call x kw (Err e') ∈ calls /\ raises x kw e'.
Proof.
  intros HGd Hrun. pose proof HGd as (Hr & Hf & Hnd & _).
  destruct (Hrun tr t calls (Err e) [] eq_refl) as (Hexec & t0 & tb & s & fu & Hform & Hb & HI & Hc & Hready & Hbind).
  assert (Hcore : core t = core t0) by (rewrite (bind_core _ _ _ _ _ _ _ Hbind); by eapply bound_core).
  apply core_eq in Hcore as (Hs & Hs1 & Hs2).
  pose proof (form_shape _ _ Hform) as [Hsp _]. destruct (task_group _ Hsp) as (ng & Hog).
  destruct (bind_spec _ _ _ Hbind) as (dyn & req & opt & Hio & Hdyn & _ & Hreq & Hopt & Hgat).
  rewrite (bound_spec _ _ _ Hb) in *. pose proof (input_vars_spec g (ti_spec t0)) as Hiv. rewrite Hio in Hiv. destruct Hiv as [Hiv1 Hiv2].
  set (tov := ts_overrides (ti_spec t0) ∪ ti_dyn t).
  assert (Hread : forall d, wants g (ts_nodes (ti_spec t0)) (ts_overrides (ti_spec t0)) d -> is_Some (tov !! d) \/ absent g inputs ov d).
  { intros d Hw. pose proof Hw as Hro. apply Hiv2 in Hro. apply elem_of_union in Hro as [Hd|Hd].
    - left. unfold tov. rewrite Hdyn, !lookup_union_is_Some. destruct (Hreq d Hd); auto.
    - destruct (decide (ng_purpose ng = GATHER)) as [Hg|Hg].
      + destruct (Hgat ltac:(by rewrite (og_purpose _ _ Hog))) as (c & Hcn & Hdc). destruct (decide (d = carg c)) as [->|Hne].
        { left. unfold tov. rewrite Hdyn, !lookup_union_is_Some. auto. }
        destruct (cache_settled tr Hr Hf Hnd (good_vals _ HGd) ng (ti_spec t0) d Hsp Hog (ready_deps _ _ _ _ _ _ HI Hform Hog Hready) Hw)
          as [(v & Hv & _)|[_ Ha]]; [|left|by right].
        * intros _ c' Hn. assert (c' = c) as ->; [|done]. unfold collector_node in Hcn. rewrite (og_nodes _ _ Hog), Hn in Hcn. cbn in Hcn.
          destruct (decide _); [|done]. by injection Hcn.
        * unfold tov. rewrite Hdyn, !lookup_union_is_Some. right. right. apply Hopt; [done|]. rewrite Hc, Hv. by eexists.
      + destruct (cache_settled tr Hr Hf Hnd (good_vals _ HGd) ng (ti_spec t0) d Hsp Hog (ready_deps _ _ _ _ _ _ HI Hform Hog Hready) Hw)
          as [(v & Hv & _)|[_ Ha]]; [done|left|by right].
        unfold tov. rewrite Hdyn, !lookup_union_is_Some. right. right. apply Hopt; [done|]. rewrite Hc, Hv. by eexists. }
  assert (Hovd : forall x, ts_overrides (ti_spec t0) !! x = if bool_decide (x ∈ ng_nodes ng) then ov !! x else None) by apply Hog.
  unfold StateModel.base_execute_task in Hexec. rewrite Hs in Hexec. fold tov in Hexec.
  pose proof (execute_subdag_ok (fun _ => modify_callable role_of as_list mk_list f not_iterable) g (ti_dyn t) tov (ts_nodes (ti_spec t0))
    (gg_wf _ _ _ _ _ _ HG) (gg_acyc _ _ _ _ _ _ HG)) as H.
  destruct (execute_subdag _ _ _ _ _) as [st|st ex| |]; cbn [post] in H; try done.
  2: { exfalso. apply H. intros x Hx. rewrite (og_nodes _ _ Hog) in Hx. eapply (gg_nodes _ _ _ _ _ _ HG); [apply Hog|done]. }
  2: { exfalso. apply H. intros x Hx. rewrite (og_nodes _ _ Hog) in Hx. eapply (gg_nodes _ _ _ _ _ _ HG); [apply Hog|done]. }
  injection Hexec as <- <-. destruct H as (Hgo & Hbad & _).
  { intros x Hx. rewrite (og_nodes _ _ Hog) in Hx. eapply (gg_nodes _ _ _ _ _ _ HG); [apply Hog|done]. }
  destruct ex as [e'|y]; cbn [bad_end] in Hbad.
  { destruct Hbad as (c1 & x & kw & Htr & _). exists e', x, kw. rewrite Htr. split; [done|]. split; [apply elem_of_app; right; by left|].
    destruct (Hgo c1 _ [] Htr) as (_ & _ & _ & _ & He & ndx & Hgx & _ & _ & Hargs).
    split. { exists ndx. split; [done|]. intros d Hd. destruct (Hargs d _ Hd) as [[w Hw]|(_ & _ & ?)]; [by exists w|done]. }
    unfold modify_callable in He. destruct (f x kw) as [v|e1] eqn:Hfx.
    - case_bool_decide; [|done]. destruct (as_list v) eqn:Hal; [done|]. injection He as ->. right. by exists v.
    - injection He as ->. by left. }
  exfalso. destruct Hbad as ((Hy1 & Hy2 & ndy & Hgy & Hxy) & _ & P & nd & Hneed & HgP & HinP).
  assert (HP : forall P, needed g tov (ts_nodes (ti_spec t0)) P -> tov !! P = None /\ (P ∈ ng_nodes ng \/ is_ext g P = true)).
  { induction 1 as [x Hx Ho|x d _ [Hxo IH] Hed Ho]; (split; [done|]); [left; by rewrite <-(og_nodes _ _ Hog)|].
    destruct (decide (d ∈ ng_nodes ng)) as [?|Hdn]; [by left|right].
    apply lookup_union_None in Hxo as [Hxo _]. destruct IH as [Hx|Hx].
    - destruct (Hread d) as [[? ?]|(_ & _ & ndd & Hgd & Hxd)]; [|congruence|by unfold is_ext; rewrite Hgd].
      exists x. split_and!; [by rewrite (og_nodes _ _ Hog)|done|]. right. split_and!; [done| |right; by rewrite (og_nodes _ _ Hog)].
      by apply lookup_union_None in Ho as [? _].
    - unfold is_ext in Hx. destruct Hed as (nd' & Hg & Hd). rewrite Hg in Hx. unfold dep_names in Hd.
      rewrite (wf_ext _ (gg_wf _ _ _ _ _ _ HG) x nd' Hg Hx) in Hd. by apply elem_of_nil in Hd. }
  destruct (HP P Hneed) as [HPo [HPn|HPx]].
  - apply lookup_union_None in HPo as [HPo _]. pose proof HPo as HPov. rewrite Hovd, bool_decide_true in HPov by done.
    destruct (Hread y) as [[? ?]|Ha]; [|congruence|].
    + exists P. split_and!; [by rewrite (og_nodes _ _ Hog)|done|]. right. split_and!.
      * exists nd. split; [done|]. apply elem_of_list_fmap. by exists (y, REQUIRED).
      * by apply lookup_union_None in Hy1 as [? _].
      * left. unfold is_ext. by rewrite Hgy.
    + eapply (Hpres_dep ng P y); [apply Hog|done|done| |done]. unfold deps_of. by rewrite HgP.
  - unfold is_ext in HPx. rewrite HgP in HPx. rewrite (wf_ext _ (gg_wf _ _ _ _ _ _ HG) P nd HgP HPx) in HinP. by apply elem_of_nil in HinP.
Qed.

(** The items of an expander are there when it has been executed. *)
Hypothesis Hexp_used : forall T e, expand_group T e -> e ∈ outputs \/ exists w, edge g w e /\ ov !! w = None.
Lemma expand_result tr t calls r : good tr -> TRun t calls (Ok r) ∈ tr -> ts_purpose (ti_spec t) = EXPAND ->
  exists x v l, expander_node role_of (ti_spec t) = Some x /\ r !! x = Some v /\ as_list v = Some l.
Proof.
  intros HGd Hin Hexp. pose proof HGd as (Hr & _). pose proof (run_task _ _ _ _ Hr Hin) as Hsp.
  destruct (task_group _ Hsp) as (ng & Hog).
  assert (Hns : ng_spawn ng = None). { rewrite <-(og_spawn _ _ Hog). by apply (wp_expand _ Hplan). }
  destruct (gg_static _ _ _ _ _ _ HG ng (og_in _ _ Hog) Hns) as [[He _]|(e & Heg & _ & Hn)].
  { rewrite <-(og_purpose _ _ Hog) in He. done. }
  pose proof Heg as (ng' & _ & _ & _ & _ & _ & He & Ho & Hx).
  destruct (good_vals _ HGd _ _ _ Hin) as (_ & Hout & _). destruct (Hout e) as [v Hv].
  { apply (og_outputs _ _ Hog). split_and!; [rewrite Hn; by left|done|]. destruct (Hexp_used _ _ Heg) as [?|(w & Hw & Hwo)]; [by left|right].
    exists w. split_and!; [by eapply wf_closed; [apply HG|]|done|done|]. rewrite Hn. intros ->%elem_of_list_singleton.
    by eapply (gg_acyc _ _ _ _ _ _ HG), tc_once. }
  assert (Hpl : plain t).
  { destruct (run_form _ _ _ _ Hr Hin) as (t0 & Hform & Hc). apply core_eq in Hc as (Hc1 & Hc2 & Hc3).
    destruct (expand_static role_of as_list tasks Hplan _ _ Hform) as [Ht0 _]; [by rewrite <-Hc1|]. unfold plain. rewrite Hc2, Hc3, Ht0. done. }
  destruct (expander_val e v He Ho Hx) as (l & ->); [by eapply plain_sem; [apply good_vals| | |]|].
  exists e, (mk_list l), l. split_and!; [by eapply expander_is|done|apply Hlist].
Qed.

(** ** The exceptions of a run *)
Definition user_error (e : texn E) (tr : list tevent) : Prop :=
  exists t calls e' x kw, TRun t calls (Err e) ∈ tr /\ e = XUser (EUser e') /\ Call x kw (Err e') ∈ calls /\ raises x kw e'.

Notation rinv := (rinv g role_of carg as_list mk_list f not_iterable tasks cache0).
Notation submit_next := (submit_next g role_of carg as_list mk_list f not_iterable which limit fin).
Notation poll := (poll role_of as_list mk_list tasks fin).
Notation run_loop := (run_loop g role_of carg as_list mk_list f not_iterable tasks which limit fin).

Lemma rinv_good r : rinv r -> fin_ok (r_trace r) -> good (r_trace r).
Proof.
  intros HR Hf. apply all_good; [|done|].
  - intros ??????. by eapply (h_runs _ _ _ _ _ _ _ _ _ _ _ (ri_hist _ _ _ _ _ _ _ _ _ _ HR)).
  - by eapply i_runs_nodup, HR.
Qed.
Lemma failed_run tr t calls e : good tr -> TRun t calls (Err e) ∈ tr -> user_error e tr.
Proof.
  intros HGd Hin. pose proof Hin as Hin'. apply elem_of_list_split in Hin as (a & b & ->).
  replace (a ++ TRun t calls (Err e) :: b) with ((a ++ [TRun t calls (Err e)]) ++ b) in HGd by (by rewrite <-app_assoc).
  apply good_prefix in HGd. pose proof HGd as (Hr & _). apply good_prefix in HGd.
  destruct (step_user a t calls e HGd Hr) as (e' & x & kw & He & Hcall). by exists t, calls, e', x, kw.
Qed.

Lemma submit_user k r : rinv r -> fin_ok (r_trace r) ->
  match submit_next k r with SRaise e tr => user_error e tr | SNext _ => True end.
Proof.
  intros HR Hf. pose proof (rinv_good r HR Hf) as HGd.
  pose proof (submit_inv g role_of carg as_list mk_list f not_iterable tasks which limit fin cache0 k r HR) as Hs.
  pose proof (submit_fin g role_of carg as_list mk_list f not_iterable which limit fin k r Hf) as Hsf.
  pose proof (ri_inv _ _ _ _ _ _ _ _ _ _ HR) as HI. pose proof (ri_hist _ _ _ _ _ _ _ _ _ _ HR) as HH.
  revert Hs Hsf. unfold StateModel.submit_next. destruct (es_queue (r_es r)) as [|t0 q] eqn:Hq; [done|].
  assert (Ht0 : t0 ∈ es_queue (r_es r)) by (rewrite Hq; by left).
  destruct (h_queue _ _ _ _ _ _ _ _ _ _ _ HH _ Ht0) as (tp & Hp & Hbd).
  assert (Hrdy : ready (es_states (r_es r)) tp).
  { eapply (i_launched _ _ _ _ _ _ HI); [done|]. destruct (i_queue _ _ _ _ _ _ HI _ Ht0) as [-> _]. done. }
  destruct (bind_total (r_trace r) (r_es r) (r_futures r) tp t0 HGd HI) as [t Hb]; [apply HH|by eapply i_form|done|done|].
  rewrite Hb. destruct (limit (which t)) as [n|].
  - destruct (_ <? _); [|done]. by destruct (base_execute_task t).
  - destruct (base_execute_task t) as [calls [res|e]]; [done|]. intros [[Hr (s & fu & HI')] _] Hsf.
    apply (failed_run _ t calls e); [|apply elem_of_app; right; by left]. apply all_good; [done|done|by eapply i_runs_nodup].
Qed.

Lemma poll_user k fl : forall r, rinv r -> fin_ok (r_trace r) -> NoDup (dkeys fl) ->
  (forall id a, (id, a) ∈ fl -> dget (r_futures r) id = Some a) ->
  match poll k r fl with SRaise e tr => user_error e tr | SNext _ => True end.
Proof.
  induction fl as [|[id [p o]] fl IH]; intros r HR Hf Hnd Hfl; [done|].
  pose proof (poll_inv g role_of carg as_list mk_list f not_iterable tasks which limit fin Hlist Hplan cache0 k [(id, (p, o))] r HR) as Hone.
  pose proof (poll_fin g role_of carg as_list mk_list f not_iterable tasks which limit fin Hlist Hplan cache0 k [(id, (p, o))] r HR Hf) as Honef.
  assert (Hin : dget (r_futures r) id = Some (p, o)) by (apply Hfl; by left).
  cbn in Hnd. apply NoDup_cons in Hnd as [Hn Hnd].
  cbn [StateModel.poll] in Hone, Honef |- *.
  assert (Hone' : NoDup (dkeys [(id, (p, o))]) /\
    forall id' a, (id', a) ∈ [(id, (p, o))] -> dget (r_futures r) id' = Some a).
  { split; [apply NoDup_singleton|]. intros id' a [= -> ->]%elem_of_list_singleton. done. }
  specialize (Hone (proj1 Hone') (proj2 Hone')). specialize (Honef (proj1 Hone') (proj2 Hone')).
  pose proof (ri_inv _ _ _ _ _ _ _ _ _ _ HR) as HI. pose proof (rinv_good r HR Hf) as HGd.
  destruct (i_fut_run _ _ _ _ _ _ HI _ _ _ Hin) as (t & calls & t0 & Hr & Hid & Hpool & Hcore).
  destruct (match p with None => true | Some _ => fin k id end).
  - destruct o as [results|e]; [|by eapply failed_run].
    destruct (finish_inv g role_of carg as_list mk_list f not_iterable tasks Hlist Hplan cache0 _ _ _ _ _ _ HI (ri_hist _ _ _ _ _ _ _ _ _ _ HR) Hin)
      as (t1 & Hp1 & Hfinish).
    destruct (update_task_state _ _ _ _ _ _ _ _) as [s'|e].
    + apply IH; [done|done|done|]. intros id' a Hin'. cbn. rewrite dget_ddel by apply HI. rewrite decide_False.
      * apply Hfl. by right.
      * intros ->. apply Hn, elem_of_list_fmap. by exists (id, a).
    + exfalso. destruct Hfinish as (_ & Hexp & Hno). assert (t1 = t0) as -> by congruence.
      apply core_eq in Hcore as (Hc1 & _ & _). rewrite <-Hc1 in *.
      destruct (expand_result _ t calls results HGd Hr Hexp) as (x & v & l & H1 & H2 & H3). by eapply Hno.
  - destruct (update_task_state _ _ _ _ _ _ _ _) as [s'|e] eqn:Hu.
    + apply IH; [done|done|done|]. intros id' a Hin'. cbn. apply Hfl. by right.
    + done.
Qed.

Lemma loop_user n : forall k r, rinv r -> fin_ok (r_trace r) ->
  match run_loop n k r with LRaise e tr => user_error e tr | _ => True end.
Proof.
  induction n as [|n IH]; intros k r HR Hf; cbn [StateModel.run_loop]; destruct (is_terminal _); try done.
  pose proof (submit_inv g role_of carg as_list mk_list f not_iterable tasks which limit fin cache0 (2 * k) r HR) as Hs.
  pose proof (submit_fin g role_of carg as_list mk_list f not_iterable which limit fin (2 * k) r Hf) as Hsf.
  pose proof (submit_user (2 * k) r HR Hf) as Hsu.
  unfold StateModel.iteration. destruct (submit_next (2 * k) r) as [r1|e tr]; [|done]. destruct Hs as [HR1 _].
  assert (Hfut : forall id a, (id, a) ∈ r_futures r1 -> dget (r_futures r1) id = Some a).
  { intros id a Hin. apply elem_dget; [apply HR1|done]. }
  assert (Hnd1 : NoDup (dkeys (r_futures r1))) by apply HR1.
  pose proof (poll_inv g role_of carg as_list mk_list f not_iterable tasks which limit fin Hlist Hplan cache0 (2 * k + 1) _ r1 HR1 Hnd1 Hfut) as Hp.
  pose proof (poll_fin g role_of carg as_list mk_list f not_iterable tasks which limit fin Hlist Hplan cache0 (2 * k + 1) _ r1 HR1 Hsf Hnd1 Hfut) as Hpf.
  pose proof (poll_user (2 * k + 1) _ r1 HR1 Hsf Hnd1 Hfut) as Hpu.
  destruct (poll (2 * k + 1) r1 (r_futures r1)) as [r2|e tr]; [by apply IH|done].
Qed.

Lemma run_user n e tr : run_graph n cache0 = LRaise e tr -> user_error e tr.
Proof.
  intros Hrun. pose proof (loop_user n 0 _ (init_inv g role_of carg as_list mk_list f not_iterable tasks Hplan cache0)) as H.
  unfold StateModel.run_graph in Hrun. rewrite Hrun in H. apply H. intros a id b Heq. by destruct a.
Qed.
End Safe.
End Values.
