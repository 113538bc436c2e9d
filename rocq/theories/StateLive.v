(** Progress and termination of the task scheduler. *)
From stdpp Require Import pretty.
From Verif Require Import Base Dict ExecModel TraverseModel GroupModel StateModel StateProofs.

(** A task that is repeated for every item of an expansion. *)
Definition repeated {V} (sp : tspec V) : Prop := is_Some (ts_spawn sp) /\ ts_purpose sp <> GATHER.

(** Plans on which every task can eventually be realized. *)
Record live_plan {V} (tasks : list (tspec V)) : Prop := {
  lp_nonempty : tasks <> [];
  lp_rank : exists rank : string -> nat,
     (forall sp d, sp ∈ tasks -> d ∈ ts_deps sp -> rank d < rank (ts_base sp)) /\
     (forall sp T, sp ∈ tasks -> ts_spawn sp = Some T -> rank T < rank (ts_base sp));
  lp_closed : forall sp d, sp ∈ tasks -> d ∈ ts_deps sp -> exists sp', sp' ∈ tasks /\ ts_base sp' = d /\
     (repeated sp' -> ts_purpose sp = GATHER /\ ts_spawn sp = ts_spawn sp');
  lp_spawn : forall sp T, sp ∈ tasks -> ts_spawn sp = Some T ->
     exists sp', sp' ∈ tasks /\ ts_base sp' = T /\ ts_purpose sp' = EXPAND;
  lp_first : forall sp, sp ∈ tasks -> ts_spawn sp = None -> ts_deps sp <> [] ->
     exists sp', sp' ∈ tasks /\ ts_base sp' ∈ ts_deps sp /\ ts_purpose sp' <> EXPAND;
}.

Section Live.
Context {V E : Type}.
Variable g : graph.
Variable role_of : name -> role.
Variable carg : name -> name.
Variable as_list : V -> option (list V).
Variable mk_list : list V -> V.
Variable f : name -> gmap name V -> res E V.
Variable not_iterable : E.
Variable tasks : list (tspec V).
Variable which : timpl V -> nat.
Variable limit : nat -> option nat.
Variable fin : nat -> string -> bool.
Hypothesis Hlist : forall l, as_list (mk_list l) = Some l.
Hypothesis Hplan : wf_plan tasks.
Hypothesis Hlive : live_plan tasks.
Variable cache0 : gmap string V.

Notation timpl := (timpl V).
Notation estate := (estate V).
Notation rstate := (rstate V E).
Notation tevent := (tevent V E).
Notation rinv := (rinv g role_of carg as_list mk_list f not_iterable tasks cache0).
Notation inv0 := (inv0 role_of as_list tasks).
Notation expanded := (expanded role_of as_list tasks).
Notation finished := (finished (V:=V) (E:=E)).
Notation submit_next := (submit_next g role_of carg as_list mk_list f not_iterable which limit fin).
Notation poll := (poll role_of as_list mk_list tasks fin).
Notation iteration := (iteration g role_of carg as_list mk_list f not_iterable tasks which limit fin).
Notation run_loop := (run_loop g role_of carg as_list mk_list f not_iterable tasks which limit fin).
Notation form := (form role_of as_list tasks).

(** Every realization of the task has completed. *)
Definition done (tr : list tevent) (sp : tspec V) : Prop :=
  match ts_spawn sp with
  | None => finished tr (ts_base sp)
  | Some T => exists X l, expanded tr T X l /\
      if bool_decide (ts_purpose sp = GATHER) then finished tr (ts_base sp)
      else forall i v, l !! i = Some v -> finished tr (mk_task_id (ts_base sp) (Some T) (Some (pretty i)))
  end.

Lemma done_base tr sp : done tr sp -> ~ repeated sp -> finished tr (ts_base sp).
Proof.
  unfold done, repeated. intros Hd Hr. destruct (ts_spawn sp) as [T|]; [|done].
  destruct Hd as (X & l & _ & Hd). case_bool_decide as Hg; [done|]. exfalso. apply Hr. split; [by eexists|done].
Qed.

Lemma repeated_to_repeat sp T : sp ∈ tasks -> ts_spawn sp = Some T -> repeated sp <-> ts_base sp ∈ map ts_base (to_repeat tasks T).
Proof.
  intros Hsp HT. rewrite elem_of_list_In, in_map_iff. split.
  - intros [_ Hg]. exists sp. split; [done|]. apply elem_of_list_In, (elem_to_repeat tasks Hplan). split_and!; try done.
    intros He. apply (wp_expand _ Hplan) in He; [congruence|done].
  - intros (sp' & Heq & Hin). apply elem_of_list_In, (elem_to_repeat tasks Hplan) in Hin as (H1 & H2 & H3 & H4).
    apply (base_inj tasks Hplan) in Heq as ->; [|done|done]. split; [by eexists|done].
Qed.

Lemma all_done_gen r :
  rinv r -> (forall id t, dget (es_pool (r_es r)) id = Some t -> ready (es_states (r_es r)) t -> finished (r_trace r) id) ->
  forall sp, sp ∈ tasks -> done (r_trace r) sp.
Proof.
  intros HR Hfin. pose proof (ri_inv _ _ _ _ _ _ _ _ _ _ HR) as HI. pose proof (ri_prog _ _ _ _ _ _ _ _ _ _ HR) as HP.
  destruct (lp_rank _ Hlive) as (rank & Hrd & Hrs).
  assert (Hind : forall n sp, rank (ts_base sp) < n -> sp ∈ tasks -> done (r_trace r) sp).
  2: { intros sp. by apply (Hind (S (rank (ts_base sp)))); lia. }
  induction n as [|n IH]; intros sp Hn Hsp; [lia|].
  assert (Hdeps : forall d, d ∈ ts_deps sp -> exists sp', sp' ∈ tasks /\ ts_base sp' = d /\ done (r_trace r) sp' /\
     (repeated sp' -> ts_purpose sp = GATHER /\ ts_spawn sp = ts_spawn sp')).
  { intros d Hd. destruct (lp_closed _ Hlive _ _ Hsp Hd) as (sp' & Hsp' & <- & Hrep). exists sp'. split_and!; try done.
    apply IH; [|done]. specialize (Hrd _ _ Hsp Hd). lia. }
  assert (Hst : forall id, finished (r_trace r) id -> es_states (r_es r) !! id = Some SUCCESSFUL) by (intros id; apply HI).
  unfold done. destruct (ts_spawn sp) as [T|] eqn:HT.
  - destruct (lp_spawn _ Hlive _ _ Hsp HT) as (spT & HspT & HbT & HeT).
    assert (HdT : done (r_trace r) spT) by (apply IH; [specialize (Hrs _ _ Hsp HT); subst T; lia|done]).
    unfold done in HdT. rewrite (wp_expand _ Hplan _ HspT HeT), HbT in HdT.
    assert (HpT : exists t, dget (es_pool (r_es r)) T = Some t /\ ti_spec t = spT).
    { apply Hst in HdT as Hs. destruct (i_state_pool _ _ _ _ _ _ HI _ _ Hs) as [t Ht]; [done|]. exists t. split; [done|].
      pose proof (i_form _ _ _ _ _ _ HI _ _ Ht) as Hf. pose proof (i_ids _ _ _ _ _ _ HI _ _ Ht) as Hid.
      destruct Hf as [sp'|T' X' l' i' v' sp' Hexp Hi' Hsp'|T' X' l' sp' Hexp Hsp']; cbn in *.
      - apply (base_inj tasks Hplan); [done|done|]. rewrite HbT. done.
      - apply (elem_to_repeat tasks Hplan) in Hsp' as (? & ? & _).
        exfalso. eapply (wp_ids _ Hplan sp' T' i' spT); [done|done|done|]. rewrite HbT. done.
      - apply (elem_to_collect tasks Hplan) in Hsp' as (? & ? & ?). apply (base_inj tasks Hplan); [done|done|]. rewrite HbT. done. }
    destruct HpT as (t & Ht & Hspec).
    destruct (p_exp _ _ _ _ _ HP _ _ HdT Ht) as (X & l & Hexp); [by rewrite Hspec|].
    exists X, l. split; [done|].
    case_bool_decide as Hg.
    + assert (Hin : collect_task tasks T (length l) sp ∈ group_tasks tasks T X l).
      { unfold group_tasks. apply elem_of_app. right. apply elem_of_list_In, in_map, elem_of_list_In.
        by apply (elem_to_collect tasks Hplan). }
      apply (p_group _ _ _ _ _ HP T X l) in Hin; [|done].
      change (ts_base sp) with (task_id (collect_task tasks T (length l) sp)).
      eapply Hfin; [exact Hin|]. intros b ids id Hb Hid. cbn in Hb.
      apply elem_of_list_In, in_map_iff in Hb as (d & [= <- <-] & Hd). apply elem_of_list_In in Hd.
      destruct (Hdeps d Hd) as (sp' & Hsp' & <- & Hdone & Hrep).
      apply Hst. case_bool_decide as Hb.
      * assert (HspT' : ts_spawn sp' = Some T).
        { apply elem_of_list_In, in_map_iff in Hb as (sp'' & Heq & Hin'').
          apply elem_of_list_In, (elem_to_repeat tasks Hplan) in Hin'' as (? & ? & _).
          by apply (base_inj tasks Hplan) in Heq as ->. }
        apply (repeated_to_repeat _ _ Hsp' HspT') in Hb. unfold done in Hdone. rewrite HspT' in Hdone.
        destruct Hdone as (X' & l' & Hexp' & Hdone).
        assert (Hl : l' = l).
        { destruct Hexp as (_ & u & c & res & v & Hu & Hidu & _ & _ & _ & Hx & Hv & Hal).
          destruct Hexp' as (_ & u' & c' & res' & v' & Hu' & Hidu' & _ & _ & _ & Hx' & Hv' & Hal').
          destruct (run_unique (r_trace r) u c (Ok res) u' c' (Ok res')) as (-> & _ & [= ->]);
            [apply HI|done|done|congruence|]. congruence. }
        subst l'. rewrite bool_decide_false in Hdone by apply Hb.
        apply elem_of_list_In, in_map_iff in Hid as (i & <- & Hi). apply in_seq in Hi.
        destruct (lookup_lt_is_Some_2 l i) as [v Hv]; [lia|]. by eapply Hdone.
      * apply elem_of_list_singleton in Hid as ->. apply done_base; [done|].
        intros Hr. destruct (Hrep Hr) as [_ Heq]. apply Hb. apply (repeated_to_repeat _ _ Hsp'); [|done]. congruence.
    + intros i v Hi.
      assert (Hin : branch_task tasks T (pretty (0 + i)) X v sp ∈ group_tasks tasks T X l).
      { unfold group_tasks. apply elem_of_app. left. apply elem_branches. exists i, v, sp. split_and!; [done| |done].
        apply (elem_to_repeat tasks Hplan). split_and!; try done. intros He. apply (wp_expand _ Hplan) in He; [congruence|done]. }
      apply (p_group _ _ _ _ _ HP T X l) in Hin; [|done].
      change (mk_task_id (ts_base sp) (Some T) (Some (pretty i))) with (task_id (branch_task tasks T (pretty (0 + i)) X v sp)).
      eapply Hfin; [exact Hin|]. intros b ids id Hb Hid. cbn in Hb.
      apply elem_of_list_In, in_map_iff in Hb as (d & [= <- <-] & Hd). apply elem_of_list_In in Hd.
      destruct (Hdeps d Hd) as (sp' & Hsp' & <- & Hdone & Hrep). apply Hst.
      case_bool_decide as Hb.
      * exfalso. apply elem_of_list_In, in_map_iff in Hb as (sp'' & Heq & Hin'').
        apply elem_of_list_In, (elem_to_repeat tasks Hplan) in Hin'' as (? & ? & ? & ?).
        apply (base_inj tasks Hplan) in Heq as ->; [|done|done]. apply Hg, Hrep. split; [by eexists|done].
      * apply elem_of_list_singleton in Hid as ->. apply done_base; [done|]. intros Hr. by apply Hg, Hrep.
  - assert (Hnr : forall d, d ∈ ts_deps sp -> finished (r_trace r) d).
    { intros d Hd. destruct (Hdeps d Hd) as (sp' & Hsp' & <- & Hdone & Hrep). apply done_base; [done|].
      intros Hr. destruct (Hrep Hr) as [_ Heq]. destruct Hr as [[? ?] _]. congruence. }
    assert (Hp : is_Some (dget (es_pool (r_es r)) (ts_base sp))).
    { destruct (decide (ts_deps sp = [])) as [He|Hne]; [by apply (p_init _ _ _ _ _ HP)|].
      destruct (lp_first _ Hlive _ Hsp HT Hne) as (sp' & Hsp' & Hd & He).
      pose proof (Hnr _ Hd) as Hf. apply Hst in Hf as Hs. destruct (i_state_pool _ _ _ _ _ _ HI _ _ Hs) as [t Ht]; [done|].
      assert (Hspec : ti_spec t = sp').
      { pose proof (i_form _ _ _ _ _ _ HI _ _ Ht) as Hform. pose proof (i_ids _ _ _ _ _ _ HI _ _ Ht) as Hid.
        destruct Hform as [sp1|T' X' l' i' v' sp1 Hexp Hi' Hsp1|T' X' l' sp1 Hexp Hsp1]; cbn in *.
        - by apply (base_inj tasks Hplan).
        - apply (elem_to_repeat tasks Hplan) in Hsp1 as (? & ? & _).
          exfalso. by eapply (wp_ids _ Hplan sp1 T' i' sp').
        - apply (elem_to_collect tasks Hplan) in Hsp1 as (? & ? & ?). by apply (base_inj tasks Hplan). }
      eapply (p_succ _ _ _ _ _ HP); [done|done|exact Hf|exact Ht|by rewrite Hspec|by rewrite Hspec]. }
    destruct Hp as [t Ht]. eapply Hfin; [exact Ht|].
    pose proof (i_form _ _ _ _ _ _ HI _ _ Ht) as Hform. pose proof (i_ids _ _ _ _ _ _ HI _ _ Ht) as Hid.
    destruct Hform as [sp1|T' X' l' i' v' sp1 Hexp Hi' Hsp1|T' X' l' sp1 Hexp Hsp1]; cbn in *.
    + assert (sp1 = sp) as -> by (by apply (base_inj tasks Hplan)).
      intros b ids id Hb Hi. cbn in Hb. apply elem_of_list_In, in_map_iff in Hb as (d & [= <- <-] & Hd). apply elem_of_list_In in Hd.
      apply elem_of_list_singleton in Hi as ->. by apply Hst, Hnr.
    + apply (elem_to_repeat tasks Hplan) in Hsp1 as (? & ? & _).
      exfalso. by eapply (wp_ids _ Hplan sp1 T' i' sp).
    + apply (elem_to_collect tasks Hplan) in Hsp1 as (? & ? & ?). assert (sp1 = sp) as -> by (by apply (base_inj tasks Hplan)). congruence.
Qed.

(** If all tasks are done, every state entry is successful. *)
Lemma done_states r : rinv r -> (forall sp, sp ∈ tasks -> done (r_trace r) sp) ->
  forall id x, es_states (r_es r) !! id = Some x -> x = SUCCESSFUL.
Proof.
  intros HR Hdone. pose proof (ri_inv _ _ _ _ _ _ _ _ _ _ HR) as HI.
  assert (Hst : forall id, finished (r_trace r) id -> es_states (r_es r) !! id = Some SUCCESSFUL) by (intros id; apply HI).
  assert (Hexl : forall T X l X' l', expanded (r_trace r) T X l -> expanded (r_trace r) T X' l' -> X = X' /\ l = l').
  { intros T X l X' l' Hexp Hexp'.
    destruct Hexp as (_ & u & c & res & v & Hu & Hidu & _ & _ & _ & Hx & Hv & Hal).
    destruct Hexp' as (_ & u' & c' & res' & v' & Hu' & Hidu' & _ & _ & _ & Hx' & Hv' & Hal').
    destruct (run_unique (r_trace r) u c (Ok res) u' c' (Ok res')) as (-> & _ & [= ->]);
      [apply HI|done|done|congruence|]. split; congruence. }
  assert (Hpool : forall id t, dget (es_pool (r_es r)) id = Some t -> finished (r_trace r) id).
  { intros id t Ht. pose proof (i_form _ _ _ _ _ _ HI _ _ Ht) as Hform. pose proof (i_ids _ _ _ _ _ _ HI _ _ Ht) as <-.
    pose proof (Hdone _ (form_spec _ _ _ Hplan _ _ Hform)) as Hd. unfold done in Hd.
    destruct Hform as [sp1 ? Hn|T' X' l' i' v' sp1 Hexp Hi' Hsp1|T' X' l' sp1 Hexp Hsp1]; cbn in *.
    - by rewrite Hn in Hd.
    - apply (elem_to_repeat tasks Hplan) in Hsp1 as (? & Hs & He & Hg). rewrite Hs in Hd. destruct Hd as (X & l & Hexp2 & Hd).
      destruct (Hexl _ _ _ _ _ Hexp Hexp2) as [-> ->]. rewrite bool_decide_false in Hd by done. by eapply Hd.
    - apply (elem_to_collect tasks Hplan) in Hsp1 as (? & Hs & Hg). rewrite Hs in Hd. destruct Hd as (X & l & Hexp2 & Hd).
      rewrite bool_decide_true in Hd by done. done. }
  intros id x Hx. destruct (decide (x = UNINITIALIZED)) as [->|Hne].
  - exfalso. destruct (i_uninit _ _ _ _ _ _ HI _ Hx) as (id' & t & b & ids & Ht & Hb & Hid).
    assert (Hni : es_states (r_es r) !! id' <> Some INITIALIZED) by (rewrite (Hst _ (Hpool _ _ Ht)); done).
    pose proof (i_launched _ _ _ _ _ _ HI _ _ Ht Hni _ _ _ Hb Hid). congruence.
  - destruct (i_state_pool _ _ _ _ _ _ HI _ _ Hx Hne) as [t Ht]. apply Hpool, Hst in Ht. congruence.
Qed.

Lemma done_terminal r : rinv r -> (forall sp, sp ∈ tasks -> done (r_trace r) sp) -> graph_state (r_es r) = SUCCESSFUL.
Proof.
  intros HR Hdone. pose proof (done_states r HR Hdone) as Hall. pose proof (ri_inv _ _ _ _ _ _ _ _ _ _ HR) as HI.
  assert (Hex : exists id, es_states (r_es r) !! id = Some SUCCESSFUL).
  { destruct tasks as [|sp l] eqn:Ht; [by destruct (lp_nonempty _ Hlive)|]. rewrite <-Ht in *.
    assert (Hsp : sp ∈ tasks) by (rewrite Ht; by left).
    specialize (Hdone sp Hsp). unfold done in Hdone. destruct (ts_spawn sp) as [T|].
    - destruct Hdone as (X & l0 & [Hf _] & _). exists T. by apply HI.
    - exists (ts_base sp). by apply HI. }
  destruct Hex as [id Hid].
  unfold graph_state, all_states.
  assert (H1 : bool_decide (es_states (r_es r) = ∅) = false).
  { apply bool_decide_eq_false. intros He. rewrite He in Hid. by rewrite lookup_empty in Hid. }
  rewrite H1. cbn.
  assert (H2 : forallb (fun p : string * tstate => bool_decide (p.2 = INITIALIZED)) (map_to_list (es_states (r_es r))) = false).
  { apply not_true_is_false. rewrite forallb_forall. intros H. specialize (H (id, SUCCESSFUL)).
    rewrite bool_decide_eq_true in H. cbn in H. feed specialize H; [|done]. apply elem_of_list_In. by apply elem_of_map_to_list. }
  rewrite H2.
  assert (H3 : forallb (fun p : string * tstate => bool_decide (p.2 = SUCCESSFUL)) (map_to_list (es_states (r_es r))) = true).
  { apply forallb_forall. intros [i x] Hin. apply elem_of_list_In, elem_of_map_to_list in Hin. apply bool_decide_eq_true. cbn. by eapply Hall. }
  by rewrite H3.
Qed.

(** As long as the graph state is not terminal, something is in flight or queued. *)
Lemma not_stuck r : rinv r -> is_terminal (graph_state (r_es r)) = false -> r_futures r <> [] \/ es_queue (r_es r) <> [].
Proof.
  intros HR Hnt. destruct (decide (r_futures r = [])) as [Hf|]; [|by left].
  right. intros Hq. pose proof (ri_inv _ _ _ _ _ _ _ _ _ _ HR) as HI.
  assert (Hd : forall sp, sp ∈ tasks -> done (r_trace r) sp).
  { apply all_done_gen; [done|]. intros id t Ht Hr.
    destruct (i_pool_state _ _ _ _ _ _ HI _ _ Ht) as (x & Hx & H1 & H2). apply HI. rewrite Hx. f_equal.
    destruct x; try done; exfalso.
    - by eapply (ri_settled _ _ _ _ _ _ _ _ _ _ HR).
    - apply (i_queued _ _ _ _ _ _ HI) in Hx. rewrite Hf, Hq in Hx. destruct Hx as [Hx|Hx]; by apply elem_of_nil in Hx.
    - apply (i_running _ _ _ _ _ _ HI) in Hx. rewrite Hf in Hx. by apply elem_of_nil in Hx. }
  rewrite (done_terminal r HR Hd) in Hnt. done.
Qed.

(** When the graph state is terminal, every task has been carried out. *)
Lemma terminal_done r : rinv r -> is_terminal (graph_state (r_es r)) = true -> forall sp, sp ∈ tasks -> done (r_trace r) sp.
Proof.
  intros HR Ht. pose proof (ri_inv _ _ _ _ _ _ _ _ _ _ HR) as HI.
  assert (Hall : forall id x, es_states (r_es r) !! id = Some x -> x = SUCCESSFUL).
  { revert Ht. unfold graph_state. destruct (_ || _); [done|].
    destruct (all_states (r_es r) SUCCESSFUL) eqn:Ha.
    - intros _ id x Hx. unfold all_states in Ha. rewrite forallb_forall in Ha. specialize (Ha (id, x)).
      rewrite bool_decide_eq_true in Ha. apply Ha. apply elem_of_list_In. by apply elem_of_map_to_list.
    - destruct (existsb _ _) eqn:He; [|done]. apply existsb_exists in He as ([id x] & Hin & Hb).
      apply bool_decide_eq_true in Hb. cbn in Hb. subst x. apply elem_of_list_In, elem_of_map_to_list in Hin.
      destruct (i_state_pool _ _ _ _ _ _ HI _ _ Hin) as [t Hp]; [done|].
      destruct (i_pool_state _ _ _ _ _ _ HI _ _ Hp) as (x & Hx & _ & Hnf). congruence. }
  apply all_done_gen; [done|]. intros id t Hp _. apply HI.
  destruct (i_pool_state _ _ _ _ _ _ HI _ _ Hp) as (x & Hx & _ & _). rewrite Hx. f_equal. by eapply Hall.
Qed.

(** ** Termination *)
Hypothesis Hmono : forall k k' id, k <= k' -> fin k id = true -> fin k' id = true.
Hypothesis Hev : forall id, exists k, fin k id = true.
Hypothesis Hpos : forall i n, limit i = Some n -> 0 < n.

Definition unfinished (s : estate) (ids : list string) : gset string :=
  filter (fun id => es_states s !! id <> Some SUCCESSFUL) (list_to_set ids : gset string).
Definition expanders : list string := map ts_base (filter (fun sp => ts_purpose sp = EXPAND) tasks).
Definition mE (r : rstate) : gset string := unfinished (r_es r) expanders.
Definition mU (r : rstate) : gset string := unfinished (r_es r) (dkeys (es_pool (r_es r)) ++ map ts_base tasks).
Definition same_meas (r' r : rstate) : Prop := mE r' = mE r /\ mU r' = mU r.
Definition lt_meas (r' r : rstate) : Prop := mE r' ⊂ mE r \/ (mE r' ⊆ mE r /\ mU r' ⊂ mU r).

Lemma lt_trans r1 r2 r3 : lt_meas r1 r2 -> lt_meas r2 r3 -> lt_meas r1 r3.
Proof.
  unfold lt_meas. intros [H|[H1 H2]] [H'|[H1' H2']].
  - left. by transitivity (mE r2).
  - left. by eapply strict_transitive_l.
  - left. by eapply strict_transitive_r.
  - right. split; [by transitivity (mE r2)|]. by transitivity (mU r2).
Qed.
Lemma lt_same r1 r2 r3 : lt_meas r1 r2 -> same_meas r2 r3 -> lt_meas r1 r3.
Proof. unfold lt_meas, same_meas. intros H [<- <-]. done. Qed.
Lemma same_lt r1 r2 r3 : same_meas r1 r2 -> lt_meas r2 r3 -> lt_meas r1 r3.
Proof. unfold lt_meas, same_meas. intros [-> ->] H. done. Qed.
Lemma same_trans r1 r2 r3 : same_meas r1 r2 -> same_meas r2 r3 -> same_meas r1 r3.
Proof. unfold same_meas. intros [-> ->] [-> ->]. done. Qed.

Lemma elem_unfinished s ids id : id ∈ unfinished s ids <-> es_states s !! id <> Some SUCCESSFUL /\ id ∈ ids.
Proof. unfold unfinished. rewrite elem_of_filter, elem_of_list_to_set. done. Qed.

Definition act_inv (K : nat) (r : rstate) : Prop :=
  forall i id, (i, id) ∈ r_active r -> (exists o, dget (r_futures r) id = Some (Some i, o)) \/ fin K id = true.

Lemma poll_cons K (r : rstate) x fl : poll K r (x :: fl) =
  match poll K r [x] with SNext r1 => poll K r1 fl | SRaise e tr => SRaise e tr end.
Proof.
  destruct x as [id [p o]]. cbn [StateModel.poll].
  destruct (match p with None => true | Some _ => fin K id end).
  - destruct o; [|done]. by destruct (update_task_state _ _ _ _ _ _ _ _).
  - by destruct (update_task_state _ _ _ _ _ _ _ _).
Qed.

Lemma poll_one K r id p o r1 :
  rinv r -> dget (r_futures r) id = Some (p, o) -> poll K r [(id, (p, o))] = SNext r1 ->
  rinv r1 /\ r_active r1 = r_active r /\
  ((r_futures r1 = ddel (r_futures r) id /\ lt_meas r1 r /\ (p = None \/ fin K id = true)) \/
   (r_futures r1 = r_futures r /\ same_meas r1 r /\ p <> None /\ fin K id = false)).
Proof.
  intros HR Hd Hp. split.
  { pose proof (poll_inv g role_of carg as_list mk_list f not_iterable tasks which limit fin Hlist Hplan cache0 K [(id, (p, o))] r HR) as H.
    rewrite Hp in H. apply H.
    - cbn. apply NoDup_singleton.
    - intros id' a [= -> ->]%elem_of_list_singleton. done. }
  pose proof (ri_inv _ _ _ _ _ _ _ _ _ _ HR) as HI.
  assert (Hkey : id ∈ dkeys (r_futures r)) by (apply dget_Some_key; by eexists).
  revert Hp. cbn [StateModel.poll]. destruct (match p with None => true | Some _ => fin K id end) eqn:Hdone.
  - destruct o as [results|e]; [|done].
    destruct (finish_inv g role_of carg as_list mk_list f not_iterable tasks Hlist Hplan cache0 (r_es r) (r_futures r) (r_trace r) id p results HI)
      as (t0 & Hp0 & Hfin); [apply HR|done|].
    destruct (update_task_state role_of as_list mk_list tasks (r_es r) id SUCCESSFUL results) as [s'|e]; [|done].
    intros [= <-]. cbn. split; [done|]. left. split_and!; [done| |destruct p; [by right|by left]].
    destruct Hfin as (HI' & _ & _ & Hle & Hsucc).
    assert (Hs : forall id', es_states s' !! id' = Some SUCCESSFUL <-> id' = id \/ es_states (r_es r) !! id' = Some SUCCESSFUL).
    { intros id'. rewrite <-(i_fin _ _ _ _ _ _ HI' id'), <-(i_fin _ _ _ _ _ _ HI id'). unfold StateProofs.finished.
      rewrite elem_of_app, elem_of_list_singleton. split; [intros [?|[= ->]]; auto|intros [->|?]; auto]. }
    assert (Hns : es_states (r_es r) !! id <> Some SUCCESSFUL).
    { destruct (i_fut _ _ _ _ _ _ HI _ Hkey) as [[->| ->] _]; done. }
    assert (HE : mE (RState s' (ddel (r_futures r) id) (r_active r) (r_trace r ++ [TFinish id])) ⊆ mE r).
    { intros id'. unfold mE. rewrite !elem_unfinished. cbn. rewrite Hs. tauto. }
    unfold succ_ready in Hsucc. case_bool_decide as He.
    + left. split; [done|]. intros Hsub. specialize (Hsub id). unfold mE in Hsub. rewrite !elem_unfinished in Hsub. cbn in Hsub.
      rewrite Hs in Hsub. apply Hsub; [|by left]. split; [done|].
      pose proof (i_form _ _ _ _ _ _ HI _ _ Hp0) as Hform.
      destruct (expand_static role_of as_list tasks Hplan _ _ Hform He) as [Hst _].
      rewrite <-(i_ids _ _ _ _ _ _ HI _ _ Hp0), Hst. unfold expanders. apply elem_of_list_In, in_map_iff.
      exists (ti_spec t0). split; [done|]. apply elem_of_list_In, elem_of_list_filter. split; [done|].
      by eapply (form_spec role_of as_list tasks Hplan).
    + right. split; [done|]. destruct Hsucc as [_ Hnew]. split.
      * intros id'. unfold mU. rewrite !elem_unfinished, !elem_of_app. cbn. rewrite Hs.
        intros [Hn [Hin|Hin]]; (split; [tauto|]); [|by right].
        apply dget_Some_key, Hnew in Hin as [Hin|Hin]; [left; by apply dget_Some_key|by right].
      * intros Hsub. specialize (Hsub id). unfold mU in Hsub. rewrite !elem_unfinished in Hsub. cbn in Hsub.
        rewrite Hs in Hsub. apply Hsub; [|by left]. split; [done|]. apply elem_of_app. left. apply dget_Some_key. by eexists.
  - cbn. intros [= <-]. cbn. split; [done|]. right. split_and!; [done| |by destruct p|by destruct p].
    assert (Hs : forall id', es_states (set_state (r_es r) id RUNNING) !! id' = Some SUCCESSFUL <-> es_states (r_es r) !! id' = Some SUCCESSFUL).
    { intros id'. cbn. destruct (decide (id' = id)) as [->|]; [|by rewrite lookup_insert_ne].
      rewrite lookup_insert. split; [done|]. destruct (i_fut _ _ _ _ _ _ HI _ Hkey) as [[->| ->] _]; done. }
    split; apply set_eq; intros id'; unfold mE, mU; rewrite !elem_unfinished; cbn [r_es]; rewrite Hs; done.
Qed.

Lemma poll_meas K fl : forall r r', rinv r -> NoDup (dkeys fl) -> (forall id a, (id, a) ∈ fl -> dget (r_futures r) id = Some a) ->
  act_inv K r -> poll K r fl = SNext r' ->
  rinv r' /\ act_inv K r' /\
  ((same_meas r' r /\ r_futures r' = r_futures r /\ forall id p o, (id, (p, o)) ∈ fl -> p <> None /\ fin K id = false) \/ lt_meas r' r).
Proof.
  induction fl as [|[id [p o]] fl IH]; intros r r' HR Hnd Hfl Hact Hp.
  - cbn in Hp. injection Hp as <-. split_and!; [done|done|]. left. split_and!; [done|done|]. by intros ??? ?%elem_of_nil.
  - rewrite poll_cons in Hp. cbn in Hnd. apply NoDup_cons in Hnd as [Hn Hnd].
    destruct (poll K r [(id, (p, o))]) as [r1|e tr] eqn:H1; [|done].
    assert (Hid : dget (r_futures r) id = Some (p, o)) by (apply Hfl; by left).
    destruct (poll_one K r id p o r1 HR Hid H1) as (HR1 & Ha1 & Hcase).
    pose proof (ri_inv _ _ _ _ _ _ _ _ _ _ HR) as HI.
    assert (Hact1 : act_inv K r1).
    { intros i id' Hin. rewrite Ha1 in Hin. destruct (Hact i id' Hin) as [[o' Ho']|?]; [|by right].
      destruct Hcase as [(Hf & _ & Hx)|(Hf & _)]; rewrite Hf; [|left; by exists o'].
      rewrite dget_ddel by apply HI. destruct (decide (id' = id)) as [->|]; [|left; by exists o'].
      right. destruct Hx; [congruence|done]. }
    assert (Hfl1 : forall id' a, (id', a) ∈ fl -> dget (r_futures r1) id' = Some a).
    { intros id' a Hin. assert (Hne : id' <> id).
      { intros ->. apply Hn. apply elem_of_list_fmap. by exists (id, a). }
      destruct Hcase as [(Hf & _)|(Hf & _)]; rewrite Hf; [rewrite dget_ddel by apply HI; rewrite decide_False by done|];
        apply Hfl; by right. }
    destruct (IH r1 r' HR1 Hnd Hfl1 Hact1 Hp) as (HR' & Hact' & Hc).
    split_and!; [done|done|].
    destruct Hcase as [(Hf & Hlt & _)|(Hf & Hs & Hpn & Hfn)].
    + right. destruct Hc as [(Hs & _)|Hlt']; [by eapply same_lt|by eapply lt_trans].
    + destruct Hc as [(Hs' & Hf' & Hrest)|Hlt']; [|right; by eapply lt_same].
      left. split_and!; [by eapply same_trans|congruence|]. intros id' p' o' [[= -> -> ->]|Hin]%elem_of_cons; [done|by eapply Hrest].
Qed.

Lemma act_mono K K' r : K <= K' -> act_inv K r -> act_inv K' r.
Proof. intros Hle Ha i id Hin. destruct (Ha i id Hin) as [?|?]; [by left|right]. by eapply Hmono. Qed.

Lemma submit_meas K r r1 : rinv r -> act_inv K r -> submit_next K r = SNext r1 ->
  same_meas r1 r /\ act_inv K r1 /\
  ((forall id a, dget (r_futures r) id = Some a -> dget (r_futures r1) id = Some a) /\
   (r_futures r = [] -> es_queue (r_es r) <> [] -> r_futures r1 <> [])).
Proof.
  intros HR Hact. pose proof (ri_inv _ _ _ _ _ _ _ _ _ _ HR) as HI. unfold StateModel.submit_next.
  destruct (es_queue (r_es r)) as [|t0 q] eqn:Hq; [by intros [= <-]|].
  destruct (bind_task g role_of carg mk_list (r_es r) t0) as [t|e] eqn:Hb; [|done].
  assert (Hid : task_id t = task_id t0).
  { apply core_id. by eapply bind_core. }
  assert (Hfresh : dget (r_futures r) (task_id t) = None).
  { apply dget_None_key. intros Hin. destruct (i_fut _ _ _ _ _ _ HI _ Hin) as [_ Hn]. apply Hn. rewrite Hq, Hid. by left. }
  assert (Hsub : forall a id b, dget (r_futures r) id = Some b -> dget (dset (r_futures r) (task_id t) a) id = Some b).
  { intros a id b Hd. rewrite dget_dset_ne; [done|]. congruence. }
  assert (Hne : forall a, dset (r_futures r) (task_id t) a <> []).
  { intros a He. pose proof (dget_dset_eq (r_futures r) (task_id t) a) as H. by rewrite He in H. }
  destruct (limit (which t)) as [n|] eqn:Hlim.
  - destruct (count_active (which t) (prune_active fin K (which t) (r_active r)) <? n) eqn:Hc.
    + destruct (base_execute_task g role_of as_list mk_list f not_iterable t) as [calls o].
      intros [= <-]. split_and!; [done| |by apply Hsub|intros _ _; apply Hne].
      intros i id. cbn. intros [Hin|Hin]%elem_of_app.
      * apply elem_of_list_filter in Hin as [_ Hin]. destruct (Hact i id Hin) as [[o' Ho']|?]; [left|by right].
        exists o'. by apply Hsub.
      * apply elem_of_list_singleton in Hin as [= -> ->]. left. exists o. by rewrite dget_dset_eq.
    + intros [= <-]. split_and!; [done| |done|].
      * intros i id. cbn. intros [_ Hin]%elem_of_list_filter. by apply Hact.
      * intros Hf _. exfalso. apply Nat.ltb_ge in Hc.
        assert (Hz : filter (fun p : nat * string => p.1 = which t) (prune_active fin K (which t) (r_active r)) = []).
        { destruct (filter _ (prune_active _ _ _ _)) as [|[i id] l] eqn:Hfl; [done|]. exfalso.
          assert (Hin : (i, id) ∈ (i, id) :: l) by by left. rewrite <-Hfl in Hin.
          apply elem_of_list_filter in Hin as [Hi Hin]. apply elem_of_list_filter in Hin as [Hnf Hin]. cbn in *. subst i.
          destruct (Hact _ _ Hin) as [[o Ho]|Hfin]; [by rewrite Hf in Ho|]. by apply Hnf. }
        unfold count_active in Hc. rewrite Hz in Hc. cbn in Hc. apply Hpos in Hlim. lia.
  - destruct (base_execute_task g role_of as_list mk_list f not_iterable t) as [calls o].
    destruct o as [res|e]; [|done]. intros [= <-]. split_and!; [done| |by apply Hsub|intros _ _; apply Hne].
    intros i id Hin. cbn in *. destruct (Hact i id Hin) as [[o' Ho']|?]; [left|by right]. exists o'. by apply Hsub.
Qed.

Lemma iteration_meas k r r' : rinv r -> act_inv (2 * k) r -> iteration k r = SNext r' ->
  rinv r' /\ act_inv (2 * S k) r' /\
  (lt_meas r' r \/
   (same_meas r' r /\ (forall id a, dget (r_futures r) id = Some a -> dget (r_futures r') id = Some a) /\
    (forall id, id ∈ dkeys (r_futures r') -> fin (2 * k + 1) id = false) /\
    (r_futures r = [] -> es_queue (r_es r) <> [] -> r_futures r' <> []))).
Proof.
  intros HR Hact. unfold StateModel.iteration.
  pose proof (submit_inv g role_of carg as_list mk_list f not_iterable tasks which limit fin cache0 (2 * k) r HR) as Hsi.
  destruct (submit_next (2 * k) r) as [r1|e tr] eqn:Hs; [|done]. destruct Hsi as [HR1 _].
  destruct (submit_meas _ _ _ HR Hact Hs) as (Hsame & Hact1 & Hsub & Hne). intros Hp.
  destruct (poll_meas (2 * k + 1) (r_futures r1) r1 r') as (HR' & Hact' & Hc); [done|apply HR1| | |done|].
  - intros id a Hin. apply elem_dget; [apply HR1|done].
  - eapply act_mono; [|done]. lia.
  - split_and!; [done|eapply act_mono; [|done]; lia|].
    destruct Hc as [(Hs' & Hf & Hnf)|Hlt]; [right|left; by eapply lt_same].
    split_and!.
    + by eapply same_trans.
    + rewrite Hf. done.
    + intros id. rewrite Hf. intros Hin. apply dget_Some_key in Hin as [[p o] Hin]. apply dget_elem in Hin.
      by apply Hnf in Hin as [_ ?].
    + rewrite Hf. done.
Qed.

Definition ends (k : nat) (r : rstate) : Prop := exists n, forall r', run_loop n k r <> LRunning r'.

Lemma ends_step k r : (forall r', iteration k r = SNext r' -> ends (S k) r') -> ends k r.
Proof.
  intros H. destruct (iteration k r) as [r'|e tr] eqn:Hi.
  - destruct (H r' eq_refl) as [n Hn]. exists (S n). intros r''. cbn [StateModel.run_loop].
    destruct (is_terminal _); [done|]. rewrite Hi. apply Hn.
  - exists 1. intros r''. cbn [StateModel.run_loop]. destruct (is_terminal _); [done|]. by rewrite Hi.
Qed.

Lemma ends_terminal k r : is_terminal (graph_state (r_es r)) = true -> ends k r.
Proof. intros H. exists 0. intros r'. cbn. by rewrite H. Qed.

Lemma run_ends_gen : forall a b k r, rinv r -> act_inv (2 * k) r -> size (mE r) <= a -> size (mU r) <= b -> ends k r.
Proof.
  (* outer induction on the expanders, inner on the unfinished tasks *)
  intros a. induction a as [a IHa] using lt_wf_ind. intros b. induction b as [b IHb] using lt_wf_ind.
  intros k r HR Hact HsE HsU.
  assert (Hdec : forall k' r' r0, rinv r' -> act_inv (2 * k') r' -> lt_meas r' r0 -> same_meas r0 r -> ends k' r').
  { intros k' r' r0 HR' Hact' Hlt Hsame. pose proof (lt_same _ _ _ Hlt Hsame) as [Hlt'|[HE HU]].
    - apply subset_size in Hlt'. eapply (IHa (size (mE r'))); [lia|done|done|done|]. reflexivity.
    - apply subset_size in HU. apply subseteq_size in HE. eapply (IHb (size (mU r'))); [lia|done|done|lia|lia]. }
  (* a future is in flight *)
  assert (Hfly : forall d k' r', rinv r' -> act_inv (2 * k') r' -> same_meas r' r -> forall id K0, id ∈ dkeys (r_futures r') ->
     fin K0 id = true -> K0 <= k' + d -> ends k' r').
  { induction d as [|d IHd]; intros k' r' HR' Hact' Hsame id K0 Hin Hfin Hle; apply ends_step; intros r2 Hi;
      destruct (iteration_meas _ _ _ HR' Hact' Hi) as (HR2 & Hact2 & [Hlt|(Hsame2 & Hsub & Hnf & _)]); try (by eapply Hdec).
    - exfalso. apply dget_Some_key in Hin as [a0 Hin]. apply Hsub in Hin.
      assert (Hin2 : id ∈ dkeys (r_futures r2)) by (apply dget_Some_key; by eexists).
      apply Hnf in Hin2. rewrite (Hmono K0) in Hin2; [done|lia|done].
    - apply dget_Some_key in Hin as [a0 Hin]. apply Hsub in Hin.
      eapply (IHd (S k') r2 HR2 Hact2); [by eapply same_trans| |exact Hfin|lia]. apply dget_Some_key. by eexists. }
  destruct (is_terminal (graph_state (r_es r))) eqn:Ht; [by apply ends_terminal|].
  destruct (r_futures r) as [|[id x] fu] eqn:Hf.
  - destruct (not_stuck r HR Ht) as [?|Hq]; [done|].
    apply ends_step. intros r2 Hi.
    destruct (iteration_meas _ _ _ HR Hact Hi) as (HR2 & Hact2 & [Hlt|(Hsame2 & Hsub & Hnf & Hne)]); [by eapply Hdec|].
    specialize (Hne Hf Hq). destruct (r_futures r2) as [|[id x] fu] eqn:Hf2; [done|].
    destruct (Hev id) as [K0 HK0]. eapply (Hfly K0 (S k) r2 HR2 Hact2 Hsame2 id K0); [|done|lia].
    rewrite Hf2. cbn. by left.
  - destruct (Hev id) as [K0 HK0]. eapply (Hfly K0 k r HR Hact); [done| |done|lia]. rewrite Hf. cbn. by left.
Qed.

Lemma run_ends : exists n, forall r, run_graph g role_of carg as_list mk_list f not_iterable tasks which limit fin n cache0 <> LRunning r.
Proof.
  unfold run_graph. eapply (run_ends_gen _ _ 0); [by apply init_inv| | |]; [|reflexivity|reflexivity].
  by intros i id ?%elem_of_nil.
Qed.
End Live.
