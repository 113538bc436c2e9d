(** Proofs about the adapters that run functions on a cluster. *)
From Verif Require Import Base ExecModel ExecSpec ExecProofs ExecResults AsyncModel AsyncProofs RemoteModel.

Section Remote.
Context {V E R : Type}.
Variable g : graph.
Hypothesis Hwf : wf_graph g.
Hypothesis Hacyc : acyclic g.
Variable f : name -> gmap name V -> res E V.
Variable build : list (name * option V) -> res E R.
Variable reserved : list name.
Variable type_error : E.
Variable eager : bool.
Variable config inputs ov : gmap name V.
Variable fv : list name.
Notation all := (inputs ∪ config).
Notation Pl := (fmap (M:=gmap name) (Plain (V:=V))).
Notation slot := (slot V).
Notation tmap := (gmap name (gmap name slot * tstate V E)).
Notation rem := (do_remote_execute (V:=V) (E:=E) reserved type_error).
Notation walk := (default_execute rem g (Pl config) (Pl inputs) (Pl ov) fv).
Notation loc := (default_execute (fun _ => f) g config inputs ov fv).
Notation walkedt := (walked (V:=V) (E:=E) g config (Some inputs) (Some ov) fv).
Notation linvt := (linv (V:=V) (E:=E) g config f (Some inputs) (Some ov) fv).
Notation sspec := (slot_spec (V:=V) (E:=E) g config (Some inputs) (Some ov)).
Notation evalf := (eval f g all ov).
Notation rst := (rstep f build eager).

(** ** The walk *)
Definition ok_calls (tr : list (event slot E)) : Prop := forall x kw e, Call x kw (Err e) ∉ tr.

Lemma plain_some (m : gmap name V) k s : Pl m !! k = Some s <-> exists v, s = Plain v /\ m !! k = Some v.
Proof. rewrite lookup_fmap, fmap_Some. naive_solver. Qed.
Lemma plain_none (m : gmap name V) k : Pl m !! k = None <-> m !! k = None.
Proof. rewrite lookup_fmap. apply fmap_None. Qed.
Lemma pl_union : Pl inputs ∪ Pl config = Pl all.
Proof. by rewrite map_fmap_union. Qed.

Lemma good_plain tr : good rem g (Pl all) (Pl ov) (requested g fv) tr -> ok_calls tr ->
  good do_node_execute g (Pl all) (Pl ov) (requested g fv) tr.
Proof.
  intros Hg Hok t1 ev t2 ->. pose proof (Hg t1 ev t2 eq_refl) as H. destruct ev as [x kw r|x v|x]; [|done|done].
  destruct H as (H1 & H2 & H3 & H4 & H5 & H6). split_and!; [done|done|done|done| |done].
  destruct r as [s|e]; [|destruct (Hok x kw e); rewrite elem_of_app; right; left].
  unfold do_remote_execute in H5. case_bool_decide; [|done]. by rewrite H5.
Qed.

Lemma good_walked_remote tr : good rem g (Pl all) (Pl ov) (requested g fv) tr -> ok_calls tr -> walkedt tr.
Proof.
  intros Hg Hok t1 x args r t2 Heq. apply good_plain in Hg; [|done].
  exact (walk_call g config f elements (fun s x => elem_of_elements s x) (Some inputs) (Some ov) (requested g fv) tr t1 x args r t2 Hg Heq).
Qed.

(** What the driver does: submits the calls of [tr0] and then builds the result or raises. *)
Definition ending_spec (tr0 : list (event slot E)) (en : ending V E) : Prop :=
  match en with
  | EBuild outs =>
      (forall k, config !! k = None \/ inputs !! k = None) /\ outs.*1 = fv /\
      (forall x o o', (x, o) ∈ outs -> (x, o') ∈ outs -> o = o') /\
      (forall x s, (x, Some s) ∈ outs -> (is_Some (g !! x) /\ sspec tr0 x s) \/ (g !! x = None /\ exists v, inputs !! x = Some v /\ s = Plain v)) /\
      (forall x, (x, None) ∈ outs -> absent g all ov x \/ (g !! x = None /\ inputs !! x = None))
  | ERaise (RMissing y) => absent g all ov y /\
      exists P nd, needed g ov (requested g fv) P /\ g !! P = Some nd /\ (y, REQUIRED) ∈ nd_deps nd
  | ERaise RType => exists x nd d, needed g ov (requested g fv) x /\ g !! x = Some nd /\ nd_ext nd = false /\ d ∈ dep_names nd /\ d ∈ reserved
  | ERaise RClash => tr0 = [] /\ exists k, is_Some (config !! k) /\ is_Some (inputs !! k)
  | ERaise _ => False
  end.

Lemma submissions_app (t1 t2 : list (event slot E)) : submissions (t1 ++ t2) = submissions t1 ++ submissions t2.
Proof. apply omap_app. Qed.

Lemma no_err_ok tr : no_err tr -> ok_calls tr.
Proof. intros H x kw e Hin. by eapply H. Qed.

Lemma walk_spec : exists tr0 en, walkedt tr0 /\ ok_calls tr0 /\ ending_spec tr0 en /\
  rstart (R:=R) g reserved type_error config inputs ov fv = Cluster ∅ None (Walking (submissions tr0) en) [].
Proof.
  unfold rstart.
  destruct (default_cases g Hwf Hacyc rem (Pl config) (Pl inputs) (Pl ov) fv)
    as [(k & Hk1 & Hk2 & Hrun)|[Hdisj [(s & Hs & Hrun)|(s & e & Hs & Hrun)]]]; rewrite Hrun.
  - exists [], (ERaise RClash). split_and!; [intros t1 x a r t2 H; by destruct t1|by intros x kw e ?%elem_of_nil| |done].
    split; [done|]. exists k. split; [destruct Hk1 as [? [? [_ ?]]%plain_some]|destruct Hk2 as [? [? [_ ?]]%plain_some]]; by eexists.
  - pose proof (exec_done g Hwf Hacyc rem _ _ _ _ _ Hs) as [Hi Hroots]. rewrite pl_union in Hi, Hroots.
    pose proof (inv_good _ _ _ _ _ _ Hi) as Hg.
    assert (Hok : ok_calls (trace s)).
    { apply no_err_ok. exact (inv_noerr _ _ _ _ _ _ Hi). }
    exists (trace s). eexists. split_and!; [by apply good_walked_remote|done| |done].
    assert (Hplain := good_plain _ Hg Hok). split_and!.
    + intros k. destruct (Hdisj k) as [H|H]; [left|right]; by apply plain_none in H.
    + rewrite <-list_fmap_compose. apply list_fmap_id.
    + intros x o o' Ho Ho'. apply elem_of_list_fmap in Ho as (y & [= -> ->] & _). by apply elem_of_list_fmap in Ho' as (y' & [= <- ->] & _).
    + intros x sl Hin. apply elem_of_list_fmap in Hin as (y & [= -> Hy] & Hyf).
      assert (Hstore : forall v, computed s !! y = Some v -> is_Some (g !! y) /\ sspec (trace s) y v).
      { intros v Hc. apply (inv_mem _ _ _ _ _ _ Hi) in Hc as [Hst _]. split.
        - destruct (good_elem _ _ _ _ _ _ _ Hg Hst) as (u1 & u2 & _ & _ & _ & [Hr|(P & _ & He)] & _).
          + by apply requested_elem in Hr as [_ ?].
          + by eapply wf_closed.
        - exact (store_slot g config f elements (fun s x => elem_of_elements s x) (Some inputs) (Some ov) (requested g fv) (trace s) y v Hplain Hst). }
      destruct (computed s !! y) as [v|] eqn:Hc; [injection Hy as ->; left; by apply Hstore|].
      symmetry in Hy. pose proof Hy as Hy'. apply plain_some in Hy as (v & -> & Hv). right. split; [|by exists v].
      destruct (g !! y) as [nd|] eqn:Hgy; [|done]. exfalso.
      destruct (root_in_memory g Hwf Hacyc rem (Pl config) (Pl inputs) (Pl ov) fv s y Hs) as [(w & Hw & _)|[_ (_ & Ha & _)]];
        [apply requested_elem; split; [done|by eexists]|congruence|].
      rewrite lookup_union_None in Ha. destruct Ha as [Ha _]. congruence.
    + intros x Hin. apply elem_of_list_fmap in Hin as (y & [= -> Hy] & Hyf).
      destruct (computed s !! y) as [v|] eqn:Hc; [done|]. symmetry in Hy. rewrite plain_none in Hy.
      destruct (g !! y) as [nd|] eqn:Hgy; [|by right]. left.
      destruct (root_in_memory g Hwf Hacyc rem (Pl config) (Pl inputs) (Pl ov) fv s y Hs) as [(w & Hw & _)|[_ Ha]];
        [apply requested_elem; split; [done|by eexists]|congruence|].
      rewrite pl_union in Ha. by apply (absent_pl (V:=V) g config (Some inputs) (Some ov)) in Ha.
  - pose proof (exec_raise g Hwf Hacyc rem _ _ _ _ _ _ Hs) as [Hg Hb]. rewrite pl_union in Hg, Hb. destruct e as [e|y]; cbn in Hb.
    + destruct Hb as (t & x & kw & Ht & _). rewrite Ht in *. pose proof (Hg t _ [] eq_refl) as (Hn & Hne & _ & _ & Hr & nd & Hgx & Hext & Hkw & _).
      exists t, (ERaise RType). pose proof (good_app_inv _ _ _ _ _ _ _ Hg) as Hg1. apply no_err_ok in Hne.
      split_and!; [by apply good_walked_remote|done| |].
      * unfold do_remote_execute in Hr. case_bool_decide as Hd; [done|]. rewrite Forall_forall in Hd.
        assert (Hex : Exists (fun k => ~ (kw !! k = None)) reserved).
        { apply not_Forall_Exists; [apply _|]. by rewrite Forall_forall. }
        apply Exists_exists in Hex as (d & Hd1 & Hd2). destruct (kw !! d) as [w|] eqn:Hkd; [|done].
        destruct (Hkw d w Hkd) as [Hdep _]. exists x, nd, d. split_and!; try done.  by apply (needed_pl (V:=V) g (Some ov)) in Hn.
      * rewrite submissions_app. cbn. by rewrite app_nil_r.
    + destruct Hb as (Ha & Hnoerr & P & nd & HP & HgP & Hin).
      assert (Hok : ok_calls (trace s)).
      { by apply no_err_ok. }
      exists (trace s), (ERaise (RMissing y)). split_and!; [by apply good_walked_remote|done| |done].
      split; [by apply (absent_pl (V:=V) g config (Some inputs) (Some ov)) in Ha|]. exists P, nd. split; [|done]. by apply (needed_pl (V:=V) g (Some ov)) in HP.
Qed.

(** ** The cluster *)
Definition pend (todo : list (name * gmap name slot)) : tmap := list_to_map (map (fun p => (p.1, (p.2, Waiting))) todo).
Definition todo_of (C : cluster V E R) : list (name * gmap name slot) := match rc_main C with Walking todo _ => todo | _ => [] end.
Notation idle := (MDone (Err XFuel) : main V E).
Definition loop_of (C : cluster V E R) : loop V E := Loop (rc_tasks C ∪ pend (todo_of C)) idle (rc_trace C).

Lemma pend_lookup todo x : pend todo !! x = None \/ exists args, (x, args) ∈ todo /\ pend todo !! x = Some (args, Waiting).
Proof.
  induction todo as [|[y a] todo IH]; [by left|]. unfold pend. cbn. destruct (decide (x = y)) as [-> |Hne].
  - right. exists a. rewrite lookup_insert. split; [left|done].
  - rewrite lookup_insert_ne by done. destruct IH as [?|(b & Hb & ?)]; [by left|]. right. exists b. split; [by right|done].
Qed.
Lemma pend_none todo x : x ∉ todo.*1 -> pend todo !! x = None.
Proof. intros H. destruct (pend_lookup todo x) as [?|(b & Hb & _)]; [done|]. destruct H. apply elem_of_list_fmap. by exists (x, b). Qed.

Lemma value_pend (tasks : tmap) todo s : slot_value (tasks ∪ pend todo) s = slot_value tasks s.
Proof.
  destruct s as [v|y]; [done|]. cbn. destruct (tasks !! y) as [[a st]|] eqn:Hy.
  - by rewrite (lookup_union_Some_l _ _ _ _ Hy).
  - rewrite lookup_union_r by done. destruct (pend_lookup todo y) as [->|(b & _ & ->)]; done.
Qed.
Lemma error_pend (tasks : tmap) todo s : slot_error (tasks ∪ pend todo) s = slot_error tasks s.
Proof.
  destruct s as [v|y]; [done|]. cbn. destruct (tasks !! y) as [[a st]|] eqn:Hy.
  - by rewrite (lookup_union_Some_l _ _ _ _ Hy).
  - rewrite lookup_union_r by done. destruct (pend_lookup todo y) as [->|(b & _ & ->)]; done.
Qed.
Lemma there_pend (tasks : tmap) todo args : all_there (tasks ∪ pend todo) args = all_there tasks args.
Proof. apply eq_true_iff_eq. rewrite !all_there_spec. by setoid_rewrite value_pend. Qed.
Lemma values_pend (tasks : tmap) todo args : values (tasks ∪ pend todo) args = values tasks args.
Proof. apply map_eq. intros d. rewrite !values_lookup. destruct (args !! d); cbn; [apply value_pend|done]. Qed.

Lemma pend_submit (tasks : tmap) x args todo : tasks !! x = None -> <[x := (args, Waiting)]> tasks ∪ pend todo = tasks ∪ pend ((x, args) :: todo).
Proof. intros Hx. change (pend ((x, args) :: todo)) with (<[x := (args, Waiting)]> (pend todo)). by rewrite <-insert_union_r, insert_union_l. Qed.

(** A step of a task is one of the event loop. *)
Lemma task_step C x d : eager || bool_decide (is_Some (rc_combine C)) = true -> is_Some (rc_tasks C !! x) ->
  loop_of (rst C (RTask x d)) = AsyncModel.step f (loop_of C) (CTask x d).
Proof.
  intros He [[args st] Hx]. cbn [rstep AsyncModel.step]. rewrite He. change (lp_tasks (loop_of C)) with (rc_tasks C ∪ pend (todo_of C)).
  rewrite (lookup_union_Some_l _ _ _ _ Hx), Hx. destruct st as [|kw|r]; [| |done].
  - rewrite there_pend, values_pend. destruct (all_there (rc_tasks C) args).
    + unfold loop_of, todo_of. cbn. by rewrite insert_union_l.
    + destruct (args !! d) as [s|]; cbn [mbind option_bind]; [|done]. rewrite error_pend. destruct (slot_error _ s); [|done].
      unfold loop_of, todo_of. cbn. by rewrite insert_union_l.
  - unfold loop_of, todo_of. cbn. by rewrite insert_union_l.
Qed.

Definition osettled (tasks : tmap) (outs : list (name * option slot)) (vals : list (name * option V)) : Prop :=
  vals = outs_values tasks outs /\ forall x s, (x, Some s) ∈ outs -> is_Some (slot_value tasks s).
Lemma outs_there_spec (tasks : tmap) outs : outs_there tasks outs = true <-> forall x s, (x, Some s) ∈ outs -> is_Some (slot_value tasks s).
Proof.
  unfold outs_there. rewrite forallb_forall. split.
  - intros H x s Hin. apply elem_of_list_In in Hin. specialize (H _ Hin). cbn in H. by apply bool_decide_eq_true in H.
  - intros H [x [s|]] Hin; cbn; [|done]. apply bool_decide_eq_true. apply elem_of_list_In in Hin. by apply (H x).
Qed.
Lemma osettled_keep (tasks tasks' : tmap) outs vals : (forall s v, slot_value tasks s = Some v -> slot_value tasks' s = Some v) ->
  osettled tasks outs vals -> osettled tasks' outs vals.
Proof.
  intros Hk [-> Hs]. split.
  - unfold outs_values. apply map_ext_in. intros [x [s|]] Hin; cbn; [|done]. f_equal.
    apply elem_of_list_In in Hin. destruct (Hs x s Hin) as [v Hv]. rewrite Hv. symmetry. by apply Hk.
  - intros x s Hin. destruct (Hs x s Hin) as [v Hv]. exists v. by apply Hk.
Qed.
Lemma outs_error_spec (tasks : tmap) outs d e : outs_error tasks outs d = Some e -> exists s, (d, Some s) ∈ outs /\ slot_error tasks s = Some e.
Proof.
  induction outs as [|[x o] outs IH]; [done|]. cbn. case_decide as Hd.
  - subst. destruct o as [s|]; [|done]. cbn. intros He. exists s. split; [left|done].
  - intros He. destruct (IH He) as (s & Hs & ?). exists s. split; [by right|done].
Qed.

Section Inv.
Variable tr0 : list (event slot E).
Variable en0 : ending V E.
Hypothesis Hw : walkedt tr0.
Hypothesis Hen : ending_spec tr0 en0.

Definition combine_ok (C : cluster V E R) (outs : list (name * option slot)) (cs : cstate V E R) : Prop :=
  en0 = EBuild outs /\
  match cs with
  | CWaiting => True
  | CRunning vals => osettled (rc_tasks C) outs vals
  | CFinished r => (exists vals, osettled (rc_tasks C) outs vals /\ r = build vals) \/
                   (exists e y kw, r = Err e /\ AEnd y kw (Err e) ∈ rc_trace C)
  end.
Record rinv (C : cluster V E R) : Prop := {
  ri_loop : linvt tr0 idle (loop_of C);
  ri_todo : NoDup (todo_of C).*1 /\ forall x, x ∈ (todo_of C).*1 -> rc_tasks C !! x = None;
  ri_main : match rc_main C with
            | Walking _ en => en = en0 /\ rc_combine C = None
            | Getting => is_Some (rc_combine C)
            | DDone (Ok r) => exists outs, rc_combine C = Some (outs, CFinished (Ok r))
            | DDone (Err e) => (en0 = ERaise e /\ rc_combine C = None) \/ exists outs e', e = RUser e' /\ rc_combine C = Some (outs, CFinished (Err e'))
            end;
  ri_combine : forall outs cs, rc_combine C = Some (outs, cs) -> combine_ok C outs cs;
  ri_lazy : eager = false -> rc_combine C = None -> rc_trace C = [];
}.

Lemma calls_nodup : NoDup (submissions tr0).*1.
Proof.
  clear Hen. induction tr0 as [|ev t IH] using rev_ind; [constructor|].
  assert (Hw' : walkedt t). { intros t1 x a r t2 ->. apply (Hw t1 x a r (t2 ++ [ev])). by rewrite <-app_assoc. }
  rewrite submissions_app, fmap_app. apply NoDup_app. split_and!; [by apply IH| |].
  - intros x Hx Hin. destruct ev as [y kw [s|e]|y v|y]; cbn in Hin; try by apply elem_of_nil in Hin.
    apply elem_of_list_singleton in Hin as ->. destruct (Hw t y kw (Ok s) [] eq_refl) as [Hn _]. apply Hn.
    clear -Hx. apply elem_of_list_fmap in Hx as ([z a] & -> & Hx). cbn. unfold submissions in Hx. apply elem_of_list_omap in Hx as (ev & Hev & Heq).
    destruct ev as [z' kw' [s'|e']|?|?]; try done. injection Heq as -> ->. by eapply elem_calls_of.
  - destruct ev as [y kw [s|e]|y v|y]; cbn; try apply NoDup_nil_2. apply NoDup_singleton.
Qed.

Lemma created_pend : ok_calls tr0 -> created tr0 = pend (submissions tr0).
Proof.
  clear Hen. induction tr0 as [|ev t IH] using rev_ind; intros Hok; [done|].
  assert (Hw' : walkedt t). { intros t1 x a r t2 ->. apply (Hw t1 x a r (t2 ++ [ev])). by rewrite <-app_assoc. }
  rewrite created_app, IH; [|done|intros x kw e Hin; apply (Hok x kw e); rewrite elem_of_app; by left].
  rewrite submissions_app. destruct ev as [y kw [s|e]|y v|y]; cbn; [|destruct (Hok y kw e); rewrite elem_of_app; right; left|by rewrite app_nil_r|by rewrite app_nil_r].
  unfold pend. rewrite map_app. cbn. rewrite list_to_map_snoc; [done|].
  intros Hin. destruct (Hw t y kw (Ok s) [] eq_refl) as [Hn _]. apply Hn.
  apply elem_of_list_fmap in Hin as ([z a] & -> & Hin). apply elem_of_list_fmap in Hin as ([z' a'] & [= -> ->] & Hx). cbn.
  unfold submissions in Hx. apply elem_of_list_omap in Hx as (ev & Hev & Heq).
  destruct ev as [z kw' [s'|e']|?|?]; try done. injection Heq as -> ->. by eapply elem_calls_of.
Qed.

Lemma rinv_start : ok_calls tr0 -> rinv (Cluster ∅ None (Walking (submissions tr0) en0) []).
Proof.
  intros Hok. split; cbn [rc_tasks rc_combine rc_main rc_trace todo_of].
  - change (linvt tr0 idle (Loop (∅ ∪ pend (submissions tr0)) idle [])). rewrite (left_id_L (∅ : tmap) (∪) (pend (submissions tr0))), <-(created_pend Hok). apply linv_start; [exact Hw|done|done].
  - split; [apply calls_nodup|]. intros x _. apply lookup_empty.
  - done.
  - done.
  - done.
Qed.

Lemma rstep_inv C c : rinv C -> rinv (rst C c).
Proof.
  intros HC. pose proof (ri_loop _ HC) as HL. pose proof (ri_todo _ HC) as [Hnd Hfresh]. pose proof (ri_main _ HC) as Hm.
  pose proof (ri_combine _ HC) as Hc. pose proof (ri_lazy _ HC) as Hz.
  destruct c as [|x d|d].
  - cbn [rstep]. destruct (rc_main C) as [[|[x args] todo] [outs|e]| |r] eqn:Hmain; cbn in Hm.
    + destruct Hm as [<- Hm]. split; cbn.
      * unfold loop_of, todo_of in *. rewrite Hmain in HL. exact HL.
      * split; [constructor|]. by intros x ?%elem_of_nil.
      * by eexists.
      * intros outs' cs [= -> <-]. by split.
      * done.
    + destruct Hm as [<- Hm]. split; cbn.
      * unfold loop_of, todo_of in *. rewrite Hmain in HL. exact HL.
      * split; [constructor|]. by intros x ?%elem_of_nil.
      * by left.
      * intros outs' cs Hcs. congruence.
      * done.
    + destruct Hm as [<- Hm]. unfold todo_of in Hnd, Hfresh. rewrite Hmain in Hnd, Hfresh. cbn in Hnd. apply NoDup_cons in Hnd as [Hx Hnd].
      split; cbn.
      * unfold loop_of, todo_of in *. rewrite Hmain in HL. cbn [rc_main rc_tasks rc_trace]. rewrite (pend_submit (rc_tasks C) x args todo); [exact HL|apply Hfresh; left].
      * split; [exact Hnd|]. intros y Hy. rewrite lookup_insert_ne by (intros ->; done). apply Hfresh. by right.
      * done.
      * intros outs' cs Hcs. congruence.
      * done.
    + destruct Hm as [<- Hm]. unfold todo_of in Hnd, Hfresh. rewrite Hmain in Hnd, Hfresh. cbn in Hnd. apply NoDup_cons in Hnd as [Hx Hnd].
      split; cbn.
      * unfold loop_of, todo_of in *. rewrite Hmain in HL. cbn [rc_main rc_tasks rc_trace]. rewrite (pend_submit (rc_tasks C) x args todo); [exact HL|apply Hfresh; left].
      * split; [exact Hnd|]. intros y Hy. rewrite lookup_insert_ne by (intros ->; done). apply Hfresh. by right.
      * done.
      * intros outs' cs Hcs. congruence.
      * done.
    + destruct (rc_combine C) as [[outs [|vals|[r|e]]]|] eqn:Hcomb; try done; split; cbn; unfold loop_of, todo_of in *; rewrite Hmain in *; try done.
      * by eexists.
      * right. by eexists _, _.
    + done.
  - destruct (eager || bool_decide (is_Some (rc_combine C))) eqn:He; [|cbn [rstep]; by rewrite He].
    destruct (rc_tasks C !! x) as [[args st]|] eqn:Hx; [|cbn [rstep]; by rewrite He, Hx].
    pose proof (task_step C x d He ltac:(by eexists)) as Hstep.
    assert (HL' : linvt tr0 idle (loop_of (rst C (RTask x d)))) by (rewrite Hstep; by apply step_inv).
    assert (Hsame : rc_main (rst C (RTask x d)) = rc_main C /\ rc_combine (rst C (RTask x d)) = rc_combine C /\
      (forall y, rc_tasks C !! y = None -> rc_tasks (rst C (RTask x d)) !! y = None) /\
      (forall s v, slot_value (rc_tasks C) s = Some v -> slot_value (rc_tasks (rst C (RTask x d))) s = Some v) /\
      (forall y kw e, AEnd y kw (Err e) ∈ rc_trace C -> AEnd y kw (Err e) ∈ rc_trace (rst C (RTask x d)))).
    { assert (Hins : forall st', (forall r, st <> Finished r) -> (forall y, rc_tasks C !! y = None -> <[x := (args, st')]> (rc_tasks C) !! y = None) /\
        (forall s v, slot_value (rc_tasks C) s = Some v -> slot_value (<[x := (args, st')]> (rc_tasks C)) s = Some v)).
      { intros st' Hst. split.
        - intros y Hy. rewrite lookup_insert_ne; [done|]. intros ->. congruence.
        - intros s v Hv. apply slot_value_keep; [|done]. intros a r. rewrite Hx. intros [= _ ->]. by destruct (Hst r). }
      cbn [rstep]. rewrite He, Hx. destruct st as [|kw|r]; [| |done].
      - destruct (all_there (rc_tasks C) args).
        + destruct (Hins (Running (values (rc_tasks C) args)) ltac:(done)) as [H1 H2]. cbn. split_and!; try done. intros y kw e Hin. rewrite elem_of_app. by left.
        + destruct (args !! d ≫= slot_error (rc_tasks C)) as [e|]; [|done].
          destruct (Hins (Finished (Err e)) ltac:(done)) as [H1 H2]. cbn. split_and!; try done. intros y kw e' Hin. rewrite elem_of_app. by left.
      - destruct (Hins (Finished (f x kw)) ltac:(done)) as [H1 H2]. cbn. split_and!; try done. intros y kw' e Hin. rewrite elem_of_app. by left. }
    destruct Hsame as (S1 & S2 & S3 & S4 & S5).
    assert (Htodo : todo_of (rst C (RTask x d)) = todo_of C) by (unfold todo_of; by rewrite S1).
    split.
    + done.
    + rewrite Htodo. split; [done|]. intros y Hy. by apply S3, Hfresh.
    + by rewrite S1, S2.
    + intros outs cs Hcs. rewrite S2 in Hcs. destruct (Hc _ _ Hcs) as [Hb Hcase]. split; [done|]. destruct cs as [|vals|r]; [done| |].
      * by eapply osettled_keep.
      * destruct Hcase as [(vals & Hv & ->)|(e & y & kw & -> & Hin)]; [left; exists vals; split; [by eapply osettled_keep|done]|].
        right. exists e, y, kw. split; [done|by apply S5].
    + intros Hl Hn. rewrite S2 in Hn. rewrite Hl, Hn in He. done.
  - cbn [rstep]. destruct (rc_combine C) as [[outs [|vals|r]]|] eqn:Hcomb; try done.
    + destruct (Hc _ _ eq_refl) as [Hb _].
      assert (Hmm : rc_main C = Getting).
      { destruct (rc_main C) as [todo en| |[r|e]]; [by destruct Hm|done| |].
        - by destruct Hm as (? & ?).
        - by destruct Hm as [[_ ?]|(? & ? & _ & ?)]. }
      destruct (outs_there (rc_tasks C) outs) eqn:Ht.
      * split; cbn; unfold loop_of, todo_of in *; cbn in *; rewrite ?Hmm in *; try done.
        intros outs' cs [= <- <-]. split; [done|]. split; [done|]. by apply outs_there_spec.
      * destruct (outs_error (rc_tasks C) outs d) as [e|] eqn:Hoe; [|done].
        split; cbn; unfold loop_of, todo_of in *; cbn in *; rewrite ?Hmm in *; try done.
        intros outs' cs [= <- <-]. split; [done|]. right. apply outs_error_spec in Hoe as (s & Hin & He).
        apply slot_error_spec in He as (y & args & -> & Hy).
        destruct (li_err _ _ _ _ _ _ _ _ _ HL y args e) as (z & kw & Hz').
        { cbn. by apply lookup_union_Some_l. }
        by exists e, z, kw.
    + destruct (Hc _ _ eq_refl) as [Hb Hv].
      assert (Hmm : rc_main C = Getting).
      { destruct (rc_main C) as [todo en| |[r|e]]; [by destruct Hm|done| |].
        - by destruct Hm as (? & ?).
        - by destruct Hm as [[_ ?]|(? & ? & _ & ?)]. }
      split; cbn; unfold loop_of, todo_of in *; cbn in *; rewrite ?Hmm in *; try done.
      intros outs' cs [= <- <-]. split; [done|]. left. exists vals. by split.
Qed.

(** ** Values *)
Section At.
Variable C : cluster V E R.
Hypothesis HC : rinv C.
Notation L := (loop_of C).

Lemma slot_meaning d s v : sspec tr0 d s -> slot_value (rc_tasks C) s = Some v -> evalf d v.
Proof.
  intros Hs Hv. rewrite <-(value_pend (rc_tasks C) (todo_of C)) in Hv.
  exact (slot_eval g config f (Some inputs) (Some ov) fv tr0 idle L Hw (ri_loop _ HC) (length tr0) tr0 [] d s v (le_n _) (eq_sym (app_nil_r _)) Hs Hv).
Qed.

Lemma remote_all_run outs vals : en0 = EBuild outs -> osettled (rc_tasks C) outs vals ->
  forall x, needed g ov (requested g fv) x -> forall nd, g !! x = Some nd -> nd_ext nd = false ->
  exists args v, lp_tasks L !! x = Some (args, Finished (Ok v)).
Proof.
  intros Heq [_ Hset]. rewrite Heq in Hen. destruct Hen as (_ & Hfv & _ & Hsl & Hab). pose proof (ri_loop _ HC) as HL.
  assert (Hfn : forall t d s nd, sspec t d s -> ov !! d = None -> g !! d = Some nd -> nd_ext nd = false -> s = Task d).
  { intros t d s nd [(w & -> & [?|(_ & nd' & ? & ? & _)])|[-> _]] Ho Hg Hext; [cbn in *; congruence|congruence|done]. }
  induction 1 as [x Hx Ho|x d Hx IH He Ho]; intros nd Hg Hext.
  - apply requested_elem in Hx as [Hx _]. rewrite <-Hfv in Hx. apply elem_of_list_fmap in Hx as ([y [s|]] & -> & Hin); cbn in *.
    + destruct (Hsl y s Hin) as [[_ Hspec]|[? _]]; [|congruence].
      assert (s = Task y) as -> by by eapply Hfn. destruct (Hset y (Task y) Hin) as [v Hv].
      apply slot_value_task in Hv as [args Ha]. exists args, v. by apply lookup_union_Some_l.
    + destruct (Hab y Hin) as [(_ & _ & nd' & ? & ?)|[? _]]; congruence.
  - destruct He as (ndx & Hgx & Hd). assert (Hextx : nd_ext ndx = false).
    { destruct (nd_ext ndx) eqn:Hxx; [|done]. apply (wf_ext _ Hwf _ _ Hgx) in Hxx. unfold dep_names in Hd. rewrite Hxx in Hd. by apply elem_of_nil in Hd. }
    destruct (IH ndx Hgx Hextx) as (args & v & Ha). destruct (li_tasks _ _ _ _ _ _ _ _ _ HL _ _ _ Ha) as (u1 & r & u2 & Hu).
    pose proof (Hw _ _ _ _ _ Hu) as (_ & _ & _ & nd' & Hg' & _ & Hargs & Habs). assert (nd' = ndx) as -> by congruence.
    apply elem_of_list_fmap in Hd as ([d' dt] & -> & Hin). cbn in *.
    destruct (args !! d') as [s|] eqn:Hs.
    + destruct (Hargs d' s Hs) as [_ Hspec]. assert (s = Task d') as -> by by eapply Hfn.
      destruct (li_ok _ _ _ _ _ _ _ _ _ HL _ _ _ Ha) as (kw & [_ Hkw] & _). destruct (Hkw d' (Task d') Hs) as [w Hw'].
      apply slot_value_task in Hw' as [a' Ha']. by exists a', w.
    + destruct (Habs d' dt Hin Hs) as [(_ & _ & nd'' & ? & ?) _]. congruence.
Qed.

Lemma task_meaning x args v : lp_tasks L !! x = Some (args, Finished (Ok v)) -> evalf x v.
Proof.
  intros Hx. pose proof (ri_loop _ HC) as HL. apply (slot_meaning x (Task x)).
  - right. split; [done|]. destruct (li_tasks _ _ _ _ _ _ _ _ _ HL _ _ _ Hx) as (u1 & r & u2 & ->). eapply elem_calls_of. rewrite elem_of_app. right. left.
  - rewrite <-(value_pend (rc_tasks C) (todo_of C)). apply slot_value_task. by exists args.
Qed.

Lemma can_remote outs vals : en0 = EBuild outs -> osettled (rc_tasks C) outs vals -> can_run g f config inputs ov fv.
Proof.
  intros Heq Hset. split; [rewrite Heq in Hen; by destruct Hen as (? & _)|].
  intros x nd Hn Hg Hext. destruct (remote_all_run outs vals Heq Hset x Hn nd Hg Hext) as (args & v & Ha). exists v. by eapply task_meaning.
Qed.

Lemma built outs vals : en0 = EBuild outs -> osettled (rc_tasks C) outs vals -> exists tr, loc = Answer vals tr.
Proof.
  intros Heq Hset. destruct (proj2 (run_success g Hwf Hacyc f config inputs ov fv) (can_remote outs vals Heq Hset)) as (out' & tr & Hrun).
  exists tr. rewrite Hrun. f_equal. destruct (run_values g Hwf Hacyc f config inputs ov fv out' tr Hrun) as [Hk Hr].
  rewrite Heq in Hen. destruct Hen as (_ & Hfv & _ & Hsl & Hab). destruct Hset as [-> Hset].
  apply list_eq_assoc.
  - rewrite Hk, <-Hfv. unfold outs_values. by rewrite <-list_fmap_compose.
  - intros x r r' Hin' Hin. specialize (Hr x r Hin'). apply elem_of_list_fmap in Hin as ([y o] & [= -> ->] & Hin). cbn. destruct o as [s|]; cbn.
    + destruct (Hset y s Hin) as [v Hv]. rewrite Hv. destruct (Hsl y s Hin) as [[Hg Hspec]|(Hg & w & Hi & ->)].
      * pose proof (slot_meaning y s v Hspec Hv) as Hev. destruct r as [v'|].
        -- destruct Hr as [[_ Hr]|[Hr _]]; [f_equal; by eapply eval_functional|]. destruct Hg; congruence.
        -- destruct Hr as [Hr|[Hr _]]; [by destruct (absent_no_eval f g all ov y v Hr)|]. destruct Hg; congruence.
      * injection Hv as ->. destruct r as [v'|]; [destruct Hr as [[[? ?] _]|[_ ?]]; congruence|].
        destruct Hr as [(_ & _ & ? & ? & _)|[_ ?]]; congruence.
    + destruct r as [v|]; [|done]. exfalso. destruct (Hab y Hin) as [Ha|[Hg Hi]].
      * destruct Hr as [[_ Hr]|[Hg _]]; [by destruct (absent_no_eval f g all ov y v Ha)|]. destruct Ha as (_ & _ & ? & ? & _). congruence.
      * destruct Hr as [[[? ?] _]|[_ ?]]; congruence.
Qed.

End At.

(** ** Progress *)
Definition rmeasure (C : cluster V E R) : nat :=
  length (todo_of C) + measure tr0 (loop_of C)
  + match rc_main C with Walking _ _ => 2 | Getting => 1 | DDone _ => 0 end
  + match rc_combine C with None => 3 | Some (_, CWaiting) => 2 | Some (_, CRunning _) => 1 | Some (_, CFinished _) => 0 end.

Lemma main_moves_down C : rinv C -> rst C RMain = C \/ rmeasure (rst C RMain) < rmeasure C.
Proof.
  intros HC. pose proof (ri_main _ HC) as Hm. pose proof (ri_todo _ HC) as [_ Hfresh]. cbn [rstep].
  destruct (rc_main C) as [[|[x args] todo] [outs|e]| |r] eqn:Hmain.
  - right. destruct Hm as [_ Hn]. unfold rmeasure, loop_of, todo_of. cbn [rc_main rc_tasks rc_trace rc_combine]. rewrite Hmain, Hn. lia.
  - right. destruct Hm as [_ Hn]. unfold rmeasure, loop_of, todo_of. cbn [rc_main rc_tasks rc_trace rc_combine]. rewrite Hmain, Hn. lia.
  - right. unfold todo_of in Hfresh. rewrite Hmain in Hfresh. unfold rmeasure, loop_of, todo_of. cbn [rc_main rc_tasks rc_trace rc_combine]. rewrite Hmain.
    rewrite (pend_submit (rc_tasks C) x args todo) by (apply Hfresh; left). cbn [length]. lia.
  - right. unfold todo_of in Hfresh. rewrite Hmain in Hfresh. unfold rmeasure, loop_of, todo_of. cbn [rc_main rc_tasks rc_trace rc_combine]. rewrite Hmain.
    rewrite (pend_submit (rc_tasks C) x args todo) by (apply Hfresh; left). cbn [length]. lia.
  - destruct (rc_combine C) as [[outs [|vals|[r|e]]]|] eqn:Hcomb; try (by left); right; unfold rmeasure, loop_of, todo_of; cbn [rc_main rc_tasks rc_trace rc_combine]; rewrite Hmain, Hcomb; lia.
  - by left.
Qed.

Lemma task_same C x d : rc_main (rst C (RTask x d)) = rc_main C /\ rc_combine (rst C (RTask x d)) = rc_combine C /\
  (rst C (RTask x d) = C \/ exists ev, rc_trace (rst C (RTask x d)) = rc_trace C ++ [ev]).
Proof.
  cbn [rstep]. destruct (eager || _); [|auto]. destruct (rc_tasks C !! x) as [[args [|kw|r]]|]; [| |auto|auto].
  - destruct (all_there _ _); [split_and!; [done|done|right; by eexists]|]. destruct (args !! d ≫= _) as [e|]; [|auto]. split_and!; [done|done|right; by eexists].
  - split_and!; [done|done|right; by eexists].
Qed.
Lemma task_moves_down C x d : rinv C -> rst C (RTask x d) = C \/ rmeasure (rst C (RTask x d)) < rmeasure C.
Proof.
  intros HC. destruct (task_same C x d) as (S1 & S2 & [?|[ev Hev]]); [by left|].
  destruct (eager || bool_decide (is_Some (rc_combine C))) eqn:He; [|left; cbn [rstep]; by rewrite He].
  destruct (rc_tasks C !! x) as [[args st]|] eqn:Hx; [|left; cbn [rstep]; by rewrite He, Hx]. right.
  pose proof (task_step C x d He ltac:(by eexists)) as Hstep.
  destruct (step_cases g config f (Some inputs) (Some ov) fv tr0 idle (loop_of C) Hw (ri_loop _ HC) (loop_of C) (CTask x d) (ri_loop _ HC)) as [Heq|Hlt].
  - rewrite <-Hstep in Heq. apply (f_equal lp_trace) in Heq. cbn [loop_of lp_trace] in Heq. rewrite Hev in Heq. apply (f_equal length) in Heq. rewrite app_length in Heq. cbn in Heq. lia.
  - rewrite <-Hstep in Hlt. unfold rmeasure. rewrite S1, S2. assert (todo_of (rst C (RTask x d)) = todo_of C) as -> by (unfold todo_of; by rewrite S1). lia.
Qed.
Lemma rstep_cases C c : rinv C -> rst C c = C \/ rmeasure (rst C c) < rmeasure C.
Proof.
  intros HC. destruct c as [|x d|d]; [by apply main_moves_down|by apply task_moves_down|].
  cbn [rstep]. destruct (rc_combine C) as [[outs [|vals|r]]|] eqn:Hcomb; try (by left).
  - destruct (outs_there _ _); [|destruct (outs_error _ _ _); [|by left]]; right; unfold rmeasure, loop_of, todo_of; cbn [rc_main rc_tasks rc_trace rc_combine]; rewrite Hcomb; lia.
  - right; unfold rmeasure, loop_of, todo_of; cbn [rc_main rc_tasks rc_trace rc_combine]; rewrite Hcomb; lia.
Qed.

Lemma outs_error_first (tasks : tmap) outs x s e : (forall x o o', (x, o) ∈ outs -> (x, o') ∈ outs -> o = o') -> (x, Some s) ∈ outs ->
  slot_error tasks s = Some e -> outs_error tasks outs x = Some e.
Proof.
  induction outs as [|[y o] outs IH]; intros Hf Hin He; [by apply elem_of_nil in Hin|]. cbn. case_decide as Hd.
  - subst. assert (o = Some s) as -> by (apply (Hf x); [left|done]). done.
  - apply elem_of_cons in Hin as [[= ? ?]|Hin]; [by subst|]. apply IH; [|done|done]. intros z a b Ha Hb. by apply (Hf z); right.
Qed.

Lemma outs_not_there (tasks : tmap) outs : outs_there tasks outs = false -> exists x s, (x, Some s) ∈ outs /\ slot_value tasks s = None.
Proof.
  induction outs as [|[y o] outs IH]; [done|]. cbn. intros [Ho|Ho]%andb_false_iff.
  - destruct o as [s|]; [|done]. apply bool_decide_eq_false in Ho. exists y, s. split; [left|by apply eq_None_not_Some].
  - destruct (IH Ho) as (x & s & ? & ?). exists x, s. split; [by right|done].
Qed.

Lemma rmoves C : rinv C -> (forall r, rc_main C <> DDone r) -> exists c, rst C c <> C.
Proof.
  intros HC Hnd. pose proof (ri_main _ HC) as Hm. destruct (rc_main C) as [todo en| |r] eqn:Hmain; [| |by destruct (Hnd r)].
  - exists RMain. intros Heq. apply (f_equal rc_main) in Heq. cbn [rstep] in Heq. rewrite Hmain in Heq.
    destruct todo as [|[x args] todo]; [destruct en; cbn in Heq; rewrite ?Hmain in Heq; done|]. cbn in Heq. injection Heq as Heq. apply (f_equal length) in Heq. cbn in Heq. lia.
  - destruct Hm as [[outs cs] Hcomb]. pose proof (ri_combine _ HC _ _ Hcomb) as [Hb Hcs]. pose proof (ri_loop _ HC) as HL.
    assert (Hl : lp_tasks (loop_of C) = rc_tasks C).
    { unfold loop_of, todo_of. rewrite Hmain. cbn. unfold pend. cbn. apply (right_id_L ∅ (∪)). }
    assert (He : eager || bool_decide (is_Some (rc_combine C)) = true).
    { rewrite Hcomb. apply orb_true_r. }
    destruct (tasks_move g config f (Some inputs) (Some ov) fv tr0 idle (loop_of C) Hw HL (loop_of C) tr0 [] HL (eq_sym (app_nil_r _))) as [Hf|[c Hc]].
    + rewrite Hl in Hf. destruct cs as [|vals|r].
      * rewrite Hb in Hen. destruct Hen as (_ & _ & Huniq & Hsl & _).
        assert (Hall : forall x s, (x, Some s) ∈ outs -> (exists v, slot_value (rc_tasks C) s = Some v) \/ exists e, slot_error (rc_tasks C) s = Some e).
        { intros x s Hin. destruct (Hsl x s Hin) as [[_ Hspec]|(_ & v & _ & ->)]; [|left; by exists v].
          exact (finished_slot g config (Some inputs) (Some ov) (rc_tasks C) tr0 x s Hf Hspec). }
        destruct (outs_there (rc_tasks C) outs) eqn:Ht.
        { exists (RCombine ""). cbn [rstep]. rewrite Hcomb, Ht. intros Heq. apply (f_equal rc_combine) in Heq. cbn in Heq. congruence. }
        destruct (outs_not_there _ _ Ht) as (x & s & Hin & Hn).
        destruct (Hall x s Hin) as [[v Hv]|[e Hse]]; [congruence|]. exists (RCombine x). cbn [rstep].
        rewrite Hcomb, Ht, (outs_error_first (rc_tasks C) outs x s e Huniq Hin Hse). intros Heq. apply (f_equal rc_combine) in Heq. cbn in Heq. congruence.
      * exists (RCombine ""). cbn [rstep]. rewrite Hcomb. intros Heq. apply (f_equal rc_combine) in Heq. cbn in Heq. congruence.
      * exists RMain. cbn [rstep]. rewrite Hmain, Hcomb. destruct r; intros Heq; apply (f_equal rc_main) in Heq; cbn in Heq; congruence.
    + destruct c as [x d|d]; [|cbn in Hc; lia].
      destruct (rc_tasks C !! x) as [st|] eqn:Hx.
      * exists (RTask x d). intros Heq. rewrite <-(task_step C x d He ltac:(by eexists)), Heq in Hc. lia.
      * exfalso. cbn [AsyncModel.step] in Hc. rewrite Hl, Hx in Hc. lia.
Qed.

Lemma remote_fair (sched : nat -> rchoice) (Cf : nat -> cluster V E R) : rinv (Cf 0) ->
  (forall n, Cf (S n) = rst (Cf n) (sched n)) -> (forall c n, exists m, n <= m /\ sched m = c) -> exists n r, rc_main (Cf n) = DDone r.
Proof.
  intros H0 Hstep Hfair.
  assert (Hinv : forall n, rinv (Cf n)) by (induction n; [done|]; rewrite Hstep; by apply rstep_inv).
  assert (H : forall k n, rmeasure (Cf n) <= k -> exists n r, rc_main (Cf n) = DDone r).
  2:{ by apply (H (rmeasure (Cf 0)) 0). }
  induction k as [k IH] using lt_wf_ind. intros n Hk.
  destruct (rc_main (Cf n)) as [todo en| |r] eqn:Hm; [| |by exists n, r].
  all: destruct (rmoves (Cf n) (Hinv n)) as [c Hc]; [intros r; rewrite Hm; done|];
    assert (Hlt : rmeasure (rst (Cf n) c) < rmeasure (Cf n)) by (destruct (rstep_cases (Cf n) c (Hinv n)); [done|done]);
    destruct (Hfair c n) as (m & Hnm & Hs);
    assert (Hex : exists j, rmeasure (Cf j) < rmeasure (Cf n));
    [assert (Hsame : forall i, n + i <= m -> (exists j, rmeasure (Cf j) < rmeasure (Cf n)) \/ Cf (n + i) = Cf n);
     [induction i as [|i IHi]; intros Hi; [right; by rewrite Nat.add_0_r|]; destruct IHi as [?|Heq]; [lia|by left|];
      rewrite Nat.add_succ_r; destruct (rstep_cases (Cf (n + i)) (sched (n + i)) (Hinv _)) as [He|He];
      [right; by rewrite Hstep, He|left; exists (S (n + i)); rewrite Hstep; by rewrite Heq in He at 2]
     |destruct (Hsame (m - n)) as [?|Heq]; [lia|done|]; replace (n + (m - n)) with m in Heq by lia;
      exists (S m); by rewrite Hstep, Hs, Heq]
    |destruct Hex as [j Hj]; apply (IH (rmeasure (Cf j))) with (n := j); lia].
Qed.
End Inv.

Lemma rrun_inv cs : exists tr0 en0, walkedt tr0 /\ ending_spec tr0 en0 /\ rinv tr0 en0 (rrun g f build reserved type_error eager config inputs ov fv cs).
Proof.
  destruct walk_spec as (tr0 & en0 & Hw & Hok & Hen & Hst). exists tr0, en0. split; [done|]. split; [done|].
  unfold rrun. rewrite Hst. pose proof (rinv_start tr0 en0 Hw Hok) as H0. revert H0. generalize (Cluster ∅ None (Walking (submissions tr0) en0) [] : cluster V E R) as C.
  induction cs as [|c cs IH]; intros C HC; [exact HC|]. cbn [foldl]. apply IH. by apply rstep_inv.
Qed.
End Remote.
