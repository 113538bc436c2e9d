(** Proofs about the asynchronous driver. *)
From Verif Require Import Base ExecModel ExecSpec ExecProofs ExecResults TraverseModel TraverseProofs AsyncModel.

(** The functions called in a run of the event loop. *)
Definition starts_of {V E} (tr : list (aevent V E)) : list name :=
  omap (fun ev => match ev with AStart x _ => Some x | _ => None end) tr.

Section Proofs.
Context {V E : Type}.
Variable g : graph.
Hypothesis Hwf : wf_graph g.
Hypothesis Hacyc : acyclic g.
Variable config : gmap name V.
Variable f : name -> gmap name V -> res E V.
Variable ord : gset name -> list name.
Hypothesis Hord : forall s x, x ∈ ord s <-> x ∈ s.
Variable inputs overrides : option (gmap name V).
Variable fv : list name.
Notation all := (odefault inputs ∪ config).
Notation ov := (odefault overrides).
Notation Pl := (fmap (M:=gmap name) (Plain (V:=V))).
Notation slot := (slot V).
Notation stepf := (AsyncModel.step f).
Notation tmap := (gmap name (gmap name slot * tstate V E)).

Definition given (d : name) (w : V) : Prop :=
  ov !! d = Some w \/ (ov !! d = None /\ exists nd, g !! d = Some nd /\ nd_ext nd = true /\ all !! d = Some w).
Definition slot_spec (t : list (event slot E)) (d : name) (s : slot) : Prop :=
  (exists w, s = Plain w /\ given d w) \/ (s = Task d /\ d ∈ calls_of t).

Lemma pl_some (m : gmap name V) k s : Pl m !! k = Some s <-> exists v, s = Plain v /\ m !! k = Some v.
Proof. rewrite lookup_fmap, fmap_Some. naive_solver. Qed.
Lemma pl_none (m : gmap name V) k : Pl m !! k = None <-> m !! k = None.
Proof. rewrite lookup_fmap. apply fmap_None. Qed.
Lemma absent_pl d : absent g (Pl all) (Pl ov) d <-> absent g all ov d.
Proof. unfold absent. by rewrite !pl_none. Qed.
Lemma needed_pl roots x : needed g (Pl ov) roots x <-> needed g ov roots x.
Proof.
  split; induction 1 as [x Hx Ho|x d Hx IH He Ho].
  - apply needed_root; [done|by apply pl_none].
  - eapply needed_dep; [done|done|by apply pl_none].
  - apply needed_root; [done|by apply pl_none].
  - eapply needed_dep; [done|done|by apply pl_none].
Qed.

Section Walk.
Variable roots : list name.
Notation goodw := (good (V:=slot) (E:=E) do_node_execute g (Pl all) (Pl ov) roots).

Lemma store_slot tr d s : goodw tr -> Store d s ∈ tr -> slot_spec tr d s.
Proof.
  intros Hg Hin. destruct (good_elem _ _ _ _ _ _ _ Hg Hin) as (t1 & t2 & -> & Hok). cbn in Hok.
  destruct Hok as (_ & _ & _ & [Ho|(Ho & _ & nd & Hgd & [[Hext Hi]|(Hext & kw & t & ->)])]).
  - apply pl_some in Ho as (w & -> & Ho). left. exists w. split; [done|by left].
  - apply pl_some in Hi as (w & -> & Hi). apply pl_none in Ho. left. exists w. split; [done|]. right. split; [done|]. by exists nd.
  - assert (Hc : Call d kw (Ok s) ∈ (t ++ [Call d kw (Ok s)]) ++ Store d s :: t2) by (rewrite !elem_of_app, elem_of_list_singleton; auto).
    destruct (good_elem _ _ _ _ _ _ _ Hg Hc) as (u1 & u2 & _ & _ & _ & _ & _ & Hr & _). unfold do_node_execute in Hr.
    injection Hr as ->. right. split; [done|]. eapply elem_calls_of. exact Hc.
Qed.

Definition call_ok (t1 : list (event slot E)) (x : name) (args : gmap name slot) : Prop :=
  x ∉ calls_of t1 /\ needed g ov roots x /\ ov !! x = None /\ exists nd, g !! x = Some nd /\ nd_ext nd = false /\
    (forall d s, args !! d = Some s -> d ∈ dep_names nd /\ slot_spec t1 d s) /\
    (forall d dt, (d, dt) ∈ nd_deps nd -> args !! d = None -> absent g all ov d /\ dt = OPTIONAL).

Lemma walk_call tr t1 x args r t2 : goodw tr -> tr = t1 ++ Call x args r :: t2 -> call_ok t1 x args.
Proof.
  intros Hg ->. pose proof (good_app_inv _ _ _ _ _ _ _ Hg) as Hg1.
  destruct (Hg t1 _ t2 eq_refl) as (Hn & _ & _ & Hc & _ & nd & Hgx & Hext & Hkw & Habs).
  assert (Ho : Pl ov !! x = None) by by inversion Hn. apply pl_none in Ho. apply needed_pl in Hn.
  split; [done|]. split; [done|]. split; [done|]. exists nd. split; [done|]. split; [done|]. split.
  - intros d s Hd. destruct (Hkw d s Hd) as [? Hs]. split; [done|]. by eapply store_slot.
  - intros d dt Hin Hnone. destruct (Habs d dt Hin) as [[w Hw]|(_ & Ha & ->)]; [congruence|]. split; [by apply absent_pl|done].
Qed.
End Walk.

(** What the walk over the graph has created. *)
Definition walked (tr0 : list (event slot E)) : Prop :=
  forall t1 x args r t2, tr0 = t1 ++ Call x args r :: t2 -> call_ok (requested g fv) t1 x args.

Lemma nodes_needed nodes users y : get_upstream_nodes g config inputs overrides fv = Found nodes users ->
  y ∈ nodes -> is_Some (g !! y) /\ (ov !! y = None -> needed g ov (requested g fv) y).
Proof.
  intros Hq Hy. pose proof (upstream_ok g Hwf config inputs overrides fv) as H. rewrite Hq in H. destruct H as (_ & Hn & _).
  apply Hn in Hy as (s & Hs & Hgs & Hr). clear Hn Hq.
  assert (Hreq : s ∈ requested g fv) by by apply requested_elem.
  assert (H : forall a, rtc (fun a b => b ∈ upstream_next g config inputs overrides a) a y -> is_Some (g !! a) ->
     (ov !! a = None -> needed g ov (requested g fv) a) -> is_Some (g !! y) /\ (ov !! y = None -> needed g ov (requested g fv) y)).
  { induction 1 as [a|a b c Hab Hbc IH]; intros Ha Hna; [done|].
    pose proof (upstream_next_edge g config inputs overrides a b Hab) as He.
    apply IH; [done|by eapply wf_closed|]. intros Hb. eapply needed_dep; [|done|done]. apply Hna.
    unfold upstream_next in Hab. destruct (g !! a) as [nd|]; [|by apply elem_of_nil in Hab].
    destruct overrides as [o|]; cbn in *; [|done]. case_bool_decide as Hd; [by apply elem_of_nil in Hab|]. by apply eq_None_not_Some. }
  apply (H s Hr Hgs). intros Ho. by apply needed_root.
Qed.

Lemma needed_roots nodes users x : get_upstream_nodes g config inputs overrides fv = Found nodes users ->
  needed g ov (ord nodes) x -> needed g ov (requested g fv) x.
Proof.
  intros Hq. induction 1 as [x Hx Ho|x d Hx IH He Ho]; [|by eapply needed_dep].
  apply Hord in Hx. eapply nodes_needed in Hx as [_ Hx]; [|done]. by apply Hx.
Qed.

Lemma good_walked nodes users tr0 : get_upstream_nodes g config inputs overrides fv = Found nodes users ->
  good do_node_execute g (Pl all) (Pl ov) (ord nodes) tr0 -> walked tr0.
Proof.
  intros Hq Hg t1 x args r t2 Heq. destruct (walk_call _ _ _ _ _ _ _ Hg Heq) as (H1 & H2 & H3).
  split; [done|]. split; [by eapply needed_roots|done].
Qed.

(** ** The tasks *)
Lemma created_app tr ev : created (V:=V) (E:=E) (tr ++ [ev]) =
  match ev with Call x kw _ => <[x := (kw, Waiting)]> (created tr) | _ => created tr end.
Proof. unfold created. by rewrite foldl_app. Qed.
Lemma created_spec tr x args st : created (V:=V) (E:=E) tr !! x = Some (args, st) -> st = Waiting /\ exists t1 r t2, tr = t1 ++ Call x args r :: t2.
Proof.
  induction tr as [|ev tr IH] using rev_ind; [by cbn|]. rewrite created_app. destruct ev as [y kw r|y v|y].
  - rewrite lookup_insert_Some. intros [[-> [= -> <-]]|[Hne H]].
    + split; [done|]. by exists tr, r, [].
    + destruct (IH H) as [-> (t1 & r' & t2 & ->)]. split; [done|]. exists t1, r', (t2 ++ [Call y kw r]). by rewrite <-app_assoc.
  - intros H. destruct (IH H) as [-> (t1 & r' & t2 & ->)]. split; [done|]. eexists t1, r', (t2 ++ [_]). by rewrite <-app_assoc.
  - intros H. destruct (IH H) as [-> (t1 & r' & t2 & ->)]. split; [done|]. eexists t1, r', (t2 ++ [_]). by rewrite <-app_assoc.
Qed.
Lemma created_dom tr x : x ∈ calls_of tr -> is_Some (created (V:=V) (E:=E) tr !! x).
Proof.
  induction tr as [|ev tr IH] using rev_ind; [by intros ?%elem_of_nil|]. unfold calls_of. rewrite omap_app, elem_of_app, created_app.
  intros [H|H].
  - destruct ev as [y kw r| |]; [|by apply IH|by apply IH]. rewrite lookup_insert_is_Some'. right. by apply IH.
  - destruct ev as [y kw r| |]; cbn in H; [|by apply elem_of_nil in H|by apply elem_of_nil in H].
    apply elem_of_list_singleton in H as ->. rewrite lookup_insert. by eexists.
Qed.

(** ** The event loop *)
Definition settled (tasks : tmap) (args : gmap name slot) (kw : gmap name V) : Prop :=
  kw = values tasks args /\ forall d s, args !! d = Some s -> is_Some (slot_value tasks s).

Lemma all_there_spec tasks args : all_there (V:=V) (E:=E) tasks args = true <-> forall d s, args !! d = Some s -> is_Some (slot_value tasks s).
Proof.
  unfold all_there. rewrite forallb_forall. split.
  - intros H d s Hd. specialize (H (d, s)). apply bool_decide_eq_true in H; [done|]. by apply elem_of_list_In, elem_of_map_to_list.
  - intros H [d s] Hin. apply elem_of_list_In, elem_of_map_to_list in Hin. apply bool_decide_eq_true. by eapply H.
Qed.
Lemma values_lookup tasks args d : values (V:=V) (E:=E) tasks args !! d = args !! d ≫= slot_value tasks.
Proof. unfold values. by rewrite lookup_omap. Qed.

Lemma slot_value_task tasks y v : slot_value (V:=V) (E:=E) tasks (Task y) = Some v <-> exists args, tasks !! y = Some (args, Finished (Ok v)).
Proof.
  cbn. destruct (tasks !! y) as [[args [| |[w|e]]]|] eqn:H; split; try (intros [? ?]; congruence); try done.
  intros [= ->]. by exists args.
Qed.
Lemma slot_error_spec tasks s e : slot_error (V:=V) (E:=E) tasks s = Some e -> exists y args, s = Task y /\ tasks !! y = Some (args, Finished (Err e)).
Proof.
  destruct s as [v|y]; cbn; [done|]. destruct (tasks !! y) as [[args [| |[w|e']]]|] eqn:H; try done. intros [= ->]. by exists y, args.
Qed.

(** Finished tasks stay as they are. *)
Lemma slot_value_keep (tasks : tmap) x args st s v : (forall a r, tasks !! x <> Some (a, Finished r)) ->
  slot_value tasks s = Some v -> slot_value (<[x := (args, st)]> tasks) s = Some v.
Proof.
  intros Hx. destruct s as [w|y]; [done|]. rewrite !slot_value_task. intros [a Ha]. exists a. rewrite lookup_insert_ne; [done|]. intros ->.
  by eapply Hx.
Qed.
Lemma settled_keep (tasks : tmap) x args st a kw : (forall a r, tasks !! x <> Some (a, Finished r)) ->
  settled tasks a kw -> settled (<[x := (args, st)]> tasks) a kw.
Proof.
  intros Hx [-> Hs]. split.
  - apply map_eq. intros d. rewrite !values_lookup. destruct (a !! d) as [s|] eqn:Hd; cbn; [|done].
    destruct (Hs d s Hd) as [v Hv]. rewrite Hv. symmetry. by apply slot_value_keep.
  - intros d s Hd. destruct (Hs d s Hd) as [v Hv]. exists v. by apply slot_value_keep.
Qed.

(** What holds when [x] is called after the events [t1]. *)
Definition start_ok (t1 : list (aevent V E)) (x : name) (kw : gmap name V) : Prop :=
  x ∉ starts_of t1 /\ needed g ov (requested g fv) x /\ exists nd, g !! x = Some nd /\ nd_ext nd = false /\
    (forall d w, kw !! d = Some w -> d ∈ dep_names nd /\ (given d w \/ exists kw', AEnd d kw' (Ok w) ∈ t1)) /\
    (forall d dt, (d, dt) ∈ nd_deps nd -> kw !! d = None -> absent g all ov d /\ dt = OPTIONAL).
Definition main_ok (m0 : main V E) (L : loop V E) : Prop :=
  match lp_main L with
  | Awaiting slots => m0 = Awaiting slots
  | MDone (Ok out) => exists slots, m0 = Awaiting slots /\ settled (lp_tasks L) slots out
  | MDone (Err (XUser e)) => exists y kw, AEnd y kw (Err e) ∈ lp_trace L
  | MDone (Err e) => m0 = MDone (Err e)
  end.
Record linv (tr0 : list (event slot E)) (m0 : main V E) (L : loop V E) : Prop := {
  li_tasks : forall x args st, lp_tasks L !! x = Some (args, st) -> exists t1 r t2, tr0 = t1 ++ Call x args r :: t2;
  li_dom : forall x, x ∈ calls_of tr0 -> is_Some (lp_tasks L !! x);
  li_wait : forall x args, lp_tasks L !! x = Some (args, Waiting) -> x ∉ starts_of (lp_trace L);
  li_run : forall x args kw, lp_tasks L !! x = Some (args, Running kw) -> settled (lp_tasks L) args kw /\ AStart x kw ∈ lp_trace L;
  li_ok : forall x args v, lp_tasks L !! x = Some (args, Finished (Ok v)) ->
    exists kw, settled (lp_tasks L) args kw /\ AStart x kw ∈ lp_trace L /\ AEnd x kw (Ok v) ∈ lp_trace L;
  li_err : forall x args e, lp_tasks L !! x = Some (args, Finished (Err e)) -> exists y kw, AEnd y kw (Err e) ∈ lp_trace L;
  li_st : forall x kw, AStart x kw ∈ lp_trace L -> exists args st, lp_tasks L !! x = Some (args, st) /\ settled (lp_tasks L) args kw;
  li_ends : forall x kw r, AEnd x kw r ∈ lp_trace L -> r = f x kw /\ AStart x kw ∈ lp_trace L;
  li_starts : forall t1 x kw t2, lp_trace L = t1 ++ AStart x kw :: t2 -> start_ok t1 x kw;
  li_main : main_ok m0 L;
}.

Lemma starts_app (tr : list (aevent V E)) ev : starts_of (tr ++ [ev]) = starts_of tr ++ match ev with AStart x _ => [x] | _ => [] end.
Proof. unfold starts_of. rewrite omap_app. f_equal. by destruct ev. Qed.
Lemma snoc_split {A} (l t1 t2 : list A) x y : l ++ [x] = t1 ++ y :: t2 -> (exists t, t2 = t ++ [x] /\ l = t1 ++ y :: t) \/ (t2 = [] /\ x = y /\ l = t1).
Proof.
  destruct t2 as [|z t2 _] using rev_ind.
  - intros H. apply app_inj_tail in H as [-> ->]. by right.
  - rewrite app_comm_cons, app_assoc. intros H. apply app_inj_tail in H as [-> ->]. left. by exists t2.
Qed.

Lemma step_inv tr0 m0 L c : walked tr0 -> linv tr0 m0 L -> linv tr0 m0 (stepf L c).
Proof.
  intros Hw HL. destruct c as [x d|d]; cbn.
  - destruct (lp_tasks L !! x) as [[args [|kw|r]]|] eqn:Hx; [| |done|done].
    + destruct (all_there (lp_tasks L) args) eqn:Hall.
      * assert (Hnf : forall a r, lp_tasks L !! x <> Some (a, Finished r)) by (intros; congruence).
        set (kw := values (lp_tasks L) args).
        assert (Hset : settled (lp_tasks L) args kw) by (split; [done|by apply all_there_spec]).
        split; cbn [lp_tasks lp_main lp_trace].
        -- intros y a st. rewrite lookup_insert_Some. intros [[-> [= -> <-]]|[_ Hy]]; by eapply (li_tasks _ _ _ HL).
        -- intros y Hy. rewrite lookup_insert_is_Some'. right. by apply (li_dom _ _ _ HL).
        -- intros y a. rewrite lookup_insert_Some. intros [[_ ?]|[Hne Hy]]; [done|].
           rewrite starts_app, elem_of_app, elem_of_list_singleton. intros [H| ->]; [|done]. by eapply (li_wait _ _ _ HL).
        -- intros y a kw'. rewrite lookup_insert_Some. intros [[-> [= -> <-]]|[Hne Hy]].
           ++ split; [by apply settled_keep|]. rewrite elem_of_app, elem_of_list_singleton. auto.
           ++ destruct (li_run _ _ _ HL _ _ _ Hy) as [? ?]. split; [by apply settled_keep|]. rewrite elem_of_app. auto.
        -- intros y a v. rewrite lookup_insert_Some. intros [[_ ?]|[Hne Hy]]; [done|].
           destruct (li_ok _ _ _ HL _ _ _ Hy) as (kw' & ? & ? & ?). exists kw'. split; [by apply settled_keep|]. rewrite !elem_of_app. auto.
        -- intros y a e. rewrite lookup_insert_Some. intros [[_ ?]|[Hne Hy]]; [done|].
           destruct (li_err _ _ _ HL _ _ _ Hy) as (z & kw' & ?). exists z, kw'. rewrite elem_of_app. auto.
        -- intros y kw'. rewrite elem_of_app, elem_of_list_singleton. intros [H|[= -> ->]].
           ++ destruct (li_st _ _ _ HL _ _ H) as (a & st & Ha & Hstl). destruct (decide (y = x)) as [-> |Hne].
              ** eexists _, _. rewrite lookup_insert. split; [done|]. rewrite Hx in Ha. injection Ha as <- <-. by apply settled_keep.
              ** exists a, st. rewrite lookup_insert_ne by done. split; [done|]. by apply settled_keep.
           ++ eexists _, _. rewrite lookup_insert. split; [done|]. by apply settled_keep.
        -- intros y kw' r. rewrite !elem_of_app, !elem_of_list_singleton. intros [H|?]; [|done]. destruct (li_ends _ _ _ HL _ _ _ H). auto.
        -- intros t1 y kw' t2 Heq. apply snoc_split in Heq as [(t & -> & Heq)|(-> & Heq & Ht1)]; [by eapply (li_starts _ _ _ HL)|].
           symmetry in Heq. injection Heq as -> ->. rewrite <-Ht1.
           destruct (li_tasks _ _ _ HL _ _ _ Hx) as (u1 & r & u2 & Hu). destruct (Hw _ _ _ _ _ Hu) as (_ & Hn & Ho & nd & Hg & Hext & Hargs & Habs).
           split; [by eapply (li_wait _ _ _ HL)|]. split; [done|]. exists nd. split; [done|]. split; [done|]. split.
           ++ intros d' w. unfold kw. rewrite values_lookup. destruct (args !! d') as [s|] eqn:Hd'; cbn; [|done]. intros Hv.
              destruct (Hargs d' s Hd') as [? [(w' & -> & Hgv)|[-> _]]]; (split; [done|]).
              ** left. cbn in Hv. by injection Hv as ->.
              ** right. apply slot_value_task in Hv as [a Ha]. destruct (li_ok _ _ _ HL _ _ _ Ha) as (kw' & _ & _ & ?). by exists kw'.
           ++ intros d' dt Hin. unfold kw. rewrite values_lookup. destruct (args !! d') as [s|] eqn:Hd'; cbn.
              ** intros Hv. destruct Hset as [_ Hset]. destruct (Hset d' s Hd'). congruence.
              ** intros _. by eapply Habs.
        -- pose proof (li_main _ _ _ HL) as Hm. unfold main_ok in *. cbn. destruct (lp_main L) as [?|[?|[]]]; try done.
           { destruct Hm as (sl & -> & Hsl). exists sl. split; [done|]. by apply settled_keep. }
           destruct Hm as (y & kw' & ?). exists y, kw'. rewrite elem_of_app. auto.
      * destruct (args !! d) as [s|] eqn:Hd; [|done]. destruct (slot_error (lp_tasks L) s) as [e|] eqn:Hs; [|done].
        assert (Hnf : forall a r, lp_tasks L !! x <> Some (a, Finished r)) by (intros; congruence).
        apply slot_error_spec in Hs as (y0 & a0 & -> & Hy0). destruct (li_err _ _ _ HL _ _ _ Hy0) as (z0 & k0 & Hz0).
        split; cbn [lp_tasks lp_main lp_trace].
        -- intros y a st. rewrite lookup_insert_Some. intros [[-> [= -> <-]]|[_ Hy]]; by eapply (li_tasks _ _ _ HL).
        -- intros y Hy. rewrite lookup_insert_is_Some'. right. by apply (li_dom _ _ _ HL).
        -- intros y a. rewrite lookup_insert_Some. intros [[_ ?]|[Hne Hy]]; [done|]. rewrite starts_app, app_nil_r. by eapply (li_wait _ _ _ HL).
        -- intros y a kw'. rewrite lookup_insert_Some. intros [[_ ?]|[Hne Hy]]; [done|].
           destruct (li_run _ _ _ HL _ _ _ Hy) as [? ?]. split; [by apply settled_keep|]. rewrite elem_of_app. auto.
        -- intros y a v. rewrite lookup_insert_Some. intros [[_ ?]|[Hne Hy]]; [done|].
           destruct (li_ok _ _ _ HL _ _ _ Hy) as (kw' & ? & ? & ?). exists kw'. split; [by apply settled_keep|]. rewrite !elem_of_app. auto.
        -- intros y a e'. rewrite lookup_insert_Some. intros [[-> [= -> <-]]|[Hne Hy]].
           ++ exists z0, k0. rewrite elem_of_app. auto.
           ++ destruct (li_err _ _ _ HL _ _ _ Hy) as (z & kw' & ?). exists z, kw'. rewrite elem_of_app. auto.
        -- intros y kw'. rewrite elem_of_app, elem_of_list_singleton. intros [H|?]; [|done].
           destruct (li_st _ _ _ HL _ _ H) as (a & st & Ha & Hstl). destruct (decide (y = x)) as [-> |Hne].
           ++ eexists _, _. rewrite lookup_insert. split; [done|]. rewrite Hx in Ha. injection Ha as <- <-. by apply settled_keep.
           ++ exists a, st. rewrite lookup_insert_ne by done. split; [done|]. by apply settled_keep.
        -- intros y kw' r. rewrite !elem_of_app, !elem_of_list_singleton. intros [H|?]; [|done]. destruct (li_ends _ _ _ HL _ _ _ H). auto.
        -- intros t1 y kw' t2 Heq. apply snoc_split in Heq as [(t & -> & Heq)|(-> & Heq & Ht1)]; [by eapply (li_starts _ _ _ HL)|done].
        -- pose proof (li_main _ _ _ HL) as Hm. unfold main_ok in *. cbn. destruct (lp_main L) as [?|[?|[]]]; try done.
           { destruct Hm as (sl & -> & Hsl). exists sl. split; [done|]. by apply settled_keep. }
           destruct Hm as (y & kw' & ?). exists y, kw'. rewrite elem_of_app. auto.
    + assert (Hnf : forall a r, lp_tasks L !! x <> Some (a, Finished r)) by (intros; congruence).
      destruct (li_run _ _ _ HL _ _ _ Hx) as [Hset Hst].
      split; cbn [lp_tasks lp_main lp_trace].
      -- intros y a st. rewrite lookup_insert_Some. intros [[-> [= -> <-]]|[_ Hy]]; by eapply (li_tasks _ _ _ HL).
      -- intros y Hy. rewrite lookup_insert_is_Some'. right. by apply (li_dom _ _ _ HL).
      -- intros y a. rewrite lookup_insert_Some. intros [[_ ?]|[Hne Hy]]; [done|]. rewrite starts_app, app_nil_r. by eapply (li_wait _ _ _ HL).
      -- intros y a kw'. rewrite lookup_insert_Some. intros [[_ ?]|[Hne Hy]]; [done|].
         destruct (li_run _ _ _ HL _ _ _ Hy) as [? ?]. split; [by apply settled_keep|]. rewrite elem_of_app. auto.
      -- intros y a v. rewrite lookup_insert_Some. intros [[-> [= -> Hv]]|[Hne Hy]].
         ++ exists kw. split; [by apply settled_keep|]. rewrite !elem_of_app, !elem_of_list_singleton, Hv. auto.
         ++ destruct (li_ok _ _ _ HL _ _ _ Hy) as (kw' & ? & ? & ?). exists kw'. split; [by apply settled_keep|]. rewrite !elem_of_app. auto.
      -- intros y a e'. rewrite lookup_insert_Some. intros [[-> [= -> Hv]]|[Hne Hy]].
         ++ exists y, kw. rewrite elem_of_app, elem_of_list_singleton, Hv. auto.
         ++ destruct (li_err _ _ _ HL _ _ _ Hy) as (z & kw' & ?). exists z, kw'. rewrite elem_of_app. auto.
      -- intros y kw'. rewrite elem_of_app, elem_of_list_singleton. intros [H|?]; [|done].
           destruct (li_st _ _ _ HL _ _ H) as (a & st & Ha & Hstl). destruct (decide (y = x)) as [-> |Hne].
           ++ eexists _, _. rewrite lookup_insert. split; [done|]. rewrite Hx in Ha. injection Ha as <- <-. by apply settled_keep.
           ++ exists a, st. rewrite lookup_insert_ne by done. split; [done|]. by apply settled_keep.
      -- intros y kw' r. rewrite !elem_of_app, !elem_of_list_singleton. intros [H|[= -> -> ->]]; [|auto]. destruct (li_ends _ _ _ HL _ _ _ H). auto.
      -- intros t1 y kw' t2 Heq. apply snoc_split in Heq as [(t & -> & Heq)|(-> & Heq & Ht1)]; [by eapply (li_starts _ _ _ HL)|done].
      -- pose proof (li_main _ _ _ HL) as Hm. unfold main_ok in *. cbn. destruct (lp_main L) as [?|[?|[]]]; try done.
         { destruct Hm as (sl & -> & Hsl). exists sl. split; [done|]. by apply settled_keep. }
         destruct Hm as (y & kw' & ?). exists y, kw'. rewrite elem_of_app. auto.
  - destruct (lp_main L) as [slots|r] eqn:Hm; [|done]. pose proof (li_main _ _ _ HL) as Hmain. unfold main_ok in Hmain. rewrite Hm in Hmain.
    destruct (all_there (lp_tasks L) slots) eqn:Hall.
    + destruct HL. split; try done. cbn. exists slots. split; [done|]. split; [done|]. by apply all_there_spec.
    + destruct (slots !! d) as [s|] eqn:Hd; [|done]. destruct (slot_error (lp_tasks L) s) as [e|] eqn:Hs; [|done].
      apply slot_error_spec in Hs as (y0 & a0 & -> & Hy0). pose proof (li_err _ _ _ HL _ _ _ Hy0). destruct HL. by split.
Qed.

(** ** The start *)
Lemma final_slots_spec (computed : gmap name slot) l acc :
  match final_slots (E:=E) computed l acc with
  | Awaiting slots => (forall x, x ∈ l -> is_Some (computed !! x)) /\
      forall x s, slots !! x = Some s <-> (x ∈ l /\ computed !! x = Some s) \/ (x ∉ l /\ acc !! x = Some s)
  | MDone (Err (XKey x)) => x ∈ l /\ computed !! x = None
  | MDone _ => False
  end.
Proof.
  revert acc. induction l as [|y l IH]; intros acc; cbn [final_slots].
  - split; [by intros ? ?%elem_of_nil|]. intros x s. rewrite elem_of_nil. naive_solver.
  - destruct (computed !! y) as [s0|] eqn:Hy; [|split; [left|done]].
    specialize (IH (<[y := s0]> acc)). destruct (final_slots computed l (<[y:=s0]> acc)) as [slots|[?|[]]]; try done.
    + destruct IH as [IH1 IH2]. split.
      * intros x. rewrite elem_of_cons. intros [-> |?]; [by eexists|by apply IH1].
      * intros x s. rewrite IH2, elem_of_cons. destruct (decide (x ∈ l)) as [Hl|Hl]; [naive_solver|].
        destruct (decide (x = y)) as [-> |Hne]; [rewrite lookup_insert|rewrite lookup_insert_ne by done]; naive_solver.
    + destruct IH as [? ?]. split; [by right|done].
Qed.

Lemma req_roots nodes users x : get_upstream_nodes g config inputs overrides fv = Found nodes users ->
  x ∈ fv -> is_Some (g !! x) -> x ∈ ord nodes.
Proof.
  intros Hq Hx Hg. apply Hord. pose proof (upstream_ok g Hwf config inputs overrides fv) as H. rewrite Hq in H. destruct H as (_ & Hn & _).
  apply Hn. exists x. split_and!; [done|done|apply rtc_refl].
Qed.
Lemma found_known nodes users x : get_upstream_nodes g config inputs overrides fv = Found nodes users ->
  x ∈ fv -> g !! x = None -> is_Some (odefault inputs !! x).
Proof.
  intros Hq Hx Hg. pose proof (upstream_ok g Hwf config inputs overrides fv) as H. rewrite Hq in H. destruct H as (Hu & _ & _).
  destruct (decide (is_Some (odefault inputs !! x))) as [|Hn]; [done|]. exfalso.
  assert (Hin : x ∈ filter (fun s => is_node g s = false /\
    match inputs with Some i => bool_decide (is_Some (i !! x)) | None => false end = false) fv).
  { apply elem_of_list_filter. split; [|done]. split; [by apply is_node_false|]. destruct inputs; cbn in *; [|done]. by rewrite bool_decide_false. }
  assert (Hin' : x ∈ filter (fun s => is_node g s = false /\
    match inputs with Some i => bool_decide (is_Some (i !! s)) | None => false end = false) fv).
  { apply elem_of_list_filter in Hin as [Hin _]. by apply elem_of_list_filter. }
  rewrite Hu in Hin'. by apply elem_of_nil in Hin'.
Qed.

(** How a request begins. *)
Definition start_spec (tr0 : list (event slot E)) (m : main V E) : Prop :=
  match m with
  | Awaiting slots => (forall k, config !! k = None \/ odefault inputs !! k = None) /\
      (forall x, is_Some (slots !! x) <-> x ∈ fv) /\ (forall x s, slots !! x = Some s -> is_Some (g !! x) /\ slot_spec tr0 x s)
  | MDone (Err (XMissing y)) => absent g all ov y /\
      exists P nd, needed g ov (requested g fv) P /\ g !! P = Some nd /\ (y, REQUIRED) ∈ nd_deps nd
  | MDone (Err (XKey x)) => x ∈ fv /\ ((g !! x = None /\ is_Some (odefault inputs !! x)) \/ absent g all ov x)
  | MDone (Err (XUnknown m)) => tr0 = [] /\ m <> [] /\ forall x, x ∈ m -> x ∈ fv /\ g !! x = None /\ odefault inputs !! x = None
  | MDone (Err XClash) => tr0 = [] /\ exists k, is_Some (config !! k) /\ is_Some (odefault inputs !! k)
  | MDone _ => False
  end.

Lemma linv_start tr0 m : walked tr0 -> (forall x, m <> MDone (Err (XUser x))) -> (forall out, m <> MDone (Ok out)) -> linv tr0 m (Loop (created tr0) m []).
Proof.
  intros Hw Hm1 Hm2. split; cbn [lp_tasks lp_trace lp_main].
  - intros x args st Hx. apply created_spec in Hx as [_ H]. done.
  - intros x Hx. by apply created_dom.
  - intros x args _. apply not_elem_of_nil.
  - intros x args kw Hx. by apply created_spec in Hx as [? _].
  - intros x args kw Hx. by apply created_spec in Hx as [? _].
  - intros x args kw Hx. by apply created_spec in Hx as [? _].
  - by intros x kw ?%elem_of_nil.
  - by intros x kw r ?%elem_of_nil.
  - intros t1 x kw t2 H. by destruct t1.
  - unfold main_ok. cbn. destruct m as [?|[?|[]]]; try done; [by destruct (Hm2 a)|by destruct (Hm1 e)].
Qed.
Lemma walked_nil : walked [].
Proof. intros t1 x args r t2 H. by destruct t1. Qed.

Lemma start_ok_ : exists tr0, walked tr0 /\ start_spec tr0 (lp_main (start g config ord inputs overrides fv)) /\
  linv tr0 (lp_main (start g config ord inputs overrides fv)) (start (E:=E) g config ord inputs overrides fv).
Proof.
  unfold start. pose proof (upstream_ok g Hwf config inputs overrides fv) as Hup. cbn in Hup.
  destruct (get_upstream_nodes g config inputs overrides fv) as [nodes users|missing|] eqn:Hq; [| |done].
  2:{ exists []. split; [apply walked_nil|]. split; [|by apply (linv_start []); [apply walked_nil| |]]. cbn. destruct Hup as [-> Hne].
      split; [done|]. split; [done|]. intros x Hx. apply elem_of_list_filter in Hx as [[Hn Hr] Hx]. split; [done|].
      split; [by apply is_node_false|]. destruct inputs; [|done]. cbn. apply bool_decide_eq_false in Hr. by apply eq_None_not_Some. }
  clear Hup. unfold combine_config_and_inputs. case_bool_decide as Hd.
  2:{ exists []. split; [apply walked_nil|]. split; [|by apply (linv_start []); [apply walked_nil| |]]. split; [done|].
      apply map_not_Forall in Hd as (k & v & Hk & Hne); [|apply _]. exists k. split; [|by eexists]. by apply not_eq_None_Some. }
  assert (Hdisj : forall k, config !! k = None \/ odefault inputs !! k = None).
  { intros k. destruct (odefault inputs !! k) as [v|] eqn:Hk; [left; by eapply (Hd k v)|by right]. }
  pose proof (execute_subdag_ok (V:=slot) (E:=E) do_node_execute g (Pl all) (Pl ov) (ord nodes) Hwf Hacyc) as Hok.
  specialize (Hok ltac:(intros x Hx; apply Hord in Hx; by eapply nodes_needed in Hx as [? _])).
  destruct (execute_subdag do_node_execute g (Pl all) (Pl ov) (ord nodes)) as [s|s [e|y]| |] eqn:Hs; cbn in Hok; [| | |done|done].
  - destruct Hok as (Hi & _ & _ & Hroots). pose proof (inv_good _ _ _ _ _ _ Hi) as Hg.
    pose proof (good_walked _ _ _ Hq Hg) as Hw.
    assert (Hmem : forall x sl, computed s !! x = Some sl -> Store x sl ∈ trace s).
    { intros x sl Hx. by apply (inv_mem _ _ _ _ _ _ Hi) in Hx as [? _]. }
    pose proof (final_slots_spec (computed s) fv ∅) as Hf.
    exists (trace s). split; [done|]. cbn [lp_main]. split.
    + destruct (final_slots (E:=E) (computed s) fv ∅) as [slots|[?|[]]]; try done.
      * destruct Hf as [Hf1 Hf2]. split; [done|]. split.
        -- intros x. split.
           ++ intros [sl Hsl]. apply Hf2 in Hsl as [[? _]|[_ Hsl]]; [done|]. by rewrite lookup_empty in Hsl.
           ++ intros Hx. destruct (Hf1 x Hx) as [sl Hsl]. exists sl. apply Hf2. by left.
        -- intros x sl Hsl. apply Hf2 in Hsl as [[Hx Hsl]|[_ Hsl]]; [|by rewrite lookup_empty in Hsl]. apply Hmem in Hsl.
           split; [|by eapply store_slot].
           destruct (good_elem _ _ _ _ _ _ _ Hg Hsl) as (t1 & t2 & _ & _ & _ & [Hr|(P & _ & He)] & _); [|by eapply wf_closed].
           apply Hord in Hr. by eapply nodes_needed in Hr as [? _].
      * destruct Hf as [Hx Hc]. split; [done|]. destruct (g !! x) as [nd|] eqn:Hgx; [|left; split; [done|]; by eapply found_known].
        right. assert (Hr : x ∈ ord nodes) by (eapply req_roots; eauto).
        destruct (Hroots x Hr) as [[sl Hst]|Ha]; [|by apply absent_pl]. exfalso.
        assert (Hc' : computed s !! x = Some sl).
        { apply (inv_mem _ _ _ _ _ _ Hi). split; [done|]. intros Hdr.
          by destruct (good_elem _ _ _ _ _ _ _ Hg Hdr) as (t1 & t2 & _ & Hr' & _). }
        congruence.
    + apply linv_start; [done| |].
      * intros e He. by rewrite He in Hf.
      * intros out He. by rewrite He in Hf.
  - destruct Hok as (Hg & (t & x & kw & Heq & _) & _). exfalso.
    destruct (Hg t (Call x kw (Err e)) []) as (_ & _ & _ & _ & Hr & _); [done|]. done.
  - destruct Hok as (Hg & (Ha & _ & P & nd & HP & HgP & Hin) & _).
    pose proof (good_walked _ _ _ Hq Hg) as Hw. exists (trace s). split; [done|]. split; [|by apply linv_start].
    cbn. split; [by apply absent_pl|]. exists P, nd. split; [|done]. eapply needed_roots; [done|]. by apply needed_pl.
Qed.

Lemma run_ok cs : exists tr0, walked tr0 /\ start_spec tr0 (lp_main (start g config ord inputs overrides fv)) /\
  linv tr0 (lp_main (start g config ord inputs overrides fv)) (run g config f ord inputs overrides fv cs).
Proof.
  destruct start_ok_ as (tr0 & Hw & Hs & HL). exists tr0. split; [done|]. split; [done|].
  unfold run. revert HL. generalize (lp_main (start (E:=E) g config ord inputs overrides fv)) as m0.
  generalize (start (E:=E) g config ord inputs overrides fv) as L. intros L m0 HL.
  revert L HL. induction cs as [|c cs IH]; intros L HL; [exact HL|]. cbn [foldl]. apply IH. by apply step_inv.
Qed.

(** ** Values *)
Notation evalf := (eval f g all ov).
Lemma given_eval d w : given d w -> evalf d w.
Proof. intros [H|(Ho & nd & Hg & Hext & Hi)]; [by apply eval_override|by eapply eval_input]. Qed.

Lemma calls_app {A B} (t1 t2 : list (event A B)) : calls_of (t1 ++ t2) = calls_of t1 ++ calls_of t2.
Proof. apply omap_app. Qed.
Lemma calls_before t1 t2 u1 u2 d args r : t1 ++ t2 = u1 ++ Call (V:=slot) (E:=E) d args r :: u2 -> d ∈ calls_of t1 -> d ∉ calls_of u1 ->
  length u1 < length t1 /\ exists t, t1 = u1 ++ Call d args r :: t.
Proof.
  intros Heq Hin Hnin. destruct (decide (length t1 <= length u1)) as [Hle|Hle].
  - exfalso. apply Hnin. assert (Hp : u1 = t1 ++ drop (length t1) u1).
    { rewrite <-(take_drop (length t1) u1) at 1. f_equal. apply (f_equal (take (length t1))) in Heq.
      rewrite take_app, take_app_le in Heq by done. done. }
    rewrite Hp, calls_app, elem_of_app. by left.
  - split; [lia|]. assert (Hp : t1 = u1 ++ drop (length u1) t1).
    { rewrite <-(take_drop (length u1) t1) at 1. f_equal. apply (f_equal (take (length u1))) in Heq.
      rewrite take_app, take_app_le in Heq by lia. done. }
    destruct (drop (length u1) t1) as [|ev t] eqn:Hd.
    { apply (f_equal length) in Hp. rewrite app_nil_r in Hp. lia. }
    rewrite Hp in Heq. rewrite <-app_assoc in Heq. apply app_inv_head in Heq. injection Heq as -> _. by exists t.
Qed.

Section Values.
Variable tr0 : list (event slot E).
Variable m0 : main V E.
Variable L : loop V E.
Hypothesis Hw : walked tr0.
Hypothesis HL : linv tr0 m0 L.

Lemma slot_eval n : forall t1 t2 d s v, length t1 <= n -> tr0 = t1 ++ t2 -> slot_spec t1 d s -> slot_value (lp_tasks L) s = Some v -> evalf d v.
Proof.
  induction n as [n IH] using lt_wf_ind. intros t1 t2 d s v Hn Htr Hs Hv.
  destruct Hs as [(w & -> & Hg)|[-> Hd]]; [cbn in Hv; injection Hv as <-; by apply given_eval|].
  apply slot_value_task in Hv as [args Ha]. destruct (li_ok _ _ _ HL _ _ _ Ha) as (kw & [-> Hset] & Hst & Hend).
  destruct (li_ends _ _ _ HL _ _ _ Hend) as [Hf _].
  destruct (li_tasks _ _ _ HL _ _ _ Ha) as (u1 & r & u2 & Hu). pose proof (Hw _ _ _ _ _ Hu) as (Hnin & _ & Ho & nd & Hg & Hext & Hargs & Habs).
  destruct (calls_before t1 t2 u1 u2 d args r) as [Hlt _]; [congruence|done|done|].
  eapply (eval_fn _ _ _ _ d nd (values (lp_tasks L) args) v); try done.
  - intros d' w. rewrite values_lookup. destruct (args !! d') as [s|] eqn:Hs; cbn; [|done]. intros _. by apply (Hargs d' s).
  - intros d' w. rewrite values_lookup. destruct (args !! d') as [s|] eqn:Hs; cbn; [|done]. intros Hv'. destruct (Hargs d' s Hs) as [_ Hsp].
    eapply (IH (length u1) ltac:(lia) u1 _ d' s w); [done|exact Hu|exact Hsp|exact Hv'].
  - intros d' dt Hin. rewrite values_lookup. destruct (args !! d') as [s|] eqn:Hs; cbn; [|intros _; by eapply Habs].
    destruct (Hset d' s Hs) as [w Hw']. congruence.
Qed.

Lemma start_evals x kw d w : AStart x kw ∈ lp_trace L -> kw !! d = Some w -> evalf d w.
Proof.
  intros Hin Hd. destruct (li_st _ _ _ HL _ _ Hin) as (args & st & Ha & [-> Hset]).
  rewrite values_lookup in Hd. destruct (args !! d) as [s|] eqn:Hs; cbn in Hd; [|done].
  destruct (li_tasks _ _ _ HL _ _ _ Ha) as (u1 & r & u2 & Hu). pose proof (Hw _ _ _ _ _ Hu) as (_ & _ & _ & nd & Hg & _ & Hargs & _).
  destruct (Hargs d s Hs) as [_ Hsp]. by eapply slot_eval.
Qed.

Lemma starts_nodup_aux (tr : list (aevent V E)) : (forall t1 x kw t2, tr = t1 ++ AStart x kw :: t2 -> x ∉ starts_of t1) -> NoDup (starts_of tr).
Proof.
  induction tr as [|ev tr IH] using rev_ind; intros H; [constructor|]. rewrite starts_app. apply NoDup_app. split_and!.
  - apply IH. intros t1 x kw t2 ->. apply (H t1 x kw (t2 ++ [ev])). by rewrite <-app_assoc.
  - intros x Hx. destruct ev as [y kw| |]; [|apply not_elem_of_nil|apply not_elem_of_nil]. intros ->%elem_of_list_singleton. by apply (H tr y kw []).
  - destruct ev; [apply NoDup_singleton|constructor|constructor].
Qed.

(** Every finished task has finished arguments. *)
Lemma task_deps x args v d s : lp_tasks L !! x = Some (args, Finished (Ok v)) -> args !! d = Some s -> is_Some (slot_value (lp_tasks L) s).
Proof. intros Hx Hd. destruct (li_ok _ _ _ HL _ _ _ Hx) as (kw & [_ Hset] & _). by eapply Hset. Qed.

Lemma no_failure x kw e : (forall x nd, needed g ov (requested g fv) x -> g !! x = Some nd -> nd_ext nd = false -> exists v, evalf x v) ->
  AEnd x kw (Err e) ∈ lp_trace L -> False.
Proof.
  intros Hcan Hin. destruct (li_ends _ _ _ HL _ _ _ Hin) as [Hf Hst].
  pose proof Hst as Hsp. apply elem_of_list_split in Hsp as (t1 & t2 & Ht).
  destruct (li_starts _ _ _ HL _ _ _ _ Ht) as (_ & Hn & nd & Hg & Hext & Hkw & Habs).
  destruct (Hcan x nd Hn Hg Hext) as [v Hv]. assert (Ho : ov !! x = None) by by inversion Hn.
  inversion Hv as [|? nd' ? Ho' Hg' Hext'|? nd' kw' ? Ho' Hg' Hext' Hdep' Hev' Habs' Hf']; subst; [congruence|congruence|].
  assert (nd' = nd) as -> by congruence.
  assert (kw' = kw) as ->; [|congruence].
  apply (kw_unique f g all ov nd kw' kw); try done.
  - intros d w Hd. by apply (Hkw d w).
  - intros d w Hd. by eapply start_evals.
  - intros d w w' Hd Hw'. by eapply eval_functional; [by apply Hev'|].
Qed.

(** ** Progress *)
Definition weight (st : tstate V E) : nat := match st with Waiting => 2 | Running _ => 1 | Finished _ => 0 end.
Definition measure (L : loop V E) : nat :=
  sum_list_with (fun x => match lp_tasks L !! x with Some (_, st) => weight st | None => 0 end) (calls_of tr0)
  + match lp_main L with Awaiting _ => 1 | MDone _ => 0 end.

Lemma sum_less {A} (h h' : A -> nat) l : (forall y, y ∈ l -> h' y <= h y) -> (exists x, x ∈ l /\ h' x < h x) -> sum_list_with h' l < sum_list_with h l.
Proof.
  intros Hle (x & Hx & Hlt). assert (Hall : forall l', (forall y, y ∈ l' -> h' y <= h y) -> sum_list_with h' l' <= sum_list_with h l').
  { clear. induction l' as [|y l' IH]; intros H; [done|]. cbn. specialize (H y ltac:(left)) as H1. specialize (IH ltac:(intros; apply H; by right)). lia. }
  induction Hx as [x l|x y l Hx IH]; cbn.
  - pose proof (Hall l ltac:(intros; apply Hle; by right)). lia.
  - specialize (IH ltac:(intros; apply Hle; by right) Hlt). specialize (Hle y ltac:(left)). lia.
Qed.

Lemma measure_task L' x args st st' m tr : linv tr0 m0 L' -> lp_tasks L' !! x = Some (args, st) -> weight st' < weight st -> m = lp_main L' ->
  measure (Loop (<[x := (args, st')]> (lp_tasks L')) m tr) < measure L'.
Proof.
  intros HL' Hx Hlt ->. unfold measure. cbn [lp_tasks lp_main]. apply Nat.add_lt_mono_r. apply sum_less.
  - intros y _. destruct (decide (y = x)) as [-> |Hne]; [rewrite lookup_insert, Hx; lia|]. by rewrite lookup_insert_ne.
  - exists x. split.
    + destruct (li_tasks _ _ _ HL' _ _ _ Hx) as (u1 & r & u2 & ->). eapply elem_calls_of. rewrite elem_of_app. right. left.
    + by rewrite lookup_insert, Hx.
Qed.

Lemma step_cases L' c : linv tr0 m0 L' -> stepf L' c = L' \/ measure (stepf L' c) < measure L'.
Proof.
  intros HL'. destruct c as [x d|d]; cbn.
  - destruct (lp_tasks L' !! x) as [[args [|kw|r]]|] eqn:Hx; [| |by left|by left].
    + destruct (all_there (lp_tasks L') args); [right; eapply measure_task; [done|done|cbn; lia|done]|].
      destruct (args !! d) as [s|]; [|by left]. destruct (slot_error _ s); [|by left].
      right. eapply measure_task; [done|done|cbn; lia|done].
    + right. eapply measure_task; [done|done|cbn; lia|done].
  - destruct (lp_main L') as [slots|r] eqn:Hm; [|by left].
    destruct (all_there (lp_tasks L') slots); [right; unfold measure; rewrite Hm; cbn; lia|].
    destruct (slots !! d) as [s|]; [|by left]. destruct (slot_error _ s); [|by left]. right. unfold measure; rewrite Hm; cbn; lia.
Qed.

Definition can_move L' : Prop := exists c, measure (stepf L' c) < measure L'.

(** Awaited things that are all finished let the one who awaits go on. *)
Lemma await_cases (tasks : tmap) (args : gmap name slot) :
  (forall d s, args !! d = Some s -> (exists v, slot_value tasks s = Some v) \/ exists e, slot_error tasks s = Some e) ->
  all_there tasks args = true \/ exists d s e, args !! d = Some s /\ slot_error tasks s = Some e.
Proof.
  intros H. destruct (all_there tasks args) eqn:Hall; [by left|right].
  assert (Hn : ~ forall d s, args !! d = Some s -> is_Some (slot_value tasks s)) by (rewrite <-all_there_spec; congruence).
  assert (Hd : ~ map_Forall (fun _ s => is_Some (slot_value tasks s)) args) by (intros Hd; apply Hn; exact Hd).
  apply map_not_Forall in Hd as (d & s & Hd & Hns); [|apply _]. exists d, s.
  destruct (H d s Hd) as [[v Hv]|[e He]]; [by destruct Hns; exists v|by exists e].
Qed.
Lemma finished_slot (tasks : tmap) t d s : (forall x, x ∈ calls_of t -> exists a r, tasks !! x = Some (a, Finished r)) -> slot_spec t d s ->
  (exists v, slot_value tasks s = Some v) \/ exists e, slot_error tasks s = Some e.
Proof.
  intros Hf [(w & -> & _)|[-> Hd]]; [left; by exists w|]. destruct (Hf d Hd) as (a & [v|e] & Ha); cbn; rewrite Ha; eauto.
Qed.

Lemma tasks_move L' t1 t2 : linv tr0 m0 L' -> tr0 = t1 ++ t2 ->
  (forall x, x ∈ calls_of t1 -> exists a r, lp_tasks L' !! x = Some (a, Finished r)) \/ can_move L'.
Proof.
  intros HL'. revert t2. induction t1 as [|ev t1 IH] using rev_ind; intros t2 Htr; [left; by intros ? ?%elem_of_nil|].
  destruct (IH (ev :: t2)) as [Hf|Hc]; [by rewrite <-app_assoc in Htr| |by right].
  destruct ev as [x args0 r0|x v|x].
  2:{ left. intros y. rewrite calls_app, elem_of_app. intros [H|H]; [by apply Hf|by apply elem_of_nil in H]. }
  2:{ left. intros y. rewrite calls_app, elem_of_app. intros [H|H]; [by apply Hf|by apply elem_of_nil in H]. }
  assert (Hin : x ∈ calls_of (t1 ++ [Call x args0 r0])) by (rewrite calls_app, elem_of_app; right; left).
  destruct (li_dom _ _ _ HL' x) as [[args st] Hx]; [rewrite Htr, calls_app, elem_of_app; by left|].
  destruct (li_tasks _ _ _ HL' _ _ _ Hx) as (u1 & r & u2 & Hu). pose proof (Hw _ _ _ _ _ Hu) as (Hnin & _ & _ & nd & _ & _ & Hargs & _).
  destruct (calls_before (t1 ++ [Call x args0 r0]) t2 u1 u2 x args r) as [Hlt [t Ht]]; [congruence|done|done|].
  assert (Hpre : forall y, y ∈ calls_of u1 -> y ∈ calls_of t1).
  { symmetry in Ht. intros y Hy. symmetry in Ht. apply snoc_split in Ht as [(t' & _ & ->)|(_ & _ & ->)]; [|done]. rewrite calls_app, elem_of_app. by left. }
  assert (Hall : forall d s, args !! d = Some s -> (exists v, slot_value (lp_tasks L') s = Some v) \/ exists e, slot_error (lp_tasks L') s = Some e).
  { intros d s Hd. destruct (Hargs d s Hd) as [_ Hs]. eapply (finished_slot _ u1); [|done]. intros y Hy. by apply Hf, Hpre. }
  destruct st as [|kw|res].
  - right. destruct (await_cases _ _ Hall) as [Hthere|(d & s & e & Hd & He)].
    + exists (CTask x x). cbn. rewrite Hx, Hthere. eapply measure_task; [done|done|cbn; lia|done].
    + exists (CTask x d). cbn. rewrite Hx. destruct (all_there (lp_tasks L') args).
      * eapply measure_task; [done|done|cbn; lia|done].
      * rewrite Hd, He. eapply measure_task; [done|done|cbn; lia|done].
  - right. exists (CTask x x). cbn. rewrite Hx. eapply measure_task; [done|done|cbn; lia|done].
  - left. intros y. rewrite calls_app, elem_of_app. intros [H|H]; [by apply Hf|]. apply elem_of_list_singleton in H as ->. eauto.
Qed.

Lemma main_moves L' slots : start_spec tr0 m0 -> linv tr0 m0 L' -> lp_main L' = Awaiting slots -> can_move L'.
Proof.
  intros Hsp HL' Hm. destruct (tasks_move L' tr0 [] HL') as [Hf|Hc]; [by rewrite app_nil_r| |done].
  pose proof (li_main _ _ _ HL') as Hmain. unfold main_ok in Hmain. rewrite Hm in Hmain. rewrite Hmain in Hsp.
  destruct Hsp as (_ & _ & Hsl).
  assert (Hall : forall d s, slots !! d = Some s -> (exists v, slot_value (lp_tasks L') s = Some v) \/ exists e, slot_error (lp_tasks L') s = Some e).
  { intros d s Hd. destruct (Hsl d s Hd) as [_ Hs]. by eapply finished_slot. }
  destruct (await_cases _ _ Hall) as [Hthere|(d & s & e & Hd & He)].
  - exists (CMain ""). cbn. rewrite Hm, Hthere. unfold measure. rewrite Hm. cbn. lia.
  - exists (CMain d). cbn. rewrite Hm. destruct (all_there (lp_tasks L') slots).
    + unfold measure. rewrite Hm. cbn. lia.
    + rewrite Hd, He. unfold measure. rewrite Hm. cbn. lia.
Qed.

(** A loop that never ignores anything for ever finishes the request. *)
Lemma fair_done (sched : nat -> choice) (Lf : nat -> loop V E) : start_spec tr0 m0 ->
  linv tr0 m0 (Lf 0) -> (forall n, Lf (S n) = stepf (Lf n) (sched n)) -> (forall c n, exists m, n <= m /\ sched m = c) ->
  exists n r, lp_main (Lf n) = MDone r.
Proof.
  intros Hsp H0 Hstep Hfair.
  assert (Hinv : forall n, linv tr0 m0 (Lf n)) by (induction n; [done|]; rewrite Hstep; by apply step_inv).
  assert (H : forall k n, measure (Lf n) <= k -> exists n r, lp_main (Lf n) = MDone r).
  2:{ by apply (H (measure (Lf 0)) 0). }
  induction k as [k IH] using lt_wf_ind. intros n Hk.
  destruct (lp_main (Lf n)) as [slots|r] eqn:Hm; [|by exists n, r].
  destruct (main_moves (Lf n) slots Hsp (Hinv n) Hm) as [c Hc]. destruct (Hfair c n) as (m & Hnm & Hs).
  assert (Hex : exists j, measure (Lf j) < measure (Lf n)).
  { assert (Hsame : forall i, n + i <= m -> (exists j, measure (Lf j) < measure (Lf n)) \/ Lf (n + i) = Lf n).
    { induction i as [|i IHi]; intros Hi; [right; by rewrite Nat.add_0_r|]. destruct IHi as [?|Heq]; [lia|by left|].
      rewrite Nat.add_succ_r. destruct (step_cases (Lf (n + i)) (sched (n + i)) (Hinv _)) as [He|He].
      - right. by rewrite Hstep, He.
      - left. exists (S (n + i)). rewrite Hstep. by rewrite Heq in He at 2. }
    destruct (Hsame (m - n)) as [?|Heq]; [lia|done|]. replace (n + (m - n)) with m in Heq by lia.
    exists (S m). by rewrite Hstep, Hs, Heq. }
  destruct Hex as [j Hj]. apply (IH (measure (Lf j))) with (n := j); lia.
Qed.

(** ** On success everything needed has run *)
Lemma all_run out : start_spec tr0 m0 -> lp_main L = MDone (Ok out) -> forall x, needed g ov (requested g fv) x -> forall nd, g !! x = Some nd -> nd_ext nd = false ->
  exists args v, lp_tasks L !! x = Some (args, Finished (Ok v)).
Proof.
  intros Hsp Hm. pose proof (li_main _ _ _ HL) as Hmain. unfold main_ok in Hmain. rewrite Hm in Hmain. destruct Hmain as (slots & Heq & Hset).
  rewrite Heq in Hsp. destruct Hsp as (_ & Hfv & Hsl). destruct Hset as [_ Hset].
  assert (Hfn : forall t d s nd, slot_spec t d s -> ov !! d = None -> g !! d = Some nd -> nd_ext nd = false -> s = Task d).
  { intros t d s nd [(w & -> & [?|(_ & nd' & ? & ? & _)])|[-> _]] Ho Hg Hext; [congruence|congruence|done]. }
  induction 1 as [x Hx Ho|x d Hx IH He Ho]; intros nd Hg Hext.
  - apply requested_elem in Hx as [Hx _]. apply Hfv in Hx as [s Hs]. destruct (Hsl x s Hs) as [_ Hspec].
    assert (s = Task x) as -> by by eapply Hfn. destruct (Hset x (Task x) Hs) as [v Hv]. apply slot_value_task in Hv as [args Ha]. by exists args, v.
  - destruct He as (ndx & Hgx & Hd). assert (Hextx : nd_ext ndx = false).
    { destruct (nd_ext ndx) eqn:Hxx; [|done]. apply (wf_ext _ Hwf _ _ Hgx) in Hxx. unfold dep_names in Hd. rewrite Hxx in Hd. by apply elem_of_nil in Hd. }
    destruct (IH ndx Hgx Hextx) as (args & v & Ha). destruct (li_tasks _ _ _ HL _ _ _ Ha) as (u1 & r & u2 & Hu).
    pose proof (Hw _ _ _ _ _ Hu) as (_ & _ & _ & nd' & Hg' & _ & Hargs & Habs). assert (nd' = ndx) as -> by congruence.
    apply elem_of_list_fmap in Hd as ([d' dt] & -> & Hin). cbn in *.
    destruct (args !! d') as [s|] eqn:Hs.
    + destruct (Hargs d' s Hs) as [_ Hspec]. assert (s = Task d') as -> by by eapply Hfn.
      destruct (task_deps _ _ _ _ _ Ha Hs) as [w Hw']. apply slot_value_task in Hw' as [a' Ha']. by exists a', w.
    + destruct (Habs d' dt Hin Hs) as [(_ & _ & nd'' & ? & ?) _]. congruence.
Qed.
End Values.
End Proofs.
