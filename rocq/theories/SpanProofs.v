(** Proofs about the tracers. *)
From Verif Require Import Base SpanModel SpanSpec.

Section Otel.
Context {E : Type}.
Variable true_ : E -> bool.
Notation span := (span E).
Notation act := (act E).

Definition stat (exc : option E) : status E := match exc with Some e => if true_ e then SError e else SOk | None => SOk end.

(** The stack that the open spans [own] (the innermost first) make, on top of [inh]. *)
Fixpoint stack_of (c : nat) (base : option nat) (own : list nat) : list ((nat * option nat) * nat) :=
  match own with
  | [] => []
  | i :: own' => stack_of c base own' ++ [((c, match own' with [] => base | j :: _ => Some j end), i)]
  end.
Definition curof (base : option nat) (own : list nat) : option nat := match own with [] => base | i :: _ => Some i end.
Lemma stack_of_length c b own : length (stack_of c b own) = length own.
Proof. induction own as [|i own IH]; cbn; [done|]. rewrite app_length, IH. cbn. lia. Qed.

Definition pathof (paths : list (list name)) (o : option nat) : list name :=
  match o with None => [] | Some i => default [] (paths !! i) end.

(** What is still to come from a thread. *)
Fixpoint pend (paths : list (list name)) (base : option nat) (own : list nat) (k : list item) : list (list name * list (status E)) :=
  match k with
  | [] => []
  | Do a :: k => map (fun w => (w.1, [stat w.2])) (expected (pathof paths (curof base own)) a) ++ pend paths base own k
  | Leave exc :: k => match own with
                      | [] => []
                      | i :: own' => (pathof paths (Some i), [stat exc]) :: pend paths base own' k
                      end
  end.
Fixpoint leaves (k : list (@item E)) : nat := match k with [] => 0 | Do _ :: k => leaves k | Leave _ :: k => S (leaves k) end.

Record tinfo := TI { ti_base : option nat; ti_own : list nat }.

Definition closed (paths : list (list name)) (sps : list span) : list (list name * list (status E)) :=
  filter (fun pe => pe.2 <> []) (zip paths (map sp_ends sps)).


Lemma pathof_app paths p o : (forall i, o = Some i -> i < length paths) -> pathof (paths ++ [p]) o = pathof paths o.
Proof. intros H. destruct o as [i|]; [|done]. cbn. rewrite lookup_app_l; [done|by apply H]. Qed.
Lemma pend_paths paths p b own k : (forall i, b = Some i -> i < length paths) -> (forall i, i ∈ own -> i < length paths) -> pend (paths ++ [p]) b own k = pend paths b own k.
Proof.
  intros Hb. revert own. induction k as [|[a|exc] k IH]; intros own Ho; [done| |]; cbn [pend].
  - rewrite IH by done. rewrite pathof_app; [done|]. intros i. destruct own as [|j own]; cbn; [apply Hb|]. intros [= ->]. apply Ho. left.
  - destruct own as [|i own]; [done|]. rewrite IH by (intros j Hj; apply Ho; by right). rewrite pathof_app; [done|]. intros j [= <-]. apply Ho. left.
Qed.
Lemma pend_body paths b own body k : pend paths b own (map Do body ++ k) =
  map (fun w => (w.1, [stat w.2])) (concat (map (expected (pathof paths (curof b own))) body)) ++ pend paths b own k.
Proof. induction body as [|a body IH]; [done|]. cbn [map app pend concat]. rewrite IH, map_app. by rewrite (assoc_L (++)). Qed.
Lemma leaves_body body k : leaves (map Do body ++ k) = leaves k.
Proof. by induction body. Qed.

Lemma zip_app_one {A B} (l : list A) (k : list B) a b : length l = length k -> zip (l ++ [a]) (k ++ [b]) = zip l k ++ [(a, b)].
Proof. intros H. by rewrite zip_with_app. Qed.
Lemma closed_open paths sps p x par : length paths = length sps -> closed (paths ++ [p]) (sps ++ [Span x par []]) = closed paths sps.
Proof.
  intros H. unfold closed. rewrite map_app. cbn [map sp_ends]. rewrite zip_app_one by (by rewrite map_length). rewrite filter_app.
  rewrite filter_cons_False; [|cbn; tauto]. by rewrite filter_nil, app_nil_r.
Qed.
Definition ended (st : status E) (sp : span) : span := Span (sp_name sp) (sp_parent sp) (sp_ends sp ++ [st]).
Lemma closed_end paths sps i s st : length paths = length sps -> sps !! i = Some s -> sp_ends s = [] ->
  closed paths (alter (ended st) i sps) ≡ₚ (pathof paths (Some i), [st]) :: closed paths sps.
Proof.
  revert sps i. induction paths as [|p paths IH]; intros sps i Hl Hi Hs; [by destruct sps|]. destruct sps as [|s0 sps]; [done|]. unfold closed.
  destruct i as [|i].
  - cbn in Hi. injection Hi as ->. cbn [alter list_alter map zip zip_with]. cbn [ended sp_ends]. rewrite Hs. cbn [app].
    rewrite filter_cons_True by done. rewrite filter_cons_False by (cbn; tauto). done.
  - cbn in Hi. cbn [alter list_alter map zip zip_with]. injection Hl as Hl. specialize (IH sps i Hl Hi Hs). unfold closed in IH.
    rewrite !filter_cons. cbn [pathof lookup list_lookup] in *. destruct (decide _) as [?|?].
    + rewrite Permutation_swap. by f_equiv.
    + done.
Qed.

Definition ext (sps sps' : list span) : Prop := forall i s, sps !! i = Some s -> exists s', sps' !! i = Some s' /\ sp_name s' = sp_name s /\ sp_parent s' = sp_parent s.
Lemma trail_ext sps sps' i p : ext sps sps' -> trail sps i p -> trail sps' i p.
Proof.
  intros H. induction 1 as [i s Hi Hp|i s j p Hi Hp Ht IH].
  - destruct (H _ _ Hi) as (s' & Hi' & Hn & Hp'). rewrite <- Hn. apply T_root; [done|]. by rewrite Hp'.
  - destruct (H _ _ Hi) as (s' & Hi' & Hn & Hp'). rewrite <- Hn. eapply T_child; [done| |done]. by rewrite Hp'.
Qed.
Lemma ext_app sps l : ext sps (sps ++ l).
Proof. intros i s H. exists s. split; [|done]. by apply lookup_app_l_Some. Qed.
Lemma ext_end sps i st : ext sps (alter (ended st) i sps).
Proof.
  intros j s H. destruct (decide (i = j)) as [<-|Hne].
  - exists (ended st s). by rewrite list_lookup_alter, H.
  - exists s. by rewrite list_lookup_alter_ne.
Qed.

Lemma ctx_of_eq (sps : list span) m c v : ctx_of (TS sps (<[c := v]> m)) c = v.
Proof. unfold ctx_of. cbn. by rewrite lookup_insert. Qed.
Lemma ctx_of_ne (st : tstate E) (sps : list span) c c' v : c <> c' -> ctx_of (TS sps (<[c := v]> (t_ctxs st))) c' = ctx_of st c'.
Proof. intros H. unfold ctx_of. cbn. by rewrite lookup_insert_ne. Qed.

Definition tok (st : tstate E) (n : nat) (t : nat * list item) (ti : tinfo) : Prop :=
  leaves t.2 = length (ti_own ti) /\
  (forall i, ti_base ti = Some i -> i < n) /\
  c_cur (ctx_of st t.1) = curof (ti_base ti) (ti_own ti) /\
  exists inh, default [] (c_stack (ctx_of st t.1)) = inh ++ stack_of t.1 (ti_base ti) (ti_own ti).
Lemma tok_ne st st' n n' t ti : tok st n t ti -> n <= n' -> ctx_of st' t.1 = ctx_of st t.1 -> tok st' n' t ti.
Proof. intros (H1 & H2 & H3 & H4) Hn Hc. repeat split; [done| | |]; [intros i Hi; specialize (H2 i Hi); lia| |]; by rewrite Hc. Qed.
Lemma toks_ne st st' n n' ts infos : Forall2 (tok st n) ts infos -> n <= n' -> (forall t, t ∈ ts -> ctx_of st' t.1 = ctx_of st t.1) -> Forall2 (tok st' n') ts infos.
Proof.
  induction 1 as [|t ti ts infos Ht _ IH]; intros Hn Hc; constructor; [apply (tok_ne st st' n n'); [done|done|apply Hc; left]|]. apply IH; [done|]. intros t' Ht'. apply Hc. by right.
Qed.
Definition pends (paths : list (list name)) (ts : threads E) (infos : list tinfo) := concat (zip_with (fun t ti => pend paths (ti_base ti) (ti_own ti) t.2) ts infos).
Lemma pends_app paths ts1 i1 ts2 i2 : length ts1 = length i1 -> pends paths (ts1 ++ ts2) (i1 ++ i2) = pends paths ts1 i1 ++ pends paths ts2 i2.
Proof. intros H. unfold pends. by rewrite zip_with_app, concat_app. Qed.
Lemma pends_paths st n paths p ts infos : Forall2 (tok st n) ts infos -> n = length paths -> (forall i, i ∈ concat (map ti_own infos) -> i < length paths) ->
  pends (paths ++ [p]) ts infos = pends paths ts infos.
Proof.
  intros H ->. induction H as [|t ti ts infos Ht _ IH]; intros Ho; [done|]. unfold pends in *. cbn [zip_with concat]. rewrite IH.
  - rewrite pend_paths; [done|apply Ht|]. intros i Hi. apply Ho. cbn. apply elem_of_app. by left.
  - intros i Hi. apply Ho. cbn. apply elem_of_app. by right.
Qed.

Record good (want : list (list name * option E)) (ts : threads E) (st : tstate E) (paths : list (list name)) (infos : list tinfo) : Prop := Good {
  g_len : length paths = length (t_spans st);
  g_trail : forall i p, paths !! i = Some p -> trail (t_spans st) i p;
  g_nodup : NoDup (map fst ts);
  g_toks : Forall2 (tok st (length paths)) ts infos;
  g_fresh : forall c, c ∉ map fst ts -> t_ctxs st !! c = None;
  g_own : NoDup (concat (map ti_own infos));
  g_open : forall i, i ∈ concat (map ti_own infos) <-> exists s, t_spans st !! i = Some s /\ sp_ends s = [];
  g_pend : closed paths (t_spans st) ++ pends paths ts infos ≡ₚ map (fun w => (w.1, [stat w.2])) want }.

Lemma own_lt want ts st paths infos i : good want ts st paths infos -> i ∈ concat (map ti_own infos) -> i < length paths.
Proof. intros G H. apply (g_open _ _ _ _ _ G) in H as (s & Hs & _). rewrite (g_len _ _ _ _ _ G). by eapply lookup_lt_Some. Qed.

Lemma good_enter want ts1 c x exc body k ts2 st paths infos :
  good want (ts1 ++ (c, Do (Within x exc body) :: k) :: ts2) st paths infos ->
  exists paths' infos', good want (ts1 ++ (c, map Do body ++ Leave exc :: k) :: ts2) (enter_span c x st) paths' infos'.
Proof.
  intros G. pose proof (fun i => own_lt _ _ _ _ _ i G) as Hlt. destruct G as [Hlen Htr Hnd Htk Hfr Hown Hopen Hpend].
  destruct (proj1 (Forall2_app_inv_l _ _ _ _) Htk) as (i1 & i2' & Ht1 & Ht2' & ->). apply Forall2_cons_inv_l in Ht2' as ([base own] & i2 & Ht & Ht2 & ->).
  destruct Ht as (Hlv & Hb & Hcur & inh & Hst). cbn [fst snd ti_base ti_own leaves] in *.
  set (id := length (t_spans st)). set (p := pathof paths (curof base own) ++ [x]).
  assert (Hcl : forall i, curof base own = Some i -> i < length paths).
  { intros i. destruct own as [|j own]; cbn; [apply Hb|]. intros [= ->]. apply Hlt. rewrite map_app, concat_app. cbn. apply elem_of_app. right. left. }
  assert (Hnd' := Hnd). rewrite map_app in Hnd'. cbn [map fst] in Hnd'. apply NoDup_app in Hnd' as (_ & Hd1 & Hnd2). apply NoDup_cons in Hnd2 as [Hc2 _].
  assert (Hne1 : forall t, t ∈ ts1 -> c <> t.1).
  { intros t Hin ->. apply (Hd1 t.1); [|left]. apply elem_of_list_fmap. by exists t. }
  assert (Hne2 : forall t, t ∈ ts2 -> c <> t.1).
  { intros t Hin ->. apply Hc2. apply elem_of_list_fmap. by exists t. }
  exists (paths ++ [p]), (i1 ++ TI base (id :: own) :: i2).
  assert (Hfresh : id ∉ concat (map ti_own (i1 ++ TI base own :: i2))).
  { intros H. apply Hlt in H. unfold id in H. lia. }
  assert (Hperm : concat (map ti_own (i1 ++ TI base (id :: own) :: i2)) ≡ₚ id :: concat (map ti_own (i1 ++ TI base own :: i2))).
  { rewrite !map_app, !concat_app. cbn. by rewrite <- Permutation_middle. }
  constructor.
  - cbn. rewrite !app_length. cbn. lia.
  - cbn [enter_span t_spans]. intros i q Hi. destruct (decide (i < length paths)) as [Hlt'|Hge].
    + rewrite lookup_app_l in Hi by done. eapply trail_ext; [apply ext_app|]. by apply Htr.
    + assert (i = length paths) as ->. { apply lookup_lt_Some in Hi. rewrite app_length in Hi. cbn in Hi. lia. }
      rewrite lookup_app_r, Nat.sub_diag in Hi by done. injection Hi as <-. unfold p. rewrite Hcur.
      assert (Hl : (t_spans st ++ [Span x (curof base own) []]) !! length paths = Some (Span x (curof base own) [])).
      { rewrite lookup_app_r by lia. by rewrite Hlen, Nat.sub_diag. }
      destruct (curof base own) as [j|] eqn:Ej.
      * specialize (Hcl j eq_refl). apply lookup_lt_is_Some in Hcl as [q Hq]. cbn [pathof]. rewrite Hq. cbn [default].
        refine (T_child _ _ _ j q Hl eq_refl _). eapply trail_ext; [apply ext_app|]. by apply Htr.
      * exact (T_root _ _ _ Hl eq_refl).
  - rewrite map_app in *. exact Hnd.
  - rewrite app_length. apply Forall2_app; [|constructor].
    + eapply toks_ne; [exact Ht1|lia|]. intros t Hin. unfold enter_span. apply ctx_of_ne. by apply Hne1.
    + split; [|split; [|split]]; cbn [fst snd ti_base ti_own].
      * rewrite leaves_body. cbn. by rewrite Hlv.
      * intros i Hi. specialize (Hb i Hi). lia.
      * unfold enter_span. by rewrite ctx_of_eq.
      * exists inh. unfold enter_span. rewrite ctx_of_eq. cbn [c_stack]. rewrite Hst, Hcur. cbn [default stack_of]. rewrite (assoc_L (++)). by destruct own.
    + eapply toks_ne; [exact Ht2|lia|]. intros t Hin. unfold enter_span. apply ctx_of_ne. by apply Hne2.
  - intros c' Hc'. cbn. rewrite lookup_insert_ne; [apply Hfr; rewrite map_app in *; exact Hc'|]. intros ->. apply Hc'. rewrite map_app. apply elem_of_app. right. left.
  - rewrite Hperm. by apply NoDup_cons.
  - intros i. rewrite Hperm, elem_of_cons, Hopen. cbn [enter_span t_spans]. split.
    + intros [-> |(s & Hs & He)].
      * eexists. split; [by rewrite lookup_app_r, Nat.sub_diag|done].
      * exists s. split; [by apply lookup_app_l_Some|done].
    + intros (s & Hs & He). apply lookup_app_Some in Hs as [Hs|[Hge Hs]]; [right; by exists s|]. left. apply list_lookup_singleton_Some in Hs as [Hz _]. unfold id. lia.
  - cbn [enter_span t_spans]. rewrite closed_open by done. rewrite <- Hpend. f_equiv.
    assert (Hl1 : length ts1 = length i1) by by eapply Forall2_length.
    rewrite !pends_app by done. erewrite pends_paths; [|exact Ht1|done|]; [|intros i Hi; apply Hlt; rewrite map_app, concat_app; apply elem_of_app; by left].
    f_equiv. unfold pends. cbn [zip_with concat ti_base ti_own snd]. fold (pends (paths ++ [p]) ts2 i2). fold (pends paths ts2 i2).
    erewrite pends_paths; [|exact Ht2|done|]; [|intros i Hi; apply Hlt; rewrite map_app, concat_app; apply elem_of_app; right; cbn; apply elem_of_app; by right].
    f_equiv. rewrite pend_body. cbn [curof pend].
    assert (Hp : pathof (paths ++ [p]) (Some id) = p). { cbn. rewrite lookup_app_r by (unfold id; lia). unfold id. by rewrite Hlen, Nat.sub_diag. }
    rewrite Hp. rewrite pend_paths; [|done|]; [|intros i Hi; apply Hlt; rewrite map_app, concat_app; apply elem_of_app; right; cbn; apply elem_of_app; by left].
    cbn [expected map]. fold p. rewrite <- Permutation_middle. done.
Qed.

Lemma stack_snoc c base i own : stack_of c base (i :: own) = stack_of c base own ++ [((c, curof base own), i)].
Proof. by destruct own. Qed.

Lemma good_leave want ts1 c exc k ts2 st paths infos :
  good want (ts1 ++ (c, Leave exc :: k) :: ts2) st paths infos ->
  exists st' paths' infos', exit_span true_ c exc st = Ok st' /\ good want (ts1 ++ (c, k) :: ts2) st' paths' infos'.
Proof.
  intros G. pose proof (fun i => own_lt _ _ _ _ _ i G) as Hlt. destruct G as [Hlen Htr Hnd Htk Hfr Hown Hopen Hpend].
  destruct (proj1 (Forall2_app_inv_l _ _ _ _) Htk) as (i1 & i2' & Ht1 & Ht2' & ->). apply Forall2_cons_inv_l in Ht2' as ([base own] & i2 & Ht & Ht2 & ->).
  destruct Ht as (Hlv & Hb & Hcur & inh & Hst). cbn [fst snd ti_base ti_own leaves] in *.
  destruct own as [|i own]; [done|]. injection Hlv as Hlv. rewrite stack_snoc in Hst.
  assert (Hnd' := Hnd). rewrite map_app in Hnd'. cbn [map fst] in Hnd'. apply NoDup_app in Hnd' as (_ & Hd1 & Hnd2). apply NoDup_cons in Hnd2 as [Hc2 _].
  assert (Hne1 : forall t, t ∈ ts1 -> c <> t.1).
  { intros t Hin ->. apply (Hd1 t.1); [|left]. apply elem_of_list_fmap. by exists t. }
  assert (Hne2 : forall t, t ∈ ts2 -> c <> t.1).
  { intros t Hin ->. apply Hc2. apply elem_of_list_fmap. by exists t. }
  assert (Hperm : concat (map ti_own (i1 ++ TI base (i :: own) :: i2)) ≡ₚ i :: concat (map ti_own (i1 ++ TI base own :: i2))).
  { rewrite !map_app, !concat_app. cbn. by rewrite <- Permutation_middle. }
  destruct (proj1 (Hopen i)) as (s & Hs & He). { rewrite Hperm. left. }
  unfold exit_span. destruct (c_stack (ctx_of st c)) as [stack|] eqn:Ek; [|cbn in Hst; by destruct inh, (stack_of c base own)]. simpl in Hst. subst stack.
  rewrite (assoc_L (++)), last_snoc. rewrite decide_True by done.
  eexists _, paths, (i1 ++ TI base own :: i2). split; [done|].
  fold (stat exc). change (fun sp : span => Span (sp_name sp) (sp_parent sp) (sp_ends sp ++ [stat exc])) with (ended (stat exc)).
  constructor.
  - cbn. by rewrite alter_length.
  - cbn [t_spans]. intros j q Hj. eapply trail_ext; [apply ext_end|]. by apply Htr.
  - rewrite map_app in *. exact Hnd.
  - apply Forall2_app; [|constructor].
    + eapply toks_ne; [exact Ht1|lia|]. intros t Hin. apply ctx_of_ne. by apply Hne1.
    + split; [|split; [|split]]; cbn [fst snd ti_base ti_own]; [done|done|by rewrite ctx_of_eq|].
      exists inh. rewrite ctx_of_eq. simpl. rewrite app_length. cbn [length]. rewrite Nat.add_sub. by rewrite take_app.
    + eapply toks_ne; [exact Ht2|lia|]. intros t Hin. apply ctx_of_ne. by apply Hne2.
  - intros c' Hc'. cbn. rewrite lookup_insert_ne; [apply Hfr; rewrite map_app in *; exact Hc'|]. intros ->. apply Hc'. rewrite map_app. apply elem_of_app. right. left.
  - rewrite Hperm in Hown. by apply NoDup_cons in Hown as [_ ?].
  - rewrite Hperm in Hown. apply NoDup_cons in Hown as [Hni _]. intros j. cbn [t_spans]. destruct (decide (i = j)) as [<-|Hne].
    + split; [done|]. intros (s' & Hs' & He'). rewrite list_lookup_alter, Hs in Hs'. injection Hs' as <-. cbn in He'. by destruct (sp_ends s).
    + rewrite list_lookup_alter_ne by done. rewrite <- Hopen, Hperm, elem_of_cons. split; [by right|]. by intros [->|?].
  - cbn [t_spans]. rewrite closed_end by done. rewrite <- Hpend.
    assert (Hl1 : length ts1 = length i1) by by eapply Forall2_length.
    rewrite !pends_app by done. unfold pends. cbn [zip_with concat ti_base ti_own snd pend]. rewrite !(assoc_L (++)), <- !Permutation_middle. cbn. by rewrite <- !(assoc_L (++)).
Qed.

Lemma good_spawn want ts1 c c' body k ts2 st paths infos (fork : bool) :
  c' ∉ map fst (ts1 ++ (c, k) :: ts2) ->
  good want (ts1 ++ (c, Do (if fork then Spawn body else Thread body) :: k) :: ts2) st paths infos ->
  exists paths' infos', good want (ts1 ++ (c, k) :: ts2 ++ [(c', map Do body)]) (if fork then TS (t_spans st) (<[c' := ctx_of st c]> (t_ctxs st)) else st) paths' infos'.
Proof.
  intros Hc' G. pose proof (fun i => own_lt _ _ _ _ _ i G) as Hlt. destruct G as [Hlen Htr Hnd Htk Hfr Hown Hopen Hpend].
  destruct (proj1 (Forall2_app_inv_l _ _ _ _) Htk) as (i1 & i2' & Ht1 & Ht2' & ->). apply Forall2_cons_inv_l in Ht2' as ([base own] & i2 & Ht & Ht2 & ->).
  assert (Hcl : forall i, curof base own = Some i -> i < length paths).
  { intros i. destruct Ht as (_ & Hb & _). destruct own as [|j own]; cbn; [apply Hb|]. intros [= ->]. apply Hlt. rewrite map_app, concat_app. cbn. apply elem_of_app. right. left. }
  assert (Hnew : t_ctxs st !! c' = None). { apply Hfr. rewrite map_app in *. exact Hc'. }
  assert (Hall : forall t, t ∈ ts1 ++ (c, k) :: ts2 -> c' <> t.1). { intros t Hin ->. apply Hc'. apply elem_of_list_fmap. by exists t. }
  set (st' := if fork then TS (t_spans st) (<[c' := ctx_of st c]> (t_ctxs st)) else st).
  assert (Hsp : t_spans st' = t_spans st) by by destruct fork.
  assert (Hctx : forall t, c' <> t -> ctx_of st' t = ctx_of st t). { intros t Hne. unfold st'. destruct fork; [|done]. by apply ctx_of_ne. }
  exists paths, (i1 ++ TI base own :: i2 ++ [TI (if fork then curof base own else None) []]).
  assert (Hconc : concat (map ti_own (i1 ++ TI base own :: i2 ++ [TI (if fork then curof base own else None) []])) = concat (map ti_own (i1 ++ TI base own :: i2))).
  { rewrite !map_app, !concat_app. cbn. rewrite map_app, concat_app. cbn. by rewrite app_nil_r. }
  constructor.
  - by rewrite Hsp.
  - by rewrite Hsp.
  - replace (ts1 ++ (c, k) :: ts2 ++ [(c', map Do body)]) with ((ts1 ++ (c, k) :: ts2) ++ [(c', map Do body)]) by by rewrite <- (assoc_L (++)).
    rewrite map_app. apply NoDup_app. split; [|split].
    + rewrite map_app in *. exact Hnd.
    + intros y Hy [->|[]%elem_of_nil]%elem_of_cons. by apply Hc'.
    + cbn. apply NoDup_singleton.
  - apply Forall2_app; [|constructor; [|apply Forall2_app; [|constructor; [|constructor]]]].
    + eapply toks_ne; [exact Ht1|lia|]. intros t Hin. apply Hctx, Hall. apply elem_of_app. by left.
    + destruct Ht as (H1 & H2 & H3 & H4). assert (Hcc : ctx_of st' c = ctx_of st c) by (apply Hctx; apply (Hall (c, k)); apply elem_of_app; right; left).
      split; [exact H1|]. split; [exact H2|]. cbn [fst] in *. rewrite Hcc. by split.
    + eapply toks_ne; [exact Ht2|lia|]. intros t Hin. apply Hctx, Hall. apply elem_of_app. right. by right.
    + split; [|split; [|split]]; cbn [fst snd ti_base ti_own].
      * pose proof (leaves_body body []) as H. by rewrite app_nil_r in H.
      * destruct fork; [exact Hcl|done].
      * cbn [curof]. destruct Ht as (_ & _ & H3 & _). cbn [fst ti_base ti_own] in H3. unfold st'. destruct fork; [by rewrite ctx_of_eq|]. unfold ctx_of. by rewrite Hnew.
      * exists (default [] (c_stack (ctx_of st' c'))). cbn [stack_of]. by rewrite app_nil_r.
  - intros d Hd. assert (Hd' : d <> c' /\ d ∉ map fst (ts1 ++ (c, k) :: ts2)).
    { split; [intros ->|intros H]; apply Hd; rewrite map_app; cbn [map]; rewrite map_app.
      - apply elem_of_app. right. right. apply elem_of_app. right. left.
      - rewrite map_app in H. cbn [map] in H. apply elem_of_app in H as [H|H]; [apply elem_of_app; by left|]. apply elem_of_app. right. apply elem_of_cons in H as [->|H]; [left|right]. apply elem_of_app. by left. }
    destruct Hd' as [Hd1 Hd2]. assert (Hn : t_ctxs st !! d = None). { apply Hfr. rewrite map_app in *. exact Hd2. }
    unfold st'. destruct fork; [|done]. cbn. by rewrite lookup_insert_ne.
  - by rewrite Hconc.
  - by rewrite Hconc, Hsp.
  - rewrite Hsp, <- Hpend. f_equiv.
    assert (Hl1 : length ts1 = length i1) by by eapply Forall2_length. assert (Hl2 : length ts2 = length i2) by by eapply Forall2_length.
    rewrite !pends_app by done. f_equiv. unfold pends at 1 2. cbn [zip_with concat ti_base ti_own snd pend].
    fold (pends paths ts2 i2). fold (pends paths (ts2 ++ [(c', map Do body)]) (i2 ++ [TI (if fork then curof base own else None) []])).
    rewrite pends_app by done. unfold pends at 2. cbn [zip_with concat ti_base ti_own snd]. rewrite app_nil_r.
    pose proof (pend_body paths (if fork then curof base own else None) [] body []) as Hpb. rewrite app_nil_r in Hpb. rewrite Hpb. cbn [pend curof]. rewrite app_nil_r.
    rewrite (assoc_L (++)). rewrite (Permutation_app_comm _ (map _ _)). rewrite (assoc_L (++)). f_equiv. f_equiv.
    destruct fork; cbn [expected pathof]; done.
Qed.

Lemma steps_good want ts es ts' : steps ts es ts' -> forall st paths infos, good want ts st paths infos ->
  exists st' paths' infos', orun true_ es st = Ok st' /\ good want ts' st' paths' infos'.
Proof.
  induction 1 as [ts|ts1 c x exc body k ts2 es ts' _ IH|ts1 c exc k ts2 es ts' _ IH|ts1 c c' body k ts2 es ts' Hc _ IH|ts1 c c' body k ts2 es ts' Hc _ IH]; intros st paths infos G.
  - by exists st, paths, infos.
  - apply good_enter in G as (p' & i' & G). apply IH in G as (st' & p & i & Hr & G). by exists st', p, i.
  - apply good_leave in G as (st1 & p' & i' & Hx & G). apply IH in G as (st' & p & i & Hr & G). exists st', p, i. cbn. by rewrite Hx.
  - apply (good_spawn want ts1 c c' body k ts2 st paths infos true Hc) in G as (p' & i' & G). apply IH in G as (st' & p & i & Hr & G). by exists st', p, i.
  - apply (good_spawn want ts1 c c' body k ts2 st paths infos false Hc) in G as (p' & i' & G). apply IH in G as (st' & p & i & Hr & G). by exists st', p, i.
Qed.

Lemma good_begin progs : NoDup (map fst progs) -> good (wanted progs) (begin progs) otel0 [] (map (fun _ => TI None []) progs).
Proof.
  intros Hnd. assert (Hc : concat (map ti_own (map (fun _ : nat * list act => TI None []) progs)) = []) by (clear Hnd; induction progs; done).
  constructor; cbn [otel0 t_spans t_ctxs].
  - done.
  - done.
  - unfold begin. rewrite map_map. exact Hnd.
  - clear. induction progs as [|p progs IH]; cbn; constructor; [|exact IH]. split; [|split; [|split]]; cbn.
    + pose proof (leaves_body p.2 []) as H. by rewrite app_nil_r in H.
    + done.
    + done.
    + by exists [].
  - intros c _. apply lookup_empty.
  - rewrite Hc. constructor.
  - rewrite Hc. intros i. split; [by intros ?%elem_of_nil|]. by intros (s & Hs & _).
  - unfold closed. cbn [zip zip_with filter list_filter app]. unfold pends, begin, wanted. clear. induction progs as [|p progs IH]; [done|].
    cbn [map zip_with concat fst snd ti_base ti_own]. rewrite map_app. pose proof (pend_body [] None [] p.2 []) as Hpb. rewrite app_nil_r in Hpb. rewrite Hpb. cbn [pend curof pathof]. rewrite app_nil_r. by f_equiv.
Qed.
Lemma keep_all (l : list (list name * list (status E))) : Forall (fun pe => pe.2 <> []) l -> filter (fun pe => pe.2 <> []) l = l.
Proof. induction 1 as [|x l Hx _ IH]; [done|]. by rewrite filter_cons_True, IH. Qed.
Lemma good_end want ts st paths infos : finished ts -> good want ts st paths infos -> (forall p e, (p, Some e) ∈ want -> true_ e = true) -> right (t_spans st) want.
Proof.
  intros Hf G Ht. exists paths. split; [apply (g_len _ _ _ _ _ G)|]. split; [apply (g_trail _ _ _ _ _ G)|].
  assert (Hno : concat (map ti_own infos) = [] /\ pends paths ts infos = []).
  { pose proof (g_toks _ _ _ _ _ G) as H. clear G. unfold finished in Hf. induction H as [|[c k] ti ts infos Htk _ IH]; [done|].
    apply Forall_cons in Hf as [Hk Hf]. cbn in Hk. subst k. destruct (IH Hf) as [H1 H2]. destruct Htk as (Hl & _). cbn in Hl. destruct (ti_own ti) eqn:Eo; [|done].
    unfold pends in *. cbn. rewrite Eo. cbn. by split. }
  destruct Hno as [Hno Hp]. pose proof (g_pend _ _ _ _ _ G) as H. rewrite Hp, app_nil_r in H.
  assert (Hcl : closed paths (t_spans st) = zip paths (map sp_ends (t_spans st))).
  { unfold closed. apply keep_all. apply Forall_forall. intros [q es] Hin. cbn. intros ->. apply elem_of_list_lookup in Hin as [i Hi].
    apply lookup_zip_with_Some in Hi as (q' & es' & Heq & _ & Hi). injection Heq as <- <-. rewrite list_lookup_fmap in Hi. apply fmap_Some in Hi as (s & Hs & He).
    assert (Hi : i ∈ concat (map ti_own infos)) by (apply (g_open _ _ _ _ _ G); by exists s). rewrite Hno in Hi. by apply elem_of_nil in Hi. }
  rewrite Hcl in H. rewrite H. erewrite map_ext_in; [reflexivity|]. intros [p [e|]] Hin; [|done]. cbn. unfold stat. rewrite (Ht p e); [done|]. by apply elem_of_list_In.
Qed.
End Otel.

Section Datadog.
Context {E O : Type}.
Variable links : bool.
Notation devent := (devent E O).
Notation dstate := (dstate E O).
Notation dspan := (dspan E O).

Definition keys (es : list devent) : list key := omap starts es.
Lemma keys_app es es' : keys (es ++ es') = keys es ++ keys es'.
Proof. apply omap_app. Qed.
Lemma started_keys es k : was_started es k <-> k ∈ keys es.
Proof. unfold was_started, keys. rewrite elem_of_list_omap. done. Qed.
Lemma number_keys es k id : number es k id <-> keys es !! id = Some k.
Proof.
  unfold number. split.
  - intros (i & e & Hi & Hs & ->). assert (Hk : keys es = keys (take i es) ++ keys (e :: drop (S i) es)) by (by rewrite <- keys_app, take_drop_middle). rewrite Hk, lookup_app_r by done. unfold keys. rewrite Nat.sub_diag. cbn. by rewrite Hs.
  - revert id. induction es as [|e es IH] using rev_ind; intros id H; [done|]. rewrite keys_app in H. apply lookup_app_Some in H as [H|[Hge H]].
    + destruct (IH _ H) as (i & e' & Hi & Hs & ->). exists i, e'. split; [by apply lookup_app_l_Some|]. split; [done|]. rewrite take_app_le; [done|]. apply lookup_lt_Some in Hi. lia.
    + unfold keys in H. cbn in H. destruct (starts e) as [k'|] eqn:Es; [|done]. apply list_lookup_singleton_Some in H as [Hz ->]. exists (length es), e.
      split; [by rewrite lookup_app_r, Nat.sub_diag|]. split; [done|]. rewrite take_app. unfold keys in *. lia.
Qed.
Lemma ended_app (es : list devent) (e : devent) k : was_ended (es ++ [e]) k <-> was_ended es k \/ exists er, ends e = Some (k, er).
Proof.
  unfold was_ended. split.
  - intros (e' & er & Hin & He). apply elem_of_app in Hin as [Hin|Hin%elem_of_list_singleton]; [left; eauto|right; subst; eauto].
  - intros [(e' & er & Hin & He)|[er He]]; [exists e', er|exists e, er]; (split; [|done]); apply elem_of_app; [by left|right; left].
Qed.

Definition allowed (es : list devent) (e : devent) : Prop :=
  (forall k, starts e = Some k -> ~ was_started es k /\ (k <> KRun (run_of k) -> was_started es (KRun (run_of k)) /\ ~ was_ended es (KRun (run_of k)))) /\
  (forall k er, ends e = Some (k, er) -> was_started es k /\ ~ was_ended es (KRun (run_of k))).
Lemma sensible_snoc es e : sensible (es ++ [e]) -> sensible es /\ allowed es e.
Proof.
  intros H. split.
  - intros i e' Hi. specialize (H i e' (lookup_app_l_Some _ _ _ _ Hi)). rewrite take_app_le in H; [exact H|]. apply lookup_lt_Some in Hi. lia.
  - specialize (H (length es) e). rewrite lookup_app_r, Nat.sub_diag, take_app in H by done. exact (H eq_refl).
Qed.
Lemma sensible_nodup es : sensible es -> NoDup (keys es).
Proof.
  induction es as [|e es IH] using rev_ind; [constructor|]. intros [H1 [H2 _]]%sensible_snoc. rewrite keys_app. unfold keys at 2. cbn. destruct (starts e) as [k|] eqn:Es; [|rewrite app_nil_r; auto].
  apply NoDup_app. split; [auto|]. split; [|apply NoDup_singleton]. intros k' Hk ->%elem_of_list_singleton. destruct (H2 k eq_refl) as [Hn _]. by apply Hn, started_keys.
Qed.
Lemma drun_snoc (es : list devent) (e : devent) (st : dstate) : drun links (es ++ [e]) st = st' ← drun links es st; dstep links st' e.
Proof. revert st. induction es as [|e' es IH]; intros st; cbn; [by destruct (dstep links st e)|]. destruct (dstep links st e'); [apply IH|done]. Qed.

Definition described (pre : list devent) (e : devent) (s : dspan) : Prop :=
  (forall k, starts e = Some k -> d_name s = key_name k) /\ right_parent pre e (d_parent s) /\ right_links links pre e (d_links s).

Record dinv (es : list devent) (st : dstate) : Prop := DInv {
  di_len : length (d_spans st) = length (keys es);
  di_runs : forall r id, d_runs st !! r = Some id <-> keys es !! id = Some (KRun r) /\ ~ was_ended es (KRun r);
  di_tasks : forall r, (running es r -> exists ts, d_tasks st !! r = Some ts /\ forall t id, ts !! t = Some id <-> keys es !! id = Some (KTask r t)) /\ (~ running es r -> d_tasks st !! r = None);
  di_nodes : forall r, (running es r -> exists ns, d_nodes st !! r = Some ns /\ forall t x id, ns !! (t, x) = Some id <-> keys es !! id = Some (KNode r t x)) /\ (~ running es r -> d_nodes st !! r = None);
  di_spans : forall pre e post k, es = pre ++ e :: post -> starts e = Some k -> exists s, d_spans st !! length (keys pre) = Some s /\ described pre e s /\ d_ends s = endings es k;
  di_run : forall k, k ∈ keys es -> KRun (run_of k) ∈ keys es }.

Lemma dinv_nil : dinv [] ddog0.
Proof.
  constructor; cbn.
  - done.
  - intros r id. rewrite lookup_empty. by split; [|intros [? _]].
  - intros r. split; [|by rewrite lookup_empty]. intros [(e & He & _) _]. by apply elem_of_nil in He.
  - intros r. split; [|by rewrite lookup_empty]. intros [(e & He & _) _]. by apply elem_of_nil in He.
  - intros pre e post k H. by destruct pre.
  - by intros k ?%elem_of_nil.
Qed.
Lemma endings_app (es : list devent) (e : devent) k : endings (es ++ [e]) k = endings es k ++ endings [e] k.
Proof. unfold endings. by rewrite omap_app. Qed.
Lemma endings_none (es : list devent) k : k ∉ map fst (omap ends es) -> endings es k = [].
Proof.
  induction es as [|e es IH]; [done|]. unfold endings. cbn. destruct (ends e) as [[k' er]|]; cbn; [|done]. intros [Hne Hn]%not_elem_of_cons. rewrite bool_decide_eq_false_2 by done. by apply IH.
Qed.
Lemma snoc_split {A} (es : list A) e pre e' post : es ++ [e] = pre ++ e' :: post -> (exists post', es = pre ++ e' :: post') \/ (pre = es /\ e' = e).
Proof.
  intros H. destruct post as [|p post _] using rev_ind; [apply app_inj_tail in H as [-> ->]; by right|].
  left. exists post. rewrite app_comm_cons, (assoc_L (++)) in H. by apply app_inj_tail in H as [-> _].
Qed.
Lemma open_dec es r : {was_ended (E:=E) (O:=O) es (KRun r)} + {~ was_ended es (KRun r)}.
Proof.
  destruct (decide (KRun r ∈ map fst (omap ends es))) as [H|H]; [left|right].
  - apply elem_of_list_fmap in H as ([k er] & Hk & H). cbn in Hk. subst. apply elem_of_list_omap in H as (e & H1 & H2). by exists e, er.
  - intros (e & er & H1 & H2). apply H. apply elem_of_list_fmap. exists (KRun r, er). split; [done|]. apply elem_of_list_omap. by exists e.
Qed.
Lemma ended_started (es : list devent) k : sensible es -> was_ended es k -> was_started es k.
Proof.
  intros Hs (e & er & Hin & He). apply elem_of_list_lookup in Hin as [i Hi]. destruct (Hs i e Hi) as [_ H]. destruct (H _ _ He) as [(e' & Hin & Hst) _]. exists e'. split; [|done].
  rewrite <- (take_drop i es). apply elem_of_app. by left.
Qed.

Lemma lookup_snoc_keys (es : list devent) (e : devent) k0 id k : starts e = Some k0 ->
  keys (es ++ [e]) !! id = Some k <-> keys es !! id = Some k \/ (id = length (keys es) /\ k = k0).
Proof.
  intros Hs. rewrite keys_app. unfold keys at 2. cbn. rewrite Hs. split.
  - intros [H|[Hge H]]%lookup_app_Some; [by left|right]. apply list_lookup_singleton_Some in H as [? ->]. split; [lia|done].
  - intros [H|[-> ->]]; [by apply lookup_app_l_Some|]. by rewrite lookup_app_r, Nat.sub_diag.
Qed.
Lemma keys_end (es : list devent) (e : devent) : starts e = None -> keys (es ++ [e]) = keys es.
Proof. intros Hs. rewrite keys_app. unfold keys at 2. cbn. rewrite Hs. apply app_nil_r. Qed.
Lemma started_snoc (es : list devent) (e : devent) k : was_started (es ++ [e]) k <-> was_started es k \/ starts e = Some k.
Proof. rewrite !started_keys, keys_app, elem_of_app. unfold keys at 2. cbn. destruct (starts e) as [k'|]; [rewrite elem_of_list_singleton; naive_solver|]. rewrite elem_of_nil. naive_solver. Qed.
Lemma ended_snoc_start (es : list devent) (e : devent) k k0 : starts e = Some k0 -> was_ended (es ++ [e]) k <-> was_ended es k.
Proof. intros Hs. rewrite ended_app. split; [|by left]. intros [?|[er He]]; [done|]. by destruct e. Qed.
Lemma endings_start (es : list devent) (e : devent) k k0 : starts e = Some k0 -> endings (es ++ [e]) k = endings es k.
Proof. intros Hs. rewrite endings_app. destruct e; try done; by rewrite app_nil_r. Qed.
Lemma not_started_no_ending (es : list devent) k : sensible es -> ~ was_started es k -> endings es k = [].
Proof.
  intros Hs Hn. apply endings_none. intros Hin. apply elem_of_list_fmap in Hin as ([k' er] & Hk & Hin). cbn in Hk. subst k'. apply elem_of_list_omap in Hin as (e & He & H).
  apply Hn, ended_started; [done|]. by exists e, er.
Qed.

(** A step that starts [k0]: a new span at the end. *)
Lemma spans_start es e k0 st s0 : sensible es -> dinv es st -> starts e = Some k0 -> ~ was_started es k0 -> described es e s0 -> d_ends s0 = [] ->
  forall pre e' post k, es ++ [e] = pre ++ e' :: post -> starts e' = Some k ->
  exists s, (d_spans st ++ [s0]) !! length (keys pre) = Some s /\ described pre e' s /\ d_ends s = endings (es ++ [e]) k.
Proof.
  intros Hsen I Hs Hn Hd He pre e' post k H Hk. rewrite (endings_start _ _ _ _ Hs). apply snoc_split in H as [[post' ->]|[-> ->]].
  - destruct (di_spans _ _ I pre e' post' k eq_refl Hk) as (s & H1 & H2). exists s. split; [by apply lookup_app_l_Some|done].
  - rewrite Hs in Hk. injection Hk as <-. exists s0. rewrite lookup_app_r by (by rewrite (di_len _ _ I)). rewrite (di_len _ _ I), Nat.sub_diag. split; [done|]. split; [done|].
    rewrite He. symmetry. by apply not_started_no_ending.
Qed.
(** A step that ends [k0], whose span has the number [i]. *)
Lemma spans_end (es : list devent) e k0 er st i : sensible es -> dinv es st -> ends e = Some (k0, er) -> keys es !! i = Some k0 ->
  forall pre e' post k, es ++ [e] = pre ++ e' :: post -> starts e' = Some k ->
  exists s, finish i er (d_spans st) !! length (keys pre) = Some s /\ described pre e' s /\ d_ends s = endings (es ++ [e]) k.
Proof.
  intros Hsen I Hs Hi pre e' post k H Hk. apply snoc_split in H as [[post' ->]|[-> ->]]; [|by destruct e].
  destruct (di_spans _ _ I pre e' post' k eq_refl Hk) as (s & H1 & H2 & H3). rewrite endings_app. unfold endings at 2. cbn. rewrite Hs.
  assert (Hpos : keys (pre ++ e' :: post') !! length (keys pre) = Some k).
  { rewrite keys_app, lookup_app_r, Nat.sub_diag by done. unfold keys. cbn. by rewrite Hk. }
  unfold finish. destruct (decide (i = length (keys pre))) as [->|Hne].
  - rewrite Hpos in Hi. injection Hi as ->. rewrite bool_decide_eq_true_2 by done. rewrite list_lookup_alter, H1. eexists. split; [done|]. split; [exact H2|]. cbn. rewrite H3. by destruct er.
  - rewrite list_lookup_alter_ne by done. exists s. rewrite bool_decide_eq_false_2; [rewrite app_nil_r; done|]. intros <-. apply Hne.
    exact (NoDup_lookup _ _ _ _ (sensible_nodup _ Hsen) Hi Hpos).
Qed.
Lemma run_elem_start (es : list devent) e k0 st : dinv es st -> starts e = Some k0 -> (k0 <> KRun (run_of k0) -> was_started es (KRun (run_of k0))) ->
  forall k, k ∈ keys (es ++ [e]) -> KRun (run_of k) ∈ keys (es ++ [e]).
Proof.
  intros I Hs Hr k. rewrite <- !started_keys, !started_snoc. intros [H|H].
  - left. apply started_keys. apply (di_run _ _ I). by apply started_keys.
  - rewrite Hs in H. injection H as <-. destruct (decide (k0 = KRun (run_of k0))) as [Heq|Hne]; [right; congruence|left; by apply Hr].
Qed.
Lemma running_snoc_other (es : list devent) e r k0 : starts e = Some k0 -> k0 <> KRun r -> running (es ++ [e]) r <-> running es r.
Proof. intros Hs Hne. unfold running. rewrite started_snoc, (ended_snoc_start _ _ _ _ Hs). rewrite Hs. naive_solver. Qed.

Lemma dinv_step es e st : sensible (es ++ [e]) -> dinv es st -> exists st', dstep links st e = Some st' /\ dinv (es ++ [e]) st'.
Proof.
  intros Hsen' I. destruct (sensible_snoc _ _ Hsen') as [Hsen [Hst Hen]]. pose proof (sensible_nodup _ Hsen) as Hnd.
  destruct e as [r outer|r t|r t x kwargs|r er|r t er|r t x er].
  - (* a run starts *)
    destruct (Hst (KRun r) eq_refl) as [Hn _]. assert (Hne : ~ was_ended es (KRun r)) by (intros H; by apply Hn, ended_started).
    eexists. split; [done|]. constructor; cbn [d_spans d_runs d_tasks d_nodes].
    + rewrite app_length, keys_app, app_length, (di_len _ _ I). done.
    + intros r' id. rewrite (lookup_snoc_keys es (DGraph r outer) (KRun r) id _ eq_refl), (ended_snoc_start es (DGraph r outer) _ (KRun r) eq_refl). rewrite (di_len _ _ I).
      destruct (decide (r = r')) as [<-|Hr].
      * rewrite lookup_insert. split; [intros [= <-]; split; [by right|done]|]. intros [[H|[-> _]] _]; [|done]. destruct Hn. apply started_keys. by eapply elem_of_list_lookup_2.
      * rewrite lookup_insert_ne by done. rewrite (di_runs _ _ I). split; [intros [? ?]; split; [by left|done]|]. intros [[?|[_ [= <-]]] ?]; done.
    + intros r'. destruct (decide (r = r')) as [<-|Hr].
      * rewrite lookup_insert. split; [|intros H; destruct H; split; [apply started_snoc; by right|by rewrite (ended_snoc_start _ _ _ (KRun r))]].
        intros _. exists ∅. split; [done|]. intros t id. rewrite lookup_empty. split; [done|]. rewrite (lookup_snoc_keys es (DGraph r outer) (KRun r) id _ eq_refl). intros [H|[_ ?]]; [|done].
        destruct Hn. apply started_keys. apply elem_of_list_lookup_2 in H. by apply (di_run _ _ I) in H.
      * rewrite lookup_insert_ne by done. rewrite (running_snoc_other es (DGraph r outer) r' (KRun r)) by (done || congruence). destruct (di_tasks _ _ I r') as [H1 H2]. split; [|done]. intros H. destruct (H1 H) as (ts & Ht & Hk). exists ts. split; [done|].
        intros t id. rewrite Hk, (lookup_snoc_keys es (DGraph r outer) (KRun r) id _ eq_refl). naive_solver.
    + intros r'. destruct (decide (r = r')) as [<-|Hr].
      * rewrite lookup_insert. split; [|intros H; destruct H; split; [apply started_snoc; by right|by rewrite (ended_snoc_start _ _ _ (KRun r))]].
        intros _. exists ∅. split; [done|]. intros t x id. rewrite lookup_empty. split; [done|]. rewrite (lookup_snoc_keys es (DGraph r outer) (KRun r) id _ eq_refl). intros [H|[_ ?]]; [|done].
        destruct Hn. apply started_keys. apply elem_of_list_lookup_2 in H. by apply (di_run _ _ I) in H.
      * rewrite lookup_insert_ne by done. rewrite (running_snoc_other es (DGraph r outer) r' (KRun r)) by (done || congruence). destruct (di_nodes _ _ I r') as [H1 H2]. split; [|done]. intros H. destruct (H1 H) as (ts & Ht & Hk). exists ts. split; [done|].
        intros t x id. rewrite Hk, (lookup_snoc_keys es (DGraph r outer) (KRun r) id _ eq_refl). naive_solver.
    + apply (spans_start es (DGraph r outer) (KRun r) st); try done. split; [by intros k [= <-]|]. split; [done|]. intros y id. split; [by intros ?%elem_of_nil|]. by intros (? & ? & ? & ? & ? & _).
    + by apply (run_elem_start es (DGraph r outer) (KRun r) st).
  - (* a task starts *)
    destruct (Hst (KTask r t) eq_refl) as [Hn Hrun]. specialize (Hrun ltac:(done)) as [Hrs Hre]. cbn [run_of] in Hrs, Hre.
    apply started_keys in Hrs as Hrk. apply elem_of_list_lookup in Hrk as [rid Hrid].
    assert (Hrc : d_runs st !! r = Some rid) by by apply (di_runs _ _ I).
    destruct (proj1 (di_tasks _ _ I r) (conj Hrs Hre)) as (ts & Hts & Htk).
    cbn [dstep]. rewrite Hrc, Hts. cbn. eexists. split; [done|].
    assert (Hkeys : forall id k, keys (es ++ [DTask r t]) !! id = Some k <-> keys es !! id = Some k \/ (id = length (keys es) /\ k = KTask r t)) by (intros; by apply lookup_snoc_keys).
    assert (Hend : forall k, was_ended (es ++ [DTask r t]) k <-> was_ended es k) by (intros; by eapply ended_snoc_start).
    assert (Hrunn : forall r', running (es ++ [DTask r t]) r' <-> running es r') by (intros; by eapply running_snoc_other).
    constructor; cbn [d_spans d_runs d_tasks d_nodes].
    + rewrite app_length, keys_app, app_length, (di_len _ _ I). done.
    + intros r' id. rewrite Hkeys, Hend, (di_runs _ _ I). naive_solver.
    + intros r'. rewrite Hrunn. destruct (decide (r = r')) as [<-|Hr].
      * rewrite lookup_insert. split; [|intros H; destruct H; done]. intros _. eexists. split; [done|]. intros t' id. rewrite Hkeys. rewrite (di_len _ _ I). destruct (decide (t = t')) as [<-|Hne].
        -- rewrite lookup_insert. split; [intros [= <-]; by right|]. intros [H|[-> _]]; [|done]. destruct Hn. apply started_keys. by eapply elem_of_list_lookup_2.
        -- rewrite lookup_insert_ne by done. rewrite Htk. naive_solver.
      * rewrite lookup_insert_ne by done. destruct (di_tasks _ _ I r') as [H1 H2]. split; [|done]. intros H. destruct (H1 H) as (ts' & Ht & Hk). exists ts'. split; [done|]. intros t' id. rewrite Hk, Hkeys. naive_solver.
    + intros r'. rewrite Hrunn. destruct (di_nodes _ _ I r') as [H1 H2]. split; [|done]. intros H. destruct (H1 H) as (ts' & Ht & Hk). exists ts'. split; [done|]. intros t' x id. rewrite Hk, Hkeys. naive_solver.
    + apply (spans_start es (DTask r t) (KTask r t) st); try done. split; [by intros k [= <-]|]. split; [exists rid; split; [by apply number_keys|done]|]. intros y id. split; [by intros ?%elem_of_nil|]. by intros (? & ? & ? & ? & ? & _).
    + by apply (run_elem_start es (DTask r t) (KTask r t) st).
  - (* a node starts *)
    destruct (Hst (KNode r t x) eq_refl) as [Hn Hrun]. specialize (Hrun ltac:(done)) as [Hrs Hre]. cbn [run_of] in Hrs, Hre.
    apply started_keys in Hrs as Hrk. apply elem_of_list_lookup in Hrk as [rid Hrid].
    assert (Hrc : d_runs st !! r = Some rid) by by apply (di_runs _ _ I).
    destruct (proj1 (di_tasks _ _ I r) (conj Hrs Hre)) as (ts & Hts & Htk).
    destruct (proj1 (di_nodes _ _ I r) (conj Hrs Hre)) as (ns & Hns & Hnk).
    cbn [dstep]. rewrite Hrc, Hts, Hns. cbn [mbind option_bind].
    assert (Hp : exists p, match t ≫= (ts !!.) with Some p => Some p | None => Some rid end = Some p /\ right_parent es (DNode r t x kwargs) (PSpan p)).
    { destruct t as [t|]; cbn; [destruct (ts !! t) as [p|] eqn:Et; cbn|].
      - exists p. split; [done|]. exists p. split; [done|]. left. exists t. split; [done|]. by apply number_keys, Htk.
      - exists rid. split; [done|]. exists rid. split; [done|]. right. split; [|by apply number_keys]. intros (t' & [= <-] & H). apply started_keys in H. apply elem_of_list_lookup in H as [i Hi]. apply Htk in Hi. congruence.
      - exists rid. split; [done|]. exists rid. split; [done|]. right. split; [|by apply number_keys]. by intros (t' & ? & _). }
    destruct Hp as (p & Hp & Hpar). rewrite Hp. cbn. eexists. split; [done|].
    assert (Hkeys : forall id k, keys (es ++ [DNode r t x kwargs]) !! id = Some k <-> keys es !! id = Some k \/ (id = length (keys es) /\ k = KNode r t x)) by (intros; by apply lookup_snoc_keys).
    assert (Hend : forall k, was_ended (es ++ [DNode r t x kwargs]) k <-> was_ended es k) by (intros; by eapply ended_snoc_start).
    assert (Hrunn : forall r', running (es ++ [DNode r t x kwargs]) r' <-> running es r') by (intros; by eapply running_snoc_other).
    constructor; cbn [d_spans d_runs d_tasks d_nodes].
    + rewrite app_length, keys_app, app_length, (di_len _ _ I). done.
    + intros r' id. rewrite Hkeys, Hend, (di_runs _ _ I). naive_solver.
    + intros r'. rewrite Hrunn. destruct (di_tasks _ _ I r') as [H1 H2]. split; [|done]. intros H. destruct (H1 H) as (ts' & Ht & Hk). exists ts'. split; [done|]. intros t' id. rewrite Hk, Hkeys. naive_solver.
    + intros r'. rewrite Hrunn. destruct (decide (r = r')) as [<-|Hr].
      * rewrite lookup_insert. split; [|intros H; destruct H; done]. intros _. eexists. split; [done|]. intros t' x' id. rewrite Hkeys. rewrite (di_len _ _ I). destruct (decide ((t, x) = (t', x'))) as [[= <- <-]|Hne].
        -- rewrite lookup_insert. split; [intros [= <-]; by right|]. intros [H|[-> _]]; [|done]. destruct Hn. apply started_keys. by eapply elem_of_list_lookup_2.
        -- rewrite lookup_insert_ne by done. rewrite Hnk. naive_solver.
      * rewrite lookup_insert_ne by done. destruct (di_nodes _ _ I r') as [H1 H2]. split; [|done]. intros H. destruct (H1 H) as (ts' & Ht & Hk). exists ts'. split; [done|]. intros t' x' id. rewrite Hk, Hkeys. naive_solver.
    + apply (spans_start es (DNode r t x kwargs) (KNode r t x) st); try done. split; [by intros k [= <-]; destruct t|]. split; [exact Hpar|]. cbn [d_links]. intros y id. split.
      * destruct links eqn:El; [|by intros ?%elem_of_nil]. intros (y' & Hy & H)%elem_of_list_omap. apply fmap_Some in H as (i & Hi & [= -> ->]). exists r, t, x, kwargs. split_and!; [done|done|done|]. by apply number_keys, Hnk.
      * intros (r' & t' & x' & kw & [= <- <- <- <-] & -> & Hy & Hnum). apply elem_of_list_omap. exists y. split; [done|]. apply number_keys, Hnk in Hnum. by rewrite Hnum.
    + by apply (run_elem_start es (DNode r t x kwargs) (KNode r t x) st).
  - (* a run ends *)
    destruct (Hen (KRun r) er eq_refl) as [Hrs Hre]. cbn [run_of] in Hre.
    apply started_keys in Hrs as Hrk. apply elem_of_list_lookup in Hrk as [rid Hrid].
    assert (Hrc : d_runs st !! r = Some rid) by by apply (di_runs _ _ I).
    cbn [dstep]. rewrite Hrc. cbn. eexists. split; [done|].
    assert (Hks : keys (es ++ [DGraphEnd r er]) = keys es) by by apply keys_end.
    assert (Hend : forall k, was_ended (es ++ [DGraphEnd r er]) k <-> was_ended es k \/ k = KRun r).
    { intros k. rewrite ended_app. cbn. naive_solver. }
    assert (Hrunn : forall r', running (es ++ [DGraphEnd r er]) r' <-> running es r' /\ r' <> r).
    { intros r'. unfold running. rewrite Hend, started_snoc. cbn. naive_solver. }
    constructor; cbn [d_spans d_runs d_tasks d_nodes]; rewrite ?Hks.
    + unfold finish. rewrite alter_length. apply (di_len _ _ I).
    + intros r' id. rewrite Hend, lookup_delete_Some, (di_runs _ _ I). naive_solver.
    + intros r'. rewrite Hrunn. destruct (di_tasks _ _ I r') as [H1 H2]. split.
      * intros [H Hne]. rewrite lookup_delete_ne by done. by apply H1.
      * intros H. destruct (decide (r = r')) as [<-|Hne]; [apply lookup_delete|]. rewrite lookup_delete_ne by done. apply H2. intros H'. apply H. split; congruence || done.
    + intros r'. rewrite Hrunn. destruct (di_nodes _ _ I r') as [H1 H2]. split.
      * intros [H Hne]. rewrite lookup_delete_ne by done. by apply H1.
      * intros H. destruct (decide (r = r')) as [<-|Hne]; [apply lookup_delete|]. rewrite lookup_delete_ne by done. apply H2. intros H'. apply H. split; congruence || done.
    + by eapply spans_end.
    + apply (di_run _ _ I).
  - (* a task ends *)
    destruct (Hen (KTask r t) er eq_refl) as [Hks' Hre]. cbn [run_of] in Hre.
    assert (Hrs : was_started es (KRun r)). { apply started_keys. apply started_keys in Hks'. exact (di_run _ _ I _ Hks'). }
    destruct (proj1 (di_tasks _ _ I r) (conj Hrs Hre)) as (ts & Hts & Htk).
    apply started_keys, elem_of_list_lookup in Hks' as [i Hi]. assert (Hti : ts !! t = Some i) by by apply Htk.
    cbn [dstep]. rewrite Hts. cbn. rewrite Hti. cbn. eexists. split; [done|].
    assert (Hks : keys (es ++ [DTaskEnd r t er]) = keys es) by by apply keys_end.
    assert (Hend : forall r', was_ended (es ++ [DTaskEnd r t er]) (KRun r') <-> was_ended es (KRun r')).
    { intros k. rewrite ended_app. cbn. naive_solver. }
    assert (Hrunn : forall r', running (es ++ [DTaskEnd r t er]) r' <-> running es r').
    { intros r'. unfold running. rewrite Hend, started_snoc. cbn. naive_solver. }
    constructor; cbn [d_spans d_runs d_tasks d_nodes]; rewrite ?Hks.
    + unfold finish. rewrite alter_length. apply (di_len _ _ I).
    + intros r' id. rewrite Hend. apply (di_runs _ _ I).
    + intros r'. rewrite Hrunn. apply (di_tasks _ _ I).
    + intros r'. rewrite Hrunn. apply (di_nodes _ _ I).
    + by eapply spans_end.
    + apply (di_run _ _ I).
  - (* a node ends *)
    destruct (Hen (KNode r t x) er eq_refl) as [Hks' Hre]. cbn [run_of] in Hre.
    assert (Hrs : was_started es (KRun r)). { apply started_keys. apply started_keys in Hks'. exact (di_run _ _ I _ Hks'). }
    destruct (proj1 (di_nodes _ _ I r) (conj Hrs Hre)) as (ns & Hns & Hnk).
    apply started_keys, elem_of_list_lookup in Hks' as [i Hi]. assert (Hti : ns !! (t, x) = Some i) by by apply Hnk.
    cbn [dstep]. rewrite Hns. cbn. rewrite Hti. cbn. eexists. split; [done|].
    assert (Hks : keys (es ++ [DNodeEnd r t x er]) = keys es) by by apply keys_end.
    assert (Hend : forall r', was_ended (es ++ [DNodeEnd r t x er]) (KRun r') <-> was_ended es (KRun r')).
    { intros k. rewrite ended_app. cbn. naive_solver. }
    assert (Hrunn : forall r', running (es ++ [DNodeEnd r t x er]) r' <-> running es r').
    { intros r'. unfold running. rewrite Hend, started_snoc. cbn. naive_solver. }
    constructor; cbn [d_spans d_runs d_tasks d_nodes]; rewrite ?Hks.
    + unfold finish. rewrite alter_length. apply (di_len _ _ I).
    + intros r' id. rewrite Hend. apply (di_runs _ _ I).
    + intros r'. rewrite Hrunn. apply (di_tasks _ _ I).
    + intros r'. rewrite Hrunn. apply (di_nodes _ _ I).
    + by eapply spans_end.
    + apply (di_run _ _ I).
Qed.
Lemma dinv_run es : sensible es -> exists st, drun links es ddog0 = Some st /\ dinv es st.
Proof.
  induction es as [|e es IH] using rev_ind; intros H; [exists ddog0; split; [done|apply dinv_nil]|].
  destruct (sensible_snoc _ _ H) as [H1 _]. destruct (IH H1) as (st & Hr & I). destruct (dinv_step es e st H I) as (st' & Hs & I'). exists st'. by rewrite drun_snoc, Hr.
Qed.
End Datadog.
