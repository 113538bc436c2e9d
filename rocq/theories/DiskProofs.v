(** Proofs about the cache on disk. *)
From Verif Require Import Base Dict NodeModel DecorModel DecorProofs DiskModel DiskSpec.

Section Proofs.
Context {V E : Type} `{EqDecision V}.
Variable none : V.
Notation cnode := (cnode (V := V) (E := E)).
Notation event := (event (V := V) (E := E)).
Notation cache := (cache (V := V)).
Notation adapter := (adapter (V := V)).
Notation entries := (list ((string * list V) * (V * (name * string)))).
Implicit Types (n : cnode) (c : cache) (a : adapter) (l : entries) (k : string * list V) (kw : list (name * V)) (t : name * string).
Notation step := (step none (E := E)).
Notation execute := (execute none (E := E)).
Notation run_nodes := (run_nodes none (E := E)).
Notation run_graph := (run_graph none (E := E)).
Notation happen := (happen none (E := E)).

(** ** Entries *)
Lemma kget_elem l k v : kget l k = Some v -> exists t, (k, (v, t)) ∈ l.
Proof.
  induction l as [|[k' [v' t']] l IH]; cbn; [done|]. destruct (decide (k = k')) as [-> |]; [intros [= ->]; exists t'; by left|]. intros H. destruct (IH H) as [t Ht]. exists t. by right.
Qed.
Lemma kget_app l l' k : kget (l ++ l') k = match kget l k with Some v => Some v | None => kget l' k end.
Proof. induction l as [|[k' [v' t']] l IH]; [done|]. cbn. by destruct (decide (k = k')). Qed.
Lemma kadd_get l k v t k' : kget (kadd l k v t) k' = match kget l k' with Some w => Some w | None => if decide (k' = k) then Some v else None end.
Proof.
  unfold kadd. destruct (kget l k) as [w|] eqn:E0.
  - destruct (kget l k') eqn:E1; [done|]. rewrite decide_False; [done|]. congruence.
  - rewrite kget_app. destruct (kget l k'); [done|]. cbn. by destruct (decide (k' = k)).
Qed.
Lemma kadd_elem l k v t e : e ∈ kadd l k v t -> e ∈ l \/ (e = (k, (v, t)) /\ kget l k = None).
Proof. unfold kadd. destruct (kget l k); [by left|]. intros [H|H%elem_of_list_singleton]%elem_of_app; [by left|by right]. Qed.
Lemma kevict_elem t l e : e ∈ kevict t l <-> e ∈ l /\ e.2.2 <> t.
Proof. unfold kevict. rewrite elem_of_list_filter. tauto. Qed.
Lemma kevicts_elem m hs : forall l e, e ∈ foldl (fun es h => kevict (m, h) es) l hs <-> e ∈ l /\ forall h, h ∈ hs -> e.2.2 <> (m, h).
Proof.
  induction hs as [|h hs IH]; intros l e; cbn [foldl].
  - split; [intros ?; split; [done|]; intros h Hh; by apply elem_of_nil in Hh|by intros [? _]].
  - rewrite IH, kevict_elem. split.
    + intros [[H1 H2] H3]. split; [done|]. intros h' [-> |Hh]%elem_of_cons; [done|by apply H3].
    + intros [H1 H2]. split_and!; [done|apply H2; by left|intros h' Hh; apply H2; by right].
Qed.

(** ** One node *)
Definition hist_add (hist : dict (list string)) (m : name) (h : string) : dict (list string) :=
  dset hist m (match dget hist m with Some hs => hs | None => [] end ++ [h]).
(** What a step does: from the cache, or by calling. *)
Lemma step_cases n kw c a : 
  (cn_name n ∉ a_vars a /\ step n kw c a = Ok (cn_run n kw, c, Adapter (a_vars a) (a_history a) (a_used a) (a_calls a ++ [(cn_name n, kw)]))) \/
  (cn_name n ∈ a_vars a /\ exists v, kget (k_entries c) (cache_key (cn_hash n) kw) = Some v /\ v <> none /\
     step n kw c a = Ok (Ok v, c, Adapter (a_vars a) (a_history a) (dset (a_used a) (cn_name n) (cn_hash n)) (a_calls a))) \/
  (cn_name n ∈ a_vars a /\ (kget (k_entries c) (cache_key (cn_hash n) kw) = None \/ kget (k_entries c) (cache_key (cn_hash n) kw) = Some none) /\
     step n kw c a = Ok (cn_run n kw,
       Cache (kadd (k_entries c) (cache_key (cn_hash n) kw) (match cn_run n kw with Ok v => v | Err _ => none end) (cn_name n, cn_hash n)) (k_history c),
       Adapter (a_vars a) (hist_add (a_history a) (cn_name n) (cn_hash n)) (dset (a_used a) (cn_name n) (cn_hash n)) (a_calls a ++ [(cn_name n, kw)]))).
Proof.
  unfold DiskModel.step, DiskModel.execute, after_execution. destruct (decide (cn_name n ∈ a_vars a)) as [Hin|Hin].
  - right. destruct (kget (k_entries c) (cache_key (cn_hash n) kw)) as [v|] eqn:Ev.
    + destruct (decide (v = none)) as [-> |Hv].
      * right. split_and!; [done|by right|]. unfold call. cbn [fst snd a_vars a_used]. rewrite decide_True by done. rewrite dget_dset_eq. done.
      * left. split; [done|]. exists v. split_and!; [done..|]. cbn [fst snd a_vars a_used]. rewrite decide_True by done. rewrite dget_dset_eq. cbn [bindr].
        unfold kadd. rewrite Ev. by destruct c.
    + right. split_and!; [done|by left|]. unfold call. cbn [fst snd a_vars a_used]. rewrite decide_True by done. rewrite dget_dset_eq. done.
  - left. split; [done|]. unfold call. cbn [fst snd a_vars]. by rewrite decide_False by done.
Qed.

(** ** The invariant *)
Definition right_ (U : cnode -> Prop) l : Prop :=
  forall k v t, (k, (v, t)) ∈ l -> v <> none -> forall n kw, U n -> cache_key (cn_hash n) kw = k -> cn_run n kw = Ok v.
Definition tagged (hist : dict (list string)) l : Prop :=
  NoDup (dkeys hist) /\ forall k v m h, (k, (v, (m, h))) ∈ l -> exists hs, dget hist m = Some hs /\ h ∈ hs.
Lemma hist_add_keeps hist m h m' h' : (exists hs, dget hist m' = Some hs /\ h' ∈ hs) -> exists hs, dget (hist_add hist m h) m' = Some hs /\ h' ∈ hs.
Proof.
  intros (hs & Hd & Hh). unfold hist_add. rewrite dget_dset. destruct (decide (m' = m)) as [-> |]; [|by exists hs]. rewrite Hd. eexists. split; [done|]. apply elem_of_app. by left.
Qed.
Lemma step_inv U n kw c a r c' a' : faithful U -> U n -> right_ U (k_entries c) -> step n kw c a = Ok (r, c', a') -> r = cn_run n kw /\ right_ U (k_entries c').
Proof.
  intros Hf Hn Hr Hs. destruct (step_cases n kw c a) as [(Hin & He)|[(Hin & v & Hv & Hvn & He)|(Hin & Hv & He)]]; rewrite He in Hs; injection Hs as <- <- <-.
  - done.
  - split; [|done]. symmetry. destruct (kget_elem _ _ _ Hv) as [t Ht]. by apply (Hr _ _ _ Ht).
  - split; [done|]. cbn [k_entries]. intros k v t [Hin'|[Heq _]]%kadd_elem Hvn n' kw' Hn' Hk; [by apply (Hr _ _ _ Hin')|]. injection Heq as -> -> ->.
    unfold cache_key in Hk. injection Hk as Hk1 Hk2. assert (He2 : cn_run n' kw' = cn_run n kw) by (by apply Hf). rewrite He2. by destruct (cn_run n kw).
Qed.
Lemma step_tagged n kw c a r c' a' : tagged (a_history a) (k_entries c) -> step n kw c a = Ok (r, c', a') -> tagged (a_history a') (k_entries c').
Proof.
  intros [Hnd Ht] Hs. destruct (step_cases n kw c a) as [(Hin & He)|[(Hin & v & Hv & Hvn & He)|(Hin & Hv & He)]]; rewrite He in Hs; injection Hs as <- <- <-; [by split..|].
  cbn [k_entries a_history]. split; [by apply NoDup_dkeys_dset|]. intros k v m h [Hin'|[Heq _]]%kadd_elem.
  - apply hist_add_keeps. by eapply Ht.
  - injection Heq as -> -> -> ->. unfold hist_add. rewrite dget_dset_eq. eexists. split; [done|]. apply elem_of_app. right. by left.
Qed.
Lemma step_keeps n kw c a r c' a' k v : step n kw c a = Ok (r, c', a') -> kget (k_entries c) k = Some v -> kget (k_entries c') k = Some v.
Proof.
  intros Hs Hk. destruct (step_cases n kw c a) as [(Hin & He)|[(Hin & w & Hv & Hvn & He)|(Hin & Hv & He)]]; rewrite He in Hs; injection Hs as <- <- <-; [done..|].
  cbn. by rewrite kadd_get, Hk.
Qed.

(** ** Runs *)
Lemma run_nodes_inv U ns : faithful U -> forall env c a r c' a', (forall n, n ∈ ns -> U n) -> right_ U (k_entries c) -> run_nodes ns env c a = (r, c', a') ->
  r = plain ns env /\ right_ U (k_entries c').
Proof.
  intros Hf. induction ns as [|n ns IH]; intros env c a r c' a' Hu Hr Hrun; cbn [DiskModel.run_nodes plain] in *; [by injection Hrun as <- <- <-|].
  destruct (arguments (cn_deps n) env) as [kw|]; [|by injection Hrun as <- <- <-]. assert (Hn : U n) by (apply Hu; by left).
  destruct (step n kw c a) as [[[r1 c1] a1]|x] eqn:Es.
  - destruct (step_inv U n kw c a r1 c1 a1 Hf Hn Hr Es) as [-> Hr1]. destruct (cn_run n kw) as [v|e].
    + eapply IH; [|done..]. intros n' Hn'. apply Hu. by right.
    + by injection Hrun as <- <- <-.
  - exfalso. destruct (step_cases n kw c a) as [(_ & He)|[(_ & v & _ & _ & He)|(_ & _ & He)]]; congruence.
Qed.
Lemma run_nodes_tagged ns : forall env c a r c' a', tagged (a_history a) (k_entries c) -> run_nodes ns env c a = (r, c', a') -> tagged (a_history a') (k_entries c').
Proof.
  induction ns as [|n ns IH]; intros env c a r c' a' Ht Hrun; cbn [DiskModel.run_nodes] in *; [by injection Hrun as <- <- <-|].
  destruct (arguments (cn_deps n) env) as [kw|]; [|by injection Hrun as <- <- <-].
  destruct (step n kw c a) as [[[[v|e] c1] a1]|x] eqn:Es; [|by injection Hrun as <- <- <-; eapply step_tagged|by injection Hrun as <- <- <-].
  eapply IH; [|done]. by eapply step_tagged.
Qed.
Lemma run_nodes_keeps ns k v : forall env c a r c' a', kget (k_entries c) k = Some v -> run_nodes ns env c a = (r, c', a') -> kget (k_entries c') k = Some v.
Proof.
  induction ns as [|n ns IH]; intros env c a r c' a' Hk Hrun; cbn [DiskModel.run_nodes] in *; [by injection Hrun as <- <- <-|].
  destruct (arguments (cn_deps n) env) as [kw|]; [|by injection Hrun as <- <- <-].
  destruct (step n kw c a) as [[[[w|e] c1] a1]|x] eqn:Es; [|by injection Hrun as <- <- <-; eapply step_keeps|by injection Hrun as <- <- <-].
  eapply IH; [|done]. by eapply step_keeps.
Qed.

(** ** Eviction *)
Lemma remove_first_spec h hs hs' : remove_first h hs = Some hs' -> h ∈ hs /\ (forall x, x <> h -> x ∈ hs <-> x ∈ hs') /\ (NoDup hs -> h ∉ hs').
Proof.
  revert hs'. induction hs as [|y hs IH]; intros hs' H; cbn in H; [done|]. destruct (decide (y = h)) as [-> |Hy].
  - injection H as <-. split_and!; [by left| |by intros [? _]%NoDup_cons]. intros x Hx. rewrite elem_of_cons. tauto.
  - destruct (remove_first h hs) as [l|] eqn:E0; [|done]. injection H as <-. destruct (IH l eq_refl) as (H1 & H2 & H3). split_and!.
    + by right.
    + intros x Hx. rewrite !elem_of_cons. by rewrite (H2 x Hx).
    + intros [Hy1 Hn]%NoDup_cons. rewrite not_elem_of_cons. split; [done|by apply H3].
Qed.
Lemma remove_first_none h hs : remove_first h hs = None <-> h ∉ hs.
Proof.
  induction hs as [|y hs IH]; cbn; [split; [intros _; apply not_elem_of_nil|done]|]. rewrite not_elem_of_cons. destruct (decide (y = h)) as [-> |Hy]; [split; [done|by intros [? _]]|].
  destruct (remove_first h hs); [split; [done|]; intros [_ H]; by apply IH in H|]. split; [|done]. intros _. split; [done|by apply IH].
Qed.
(** What the loop evicts. *)
Definition evicted (keep : dict string) (hist : dict (list string)) t : Prop :=
  exists hs, (t.1, hs) ∈ hist /\ match dget keep t.1 with Some h => exists hs', remove_first h hs = Some hs' /\ t.2 ∈ hs' | None => t.2 ∈ hs end.
Lemma evict_loop_entries keep hist : forall l new l' new', (evict_loop (E := E) keep hist l new).1 = Ok (l', new') -> forall e, e ∈ l' <-> e ∈ l /\ ~ evicted keep hist e.2.2.
Proof.
  induction hist as [|[m hs] hist IH]; intros l new l' new' H e; cbn [evict_loop] in H.
  - injection H as <- <-. split; [intros ?; split; [done|]; by intros (hs & Hin%elem_of_nil & _)|by intros [? _]].
  - assert (Hcons : evicted keep ((m, hs) :: hist) e.2.2 <-> (e.2.2.1 = m /\ match dget keep m with Some h => exists hs', remove_first h hs = Some hs' /\ e.2.2.2 ∈ hs' | None => e.2.2.2 ∈ hs end) \/ evicted keep hist e.2.2).
    { unfold evicted. split.
      - intros (hs0 & [[= <- <-]|Hin]%elem_of_cons & Hx); [by left|]. right. by exists hs0.
      - intros [[<- Hx]|(hs0 & Hin & Hx)]; [exists hs|exists hs0]; (split; [|done]); [by left|by right]. }
    assert (Hev : forall hs0 : list string, e ∈ foldl (fun es h => kevict (m, h) es) l hs0 <-> e ∈ l /\ ~ (e.2.2.1 = m /\ e.2.2.2 ∈ hs0)).
    { intros hs0. rewrite kevicts_elem. split; intros [H1 H2]; (split; [done|]).
      - intros [<- Hh]. apply (H2 _ Hh). by destruct (e.2.2).
      - intros h Hh Heq. apply H2. rewrite Heq. done. }
    rewrite Hcons. destruct hs as [|h0 hs0].
    + rewrite (IH _ _ _ _ H e). assert (Hno : ~ match dget keep m with Some h => exists hs', remove_first h [] = Some hs' /\ e.2.2.2 ∈ hs' | None => e.2.2.2 ∈ [] end).
      { destruct (dget keep m); [by intros (? & ? & _)|apply not_elem_of_nil]. } tauto.
    + destruct (dget keep m) as [h|] eqn:Ek.
      * destruct (remove_first h (h0 :: hs0)) as [hs'|] eqn:Er; [|done]. rewrite (IH _ _ _ _ H e), Hev. split.
        -- intros [[H1 H2] H3]. split; [done|]. intros [(Hm & hs2 & [= <-] & Hx)|Hx]; [by apply H2|done].
        -- intros [H1 H2]. split_and!; [done| |]; intros Hx; apply H2; [left|by right]. destruct Hx. split; [done|]. by exists hs'.
      * rewrite (IH _ _ _ _ H e), Hev. tauto.
Qed.
Lemma evict_loop_history keep hist : forall l new l' new', NoDup (dkeys new) -> (evict_loop (E := E) keep hist l new).1 = Ok (l', new') ->
  NoDup (dkeys new') /\ (forall m hs, dget new m = Some hs -> (exists h, dget keep m = Some h /\ hs = [h]) -> dget new' m = Some hs) /\
  (forall m hs h, (m, hs) ∈ hist -> hs <> [] -> dget keep m = Some h -> dget new' m = Some [h]).
Proof.
  induction hist as [|[m hs] hist IH]; intros l new l' new' Hn H; cbn [evict_loop] in H.
  - injection H as <- <-. split_and!; [done|done|]. intros m hs h Hin. by apply elem_of_nil in Hin.
  - destruct hs as [|h0 hs0].
    + destruct (IH _ _ _ _ Hn H) as (H1 & H2 & H3). split_and!; [done..|]. intros m' hs' h' [[= -> ->]|Hin]%elem_of_cons; [done|by apply H3].
    + destruct (dget keep m) as [h|] eqn:Ek.
      * destruct (remove_first h (h0 :: hs0)) as [hs'|] eqn:Er; [|done].
        destruct (IH _ _ _ _ (NoDup_dkeys_dset new m [h] Hn) H) as (H1 & H2 & H3). split_and!; [done| |].
        -- intros m' hs1 Hd Hex. destruct (decide (m' = m)) as [-> |Hne]; [|apply H2; [by rewrite dget_dset_ne|done]].
           destruct Hex as (h1 & Hk1 & ->). assert (h1 = h) as -> by congruence. apply H2; [by rewrite dget_dset_eq|by exists h].
        -- intros m' hs1 h1 [[= -> ->]|Hin]%elem_of_cons Hne Hk; [|by eapply H3]. assert (h1 = h) as -> by congruence. apply H2; [by rewrite dget_dset_eq|by exists h].
      * destruct (IH _ _ _ _ Hn H) as (H1 & H2 & H3). split_and!; [done..|]. intros m' hs1 h1 [[= -> ->]|Hin]%elem_of_cons Hne Hk; [congruence|by eapply H3].
Qed.
Lemma evict_loop_ok keep hist : forall l new, (exists r, (evict_loop (E := E) keep hist l new).1 = Ok r) <-> forall m hs h, (m, hs) ∈ hist -> hs <> [] -> dget keep m = Some h -> h ∈ hs.
Proof.
  induction hist as [|[m hs] hist IH]; intros l new; cbn [evict_loop].
  - split; [intros _ m hs h Hin; by apply elem_of_nil in Hin|by eexists].
  - assert (Hc : (forall m0 hs0 h, (m0, hs0) ∈ (m, hs) :: hist -> hs0 <> [] -> dget keep m0 = Some h -> h ∈ hs0) <->
      (hs <> [] -> forall h, dget keep m = Some h -> h ∈ hs) /\ (forall m0 hs0 h, (m0, hs0) ∈ hist -> hs0 <> [] -> dget keep m0 = Some h -> h ∈ hs0)).
    { split; [intros H; split; [intros Hne h; by apply H; [left|..]|intros m0 hs0 h Hin; apply (H m0 hs0 h); by right]|].
      intros [H1 H2] m0 hs0 h [[= -> ->]|Hin]%elem_of_cons Hne; [by apply H1|by apply (H2 m0)]. }
    rewrite Hc. destruct hs as [|h0 hs0]; [rewrite IH; naive_solver|]. destruct (dget keep m) as [h|] eqn:Ek.
    + destruct (remove_first h (h0 :: hs0)) as [hs'|] eqn:Er.
      * rewrite IH. apply remove_first_spec in Er as (Hin & _). split; [intros H; split; [|done]; intros _ h1 [= <-]; done|by intros [_ ?]].
      * apply remove_first_none in Er. split; [by intros [r Hr]|]. intros [H1 _]. destruct Er. by apply H1.
    + rewrite IH. split; [intros H; split; [|done]; congruence|by intros [_ ?]].
Qed.
Lemma evict_loop_sub keep hist : forall l new e, e ∈ (evict_loop (E := E) keep hist l new).2 -> e ∈ l.
Proof.
  induction hist as [|[m hs] hist IH]; intros l new e H; cbn [evict_loop] in H; [done|]. destruct hs as [|h0 hs0]; [by eapply IH|].
  destruct (dget keep m) as [h|]; [destruct (remove_first h (h0 :: hs0)); [|done]|]; apply IH in H; by apply kevicts_elem in H as [? _].
Qed.
Lemma evict_loop_snd keep hist : forall l new l' new', (evict_loop (E := E) keep hist l new).1 = Ok (l', new') -> (evict_loop (E := E) keep hist l new).2 = l'.
Proof.
  induction hist as [|[m hs] hist IH]; intros l new l' new' H; cbn [evict_loop] in *; [by injection H as <- <-|]. destruct hs as [|h0 hs0]; [by eapply IH|].
  destruct (dget keep m) as [h|]; [destruct (remove_first h (h0 :: hs0)); [|done]|]; by eapply IH.
Qed.
Lemma evict_entries keep c e : e ∈ k_entries (evict_all_except (E := E) keep c).2 -> e ∈ k_entries c.
Proof.
  unfold evict_all_except. destruct (k_history c) as [hist|]; [|done]. destruct (evict_loop keep hist (k_entries c) []) as [[[l' new']|x] es] eqn:El; cbn.
  - intros H. apply (evict_loop_sub keep hist (k_entries c) []). rewrite (evict_loop_snd keep hist (k_entries c) [] l' new'); [done|]. by rewrite El.
  - intros H. apply (evict_loop_sub keep hist (k_entries c) []). by rewrite El.
Qed.

(** ** All that can happen *)
Definition inv (ca : cache * adapter) : Prop :=
  tagged (a_history ca.2) (k_entries ca.1) /\ match k_history ca.1 with Some hist => tagged hist (k_entries ca.1) | None => k_entries ca.1 = [] end.
Lemma inv_happen ca (e : event) : inv ca -> inv (happen ca e).
Proof.
  destruct ca as [c a]. intros [H1 H2]. cbn [fst snd] in *. destruct e as [vars|ns env|keep]; cbn [DiskModel.happen fst snd].
  - split; [|done]. cbn [fst snd init a_history]. destruct (k_history c) as [hist|]; [done|]. split; [constructor|]. rewrite H2. intros k v m h Hin. by apply elem_of_nil in Hin.
  - unfold DiskModel.run_graph. destruct (run_nodes ns env c (before_graph (map cn_name ns) a)) as [[r c'] a'] eqn:Er. cbn [fst snd].
    assert (Ht : tagged (a_history a') (k_entries c')) by (eapply run_nodes_tagged; [|done]; done). split; done.
  - assert (Hsub : forall e, e ∈ k_entries (evict_all_except (E := E) keep c).2 -> e ∈ k_entries c) by apply evict_entries.
    split; [destruct H1 as [Hn Ht]; split; [done|]; intros k v m h Hin; apply (Ht k v); by apply Hsub|]. cbn [fst snd]. revert Hsub. unfold evict_all_except.
    destruct (k_history c) as [hist|] eqn:Eh; [|intros _; cbn [snd]; by rewrite Eh]. destruct (evict_loop keep hist (k_entries c) []) as [[[l' new']|x] es] eqn:El; cbn [snd k_history k_entries]; intros Hsub.
    + assert (Hl : (evict_loop (E := E) keep hist (k_entries c) []).1 = Ok (l', new')) by (by rewrite El).
      destruct (evict_loop_history keep hist (k_entries c) [] l' new' ltac:(constructor) Hl) as (Hn & _ & Hk). split; [done|]. intros k v m h Hin.
      pose proof (proj1 (evict_loop_entries keep hist (k_entries c) [] l' new' Hl _) Hin) as [Hin0 Hne]. destruct H2 as [Hnd Ht]. destruct (Ht k v m h Hin0) as (hs & Hhs & Hh).
      apply dget_elem in Hhs. unfold evicted in Hne. cbn [fst snd] in Hne. destruct (dget keep m) as [h1|] eqn:Ek; [|destruct Hne; by exists hs].
      assert (Hh1 : h1 = h).
      { destruct (decide (h1 = h)); [done|]. exfalso. apply Hne. exists hs. split; [done|]. assert (Hin1 : h1 ∈ hs).
        { apply (proj1 (evict_loop_ok keep hist (k_entries c) []) (ex_intro _ _ Hl) m hs h1); [done| |done]. intros ->. by apply elem_of_nil in Hh. }
        destruct (remove_first h1 hs) as [hs'|] eqn:Er; [|by apply remove_first_none in Er]. exists hs'. split; [done|]. apply remove_first_spec in Er as (_ & Hx & _). by apply Hx. }
      subst h1. exists [h]. split; [|by left]. apply (Hk m hs h); [done| |done]. intros ->. by apply elem_of_nil in Hh.
    + destruct H2 as [Hnd Ht]. split; [done|]. intros k v m h Hin. apply (Ht k v m h). by apply Hsub.
Qed.
Lemma inv_fresh : inv (fresh (V := V)).
Proof. split; [|done]. split; [constructor|]. intros k v m h Hin. by apply elem_of_nil in Hin. Qed.
Lemma inv_happens (es : list event) ca : inv ca -> inv (foldl happen ca es).
Proof. revert ca. induction es as [|e es IH]; intros ca H; [done|]. cbn. apply IH. by apply inv_happen. Qed.
Lemma right_happens U (es : list event) : faithful U -> (forall e, e ∈ es -> uses U e) -> forall ca, right_ U (k_entries ca.1) -> right_ U (k_entries (foldl happen ca es).1).
Proof.
  intros Hf. induction es as [|e es IH]; intros Hu ca Hr; [done|]. cbn [foldl]. apply IH; [intros e' He'; apply Hu; by right|].
  assert (He : uses U e) by (apply Hu; by left). destruct ca as [c a], e as [vars|ns env|keep]; cbn [DiskModel.happen fst snd] in *.
  - done.
  - unfold DiskModel.run_graph. destruct (run_nodes ns env c (before_graph (map cn_name ns) a)) as [[r c'] a'] eqn:Er. cbn [fst snd k_entries].
    by destruct (run_nodes_inv U ns Hf env c _ r c' a' He Hr Er).
  - intros k v t Hin. apply (Hr k v t). by apply (evict_entries keep c).
Qed.
Lemma keeps_happens (es : list event) k v : (forall e, e ∈ es -> is_evict e = false) -> forall ca, kget (k_entries ca.1) k = Some v -> kget (k_entries (foldl happen ca es).1) k = Some v.
Proof.
  induction es as [|e es IH]; intros Hu ca Hk; [done|]. cbn [foldl]. apply IH; [intros e' He'; apply Hu; by right|].
  assert (He : is_evict e = false) by (apply Hu; by left). destruct ca as [c a], e as [vars|ns env|keep]; cbn [DiskModel.happen fst snd] in *; [done| |done].
  unfold DiskModel.run_graph. destruct (run_nodes ns env c (before_graph (map cn_name ns) a)) as [[r c'] a'] eqn:Er. cbn [fst snd k_entries]. by eapply run_nodes_keeps.
Qed.
End Proofs.
