(** A run with other values: if the calls of a run correspond to those of another function
    under a renaming of values, the runs correspond. *)
From Verif Require Import Base ExecModel ExecSpec ExecCong.

Section Map.
Context {V W E : Type}.
(** What stands for a value of a variable. *)
Variable a : name -> V -> W.
Variable F : list (event V E) -> name -> gmap name V -> res E V.
Variable G : list (event W E) -> name -> gmap name W -> res E W.

Definition amap (m : gmap name V) : gmap name W := map_imap (fun k v => Some (a k v)) m.
Definition ares (x : name) (r : res E V) : res E W := match r with Ok v => Ok (a x v) | Err e => Err e end.
Definition aevent (ev : event V E) : event W E :=
  match ev with
  | Call x kw r => Call x (amap kw) (ares x r)
  | Store x v => Store x (a x v)
  | Drop x => Drop x
  end.
Definition astate (s : state V E) : state W E := State (amap (computed s)) (map aevent (trace s)).
Definition aoutcome (o : outcome V E) : outcome W E :=
  match o with Done s => Done (astate s) | Raise s e => Raise (astate s) e | Fuel => Fuel | Stuck => Stuck end.
Definition aanswer (o : answer V E) : answer W E :=
  match o with
  | Answer out tr => Answer (map (fun p => (p.1, a p.1 <$> p.2)) out) (map aevent tr)
  | Failed e tr => Failed e (map aevent tr)
  | Clash => Clash
  | Diverged => Diverged
  end.

Lemma amap_get m k : amap m !! k = a k <$> m !! k.
Proof. unfold amap. rewrite map_lookup_imap. by destruct (m !! k). Qed.
Lemma amap_some m k : is_Some (amap m !! k) <-> is_Some (m !! k).
Proof. rewrite amap_get. by rewrite fmap_is_Some. Qed.
Lemma amap_insert m k v : amap (<[k := v]> m) = <[k := a k v]> (amap m).
Proof. apply map_eq. intros i. rewrite amap_get. destruct (decide (i = k)) as [-> | N]; [by rewrite !lookup_insert|]. rewrite !lookup_insert_ne by done. by rewrite amap_get. Qed.
Lemma amap_delete m k : amap (delete k m) = delete k (amap m).
Proof. apply map_eq. intros i. rewrite amap_get. destruct (decide (i = k)) as [-> | N]; [by rewrite !lookup_delete|]. rewrite !lookup_delete_ne by done. by rewrite amap_get. Qed.
Lemma amap_union m1 m2 : amap (m1 ∪ m2) = amap m1 ∪ amap m2.
Proof. apply map_eq. intros i. rewrite amap_get, !lookup_union, !amap_get. by destruct (m1 !! i), (m2 !! i). Qed.
Lemma amap_empty : amap ∅ = ∅.
Proof. apply map_eq. intros i. by rewrite amap_get, !lookup_empty. Qed.

Lemma astate_emit s ev : astate (emit s ev) = emit (astate s) (aevent ev).
Proof. unfold astate, emit. cbn. by rewrite map_app. Qed.
Lemma astate_store s x v : astate (store s x v) = store (astate s) x (a x v).
Proof. unfold astate, store. cbn. by rewrite map_app, amap_insert. Qed.
Lemma astate_drop s x : astate (drop_ s x) = drop_ (astate s) x.
Proof. unfold astate, drop_. cbn. by rewrite map_app, amap_delete. Qed.

Variable g : graph.
Variable inputs overrides : gmap name V.
Variable roots : list name.

Lemma gather_map s ds : gather (astate s) ds = amap (gather s ds).
Proof.
  unfold gather. rewrite <- amap_empty. generalize (∅ : gmap name V) as kw. induction ds as [|d ds IH]; intros kw; [done|]. cbn [foldl].
  unfold astate at 2. cbn [computed]. rewrite amap_get. destruct (computed s !! d); cbn [fmap option_fmap option_map]; [|by apply IH]. by rewrite <- amap_insert, IH.
Qed.
Lemma may_drop_map s nd : may_drop roots (astate s) nd = may_drop roots s nd.
Proof.
  unfold may_drop. induction (nd_rdeps nd) as [|w ws IH]; [done|]. cbn [forallb]. rewrite IH. f_equal. f_equal. apply bool_decide_ext. apply amap_some.
Qed.
Lemma prune_map ds : forall s, prune g roots (astate s) ds = astate (prune g roots s ds).
Proof.
  induction ds as [|d ds IH]; intros s; [done|]. cbn [prune]. rewrite <- IH. f_equal. unfold astate at 1. cbn [computed]. rewrite amap_get.
  destruct (computed s !! d) eqn:Hd; cbn [fmap option_fmap option_map]; [|done]. destruct (g !! d) as [nd|]; [|done].
  destruct (bool_decide (d ∈ roots)); [done|]. rewrite may_drop_map. destruct (may_drop roots s nd); [by rewrite astate_drop|done].
Qed.

(** Every call of the run corresponds to the call of [G]. *)
Definition amatch (tr : list (event V E)) : Prop :=
  forall t1 x kw r t2, tr = t1 ++ Call x kw r :: t2 -> G (map aevent t1) x (amap kw) = ares x r.
Lemma amatch_app t1 t2 : amatch (t1 ++ t2) -> amatch t1.
Proof. intros H b x kw r c ->. eapply (H b x kw r (c ++ t2)). by rewrite <-app_assoc. Qed.

Notation dfsF := (dfs F g inputs overrides roots).
Notation dfsG := (dfs G g (amap inputs) (amap overrides) roots).
Notation out_trace := (out_trace (V := V) (E := E)).

Lemma visit_map (recF : state V E -> name -> deptype -> outcome V E) (recG : state W E -> name -> deptype -> outcome W E) :
  (forall s x dt t, out_trace (recF s x dt) = Some t ->
     (exists t', t = trace s ++ t') /\ (amatch t -> recG (astate s) x dt = aoutcome (recF s x dt))) ->
  forall ds s t, out_trace (visit_deps recF s ds) = Some t ->
     (exists t', t = trace s ++ t') /\ (amatch t -> visit_deps recG (astate s) ds = aoutcome (visit_deps recF s ds)).
Proof.
  intros Hrec ds. induction ds as [|[d dt] ds IH]; intros s t Ht; cbn [visit_deps] in *.
  - injection Ht as <-. split; [exists []; by rewrite app_nil_r|done].
  - unfold astate at 1. cbn [computed]. rewrite amap_get. destruct (computed s !! d); cbn [fmap option_fmap option_map]; [by apply IH|].
    destruct (recF s d dt) as [s'|s' e| |] eqn:Hr; try done.
    + destruct (Hrec s d dt (trace s')) as [(t1 & H1) Hag]; [by rewrite Hr|].
      destruct (IH s' t Ht) as [(t2 & H2) Hag2].
      split; [exists (t1 ++ t2); by rewrite app_assoc, <-H1|].
      intros Ha. rewrite Hag, Hr; [by apply Hag2|]. eapply amatch_app. rewrite <-H2. exact Ha.
    + destruct (Hrec s d dt t) as [? Hag]; [by rewrite Hr|]. split; [done|].
      intros Ha. by rewrite Hag, Hr.
Qed.

Lemma dfs_map fuel : forall s x dt t, out_trace (dfsF fuel s x dt) = Some t ->
  (exists t', t = trace s ++ t') /\ (amatch t -> dfsG fuel (astate s) x dt = aoutcome (dfsF fuel s x dt)).
Proof.
  induction fuel as [|fuel IH]; intros s x dt t Ht; cbn [dfs] in *; [done|].
  destruct (g !! x) as [nd|]; [|done].
  change (computed (astate s)) with (amap (computed s)). rewrite !amap_get.
  destruct (computed s !! x); cbn [fmap option_fmap option_map].
  { injection Ht as <-. split; [exists []; by rewrite app_nil_r|done]. }
  destruct (overrides !! x); cbn [fmap option_fmap option_map].
  { injection Ht as <-. split; [by eexists|]. cbn [aoutcome]. by rewrite astate_store. }
  destruct (visit_deps (dfsF fuel) s (nd_deps nd)) as [s1|s1 e| |] eqn:Hv; try done.
  - destruct (visit_map _ _ IH (nd_deps nd) s (trace s1)) as [(t1 & H1) Hag]; [by rewrite Hv|].
    destruct (nd_ext nd).
    { destruct (inputs !! x) as [v|]; cbn [fmap option_fmap option_map].
      - cbn [ExecCong.out_trace] in Ht. injection Ht as <-.
        destruct (prune_extends g roots (store s1 x v) (dep_names nd)) as [t2 H2].
        split.
        + rewrite H2. cbn [trace store]. rewrite H1, <-!app_assoc. by eexists.
        + intros Ha. rewrite Hag, Hv; [cbn [aoutcome]; by rewrite <- prune_map, astate_store|].
          rewrite H2 in Ha. cbn [trace store] in Ha. rewrite <-app_assoc in Ha. by apply amatch_app in Ha.
      - destruct dt; cbn [ExecCong.out_trace] in Ht; injection Ht as <-; (split; [by eexists|]);
          intros Ha; by rewrite Hag, Hv. }
    destruct (F (trace s1) x (gather s1 (dep_names nd))) as [v|e] eqn:HF.
    + cbn [ExecCong.out_trace] in Ht. injection Ht as <-.
      destruct (prune_extends g roots (store (emit s1 (Call x (gather s1 (dep_names nd)) (Ok v))) x v) (dep_names nd)) as [t2 H2].
      split.
      * rewrite H2. cbn [trace store emit]. rewrite H1, <-!app_assoc. by eexists.
      * intros Ha. rewrite H2 in Ha. cbn [trace store emit] in Ha. rewrite <-!app_assoc in Ha.
        assert (HG : G (map aevent (trace s1)) x (amap (gather s1 (dep_names nd))) = Ok (a x v)) by (eapply (Ha _ _ _ (Ok v)); reflexivity).
        rewrite Hag, Hv; [|by apply amatch_app in Ha]. cbn [aoutcome]. rewrite gather_map. change (trace (astate s1)) with (map aevent (trace s1)).
        rewrite HG. rewrite <- prune_map, astate_store, astate_emit. done.
    + cbn [ExecCong.out_trace] in Ht. injection Ht as <-. split.
      * cbn [trace emit]. rewrite H1, <-app_assoc. by eexists.
      * intros Ha. cbn [trace emit] in Ha.
        assert (HG : G (map aevent (trace s1)) x (amap (gather s1 (dep_names nd))) = Err e) by (eapply (Ha _ _ _ (Err e)); reflexivity).
        rewrite Hag, Hv; [|by apply amatch_app in Ha]. cbn [aoutcome]. rewrite gather_map. change (trace (astate s1)) with (map aevent (trace s1)).
        rewrite HG. by rewrite astate_emit.
  - destruct (visit_map _ _ IH (nd_deps nd) s t) as [? Hag]; [by rewrite Hv|].
    split; [done|]. intros Ha. by rewrite Hag, Hv.
Qed.

Lemma run_map fuel xs : forall s t, out_trace (run_roots F g inputs overrides roots fuel s xs) = Some t ->
  (exists t', t = trace s ++ t') /\
  (amatch t -> run_roots G g (amap inputs) (amap overrides) roots fuel (astate s) xs = aoutcome (run_roots F g inputs overrides roots fuel s xs)).
Proof.
  induction xs as [|x xs IH]; intros s t Ht; cbn [run_roots] in *.
  - injection Ht as <-. split; [exists []; by rewrite app_nil_r|done].
  - destruct (g !! x) as [nd|]; [|done].
    destruct (dfsF fuel s x (if nd_ext nd then OPTIONAL else REQUIRED)) as [s'|s' e| |] eqn:Hd; try done.
    + destruct (dfs_map fuel s x (if nd_ext nd then OPTIONAL else REQUIRED) (trace s')) as [(t1 & H1) Hag]; [by rewrite Hd|].
      destruct (IH s' t Ht) as [(t2 & H2) Hag2].
      split; [exists (t1 ++ t2); by rewrite app_assoc, <-H1|].
      intros Ha. rewrite Hag, Hd; [by apply Hag2|]. eapply amatch_app. rewrite <-H2. exact Ha.
    + destruct (dfs_map fuel s x (if nd_ext nd then OPTIONAL else REQUIRED) t) as [? Hag]; [by rewrite Hd|].
      split; [done|]. intros Ha. by rewrite Hag, Hd.
Qed.
End Map.

(** If every call of a run corresponds to one of [G], the run with [G] corresponds to it. *)
Lemma default_map {V W E} (a : name -> V -> W) (F : list (event V E) -> name -> gmap name V -> res E V) G g config inputs overrides fv :
  default_execute F g config inputs overrides fv <> Diverged ->
  amatch a G (trace_of (default_execute F g config inputs overrides fv)) ->
  default_execute G g (amap a config) (amap a inputs) (amap a overrides) fv = aanswer a (default_execute F g config inputs overrides fv).
Proof.
  unfold default_execute. intros Hd Ha.
  assert (Hc : combine_config_and_inputs (amap a config) (amap a inputs) = amap a <$> combine_config_and_inputs config inputs).
  { unfold combine_config_and_inputs. rewrite (bool_decide_ext _ (map_Forall (fun k _ => config !! k = None) inputs)).
    - destruct (bool_decide _); cbn; [by rewrite amap_union|done].
    - split.
      + intros H k v Hk. assert (Hk' : amap a inputs !! k = Some (a k v)) by by rewrite amap_get, Hk.
        apply H in Hk'. rewrite amap_get in Hk'. by destruct (config !! k).
      + intros H k v Hk. rewrite amap_get in Hk. destruct (inputs !! k) as [w|] eqn:Ek; [|done]. rewrite amap_get. by rewrite (H k w Ek). }
  rewrite Hc. destruct (combine_config_and_inputs config inputs) as [ai|]; cbn [fmap option_fmap option_map]; [|done].
  unfold execute_subdag in *. set (nodes := filter (fun x => is_Some (g !! x)) fv) in *.
  assert (H := run_map a F G g ai overrides nodes (S (size g)) nodes (State ∅ [])).
  assert (Hs : astate a (State ∅ [] : state V E) = State ∅ []) by (unfold astate; cbn; by rewrite amap_empty).
  rewrite Hs in H. destruct (run_roots F g ai overrides nodes (S (size g)) (State ∅ []) nodes) as [s|s e| |] eqn:Hr.
  - destruct (H (trace s) eq_refl) as [_ H']. rewrite H' by exact Ha. cbn [aoutcome aanswer]. f_equal. rewrite map_map. apply map_ext. intros x. cbn [fst snd astate computed].
    rewrite !amap_get. by destruct (computed s !! x).
  - destruct (H (trace s) eq_refl) as [_ H']. by rewrite H' by exact Ha.
  - done.
  - done.
Qed.
