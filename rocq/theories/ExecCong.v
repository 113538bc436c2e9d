(** Two functions that agree on the calls of a run give the same run. *)
From Verif Require Import Base ExecModel ExecSpec.

Section Cong.
Context {V E : Type}.
Variable F G : list (event V E) -> name -> gmap name V -> res E V.
Variable g : graph.
Variable inputs overrides : gmap name V.
Variable roots : list name.

(** The outcome has a trace that extends [tr] and whose calls all agree with [G]. *)
Definition agreeing (tr : list (event V E)) : Prop :=
  forall t1 x kw r t2, tr = t1 ++ Call x kw r :: t2 -> G t1 x kw = r.

Lemma agreeing_app t1 t2 : agreeing (t1 ++ t2) -> agreeing t1.
Proof. intros H a x kw r b ->. eapply (H a x kw r (b ++ t2)). by rewrite <-app_assoc. Qed.

Definition out_trace (o : outcome V E) : option (list (event V E)) :=
  match o with Done s | Raise s _ => Some (trace s) | Fuel | Stuck => None end.

Lemma prune_extends (s : state V E) ds : exists t, trace (prune g roots s ds) = trace s ++ t.
Proof.
  revert s. induction ds as [|d ds IH]; intros s; cbn [prune]; [exists []; by rewrite app_nil_r|].
  repeat case_match; try apply IH.
  destruct (IH (drop_ s d)) as [t ->]. cbn. rewrite <-app_assoc. by eexists.
Qed.

Notation dfsF := (dfs F g inputs overrides roots).
Notation dfsG := (dfs G g inputs overrides roots).

Lemma visit_cong (recF recG : state V E -> name -> deptype -> outcome V E) :
  (forall s x dt t, out_trace (recF s x dt) = Some t ->
     (exists t', t = trace s ++ t') /\ (agreeing t -> recG s x dt = recF s x dt)) ->
  forall ds s t, out_trace (visit_deps recF s ds) = Some t ->
     (exists t', t = trace s ++ t') /\ (agreeing t -> visit_deps recG s ds = visit_deps recF s ds).
Proof.
  intros Hrec ds. induction ds as [|[d dt] ds IH]; intros s t Ht; cbn [visit_deps] in *.
  - injection Ht as <-. split; [exists []; by rewrite app_nil_r|done].
  - destruct (computed s !! d); [by apply IH|].
    destruct (recF s d dt) as [s'|s' e| |] eqn:Hr; try done.
    + destruct (Hrec s d dt (trace s')) as [(t1 & H1) Hag]; [by rewrite Hr|].
      destruct (IH s' t Ht) as [(t2 & H2) Hag2].
      split; [exists (t1 ++ t2); by rewrite app_assoc, <-H1|].
      intros Ha. rewrite Hag, Hr; [by apply Hag2|]. eapply agreeing_app. rewrite <-H2. exact Ha.
    + destruct (Hrec s d dt t) as [? Hag]; [by rewrite Hr|]. split; [done|].
      intros Ha. by rewrite Hag, Hr.
Qed.

Lemma dfs_cong fuel : forall s x dt t, out_trace (dfsF fuel s x dt) = Some t ->
  (exists t', t = trace s ++ t') /\ (agreeing t -> dfsG fuel s x dt = dfsF fuel s x dt).
Proof.
  induction fuel as [|fuel IH]; intros s x dt t Ht; cbn [dfs] in *; [done|].
  destruct (g !! x) as [nd|]; [|done].
  destruct (computed s !! x).
  { injection Ht as <-. split; [exists []; by rewrite app_nil_r|done]. }
  destruct (overrides !! x).
  { injection Ht as <-. split; [by eexists|done]. }
  destruct (visit_deps (dfsF fuel) s (nd_deps nd)) as [s1|s1 e| |] eqn:Hv; try done.
  - destruct (visit_cong _ _ IH (nd_deps nd) s (trace s1)) as [(t1 & H1) Hag]; [by rewrite Hv|].
    destruct (nd_ext nd).
    { destruct (inputs !! x) as [v|].
      - cbn [out_trace] in Ht. injection Ht as <-.
        destruct (prune_extends (store s1 x v) (dep_names nd)) as [t2 H2].
        split.
        + rewrite H2. cbn [trace store]. rewrite H1, <-!app_assoc. by eexists.
        + intros Ha. rewrite Hag, Hv; [done|].
          rewrite H2 in Ha. cbn [trace store] in Ha. rewrite <-app_assoc in Ha. by apply agreeing_app in Ha.
      - destruct dt; cbn [out_trace] in Ht; injection Ht as <-; (split; [by eexists|]);
          intros Ha; by rewrite Hag, Hv. }
    destruct (F (trace s1) x (gather s1 (dep_names nd))) as [v|e] eqn:HF.
    + cbn [out_trace] in Ht. injection Ht as <-.
      destruct (prune_extends (store (emit s1 (Call x (gather s1 (dep_names nd)) (Ok v))) x v) (dep_names nd)) as [t2 H2].
      split.
      * rewrite H2. cbn [trace store emit]. rewrite H1, <-!app_assoc. by eexists.
      * intros Ha. rewrite H2 in Ha. cbn [trace store emit] in Ha. rewrite <-!app_assoc in Ha.
        assert (HG : G (trace s1) x (gather s1 (dep_names nd)) = Ok v) by (eapply Ha; reflexivity).
        rewrite Hag, Hv; [by rewrite HG|]. by apply agreeing_app in Ha.
    + cbn [out_trace] in Ht. injection Ht as <-. split.
      * cbn [trace emit]. rewrite H1, <-app_assoc. by eexists.
      * intros Ha. cbn [trace emit] in Ha.
        assert (HG : G (trace s1) x (gather s1 (dep_names nd)) = Err e) by (eapply Ha; reflexivity).
        rewrite Hag, Hv; [by rewrite HG|]. by apply agreeing_app in Ha.
  - destruct (visit_cong _ _ IH (nd_deps nd) s t) as [? Hag]; [by rewrite Hv|].
    split; [done|]. intros Ha. by rewrite Hag, Hv.
Qed.

Lemma run_cong fuel xs : forall s t, out_trace (run_roots F g inputs overrides roots fuel s xs) = Some t ->
  (exists t', t = trace s ++ t') /\
  (agreeing t -> run_roots G g inputs overrides roots fuel s xs = run_roots F g inputs overrides roots fuel s xs).
Proof.
  induction xs as [|x xs IH]; intros s t Ht; cbn [run_roots] in *.
  - injection Ht as <-. split; [exists []; by rewrite app_nil_r|done].
  - destruct (g !! x) as [nd|]; [|done].
    destruct (dfsF fuel s x (if nd_ext nd then OPTIONAL else REQUIRED)) as [s'|s' e| |] eqn:Hd; try done.
    + destruct (dfs_cong fuel s x (if nd_ext nd then OPTIONAL else REQUIRED) (trace s')) as [(t1 & H1) Hag]; [by rewrite Hd|].
      destruct (IH s' t Ht) as [(t2 & H2) Hag2].
      split; [exists (t1 ++ t2); by rewrite app_assoc, <-H1|].
      intros Ha. rewrite Hag, Hd; [by apply Hag2|]. eapply agreeing_app. rewrite <-H2. exact Ha.
    + destruct (dfs_cong fuel s x (if nd_ext nd then OPTIONAL else REQUIRED) t) as [? Hag]; [by rewrite Hd|].
      split; [done|]. intros Ha. by rewrite Hag, Hd.
Qed.
End Cong.

(** If every call of a run of the default executor returned what [G] returns for it, the run
    with [G] is the same run. *)
Lemma default_cong {V E} (F G : list (event V E) -> name -> gmap name V -> res E V) g config inputs overrides fv :
  default_execute F g config inputs overrides fv <> Diverged ->
  agreeing G (trace_of (default_execute F g config inputs overrides fv)) ->
  default_execute G g config inputs overrides fv = default_execute F g config inputs overrides fv.
Proof.
  unfold default_execute. destruct (combine_config_and_inputs config inputs) as [ai|]; [|done].
  intros Hd Ha. unfold execute_subdag in *.
  set (nodes := filter (fun x => is_Some (g !! x)) fv) in *.
  assert (H := run_cong F G g ai overrides nodes (S (size g)) nodes (State ∅ [])).
  destruct (run_roots F g ai overrides nodes (S (size g)) (State ∅ []) nodes) as [s|s e| |] eqn:Hr.
  - destruct (H (trace s) eq_refl) as [_ H']. by rewrite H' by exact Ha.
  - destruct (H (trace s) eq_refl) as [_ H']. by rewrite H' by exact Ha.
  - done.
  - done.
Qed.
