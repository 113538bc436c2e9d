From Coq Require Import Ascii.
From Verif Require Import Base Dict TrackModel TrackSpec.

Lemma allowed_iff c : c ∈ allowed <-> plain_char c.
Proof.
  assert (H : bool_decide (c ∈ allowed) = (let n := nat_of_ascii c in ((97 <=? n) && (n <=? 122)) || ((65 <=? n) && (n <=? 90)) || ((48 <=? n) && (n <=? 57)) || (n =? 95) || (n =? 45))%nat).
  { destruct c as [[] [] [] [] [] [] [] []]; vm_compute; reflexivity. }
  rewrite <- (bool_decide_spec (c ∈ allowed)), H. unfold plain_char. cbn zeta. generalize (nat_of_ascii c). intros n.
  rewrite Is_true_true, !orb_true_iff, !andb_true_iff, !Nat.leb_le, !Nat.eqb_eq. lia.
Qed.
Lemma validate_iff s : validate_string_input s = Ok tt <-> Forall plain_char s.
Proof.
  induction s as [|c s IH]; cbn [validate_string_input]; [done|]. destruct (decide (c ∈ allowed)) as [H|H]; rewrite allowed_iff in H.
  - rewrite IH. split; [by constructor|]. by inversion 1.
  - split; [done|]. by inversion 1.
Qed.
Lemma validate_else s : ~ Forall plain_char s -> validate_string_input s = Err TValue.
Proof.
  induction s as [|c s IH]; intros H; cbn [validate_string_input]; [by destruct H|]. destruct (decide (c ∈ allowed)) as [Hc|Hc]; [|done].
  apply IH. intros Hs. apply H. constructor; [by apply allowed_iff|done].
Qed.

Lemma resolve_place d p : place d p (resolve d p).
Proof.
  unfold resolve. destruct p as [|c q]; [right; split; [done|]; done|].
  change (String.prefix "/" (String c q)) with (if ascii_dec "/" c then String.prefix "" q else false).
  destruct (ascii_dec "/" c) as [<-|Hc].
  - replace (String.prefix "" q) with true by (by destruct q). left. by exists q.
  - right. split; [|done]. intros q' [= -> _]. done.
Qed.

Section Proofs.
Context {V : Type}.
Variable init run rid : string.
Variable absolute : bool.
Notation st := (tstate V).

Lemma look_inputs given (g : list (gnode V)) ms is l : inputs_of given g l -> exists ms', look g (Some given) ms is = (Ok tt, ms', is ++ l) /\
  (forall m, m ∈ ms' <-> m ∈ ms \/ exists n, n ∈ g /\ gn_module n = Some m) /\ (NoDup ms -> NoDup ms').
Proof.
  intros H. revert ms is. induction H as [|n g l Hn H IH|n g l d Hn Hd H IH]; intros ms is.
  - exists ms. rewrite app_nil_r. split; [done|]. split; [|done]. intros m. split; [by left|]. intros [?|(n & Hn & _)]; [done|]. by apply elem_of_nil in Hn.
  - cbn [look]. destruct (gn_module n) as [m|] eqn:Em.
    + destruct (IH (add_module m ms) is) as (ms' & E & Hms & Hnd). exists ms'. split; [done|].
      assert (Ha : forall x, x ∈ add_module m ms <-> x ∈ ms \/ x = m).
      { intros x. unfold add_module. destruct (decide (m ∈ ms)); [|rewrite elem_of_app, elem_of_list_singleton; tauto]. split; [by left|]. by intros [?| ->]. }
      split.
      * intros x. rewrite Hms, Ha. split.
        -- intros [[?| ->]|(n' & ? & ?)]; [by left|right; exists n; split; [by left|done]|right; exists n'; split; [by right|done]].
        -- intros [?|(n' & Hin & Hn')]; [by left; left|]. apply elem_of_cons in Hin as [->|Hin]; [left; right; congruence|right; by exists n'].
      * intros Hd. apply Hnd. unfold add_module. destruct (decide (m ∈ ms)); [done|]. apply NoDup_app. split; [done|]. split; [intros x Hx Hx'; apply elem_of_list_singleton in Hx' as ->; done|apply NoDup_singleton].
    + destruct (gn_input n) eqn:Ei; [destruct Hn; done|]. destruct (IH ms is) as (ms' & E & Hms & Hnd). exists ms'. split; [done|]. split; [|done].
      intros x. rewrite Hms. split.
      * intros [?|(n' & ? & ?)]; [by left|right; exists n'; split; [by right|done]].
      * intros [?|(n' & Hin & Hn')]; [by left|]. apply elem_of_cons in Hin as [->|Hin]; [congruence|right; by exists n'].
  - destruct Hn as [Hm Hi]. cbn [look]. rewrite Hm, Hi, Hd. destruct (IH ms (is ++ [NodeInput (gn_name n) (dget given (gn_name n)) d])) as (ms' & E & Hms & Hnd).
    exists ms'. rewrite E, <- app_assoc. split; [done|]. split; [|done]. intros x. rewrite Hms. split.
    + intros [?|(n' & ? & ?)]; [by left|right; exists n'; split; [by right|done]].
    + intros [?|(n' & Hin & Hn')]; [by left|]. apply elem_of_cons in Hin as [->|Hin]; [congruence|right; by exists n'].
Qed.

Lemma before_cwd n (s : st) : ts_cwd (before_node run n s) = if tn_saver n then run else ts_cwd s.
Proof. unfold before_node. by destruct (tn_saver n). Qed.

(** In which directory nodes are executed, whatever they do *)
Lemma nodes_where ns (s : st) : ts_cwd s = init ->
  let '(r, s', l) := run_nodes init run ns s in Forall (fun nd => nd.2 = if tn_saver nd.1 then run else init) l /\
    (ts_cwd s' = init \/ (exists e, r = Err e) /\ ts_cwd s' = run /\ exists n, last l = Some (n, run) /\ tn_saver n = true).
Proof.
  revert s. induction ns as [|[n o] ns IH]; intros s Hs; [cbn; by split; [|left]|].
  cbn [run_nodes]. cbn zeta. rewrite before_cwd, Hs.
  assert (Hhere : (n, if tn_saver n then run else init).2 = if tn_saver (n, if tn_saver n then run else init).1 then run else init) by done.
  destruct o as [v|e].
  - destruct (after_node init n v (before_node run n s)) as [r1 s1] eqn:E.
    assert (Hc : (r1 = Ok tt /\ ts_cwd s1 = init) \/ (exists e, r1 = Err e) /\ tn_saver n = true /\ ts_cwd s1 = run).
    { unfold after_node in E. destruct (tn_saver n) eqn:En.
      - destruct v as [[p|] [[p'|]|]|]; injection E as <- <-; try (left; done); right; (split; [by eexists|]); (split; [done|]); by rewrite before_cwd, En.
      - injection E as <- <-. left. by rewrite before_cwd, En. }
    destruct Hc as [[-> Hc]|([e ->] & Hsv & Hc)].
    + specialize (IH s1 Hc). destruct (run_nodes init run ns s1) as [[r2 s2] l2]. destruct IH as [Hl Hend]. split; [by constructor|].
      destruct Hend as [?|(? & ? & n' & Hlast & ?)]; [by left|]. right. split; [done|]. split; [done|]. exists n'. split; [|done]. by destruct l2.
    + split; [by constructor|]. right. split; [by eexists|]. split; [done|]. exists n. rewrite Hsv. by split.
  - destruct (after_node init n TNothing (before_node run n s)) as [r1 s1] eqn:E.
    unfold after_node in E. destruct (tn_saver n) eqn:En; injection E as <- <-.
    + split; [constructor; [by cbn; rewrite En|done]|]. right. split; [by eexists|]. rewrite before_cwd, En. split; [done|]. by exists n.
    + split; [constructor; [by cbn; rewrite En|done]|]. left. by rewrite before_cwd, En.
Qed.

(** What is recorded where savers succeed *)
Lemma nodes_saved ns vs bs r (s : st) : ran ns vs bs r -> recordable ns -> ts_cwd s = init ->
  exists ms, saved run vs ms /\
    run_nodes init run ns s = (r, TState init (ts_hash s) (ts_modules s) (ts_config s) (ts_inputs s) (ts_overrides s) (ts_materializers s ++ ms) (ts_cache s),
      map (fun n => (n, if tn_saver n then run else init)) bs).
Proof.
  intros H. revert s. induction H as [|n v l vs bs r H IH|n e l]; intros s Hr Hs.
  - exists []. split; [constructor|]. rewrite app_nil_r. cbn. subst. by destruct s.
  - assert (Hr' : recordable l) by (intros n' o' Hin; apply (Hr n' o'); by right).
    cbn [run_nodes map]. cbn zeta. rewrite before_cwd, Hs. destruct (tn_saver n) eqn:En.
    + destruct (Hr n (TReturns v)) as (v' & p & [= <-] & Hp); [by left|done|].
      assert (Ea : after_node init n v (before_node run n s) = (Ok tt, TState init (ts_hash s) (ts_modules s) (ts_config s) (ts_inputs s) (ts_overrides s)
        (ts_materializers s ++ [Materializer (tn_kwargs n) (resolve run p) (tn_sink n) (tn_class n)]) (ts_cache s))).
      { unfold after_node, before_node. rewrite En. by destruct Hp as [[f ->]| ->]. }
      rewrite Ea. match goal with |- context [run_nodes init run l ?s1] => destruct (IH s1 Hr' eq_refl) as (ms & Hms & ->) end. cbn [ts_hash ts_modules ts_config ts_inputs ts_overrides ts_materializers ts_cache].
      exists (Materializer (tn_kwargs n) (resolve run p) (tn_sink n) (tn_class n) :: ms). split; [by eapply saved_saver; [| |apply resolve_place|]|].
      by rewrite <- app_assoc.
    + assert (Ea : after_node init n v (before_node run n s) = (Ok tt, s)) by (unfold after_node, before_node; by rewrite En).
      rewrite Ea. destruct (IH s Hr' Hs) as (ms & Hms & ->). exists ms. split; [by constructor|]. done.
  - cbn [run_nodes map]. cbn zeta. rewrite before_cwd, Hs. destruct (tn_saver n) eqn:En; [by destruct (Hr n (TRaises e)) as (v & p & [=] & _); [left|]|].
    exists []. split; [constructor|]. rewrite app_nil_r. unfold after_node, before_node. rewrite En. cbn. subst. by destruct s.
Qed.

Lemma execute_fresh (q : request V) given ni vs bs r (s : st) : rq_inputs q = Some given -> inputs_of given (rq_graph q) ni -> ran (rq_nodes q) vs bs r -> recordable (rq_nodes q) ->
  ts_cwd s = init ->
  exists mods mats s', saved run vs mats /\
    execute init run rid absolute q s = (r, s', map (fun n => (n, if tn_saver n then run else init)) bs) /\ ts_cwd s' = init /\
    (forall m, m ∈ mods <-> m ∈ ts_modules s \/ exists n, n ∈ rq_graph q /\ gn_module n = Some m) /\ (NoDup (ts_modules s) -> NoDup mods) /\
    ts_cache s' = dset (ts_cache s) rid (RunRecord (match r with Ok _ => true | Err _ => false end) (rq_version q) mods (ts_config s) (ts_inputs s ++ ni)
       (match rq_overrides q with Some (o :: os) => o :: os | _ => ts_overrides s end) (ts_materializers s ++ mats)).
Proof.
  intros Hi Hin Hran Hrec Hs. destruct (look_inputs given (rq_graph q) (ts_modules s) (ts_inputs s) ni Hin) as (mods & El & Hmods & Hnd).
  unfold execute, before_graph. rewrite Hi, El.
  match goal with |- context [run_nodes init run (rq_nodes q) ?s1] => destruct (nodes_saved _ _ _ _ s1 Hran Hrec Hs) as (mats & Hm & ->) end.
  cbn [ts_hash ts_modules ts_config ts_inputs ts_overrides ts_materializers ts_cache].
  exists mods, mats. eexists. split; [done|]. unfold after_graph, write. cbn [ts_cwd ts_hash ts_modules ts_config ts_inputs ts_overrides ts_materializers ts_cache].
  rewrite bool_decide_true by done. rewrite orb_true_r. split; [reflexivity|]. split; [done|]. split; [done|]. split; [done|]. done.
Qed.
End Proofs.
