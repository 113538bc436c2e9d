(** C46: copies of builders, and drivers after they are built. *)
From Verif Require Import Base Dict NodeModel BuilderModel.

Section Props.
Context {V : Type}.
Implicit Types (s : bstate V) (b : builder) (c : cmd V).

(** What the driver that builder [i] would build now is made of. *)
Definition view s (i : nat) : option (dict V * list nat * list nat * bool * list adapter * gexec) :=
  b ← st_builders s !! i;
  let d := build b (default [] (st_heap s !! b_config b)) in
  Some (d_built d, d_modules d, d_materializers d, d_overrides d, d_adapters d, d_exec d).

(** Builders have configurations of their own, drivers the one of a builder. *)
Definition ok s : Prop :=
  (forall i b, st_builders s !! i = Some b -> b_config b < length (st_heap s)) /\
  (forall i j b b', st_builders s !! i = Some b -> st_builders s !! j = Some b' -> b_config b = b_config b' -> i = j) /\
  (forall d, d ∈ st_drivers s -> exists i b, st_builders s !! i = Some b /\ b_config b = d_config d).

Lemma apply_config b (cf : dict V) o b' cf' : apply b cf o = Some (b', cf') -> b_config b' = b_config b.
Proof.
  destruct b, o; cbn; intros H; repeat (case_match; try done); by injection H as <- <-.
Qed.
Lemma apply_same b (cf : dict V) o b' cf' : apply b cf o = Some (b', cf') -> (forall cfg, o <> WithConfig cfg) -> cf' = cf.
Proof.
  intros H Hn. destruct b, o; cbn in H; repeat (case_match; try done); try by injection H as <- <-. by destruct (Hn c).
Qed.

Lemma ok_step s c : ok s -> ok (step s c).
Proof.
  intros (H1 & H2 & H3). destruct c as [|i|i o|i]; cbn [step].
  - split_and!; cbn.
    + intros j b Hj. rewrite app_length. cbn. apply lookup_app_Some in Hj as [Hj | [_ Hj]]; [specialize (H1 _ _ Hj); lia|].
      apply list_lookup_singleton_Some in Hj as [_ <-]. cbn. lia.
    + intros j k b b' Hj Hk Heq. apply lookup_app_Some in Hj as [Hj | [Hj1 Hj]], Hk as [Hk | [Hk1 Hk]].
      * by eapply H2.
      * apply list_lookup_singleton_Some in Hk as [_ <-]. cbn in Heq. specialize (H1 _ _ Hj). lia.
      * apply list_lookup_singleton_Some in Hj as [_ <-]. cbn in Heq. specialize (H1 _ _ Hk). lia.
      * apply list_lookup_singleton_Some in Hj as [? _], Hk as [? _]. lia.
    + intros d Hd. destruct (H3 d Hd) as (j & b & Hj & Hb). exists j, b. split; [|done]. by apply lookup_app_l_Some.
  - destruct (st_builders s !! i) as [b0|] eqn:E; [|done]. split_and!; cbn.
    + intros j b Hj. rewrite app_length. cbn. apply lookup_app_Some in Hj as [Hj | [_ Hj]]; [specialize (H1 _ _ Hj); lia|].
      apply list_lookup_singleton_Some in Hj as [_ <-]. cbn. lia.
    + intros j k b b' Hj Hk Heq. apply lookup_app_Some in Hj as [Hj | [Hj1 Hj]], Hk as [Hk | [Hk1 Hk]].
      * by eapply H2.
      * apply list_lookup_singleton_Some in Hk as [_ <-]. cbn in Heq. specialize (H1 _ _ Hj). lia.
      * apply list_lookup_singleton_Some in Hj as [_ <-]. cbn in Heq. specialize (H1 _ _ Hk). lia.
      * apply list_lookup_singleton_Some in Hj as [? _], Hk as [? _]. lia.
    + intros d Hd. destruct (H3 d Hd) as (j & b & Hj & Hb). exists j, b. split; [|done]. by apply lookup_app_l_Some.
  - destruct (st_builders s !! i) as [b0|] eqn:E; [|done]. destruct (apply b0 _ o) as [[b1 c1]|] eqn:Ea; [|done].
    pose proof (apply_config _ _ _ _ _ Ea) as Hc. pose proof (lookup_lt_Some _ _ _ E) as Hl. split_and!; cbn.
    + intros j b Hj. rewrite insert_length. apply list_lookup_insert_Some in Hj as [(<- & <- & _) | [_ Hj]]; [rewrite Hc|]; by eapply H1.
    + intros j k b b' Hj Hk Heq. apply list_lookup_insert_Some in Hj as [(<- & <- & _) | [Hj1 Hj]], Hk as [(<- & <- & _) | [Hk1 Hk]].
      * done.
      * rewrite Hc in Heq. by eapply H2.
      * rewrite Hc in Heq. by eapply H2.
      * by eapply H2.
    + intros d Hd. destruct (H3 d Hd) as (j & b & Hj & Hb). destruct (decide (j = i)) as [-> | Hn].
      * exists i, b1. rewrite list_lookup_insert by done. split; [done|]. rewrite Hc. congruence.
      * exists j, b. by rewrite list_lookup_insert_ne.
  - destruct (st_builders s !! i) as [b0|] eqn:E; [|done]. pose proof (lookup_lt_Some _ _ _ E) as Hl. split_and!; cbn.
    + intros j b Hj. apply list_lookup_insert_Some in Hj as [(<- & <- & _) | [_ Hj]]; cbn; by eapply H1.
    + intros j k b b' Hj Hk Heq. apply list_lookup_insert_Some in Hj as [(<- & <- & _) | [Hj1 Hj]], Hk as [(<- & <- & _) | [Hk1 Hk]]; cbn in Heq; try done; by eapply H2.
    + intros d [Hd | Hd%elem_of_list_singleton]%elem_of_app.
      * destruct (H3 d Hd) as (j & b & Hj & Hb). destruct (decide (j = i)) as [-> | Hn].
        -- exists i, (after_build b0). rewrite list_lookup_insert by done. cbn. split; [done|]. congruence.
        -- exists j, b. by rewrite list_lookup_insert_ne.
      * subst d. cbn. exists i, (after_build b0). by rewrite list_lookup_insert.
Qed.
Lemma ok_run cs : forall s, ok s -> ok (run s cs).
Proof. induction cs as [|c cs IH]; intros s H; [done|]. cbn. by apply IH, ok_step. Qed.
Lemma ok_init : ok init.
Proof. split_and!; [by intros ? ? H|by intros ? ? ? ? H|by intros ? []%elem_of_nil]. Qed.

Lemma uniqify_app seen l a : ad_id a ∈ map ad_id l ++ seen -> uniqify seen (l ++ [a]) = uniqify seen l.
Proof.
  revert seen. induction l as [|x l IH]; intros seen H; cbn in *.
  - by rewrite decide_True.
  - destruct (decide (ad_id x ∈ seen)) as [Hx|Hx].
    + apply IH. apply elem_of_cons in H as [-> | H]; [|done]. apply elem_of_app. by right.
    + f_equal. apply IH. apply elem_of_cons in H as [-> | H]; [apply elem_of_app; right; by left|].
      apply elem_of_app in H as [H | H]; apply elem_of_app; [by left|right; by right].
Qed.
Lemma built_again b : uniqify [] (built_adapters (after_build b)) = uniqify [] (built_adapters b).
Proof.
  unfold built_adapters at 1. cbn [after_build b_legacy b_adapters]. unfold built_adapters. destruct (b_legacy b) as [a|]; [|done].
  apply uniqify_app. rewrite app_nil_r, map_app. apply elem_of_app. right. by left.
Qed.

Lemma view_step s c j : ok s -> j < length (st_builders s) -> (forall o, c <> Call j o) -> view (step s c) j = view s j.
Proof.
  intros (H1 & H2 & H3) Hj Hc. unfold view. destruct (lookup_lt_is_Some_2 _ _ Hj) as [b Hb].
  assert (Hh : forall (l : list (dict V)), (st_heap s ++ l) !! b_config b = st_heap s !! b_config b) by (intros; apply lookup_app_l; by eapply H1).
  destruct c as [|i|i o|i]; cbn [step].
  - cbn. rewrite lookup_app_l by done. rewrite Hb. cbn. by rewrite Hh.
  - destruct (st_builders s !! i) as [b0|] eqn:E; [|done]. cbn. rewrite lookup_app_l by done. rewrite Hb. cbn. by rewrite Hh.
  - destruct (st_builders s !! i) as [b0|] eqn:E; [|done]. destruct (apply b0 _ o) as [[b1 c1]|] eqn:Ea; [|done].
    assert (Hij : i <> j) by (intros ->; by apply (Hc o)). cbn. rewrite list_lookup_insert_ne by done. rewrite Hb. cbn.
    rewrite list_lookup_insert_ne; [done|]. intros Heq. apply Hij. by eapply H2.
  - destruct (st_builders s !! i) as [b0|] eqn:E; [|done]. cbn. destruct (decide (i = j)) as [-> | Hij].
    + rewrite list_lookup_insert by done. rewrite Hb. cbn. rewrite built_again.
      assert (b0 = b) as -> by congruence. done.
    + rewrite list_lookup_insert_ne by done. by rewrite Hb.
Qed.
Lemma builders_grow s c : length (st_builders s) <= length (st_builders (step s c)).
Proof.
  destruct c as [|i|i o|i]; cbn [step]; [cbn; rewrite app_length; cbn; lia|..].
  - destruct (st_builders s !! i); [|done]. cbn. rewrite app_length. cbn. lia.
  - destruct (st_builders s !! i); [|done]. destruct (apply _ _ _) as [[? ?]|]; [|done]. cbn. by rewrite insert_length.
  - destruct (st_builders s !! i); [|done]. cbn. by rewrite insert_length.
Qed.

(** Whatever is done to other builders, and however often drivers are built, a builder
    keeps building the same driver. *)
Theorem C46_independent (before after : list (cmd V)) j :
  let s := run init before in
  j < length (st_builders s) -> (forall o, Call j o ∉ after) -> view (run s after) j = view s j.
Proof.
  intros s. assert (O : ok s) by apply ok_run, ok_init. revert O. generalize s. clear s before.
  induction after as [|c cs IH]; intros s O Hj Hc; [done|]. change (run s (c :: cs)) with (run (step s c) cs). rewrite IH.
  - apply view_step; [done|done|]. intros o ->. apply (Hc o). by left.
  - by apply ok_step.
  - pose proof (builders_grow s c). lia.
  - intros o Ho. apply (Hc o). by right.
Qed.

(** A copy builds the driver that the original would build, provided that
    allow_module_overrides() has not been called. *)
Theorem C46_copy_partial (before : list (cmd V)) i b :
  let s := run init before in
  st_builders s !! i = Some b -> b_overrides b = false ->
  st_builders (step s (Copy i)) !! length (st_builders s) <> None /\ view (step s (Copy i)) (length (st_builders s)) = view s i.
Proof.
  intros s Hi Ho. unfold view. cbn [step]. rewrite Hi. cbn. rewrite list_lookup_middle by done. split; [done|]. cbn.
  rewrite list_lookup_middle by done. by rewrite Ho.
Qed.

(** A driver keeps the configuration it was built with, if its builder's configuration is
    not extended afterwards. *)
Theorem C46_driver_partial (before after : list (cmd V)) i b :
  let s := run init before in
  st_builders s !! i = Some b ->
  (forall cf, Call i (WithConfig cf) ∉ after) ->
  exists d, st_drivers (step s (Build i)) = st_drivers s ++ [d] /\
    exec_config (run (step s (Build i)) after) d = d_built d /\ d ∈ st_drivers (run (step s (Build i)) after).
Proof.
  intros s Hi Hc. exists (build b (default [] (st_heap s !! b_config b))). cbn [step]. rewrite Hi. split; [done|].
  set (d := build b _). set (s1 := St _ _ _).
  assert (O : ok s1).
  { assert (E1 : s1 = step s (Build i)) by (cbn; by rewrite Hi). rewrite E1. apply ok_step, ok_run, ok_init. }
  assert (B1 : exists b', st_builders s1 !! i = Some b' /\ b_config b' = b_config b).
  { exists (after_build b). split; [|done]. cbn. rewrite list_lookup_insert; [done|]. by eapply lookup_lt_Some. }
  assert (C1 : exec_config s1 d = d_built d) by done.
  assert (D1 : d ∈ st_drivers s1) by (cbn; apply elem_of_app; right; by left).
  revert O B1 C1 D1. generalize s1. clear s1. induction after as [|c cs IH]; intros s1 O B1 C1 D1; [done|]. change (run s1 (c :: cs)) with (run (step s1 c) cs). apply IH.
  - intros cf Hin. apply (Hc cf). by right.
  - by apply ok_step.
  - destruct B1 as (b1 & B1 & B2). destruct c as [|k|k o|k]; cbn [step].
    + exists b1. split; [|done]. cbn. by apply lookup_app_l_Some.
    + destruct (st_builders s1 !! k) as [b0|] eqn:E; [|by exists b1]. exists b1. split; [|done]. cbn. by apply lookup_app_l_Some.
    + destruct (st_builders s1 !! k) as [b0|] eqn:E; [|by exists b1]. destruct (apply b0 _ o) as [[b2 c2]|] eqn:Ea; [|by exists b1].
      cbn. destruct (decide (k = i)) as [-> | Hn].
      * exists b2. rewrite list_lookup_insert by by eapply lookup_lt_Some. split; [done|]. rewrite (apply_config _ _ _ _ _ Ea). congruence.
      * exists b1. by rewrite list_lookup_insert_ne.
    + destruct (st_builders s1 !! k) as [b0|] eqn:E; [|by exists b1]. cbn. destruct (decide (k = i)) as [-> | Hn].
      * exists (after_build b0). rewrite list_lookup_insert by by eapply lookup_lt_Some. cbn. split; [done|]. congruence.
      * exists b1. by rewrite list_lookup_insert_ne.
  - destruct B1 as (b1 & B1 & B2). destruct O as (H1 & H2 & _). rewrite <- C1. unfold exec_config.
    assert (Hd : d_config d = b_config b1) by (cbn; done). rewrite Hd.
    assert (Hh : forall l : list (dict V), (st_heap s1 ++ l) !! b_config b1 = st_heap s1 !! b_config b1) by (intros; apply lookup_app_l; by eapply H1).
    destruct c as [|k|k o|k]; cbn [step].
    + cbn. by rewrite Hh.
    + destruct (st_builders s1 !! k) as [b0|] eqn:E; [|done]. cbn. by rewrite Hh.
    + destruct (st_builders s1 !! k) as [b0|] eqn:E; [|done]. destruct (apply b0 _ o) as [[b2 c2]|] eqn:Ea; [|done]. cbn.
      destruct (decide (k = i)) as [-> | Hn].
      * assert (b0 = b1) as -> by congruence. rewrite list_lookup_insert by by eapply H1. cbn. eapply apply_same; [done|].
        intros cf ->. apply (Hc cf). by left.
      * rewrite list_lookup_insert_ne; [done|]. intros Heq. apply Hn. by eapply H2.
    + destruct (st_builders s1 !! k) as [b0|] eqn:E; [|done]. done.
  - destruct c as [|k|k o|k]; cbn [step]; [done|by destruct (st_builders s1 !! k)| |].
    + destruct (st_builders s1 !! k); [|done]. by destruct (apply _ _ _) as [[? ?]|].
    + destruct (st_builders s1 !! k); [|done]. cbn. apply elem_of_app. by left.
Qed.
End Props.

(** ** Concrete cases *)
(** b = Builder().enable_dynamic_execution(..).with_config({"k": 1}).with_modules(m).with_adapter(a).with_local_executor(e) *)
Definition bprog : list (cmd nat) :=
  [New; Call 0 (Enable true); Call 0 (WithConfig [("k", 1)]); Call 0 (WithModules [10]); Call 0 (WithAdapter (Adapter 5 false)); Call 0 (WithLocal 3)].
Example ex_copy : view (step (run init bprog) (Copy 0)) 1 = Some ([("k", 1)], [10], [], false, [Adapter 5 false], GExecutors (Some 3) None None) /\
  view (step (run init bprog) (Copy 0)) 1 = view (run init bprog) 0.
Proof. split; by vm_compute. Qed.
(** Changes to the copy and building do not matter for the original, and vice versa. *)
Definition bmore : list (cmd nat) := [Copy 0; Call 1 (WithConfig [("k", 2)]); Call 1 (WithModules [11]); Build 0; Build 0; Build 1].
Example ex_independent : view (run (run init bprog) bmore) 0 = view (run init bprog) 0 /\
  view (run (run init bprog) bmore) 1 = Some ([("k", 2)], [10; 11], [], false, [Adapter 5 false], GExecutors (Some 3) None None) /\
  forall o, Call 0 o ∉ bmore.
Proof. split_and!; [by vm_compute..|]. intros o H. repeat (apply elem_of_cons in H as [H | H]; [done|]). by apply elem_of_nil in H. Qed.
Example ex_driver : exists d, st_drivers (run init (bprog ++ [Build 0])) = [d] /\ d_built d = [("k", 1)] /\
  exec_config (run init (bprog ++ [Build 0; Copy 0; Call 1 (WithConfig [("k", 2)]); Call 0 (WithModules [12])])) d = [("k", 1)].
Proof. eexists. split_and!; [reflexivity|by vm_compute..]. Qed.

(** ** Refutations *)
(** A copy loses allow_module_overrides(). *)
Theorem C46_overrides_refuted : exists before i,
  (d ← view (V := nat) (run init before) i; Some d.1.1.2) = Some true /\
  (d ← view (V := nat) (step (run init before) (Copy i)) (length (st_builders (run init before))); Some d.1.1.2) = Some false.
Proof. exists [New; Call 0 AllowOverrides], 0. split; by vm_compute. Qed.

(** with_config on a builder changes the configuration with which a driver that it has
    already built executes, though its graph was built with the former one. *)
Theorem C46_built_driver_refuted : exists before i cf d,
  st_drivers (V := nat) (run init (before ++ [Build i])) = [d] /\ d_built d = [("k", 1)] /\
  exec_config (run init (before ++ [Build i; Call i (WithConfig cf)])) d = [("k", 2)] /\
  (* and that of a second driver of the same builder *)
  map (exec_config (run init (before ++ [Build i; Call i (WithConfig cf); Build i]))) (st_drivers (run init (before ++ [Build i; Call i (WithConfig cf); Build i]))) = [[("k", 2)]; [("k", 2)]] /\
  map d_built (st_drivers (run init (before ++ [Build i; Call i (WithConfig cf); Build i]))) = [[("k", 1)]; [("k", 2)]].
Proof. exists [New; Call 0 (WithConfig [("k", 1)])], 0, [("k", 2)]. eexists. split_and!; [reflexivity|by vm_compute..]. Qed.

(** Building a driver changes the order of the adapters of later drivers. *)
Theorem C46_build_order_refuted : exists before i o,
  (d ← view (V := nat) (run init (before ++ [Call i o])) i; Some (map ad_id d.1.2)) = Some [7; 5] /\
  (d ← view (V := nat) (run init (before ++ [Build i; Call i o])) i; Some (map ad_id d.1.2)) = Some [5; 7].
Proof. exists [New; Call 0 (WithAdapter (Adapter 5 false))], 0, (WithAdapters [Adapter 7 false]). split; by vm_compute. Qed.

(** A local executor and an execution manager: rejected in one order ("these are
    disjoint"), and silently ignored in the other. *)
Theorem C46_disjoint_refuted : exists b l m, apply (V := nat) b [] (WithManager m) <> None /\
  (b' ← apply (V := nat) b [] (WithManager m); apply b'.1 b'.2 (WithLocal l)) = None /\
  (b' ← apply (V := nat) b [] (WithLocal l); b'' ← apply b'.1 b'.2 (WithManager m); Some (build_exec b''.1)) = Some (GManager m None).
Proof. exists (B true 0 [] [] false None [] None None None None), 1, 2. split_and!; [done|by vm_compute..]. Qed.

Print Assumptions C46_independent.
Print Assumptions C46_copy_partial.
Print Assumptions C46_driver_partial.
Print Assumptions C46_overrides_refuted.
Print Assumptions C46_built_driver_refuted.
Print Assumptions C46_build_order_refuted.
Print Assumptions C46_disjoint_refuted.
