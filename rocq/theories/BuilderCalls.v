(** C46: what a driver is made of, in terms of the calls of its builder. *)
From Verif Require Import Base Dict NodeModel NodeProofs BuilderModel BuilderProps.

Section Calls.
Context {V : Type}.
Implicit Types (ops pre post : list (op V)) (o : op V).

(** What was given to the builder, in order. *)
Definition modules_in ops := flat_map (fun o => match o with WithModules l => l | _ => [] end) ops.
Definition materializers_in ops := flat_map (fun o => match o with WithMaterializers l => l | _ => [] end) ops.
Definition adapters_in ops := flat_map (fun o => match o with WithAdapters l => l | WithCache id => [Adapter id true] | _ => [] end) ops.
Definition legacy_in ops := flat_map (fun o => match o with WithAdapter a => [a] | _ => [] end) ops.
Definition managers_in ops := flat_map (fun o => match o with WithManager m => [m] | _ => [] end) ops.
Definition remotes_in ops := flat_map (fun o => match o with WithRemote m => [m] | _ => [] end) ops.
Definition locals_in ops := flat_map (fun o => match o with WithLocal m => [m] | _ => [] end) ops.
Definition groupings_in ops := flat_map (fun o => match o with WithGrouping m => [m] | _ => [] end) ops.
Definition dynamic ops : Prop := Enable true ∈ ops.
Definition cached ops : Prop := exists a, a ∈ adapters_in ops /\ ad_cache a = true.
(** The value of a key of the configuration: that of the last call that gives it. *)
Definition configured ops (k : name) (v : V) : Prop :=
  exists pre cf post, ops = pre ++ WithConfig cf :: post /\ dget cf k = Some v /\ forall cf', WithConfig cf' ∈ post -> dget cf' k = None.

(** When a call is accepted, given the calls before it. *)
Definition legal pre o : Prop :=
  match o with
  | Enable allow => allow = true
  | WithAdapter _ => legacy_in pre = []
  | WithAdapters l => (exists a, a ∈ l /\ ad_cache a = true) -> ~ cached pre
  | WithCache _ => ~ cached pre
  | WithManager _ => dynamic pre /\ managers_in pre = [] /\ remotes_in pre = []
  | WithRemote _ => dynamic pre /\ remotes_in pre = [] /\ managers_in pre = []
  | WithLocal _ => dynamic pre /\ locals_in pre = [] /\ managers_in pre = []
  | WithGrouping _ => dynamic pre /\ groupings_in pre = []
  | _ => True
  end.
Definition all_legal ops : Prop := forall pre o post, ops = pre ++ o :: post -> legal pre o.
(** Configurations are dicts: keys occur once. *)
Definition dict_configs ops : Prop := forall cf, WithConfig cf ∈ ops -> NoDup (dkeys cf).

Record describes ops (b : builder) (c : dict V) : Prop := {
  de_v2 : b_v2 b = true <-> dynamic ops;
  de_modules : b_modules b = modules_in ops;
  de_mats : b_materializers b = materializers_in ops;
  de_over : b_overrides b = true <-> AllowOverrides ∈ ops;
  de_legacy : legacy_in ops = match b_legacy b with Some a => [a] | None => [] end;
  de_adapters : b_adapters b = adapters_in ops;
  de_manager : managers_in ops = match b_manager b with Some a => [a] | None => [] end;
  de_remote : remotes_in ops = match b_remote b with Some a => [a] | None => [] end;
  de_local : locals_in ops = match b_local b with Some a => [a] | None => [] end;
  de_grouping : groupings_in ops = match b_grouping b with Some a => [a] | None => [] end;
  de_config : forall k v, dget c k = Some v <-> configured ops k v;
}.

Lemma snoc_split {A} (l : list A) x (pre : list A) y (post : list A) : l ++ [x] = pre ++ y :: post ->
  (post = [] /\ pre = l /\ y = x) \/ exists post' : list A, post = post' ++ [x] /\ l = pre ++ y :: post'.
Proof.
  destruct post as [|z post _] using rev_ind; intros H.
  - apply app_inj_tail in H as [-> ->]. by left.
  - right. rewrite app_comm_cons, app_assoc in H. apply app_inj_tail in H as [-> ->]. by exists post.
Qed.
Lemma configured_snoc ops o k v : configured (ops ++ [o]) k v <->
  match o with
  | WithConfig cf => dget cf k = Some v \/ (dget cf k = None /\ configured ops k v)
  | _ => configured ops k v
  end.
Proof.
  split.
  - intros (pre & cf & post & H & Hk & Hl). apply snoc_split in H as [(-> & -> & <-)|(post' & -> & ->)]; [by left|].
    assert (configured (pre ++ WithConfig cf :: post') k v).
    { exists pre, cf, post'. split_and!; [done|done|]. intros cf' Hc. apply Hl. apply elem_of_app. by left. }
    destruct o; try done. right. split; [|done]. apply Hl. apply elem_of_app. right. by left.
  - assert (Keep : (forall cf, o = WithConfig cf -> dget cf k = None) -> configured ops k v -> configured (ops ++ [o]) k v).
    { intros Hn (pre & cf & post & -> & Hk & Hl). exists pre, cf, (post ++ [o]). split_and!; [by rewrite <- app_assoc|done|].
      intros cf' [Hc|Hc%elem_of_list_singleton]%elem_of_app; [by apply Hl|by apply Hn]. }
    destruct o; try (apply Keep; done). intros [H|[H1 H2]].
    + exists ops, c, []. split_and!; [done|done|]. by intros ? []%elem_of_nil.
    + apply Keep; [|done]. by intros ? [= <-].
Qed.

Lemma cached_spec ops b c : describes ops b c -> has_cache b = true <-> cached ops.
Proof.
  intros D. unfold has_cache, cached. rewrite (de_adapters _ _ _ D), existsb_exists. setoid_rewrite elem_of_list_In. done.
Qed.
Lemma legal_snoc ops o : all_legal (ops ++ [o]) <-> all_legal ops /\ legal ops o.
Proof.
  split.
  - intros H. split; [|by apply (H ops o [])]. intros pre o' post ->. apply (H pre o' (post ++ [o])). by rewrite <- app_assoc.
  - intros [H1 H2] pre o' post H. apply snoc_split in H as [(-> & -> & ->)|(post' & -> & ->)]; [done|]. by eapply H1.
Qed.

Lemma one_nil {A} (l : list A) (x : option A) : l = match x with Some a => [a] | None => [] end -> l = [] <-> x = None.
Proof. intros ->. by destruct x. Qed.

(** A call is accepted exactly if it is legal, and then the description still holds. *)
Lemma apply_spec ops b c o : describes ops b c -> (forall cf, o = WithConfig cf -> NoDup (dkeys cf)) ->
  match apply b c o with
  | Some (b', c') => legal ops o /\ describes (ops ++ [o]) b' c'
  | None => ~ legal ops o
  end.
Proof.
  intros D Hd.
  assert (Hcache := cached_spec _ _ _ D).
  assert (SE : forall x, x ∈ ops ++ [o] <-> x ∈ ops \/ x = o) by (intros x; by rewrite elem_of_app, elem_of_list_singleton).
  destruct D as [D1 D2 D3 D4 D5 D6 D7 D8 D9 D10 D11].
  assert (Mk : forall b' c',
    (b_v2 b' = true <-> dynamic ops \/ Enable true = o) ->
    b_modules b' = modules_in ops ++ modules_in [o] -> b_materializers b' = materializers_in ops ++ materializers_in [o] ->
    (b_overrides b' = true <-> AllowOverrides ∈ ops \/ AllowOverrides = o) ->
    legacy_in ops ++ legacy_in [o] = match b_legacy b' with Some a => [a] | None => [] end ->
    b_adapters b' = adapters_in ops ++ adapters_in [o] ->
    managers_in ops ++ managers_in [o] = match b_manager b' with Some a => [a] | None => [] end ->
    remotes_in ops ++ remotes_in [o] = match b_remote b' with Some a => [a] | None => [] end ->
    locals_in ops ++ locals_in [o] = match b_local b' with Some a => [a] | None => [] end ->
    groupings_in ops ++ groupings_in [o] = match b_grouping b' with Some a => [a] | None => [] end ->
    (forall k v, dget c' k = Some v <-> configured (ops ++ [o]) k v) -> describes (ops ++ [o]) b' c').
  { intros b' c' H1 H2 H3 H4 H5 H6 H7 H8 H9 H10 H11.
    split; unfold modules_in, materializers_in, legacy_in, adapters_in, managers_in, remotes_in, locals_in, groupings_in in *;
      rewrite ?flat_map_app; try done.
    - unfold dynamic. rewrite SE, H1. done.
    - rewrite SE, H4. done. }
  destruct b as [v2 cl ms mz ov lg ads mg lo re gr]. cbn [b_v2 b_modules b_materializers b_overrides b_legacy b_adapters b_manager b_local b_remote b_grouping] in *.
  assert (Hl := one_nil _ _ D5). assert (Hm := one_nil _ _ D7). assert (Hr := one_nil _ _ D8). assert (Hlo := one_nil _ _ D9). assert (Hg := one_nil _ _ D10).
  Ltac fin Mk := apply Mk; cbn; rewrite ?app_nil_r; try done; try (intros; rewrite configured_snoc; done);
    try (split; [intros ?; left; tauto|intros [?|?]; [tauto|done]]).
  destruct o as [allow|cf|ms'|a|l|mz'|id|m|r|l|g|]; cbn [apply legal].
  - destruct allow; [|done]. split; [done|]. fin Mk. split; [by right|done].
  - split; [done|]. fin Mk. intros k v. rewrite configured_snoc. rewrite dget_dupd by by apply Hd.
    destruct (dget cf k) as [w|]; [split; [intros [= ->]; by left|intros [H|[H _]]; done]|]. rewrite D11. split; [intros H; by right|by intros [?|[_ ?]]].
  - split; [done|]. fin Mk. by rewrite D2.
  - destruct lg as [x|]; [by intros ?%Hl|]. split; [by apply Hl|]. fin Mk. by rewrite D5.
  - destruct (existsb ad_cache l) eqn:El; cbn [andb].
    + assert (Hex : exists a, a ∈ l /\ ad_cache a = true) by (apply existsb_exists in El as (a & ? & ?); exists a; by rewrite elem_of_list_In).
      destruct (has_cache _) eqn:Eh; [intros H; apply H; [done|by apply Hcache]|]. split; [intros _ Hc%Hcache; congruence|]. fin Mk. by rewrite D6.
    + split; [|fin Mk; by rewrite D6]. intros (a & Ha & Hc). exfalso. assert (existsb ad_cache l = true) by (apply existsb_exists; exists a; by rewrite <- elem_of_list_In). congruence.
  - split; [done|]. fin Mk. by rewrite D3.
  - destruct (has_cache _) eqn:Eh; [intros H; apply H; by apply Hcache|]. split; [intros Hc%Hcache; congruence|]. fin Mk. by rewrite D6.
  - destruct v2; [|intros (H & _); by apply D1 in H]. destruct mg as [x|]; [intros (_ & H & _); by apply Hm in H|].
    destruct re as [x|]; [intros (_ & _ & H); by apply Hr in H|]. split; [split_and!; [by apply D1|by apply Hm|by apply Hr]|]. fin Mk. by rewrite D7.
  - destruct v2; [|intros (H & _); by apply D1 in H]. destruct re as [x|]; [intros (_ & H & _); by apply Hr in H|].
    destruct mg as [x|]; [intros (_ & _ & H); by apply Hm in H|]. split; [split_and!; [by apply D1|by apply Hr|by apply Hm]|]. fin Mk. by rewrite D8.
  - destruct v2; [|intros (H & _); by apply D1 in H]. destruct lo as [x|]; [intros (_ & H & _); by apply Hlo in H|].
    destruct mg as [x|]; [intros (_ & _ & H); by apply Hm in H|]. split; [split_and!; [by apply D1|by apply Hlo|by apply Hm]|]. fin Mk. by rewrite D9.
  - destruct v2; [|intros (H & _); by apply D1 in H]. destruct gr as [x|]; [intros (_ & H); by apply Hg in H|].
    split; [split_and!; [by apply D1|by apply Hg]|]. fin Mk. by rewrite D10.
  - split; [done|]. fin Mk. split; [by right|done].
Qed.

(** [Builder().op1(...).op2(...)...], with the calls [ops]. *)
Definition calls ops : bstate V := run init (New :: map (Call 0) ops).
Lemma calls_snoc ops o : calls (ops ++ [o]) = step (calls ops) (Call 0 o).
Proof. unfold calls, run. by rewrite map_app, app_comm_cons, foldl_app. Qed.

Lemma calls_spec ops : dict_configs ops -> all_legal ops ->
  exists b c, calls ops = St [c] [b] [] /\ b_config b = 0 /\ describes ops b c.
Proof.
  induction ops as [|o ops IH] using rev_ind; intros Hd Hl.
  - do 2 eexists. split; [reflexivity|]. split; [done|]. split; cbn; try done.
    + split; [done|by intros []%elem_of_nil].
    + split; [done|by intros []%elem_of_nil].
    + intros k v. split; [done|]. by intros ([|] & ? & ? & ? & _).
  - apply legal_snoc in Hl as [Hl Ho]. destruct IH as (b & c & Hs & Hb & D); [intros cf Hc; apply Hd, elem_of_app; by left|done|].
    assert (Ha := apply_spec ops b c o D ltac:(intros cf ->; apply Hd, elem_of_app; right; by left)).
    rewrite calls_snoc, Hs. cbn [step st_builders st_heap]. change ([b] !! 0) with (Some b). cbn match. rewrite Hb. change (default [] ([c] !! 0)) with c.
    destruct (apply b c o) as [[b' c']|] eqn:Eap; [|done]. destruct Ha as [_ D']. exists b', c'. split_and!; [done| |done].
    apply apply_config in Eap. congruence.
Qed.

(** A driver built after legal calls is made of exactly what was given to the builder: the
    modules and materializers in the order of the calls, of each key of the configuration
    the last value, the adapters without repetitions, and the executors. *)
Theorem C46_build ops : dict_configs ops -> all_legal ops ->
  exists d, st_drivers (step (calls ops) (Build 0)) = [d] /\
    d_modules d = modules_in ops /\ d_materializers d = materializers_in ops /\
    (forall k v, dget (d_built d) k = Some v <-> configured ops k v) /\
    (d_overrides d = true <-> AllowOverrides ∈ ops) /\
    (forall x, x ∈ map ad_id (d_adapters d) <-> x ∈ map ad_id (adapters_in ops ++ legacy_in ops)) /\ NoDup (map ad_id (d_adapters d)) /\
    (dynamic ops -> d_exec d = match managers_in ops with
                               | m :: _ => GManager m (head (groupings_in ops))
                               | [] => GExecutors (head (locals_in ops)) (head (remotes_in ops)) (head (groupings_in ops))
                               end) /\
    (~ dynamic ops -> d_exec d = GDefault).
Proof.
  intros Hd Hl. destruct (calls_spec ops Hd Hl) as (b & c & Hs & Hb & D). rewrite Hs. cbn [step st_builders st_heap st_drivers].
  change ([b] !! 0) with (Some b). cbn match. rewrite Hb. change (default [] ([c] !! 0)) with c. eexists. split; [reflexivity|].
  assert (Hu : forall l seen, (forall x, x ∈ map ad_id (uniqify seen l) <-> x ∈ map ad_id l /\ x ∉ seen) /\ NoDup (map ad_id (uniqify seen l))).
  { induction l as [|a l IHl]; intros seen; cbn; [split; [|apply NoDup_nil_2]; intros x; split; [by intros []%elem_of_nil|by intros [[]%elem_of_nil _]]|].
    destruct (decide (ad_id a ∈ seen)) as [Ha|Ha].
    - destruct (IHl seen) as [I1 I2]. split; [|done]. intros x. rewrite I1, elem_of_cons. split; [tauto|]. intros [[-> | ?] ?]; [done|done].
    - destruct (IHl (ad_id a :: seen)) as [I1 I2]. split.
      + intros x. cbn. rewrite !elem_of_cons, I1, not_elem_of_cons. split; [intros [-> | (? & ? & ?)]; [split; [by left|done]|split; [by right|done]]|].
        intros [[-> | ?] ?]; [by left|]. destruct (decide (x = ad_id a)); [by left|by right].
      + cbn. apply NoDup_cons. split; [|done]. rewrite I1. intros [_ H]. apply H. by left. }
  destruct D as [D1 D2 D3 D4 D5 D6 D7 D8 D9 D10 D11]. cbn [build d_modules d_materializers d_built d_overrides d_adapters d_exec].
  split_and!; [done|done|done|done| | | |].
  - intros x. rewrite (proj1 (Hu _ _)). unfold built_adapters. rewrite D6, D5. assert (x ∉ ([] : list nat)) by apply not_elem_of_nil.
    destruct (b_legacy b); [tauto|]. rewrite app_nil_r. tauto.
  - apply Hu.
  - intros Hv%D1. unfold build_exec. rewrite Hv, D7, D8, D9, D10. by destruct (b_manager b), (b_grouping b), (b_local b), (b_remote b).
  - intros Hv. unfold build_exec. destruct (b_v2 b); [|done]. exfalso. by apply Hv, D1.
Qed.

(** After legal calls, a call raises exactly if it is not legal, and then leaves the builder as
    it was. *)
Theorem C46_rejects ops o b : dict_configs (ops ++ [o]) -> all_legal ops -> st_builders (calls ops) !! 0 = Some b ->
  (apply b (default [] (st_heap (calls ops) !! b_config b)) o = None <-> ~ legal ops o) /\
  (~ legal ops o -> calls (ops ++ [o]) = calls ops).
Proof.
  intros Hd Hl Hb. destruct (calls_spec ops) as (b' & c & Hs & Hb' & D); [intros cf Hc; apply Hd, elem_of_app; by left|done|].
  assert (Ha := apply_spec ops b' c o D ltac:(intros cf ->; apply Hd, elem_of_app; right; by left)).
  rewrite calls_snoc, Hs in *. cbn in Hb. injection Hb as <-. cbn [step st_builders st_heap].
  change ([b'] !! 0) with (Some b'). cbn match. rewrite Hb'. change (default [] ([c] !! 0)) with c.
  destruct (apply b' c o) as [[b'' c']|]; [|done]. destruct Ha as [Ha _]. split; [split; [done|by intros []]|by intros []].
Qed.
End Calls.
Print Assumptions C46_build.
Print Assumptions C46_rejects.

Definition bops : list (op nat) :=
  [WithModules [1; 2]; WithConfig [("a", 1); ("b", 1)]; WithAdapter (Adapter 9 false); Enable true; WithAdapters [Adapter 7 false; Adapter 9 false]; WithLocal 4;
   WithConfig [("b", 2)]; WithCache 8; WithGrouping 6; WithModules [3]; WithRemote 5].
Example C46_build_example : dict_configs bops /\ all_legal bops /\ ~ legal bops (WithManager 3) /\ ~ legal bops (WithCache 3) /\ ~ legal bops (WithAdapters [Adapter 7 false; Adapter 2 true]) /\
  exists d, st_drivers (step (calls bops) (Build 0)) = [d] /\
  d_built d = [("a", 1); ("b", 2)] /\ d_modules d = [1; 2; 3] /\ map ad_id (d_adapters d) = [7; 9; 8] /\ d_exec d = GExecutors (Some 4) (Some 5) (Some 6).
Proof.
  assert (NC : forall l : list (op nat), forallb (fun a => negb (ad_cache a)) (adapters_in l) = true -> ~ cached l).
  { intros l H (a & Ha & Hc). rewrite forallb_forall in H. specialize (H a). rewrite <- elem_of_list_In in H. specialize (H Ha). by rewrite Hc in H. }
  assert (C8 : cached bops) by (exists (Adapter 8 true); split; [cbn; right; right; by left|done]).
  split_and!.
  - intros cf H. repeat (apply elem_of_cons in H as [H|H]; [try done; injection H as ->; apply (bool_decide_unpack _); by vm_compute|]). by apply elem_of_nil in H.
  - intros pre o post H. unfold bops in H.
    do 11 (destruct pre as [|? pre]; [injection H as <- <-; cbn; first [done|by intros (a & Ha & Hc); apply NC|by apply NC|split_and!; try done; unfold dynamic; cbn; repeat first [by left|right]]|injection H as <- H]).
    by destruct pre.
  - intros (_ & _ & H). done.
  - intros H. by apply H.
  - intros H. apply H; [|done]. exists (Adapter 2 true). split; [right; by left|done].
  - eexists. split; [reflexivity|]. split_and!; reflexivity.
Qed.
