From Verif Require Import Base Dict ExecModel ExecSpec ExecProofs ExecResults LifecycleModel.

(** ** Adapter sets *)
Global Instance adapter_eq_dec : EqDecision adapter.
Proof. solve_decision. Defined.

(** [before l a b]: [a] occurs in [l] at a place where [b] has not occurred yet. *)
Definition before {A} (l : list A) (a b : A) : Prop := exists l1 l2, l = l1 ++ a :: l2 /\ b ∉ l1.

Lemma before_cons {A} (l : list A) c a b : before l a b -> c <> b -> before (c :: l) a b.
Proof.
  intros (l1 & l2 & -> & Hn) Hne. exists (c :: l1), l2. split; [done|].
  intros [?|?]%elem_of_cons; congruence.
Qed.

Section Sets.
Variable l0 : list adapter.
(** Object identity. *)
Hypothesis Hid : forall a b, a ∈ l0 -> b ∈ l0 -> ad_id a = ad_id b -> a = b.

Lemma uniqify_sub seen l a : a ∈ uniqify seen l -> a ∈ l /\ ad_id a ∉ seen.
Proof.
  revert seen. induction l as [|b l IH]; intros seen; cbn [uniqify]; [by intros ?%elem_of_nil|].
  destruct (decide (ad_id b ∈ seen)) as [Hb|Hb].
  - intros [? ?]%IH. split; [by right|done].
  - intros [->|[H1 H2]%IH]%elem_of_cons; [split; [by left|done]|]. split; [by right|].
    intros ?. apply H2. by right.
Qed.

Lemma uniqify_nodup seen l : NoDup (map ad_id (uniqify seen l)).
Proof.
  revert seen. induction l as [|b l IH]; intros seen; cbn [uniqify]; [constructor|].
  destruct (decide (ad_id b ∈ seen)); [apply IH|]. cbn. apply NoDup_cons. split; [|apply IH].
  rewrite elem_of_list_In, in_map_iff. intros (c & Heq & Hc). apply elem_of_list_In in Hc.
  apply uniqify_sub in Hc as [_ Hc]. apply Hc. rewrite Heq. by left.
Qed.

Lemma uniqify_complete seen l : l ⊆ l0 -> forall a, a ∈ l -> ad_id a ∉ seen -> a ∈ uniqify seen l.
Proof.
  revert seen. induction l as [|b l IH]; intros seen Hl a Ha Hs; cbn [uniqify]; [by apply elem_of_nil in Ha|].
  assert (Hl' : l ⊆ l0) by (intros c Hc; apply Hl; by right).
  destruct (decide (ad_id b ∈ seen)) as [Hb|Hb].
  - apply elem_of_cons in Ha as [->|Ha]; [done|]. by apply IH.
  - apply elem_of_cons in Ha as [->|Ha]; [by left|].
    destruct (decide (ad_id a = ad_id b)) as [Heq|Hne].
    + assert (a = b) as ->; [|by left]. apply Hid; [|apply Hl; by left|done]. by apply Hl'.
    + right. apply IH; [done|done|]. intros [?|?]%elem_of_cons; done.
Qed.

Lemma uniqify_order seen l : l ⊆ l0 -> forall u1 a u2 b, uniqify seen l = u1 ++ a :: u2 -> b ∈ u2 -> before l a b.
Proof.
  revert seen. induction l as [|c l IH]; intros seen Hl u1 a u2 b Heq Hb; cbn [uniqify] in Heq; [by destruct u1|].
  assert (Hl' : l ⊆ l0) by (intros d Hd; apply Hl; by right).
  destruct (decide (ad_id c ∈ seen)) as [Hc|Hc].
  - apply before_cons; [by eapply IH|]. intros ->.
    assert (Hin : b ∈ uniqify seen l) by (rewrite Heq; apply elem_of_app; right; by right).
    apply uniqify_sub in Hin as [_ ?]. done.
  - destruct u1 as [|c' u1]; injection Heq as <- Heq.
    + exists [], l. split; [done|by intros ?%elem_of_nil].
    + apply before_cons; [by eapply IH|]. intros ->.
      assert (Hin : b ∈ uniqify (ad_id b :: seen) l) by (rewrite Heq; apply elem_of_app; right; by right).
      apply uniqify_sub in Hin as [_ Hn]. apply Hn. by left.
Qed.
End Sets.

(** The table of hooks (and likewise of methods). *)
Section Table.
Variable u : list adapter.
(** No custom [==]. *)
Hypothesis Heq : forall a b, a ∈ u -> b ∈ u -> ad_eq a = ad_eq b -> a = b.

Lemma py_in_iff a l : a ∈ u -> l ⊆ u -> py_in a l = true <-> a ∈ l.
Proof.
  intros Ha Hl. unfold py_in. rewrite existsb_exists. split.
  - intros (b & Hb & He). apply elem_of_list_In in Hb. apply Nat.eqb_eq in He.
    rewrite (Heq a b Ha (Hl b Hb) He). done.
  - intros Hin. exists a. split; [by apply elem_of_list_In|]. by apply Nat.eqb_eq.
Qed.

Lemma add_hook_get m a h h' : a ∈ u -> dlist (dget m h) ⊆ u ->
  dlist (dget (add_hook m a h) h') =
  dlist (dget m h') ++ (if decide (h' = h /\ a ∉ dlist (dget m h)) then [a] else []).
Proof.
  intros Ha Hu. unfold add_hook. destruct (py_in a (dlist (dget m h))) eqn:Hp.
  - apply py_in_iff in Hp; [|done|done]. rewrite decide_False; [by rewrite app_nil_r|]. intros [-> Hn]. done.
  - assert (Hn : a ∉ dlist (dget m h)).
    { intros Hc. apply (py_in_iff a (dlist (dget m h))) in Hc; [congruence|done|done]. }
    destruct (decide (h' = h)) as [->|Hne].
    + rewrite dget_dset_eq. by rewrite decide_True.
    + rewrite dget_dset_ne by done. rewrite decide_False; [by rewrite app_nil_r|]. by intros [? _].
Qed.

Lemma add_hooks_get hs a h' : a ∈ u -> forall m, (forall h, dlist (dget m h) ⊆ u) ->
  dlist (dget (foldl (fun m h => add_hook m a h) m hs) h') =
    dlist (dget m h') ++ (if decide (h' ∈ hs /\ a ∉ dlist (dget m h')) then [a] else []).
Proof.
  intros Ha. induction hs as [|h hs IH]; intros m Hm; cbn [foldl].
  - rewrite decide_False; [by rewrite app_nil_r|]. by intros [?%elem_of_nil _].
  - rewrite IH.
    2:{ intros h2. rewrite add_hook_get by done. intros x [?|Hx]%elem_of_app; [by eapply Hm|].
        destruct (decide _); [by apply elem_of_list_singleton in Hx as ->|by apply elem_of_nil in Hx]. }
    rewrite add_hook_get by done. rewrite <-app_assoc. f_equal.
    destruct (decide (h' = h /\ a ∉ dlist (dget m h))) as [[-> Hn]|Hn].
    + rewrite (decide_False (P := _ /\ a ∉ dlist _ ++ [a])).
      2:{ intros [_ Hc]. apply Hc, elem_of_app. right. by left. }
      rewrite decide_True; [done|]. split; [by left|done].
    + rewrite app_nil_r. cbn [app]. destruct (decide (h' ∈ hs /\ a ∉ dlist (dget m h'))) as [[? ?]|Hn'].
      * rewrite decide_True; [done|]. split; [by right|done].
      * rewrite decide_False; [done|]. intros [[->|?]%elem_of_cons ?]; [by apply Hn|by apply Hn'].
Qed.

Lemma lifecycle_hooks_get l h : NoDup l -> l ⊆ u ->
  dlist (dget (lifecycle_hooks l) h) = filter (fun a => h ∈ ad_hooks a) l.
Proof.
  intros Hnd Hl. unfold lifecycle_hooks.
  assert (H : forall m, (forall h, dlist (dget m h) ⊆ u) -> (forall a h, a ∈ l -> a ∉ dlist (dget m h)) ->
     dlist (dget (foldl add_hooks m l) h) = dlist (dget m h) ++ filter (fun a => h ∈ ad_hooks a) l).
  { induction l as [|a l IH]; intros m Hm Hnin; cbn [foldl]; [by rewrite app_nil_r|].
    apply NoDup_cons in Hnd as [Ha Hnd].
    assert (Hau : a ∈ u) by (apply Hl; by left).
    assert (Hget : forall h', dlist (dget (add_hooks m a) h') =
       dlist (dget m h') ++ (if decide (h' ∈ ad_hooks a) then [a] else [])).
    { intros h'. unfold add_hooks. rewrite add_hooks_get by done. f_equal.
      destruct (decide (h' ∈ ad_hooks a)) as [Hh|Hh].
      - rewrite decide_True; [done|]. split; [done|]. apply Hnin. by left.
      - rewrite decide_False; [done|]. by intros [? _]. }
    rewrite IH; [|done|intros b Hb; apply Hl; by right| |].
    - rewrite Hget, <-app_assoc. f_equal. rewrite ?with_method_cons, ?filter_cons. repeat case_decide; done.
    - intros h'. rewrite Hget. intros x [?|Hx]%elem_of_app; [by eapply Hm|].
      destruct (decide _); [by apply elem_of_list_singleton in Hx as ->|by apply elem_of_nil in Hx].
    - intros b h' Hb. rewrite Hget. intros [Hc|Hc]%elem_of_app; [by eapply Hnin; [right|]|].
      destruct (decide _); [|by apply elem_of_nil in Hc]. apply elem_of_list_singleton in Hc as ->. done. }
  rewrite H; [done| |].
  - intros h' x Hx. by apply elem_of_nil in Hx.
  - intros a h' _ Hx. by apply elem_of_nil in Hx.
Qed.
End Table.

(** Methods use the same table construction on [ad_methods]. *)
Definition swap (a : adapter) : adapter := Adapter (ad_id a) (ad_eq a) (ad_methods a) (ad_hooks a).
Lemma swap_swap a : swap (swap a) = a.
Proof. by destruct a. Qed.

Definition with_method (h : string) (l : list adapter) : list adapter := filter (fun a => h ∈ ad_methods a) l.
Lemma elem_with_method h l a : a ∈ with_method h l <-> h ∈ ad_methods a /\ a ∈ l.
Proof. unfold with_method. by rewrite elem_of_list_filter. Qed.
Lemma NoDup_with_method h l : NoDup l -> NoDup (with_method h l).
Proof. intros ?. unfold with_method. by apply NoDup_filter. Qed.
Lemma with_method_cons h a l : with_method h (a :: l) = if decide (h ∈ ad_methods a) then a :: with_method h l else with_method h l.
Proof. unfold with_method. rewrite filter_cons. repeat case_decide; done. Qed.

Section Methods.
Variable u : list adapter.
Hypothesis Heq : forall a b, a ∈ u -> b ∈ u -> ad_eq a = ad_eq b -> a = b.

Lemma add_method_hook m a h : add_method m a h = add_hook m a h.
Proof. done. Qed.

Lemma lifecycle_methods_get l h : NoDup l -> l ⊆ u ->
  dlist (dget (lifecycle_methods l) h) = with_method h l.
Proof.
  intros Hnd Hl. unfold lifecycle_methods.
  assert (H : forall m, (forall h, dlist (dget m h) ⊆ u) -> (forall a h, a ∈ l -> a ∉ dlist (dget m h)) ->
     dlist (dget (foldl add_methods m l) h) = dlist (dget m h) ++ with_method h l).
  { induction l as [|a l IH]; intros m Hm Hnin; cbn [foldl]; [by rewrite app_nil_r|].
    apply NoDup_cons in Hnd as [Ha Hnd].
    assert (Hau : a ∈ u) by (apply Hl; by left).
    assert (Hget : forall h', dlist (dget (add_methods m a) h') =
       dlist (dget m h') ++ (if decide (h' ∈ ad_methods a) then [a] else [])).
    { intros h'. unfold add_methods. change (fun m h => add_method m a h) with (fun m h => add_hook m a h).
      rewrite (add_hooks_get u Heq) by done. f_equal.
      destruct (decide (h' ∈ ad_methods a)) as [Hh|Hh].
      - rewrite decide_True; [done|]. split; [done|]. apply Hnin. by left.
      - rewrite decide_False; [done|]. by intros [? _]. }
    rewrite IH; [|done|intros b Hb; apply Hl; by right| |].
    - rewrite Hget, <-app_assoc. f_equal. rewrite ?with_method_cons, ?filter_cons. repeat case_decide; done.
    - intros h'. rewrite Hget. intros x [?|Hx]%elem_of_app; [by eapply Hm|].
      destruct (decide _); [by apply elem_of_list_singleton in Hx as ->|by apply elem_of_nil in Hx].
    - intros b h' Hb. rewrite Hget. intros [Hc|Hc]%elem_of_app; [by eapply Hnin; [right|]|].
      destruct (decide _); [|by apply elem_of_nil in Hc]. apply elem_of_list_singleton in Hc as ->. done. }
  rewrite H; [done| |].
  - intros h' x Hx. by apply elem_of_nil in Hx.
  - intros a h' _ Hx. by apply elem_of_nil in Hx.
Qed.

Lemma methods_keys_nodup (l : list adapter) : NoDup (dkeys (lifecycle_methods l)).
Proof.
  unfold lifecycle_methods.
  assert (H : forall l m, NoDup (dkeys m) -> NoDup (dkeys (foldl add_methods m l))).
  { clear. intros l. induction l as [|a l IH]; intros m Hm; cbn [foldl]; [done|]. apply IH. unfold add_methods.
    clear IH. revert m Hm. induction (ad_methods a) as [|h hs IHh]; intros m Hm; cbn [foldl]; [done|].
    apply IHh. unfold add_method. destruct (py_in _ _); [done|]. by apply NoDup_dkeys_dset. }
  apply H. constructor.
Qed.
End Methods.

Section SetResults.
Variable l : list adapter.
Hypothesis Hid : forall a b, a ∈ l -> b ∈ l -> ad_id a = ad_id b -> a = b.
Hypothesis Heq : forall a b, a ∈ l -> b ∈ l -> ad_eq a = ad_eq b -> a = b.

Lemma uniq_in a : a ∈ uniqify [] l <-> a ∈ l.
Proof.
  split; [by intros [? _]%uniqify_sub|]. intros Ha. eapply (uniqify_complete l Hid); [done|done|by intros ?%elem_of_nil].
Qed.
Lemma uniq_nodup : NoDup (uniqify [] l).
Proof. pose proof (uniqify_nodup [] l) as H. by apply NoDup_fmap_1 in H. Qed.
Lemma uniq_eq a b : a ∈ uniqify [] l -> b ∈ uniqify [] l -> ad_eq a = ad_eq b -> a = b.
Proof. intros Ha%uniq_in Hb%uniq_in. by apply Heq. Qed.

Lemma make_set_hooks s h : make_set l = Some s ->
  NoDup (hooks_of s h) /\
  (forall a, a ∈ hooks_of s h <-> a ∈ l /\ h ∈ ad_hooks a) /\
  (forall u1 a u2 b, hooks_of s h = u1 ++ a :: u2 -> b ∈ u2 -> before l a b).
Proof.
  unfold make_set. destruct (existsb _ _); [done|]. intros [= <-]. unfold hooks_of. cbn [as_hooks].
  rewrite (lifecycle_hooks_get (uniqify [] l) uniq_eq _ h uniq_nodup) by done.
  split_and!.
  - apply NoDup_filter, uniq_nodup.
  - intros a. rewrite elem_of_list_filter, uniq_in. tauto.
  - intros u1 a u2 b Hf Hb.
    (* a filtered list keeps the order *)
    assert (H : exists v1 v2, uniqify [] l = v1 ++ a :: v2 /\ b ∈ v2).
    { clear -Hf Hb. revert u1 Hf. induction (uniqify [] l) as [|c w IH]; intros u1 Hf; [by destruct u1|].
      rewrite filter_cons in Hf. case_decide.
      - destruct u1 as [|c' u1]; injection Hf as <- Hf.
        + exists [], w. split; [done|]. rewrite <-Hf in Hb. by apply elem_of_list_filter in Hb as [_ ?].
        + destruct (IH _ Hf) as (v1 & v2 & -> & ?). by exists (c :: v1), v2.
      - destruct (IH _ Hf) as (v1 & v2 & -> & ?). by exists (c :: v1), v2. }
    destruct H as (v1 & v2 & Hv & Hb2). by eapply (uniqify_order l).
Qed.

Lemma make_set_methods :
  match make_set l with
  | None => exists h a b, a ∈ l /\ b ∈ l /\ a <> b /\ h ∈ ad_methods a /\ h ∈ ad_methods b
  | Some s =>
      (forall h a b, a ∈ l -> b ∈ l -> h ∈ ad_methods a -> h ∈ ad_methods b -> a = b) /\
      (forall h a, method_of s h = Some a <-> a ∈ l /\ h ∈ ad_methods a)
  end.
Proof.
  unfold make_set.
  assert (Hget : forall h, dlist (dget (lifecycle_methods (uniqify [] l)) h) = with_method h (uniqify [] l)).
  { intros h. apply (lifecycle_methods_get (uniqify [] l) uniq_eq); [apply uniq_nodup|done]. }
  destruct (existsb (fun p => 1 <? length p.2) (lifecycle_methods (uniqify [] l))) eqn:He.
  - apply existsb_exists in He as ([h ads] & Hin & Hlen). apply elem_of_list_In in Hin.
    apply Nat.ltb_lt in Hlen. cbn in Hlen.
    apply elem_dget in Hin; [|apply methods_keys_nodup].
    specialize (Hget h). rewrite Hin in Hget. cbn in Hget.
    destruct ads as [|a [|b ads]]; cbn in Hlen; [lia|lia|].
    pose proof (NoDup_with_method h _ uniq_nodup) as Hnd. rewrite <-Hget in Hnd.
    apply NoDup_cons in Hnd as [Hab _].
    assert (Ha : a ∈ with_method h (uniqify [] l)) by (rewrite <-Hget; by left).
    assert (Hb : b ∈ with_method h (uniqify [] l)) by (rewrite <-Hget; right; by left).
    apply elem_with_method in Ha as [? ?%uniq_in]. apply elem_with_method in Hb as [? ?%uniq_in].
    exists h, a, b. split_and!; [done|done| |done|done]. intros ->. apply Hab. by left.
  - assert (Hle : forall h, length (with_method h (uniqify [] l)) <= 1).
    { intros h. rewrite <-Hget. destruct (dget (lifecycle_methods (uniqify [] l)) h) as [ads|] eqn:Hd; [|cbn; lia].
      cbn. destruct (decide (length ads <= 1)); [done|]. exfalso.
      assert (Hc : existsb (fun p => 1 <? length p.2) (lifecycle_methods (uniqify [] l)) = true); [|congruence].
      apply existsb_exists. exists (h, ads). split; [apply elem_of_list_In; by apply dget_elem|].
      apply Nat.ltb_lt. cbn. lia. }
    assert (Huni : forall h a b, a ∈ l -> b ∈ l -> h ∈ ad_methods a -> h ∈ ad_methods b -> a = b).
    { intros h a b Ha Hb Hha Hhb. specialize (Hle h).
      assert (Ha' : a ∈ with_method h (uniqify [] l)) by (apply elem_with_method; by rewrite uniq_in).
      assert (Hb' : b ∈ with_method h (uniqify [] l)) by (apply elem_with_method; by rewrite uniq_in).
      destruct (with_method h (uniqify [] l)) as [|c [|d w]].
      - by apply elem_of_nil in Ha'.
      - apply elem_of_list_singleton in Ha', Hb'. by subst.
      - cbn in Hle. lia. }
    split; [done|]. intros h a. unfold method_of. cbn [as_methods]. rewrite Hget. split.
    + intros Hh. assert (Ha : a ∈ with_method h (uniqify [] l)).
      { destruct (with_method h (uniqify [] l)); [done|]. injection Hh as ->. by left. }
      apply elem_with_method in Ha as [? ?%uniq_in]. done.
    + intros [Ha Hh]. assert (Ha' : a ∈ with_method h (uniqify [] l)) by (apply elem_with_method; by rewrite uniq_in).
      specialize (Hle h). destruct (with_method h (uniqify [] l)) as [|c [|d w]].
      * by apply elem_of_nil in Ha'.
      * apply elem_of_list_singleton in Ha'. by subst.
      * cbn in Hle. lia.
Qed.
End SetResults.

(** ** Hooks around a node *)
Section NodeHooks.
Context {E V : Type}.
Variable catchable : E -> bool.
Variable pre_h : list (hev E V) -> nat -> name -> gmap name V -> option E.
Variable exec_h : list (hev E V) -> option nat -> name -> gmap name V -> res E V.
Variable post_h : list (hev E V) -> nat -> name -> gmap name V -> bool -> option E -> option V -> option E.
Variable describe : name -> gmap name V -> option E.

Lemma call_all_cases (h : list (hev E V) -> nat -> option E) mk l : forall tr,
  (call_all h mk tr l = (tr ++ map (fun a => mk a None) l, None)) \/
  (exists l1 a l2 e, l = l1 ++ a :: l2 /\
     call_all h mk tr l = (tr ++ map (fun a => mk a None) l1 ++ [mk a (Some e)], Some e) /\
     h (tr ++ map (fun a => mk a None) l1) a = Some e).
Proof.
  induction l as [|a l IH]; intros tr; cbn [call_all].
  - left. by rewrite app_nil_r.
  - destruct (h tr a) as [e|] eqn:Hh.
    + right. exists [], a, l, e. split_and!; [done|done|]. by rewrite app_nil_r.
    + destruct (IH (tr ++ [mk a None])) as [->|(l1 & b & l2 & e & -> & -> & Hb)].
      * left. by rewrite <-app_assoc.
      * right. exists (a :: l1), b, l2, e. split_and!; [done|by rewrite <-!app_assoc|by rewrite <-app_assoc in Hb].
Qed.

(** What one node execution may look like. *)
Definition pres x kw (l : list nat) : list (hev E V) := map (fun a => HPre a x kw None) l.
Definition posts x kw (r : res E V) (l : list nat) : list (hev E V) :=
  map (fun a => match r with
                | Ok v => HPost a x kw true None (Some v) None
                | Err e => HPost a x kw false (Some e) None None
                end) l.
Definition post_raises x kw (r : res E V) (a : nat) (e' : E) : hev E V :=
  match r with
  | Ok v => HPost a x kw true None (Some v) (Some e')
  | Err e => HPost a x kw false (Some e) None (Some e')
  end.
Inductive bracket (pre post : list nat) (m : option nat) (x : name) (kw : gmap name V)
  : list (hev E V) -> res E V -> Prop :=
| br_pre l1 a l2 e : pre = l1 ++ a :: l2 ->
    bracket pre post m x kw (pres x kw l1 ++ [HPre a x kw (Some e)]) (Err e)
| br_ok r : bracket pre post m x kw (pres x kw pre ++ HExec m x kw r :: posts x kw r post) r
| br_post r l1 a l2 e : post = l1 ++ a :: l2 ->
    bracket pre post m x kw
      (pres x kw pre ++ HExec m x kw r :: posts x kw r l1 ++ [post_raises x kw r a e]) (Err e).

(** Every event records what the user's code really did at that point. *)
Definition honest (tr : list (hev E V)) (ev : hev E V) : Prop :=
  match ev with
  | HPre a x kw r => r = pre_h tr a x kw
  | HExec m x kw r => r = exec_h tr m x kw
  | HPost a x kw s e o r => r = post_h tr a x kw s e o
  end.
Definition all_honest (tr evs : list (hev E V)) : Prop :=
  forall l1 ev l2, evs = l1 ++ ev :: l2 -> honest (tr ++ l1) ev.

Lemma honest_nil tr : all_honest tr [].
Proof. by intros [|] ? ?. Qed.
Lemma honest_snoc tr evs ev : all_honest tr evs -> honest (tr ++ evs) ev -> all_honest tr (evs ++ [ev]).
Proof.
  intros H1 H2 l1 ev' l2 Heq. destruct l2 as [|c l2 _] using rev_ind.
  - apply app_inj_tail in Heq as [-> ->]. done.
  - rewrite app_comm_cons, app_assoc in Heq. apply app_inj_tail in Heq as [Heq _]. by eapply H1.
Qed.
Lemma call_all_honest h mk l tr0 : (forall tr a, honest tr (mk a (h tr a))) ->
  forall evs, all_honest tr0 evs ->
  exists evs', (call_all h mk (tr0 ++ evs) l).1 = tr0 ++ evs' /\ all_honest tr0 evs'.
Proof.
  intros Hmk. induction l as [|a l IH]; intros evs He; cbn [call_all]; [by exists evs|].
  pose proof (honest_snoc tr0 evs _ He (Hmk (tr0 ++ evs) a)) as Hs.
  destruct (h (tr0 ++ evs) a) as [e|] eqn:Hh; rewrite <-app_assoc.
  - cbn. by eexists.
  - by apply IH.
Qed.
Lemma lifecycle_honest pre post m tr x kw evs0 : all_honest tr evs0 ->
  exists evs, (execute_lifecycle catchable pre_h exec_h post_h describe pre post m (tr ++ evs0) x kw).1 = tr ++ evs /\
    all_honest tr evs.
Proof.
  intros H0. unfold execute_lifecycle.
  destruct (call_all_honest (fun tr a => pre_h tr a x kw) (fun a r => HPre a x kw r) pre tr (fun _ _ => eq_refl) evs0 H0)
    as (evs1 & He1 & H1).
  destruct (call_all _ _ _ pre) as [tr1 p]. cbn in He1. subst tr1.
  set (mid := match p with Some e => (tr ++ evs1, Err e, catchable e) | None => _ end).
  assert (Hmid : exists evs2 r pe, mid = (tr ++ evs2, r, pe) /\ all_honest tr evs2).
  { subst mid. destruct p as [e|]; [by do 3 eexists|].
    exists (evs1 ++ [HExec m x kw (exec_h (tr ++ evs1) m x kw)]). do 2 eexists. rewrite app_assoc. split; [done|].
    by apply honest_snoc. }
  destruct Hmid as (evs2 & r & pe & -> & H2).
  destruct (match r with Ok v => _ | Err e => _ end) as [[su er] ra].
  destruct pe; [by exists evs2|].
  destruct (call_all_honest (fun tr a => post_h tr a x kw su er (match r with Ok v => Some v | Err _ => None end))
              (fun a o => HPost a x kw su er (match r with Ok v => Some v | Err _ => None end) o) post tr
              (fun _ _ => eq_refl) evs2 H2) as (evs3 & He3 & H3).
  destruct (call_all _ _ _ post) as [tr3 q]. cbn in He3. subst tr3.
  exists evs3. by destruct q.
Qed.

Lemma lifecycle_bracket pre post m tr x kw :
  (forall e, catchable e = true) -> (forall x kw, describe x kw = None) ->
  exists evs r, execute_lifecycle catchable pre_h exec_h post_h describe pre post m tr x kw = (tr ++ evs, r) /\
    bracket pre post m x kw evs r.
Proof.
  intros Hc Hd. unfold execute_lifecycle.
  destruct (call_all_cases (fun tr a => pre_h tr a x kw) (fun a r => HPre a x kw r) pre tr)
    as [->|(l1 & a & l2 & e & Hpre & -> & _)].
  - destruct (exec_h _ m x kw) as [v|e] eqn:Hr.
    + destruct (call_all_cases (fun tr a => post_h tr a x kw true None (Some v))
                  (fun a r => HPost a x kw true None (Some v) r) post
                  ((tr ++ map (fun a => HPre a x kw None) pre) ++ [HExec m x kw (Ok v)]))
        as [->|(l1 & a & l2 & e & Hpost & -> & _)].
      * exists (pres x kw pre ++ HExec m x kw (Ok v) :: posts x kw (Ok v) post), (Ok v).
        split; [by rewrite <-!app_assoc|apply br_ok].
      * rewrite Hc, Hd.
        exists (pres x kw pre ++ HExec m x kw (Ok v) :: posts x kw (Ok v) l1 ++ [post_raises x kw (Ok v) a e]), (Err e).
        split; [by rewrite <-!app_assoc|by eapply br_post].
    + rewrite Hc, Hd.
      destruct (call_all_cases (fun tr a => post_h tr a x kw false (Some e) None)
                  (fun a r => HPost a x kw false (Some e) None r) post
                  ((tr ++ map (fun a => HPre a x kw None) pre) ++ [HExec m x kw (Err e)]))
        as [->|(l1 & a & l2 & e' & Hpost & -> & _)].
      * exists (pres x kw pre ++ HExec m x kw (Err e) :: posts x kw (Err e) post), (Err e).
        split; [by rewrite <-!app_assoc|apply br_ok].
      * rewrite Hc, ?Hd.
        exists (pres x kw pre ++ HExec m x kw (Err e) :: posts x kw (Err e) l1 ++ [post_raises x kw (Err e) a e']), (Err e').
        split; [by rewrite <-!app_assoc|by eapply br_post].
  - rewrite Hc, Hd. exists (pres x kw l1 ++ [HPre a x kw (Some e)]), (Err e).
    split; [done|by eapply br_pre].
Qed.

(** ** A whole run with hooks: the executor's functions are the bracketed ones. *)
Variable pre post : list nat.
Variable m : option nat.

Definition hist (tr : list (event V E)) : list (hev E V) :=
  foldl (fun h ev => match ev with
                     | Call x kw _ => (execute_lifecycle catchable pre_h exec_h post_h describe pre post m h x kw).1
                     | _ => h
                     end) [] tr.
Definition hooked (tr : list (event V E)) (x : name) (kw : gmap name V) : res E V :=
  (execute_lifecycle catchable pre_h exec_h post_h describe pre post m (hist tr) x kw).2.

Definition call_list (tr : list (event V E)) : list (name * gmap name V * res E V) :=
  omap (fun ev => match ev with Call x kw r => Some (x, kw, r) | _ => None end) tr.

Lemma hist_brackets tr :
  (forall e, catchable e = true) -> (forall x kw, describe x kw = None) ->
  (forall t1 x kw r t2, tr = t1 ++ Call x kw r :: t2 -> r = hooked t1 x kw) ->
  exists bs, hist tr = concat bs /\
    Forall2 (fun c evs => bracket pre post m c.1.1 c.1.2 evs c.2) (call_list tr) bs.
Proof.
  intros Hc Hd. induction tr as [|ev tr IH] using rev_ind; intros Hcalls.
  - exists []. split; [done|constructor].
  - destruct IH as (bs & Hh & HF).
    { intros t1 x kw r t2 ->. eapply Hcalls. by rewrite <-app_assoc. }
    unfold hist in *. rewrite foldl_app. cbn [foldl].
    unfold call_list in *. rewrite omap_app. destruct ev as [x kw r|x v|x]; cbn [omap list_omap].
    + destruct (lifecycle_bracket pre post m (hist tr) x kw Hc Hd) as (evs & r' & Heq & Hb).
      unfold hist in Heq. rewrite Heq. cbn [fst].
      exists (bs ++ [evs]). split; [by rewrite concat_app, Hh; cbn; rewrite app_nil_r|].
      apply Forall2_app; [done|]. constructor; [|constructor]. cbn.
      assert (Hr : r = hooked tr x kw) by (by eapply Hcalls).
      unfold hooked, hist in Hr. rewrite Heq in Hr. cbn in Hr. by subst.
    + exists bs. split; [done|]. by rewrite app_nil_r.
    + exists bs. split; [done|]. by rewrite app_nil_r.
Qed.

Lemma hist_honest tr : all_honest [] (hist tr).
Proof.
  induction tr as [|ev tr IH] using rev_ind; [apply honest_nil|].
  unfold hist in *. rewrite foldl_app. cbn [foldl]. destruct ev as [x kw r|x v|x]; [|done|done].
  destruct (lifecycle_honest pre post m [] x kw _ IH) as (evs & He & Hh). cbn in He, Hh. by rewrite He.
Qed.
End NodeHooks.


(** ** Hooks around a run *)
Section GraphHooks.
Context {E V R T : Type}.
Notation gev := (gev E V R T).
Variable catchable : E -> bool.
Variable pre_h : list gev -> nat -> option E.
Variable post_h : list gev -> nat -> bool -> option E -> option (V + R) -> option E.
Variable raw : list T * res E V.
Variable build : option (V -> res E R).

Lemma gcall_all_cases (h : list gev -> nat -> option E) mk l : forall tr,
  (gcall_all h mk tr l = (tr ++ map (fun a => mk a None) l, None)) \/
  (exists l1 a l2 e, l = l1 ++ a :: l2 /\
     gcall_all h mk tr l = (tr ++ map (fun a => mk a None) l1 ++ [mk a (Some e)], Some e) /\
     h (tr ++ map (fun a => mk a None) l1) a = Some e).
Proof.
  induction l as [|a l IH]; intros tr; cbn [gcall_all].
  - left. by rewrite app_nil_r.
  - destruct (h tr a) as [e|] eqn:Hh.
    + right. exists [], a, l, e. split_and!; [done|done|]. by rewrite app_nil_r.
    + destruct (IH (tr ++ [mk a None])) as [->|(l1 & b & l2 & e & -> & -> & Hb)].
      * left. by rewrite <-app_assoc.
      * right. exists (a :: l1), b, l2, e. split_and!; [done|by rewrite <-!app_assoc|by rewrite <-app_assoc in Hb].
Qed.

Definition ghonest (tr : list gev) (ev : gev) : Prop :=
  match ev with
  | GPre a r => r = pre_h tr a
  | GPost a s e o r => r = post_h tr a s e o
  | _ => True
  end.
Definition all_ghonest (evs : list gev) : Prop :=
  forall l1 ev l2, evs = l1 ++ ev :: l2 -> ghonest l1 ev.
Lemma ghonest_nil : all_ghonest [].
Proof. by intros [|] ? ?. Qed.
Lemma ghonest_snoc evs ev : all_ghonest evs -> ghonest evs ev -> all_ghonest (evs ++ [ev]).
Proof.
  intros H1 H2 l1 ev' l2 Heq. destruct l2 as [|c l2 _] using rev_ind.
  - apply app_inj_tail in Heq as [-> ->]. done.
  - rewrite app_comm_cons, app_assoc in Heq. apply app_inj_tail in Heq as [Heq _]. by eapply H1.
Qed.
Lemma gcall_all_honest h mk l : (forall tr a, ghonest tr (mk a (h tr a))) ->
  forall evs, all_ghonest evs -> all_ghonest (gcall_all h mk evs l).1.
Proof.
  intros Hmk. induction l as [|a l IH]; intros evs He; cbn [gcall_all]; [done|].
  pose proof (ghonest_snoc evs _ He (Hmk evs a)) as Hs.
  destruct (h evs a) as [e|] eqn:Hh; [done|]. by apply IH.
Qed.
Lemma driver_honest pre post : all_ghonest (driver_execute catchable pre_h post_h raw build pre post).1.
Proof.
  unfold driver_execute.
  pose proof (gcall_all_honest pre_h GPre pre (fun _ _ => eq_refl) [] ghonest_nil) as H0.
  destruct (gcall_all pre_h GPre [] pre) as [tr0 [e|]]; [done|]. cbn in H0.
  set (mid := match raw.2 with Ok v => _ | Err e => _ end).
  assert (Hmid : all_ghonest mid.1.1).
  { subst mid. assert (all_ghonest (tr0 ++ [GInner raw.1])) by (by apply ghonest_snoc).
    destruct raw.2 as [v|e]; [|done]. destruct build as [b|]; [|done].
    destruct (b v); by apply ghonest_snoc. }
  destruct mid as [[tr2 outs] r]. cbn in Hmid.
  destruct (match r with Ok v => _ | Err e => _ end) as [su er].
  pose proof (gcall_all_honest (fun tr a => post_h tr a su er outs) (fun a r => GPost a su er outs r) post
                (fun _ _ => eq_refl) tr2 Hmid) as H3.
  destruct (gcall_all _ _ tr2 post) as [tr3 [e|]]; exact H3.
Qed.

(** The run proper: computing the raw outputs, then (if an adapter has do_build_result) building
    the result from them. [inner_run mid out r]: events, what [outputs] holds afterwards, outcome. *)
Inductive inner_run : list gev -> option (V + R) -> res E (V + R) -> Prop :=
| ir_fail e : raw.2 = Err e -> inner_run [GInner raw.1] None (Err e)
| ir_raw v : raw.2 = Ok v -> build = None -> inner_run [GInner raw.1] (Some (inl v)) (Ok (inl v))
| ir_build v b o : raw.2 = Ok v -> build = Some b -> b v = Ok o ->
    inner_run [GInner raw.1; GBuild (Ok o)] (Some (inr o)) (Ok (inr o))
| ir_build_fail v b e : raw.2 = Ok v -> build = Some b -> b v = Err e ->
    inner_run [GInner raw.1; GBuild (Err e)] (Some (inl v)) (Err e).

Definition gposts (r : res E (V + R)) (out : option (V + R)) (l : list nat) : list gev :=
  map (fun a => match r with
                | Ok _ => GPost a true None out None
                | Err e => GPost a false (Some e) out None
                end) l.
Definition gpost_raises (r : res E (V + R)) (out : option (V + R)) (a : nat) (e' : E) : gev :=
  match r with
  | Ok _ => GPost a true None out (Some e')
  | Err e => GPost a false (Some e) out (Some e')
  end.
Inductive gbracket (pre post : list nat) : list gev -> res E (V + R) -> Prop :=
| gb_pre l1 a l2 e : pre = l1 ++ a :: l2 ->
    gbracket pre post (map (fun a => GPre a None) l1 ++ [GPre a (Some e)]) (Err e)
| gb_ok mid out r : inner_run mid out r ->
    gbracket pre post (map (fun a => GPre a None) pre ++ mid ++ gposts r out post) r
| gb_post mid out r l1 a l2 e : inner_run mid out r -> post = l1 ++ a :: l2 ->
    gbracket pre post (map (fun a => GPre a None) pre ++ mid ++ gposts r out l1 ++ [gpost_raises r out a e]) (Err e).

Lemma driver_bracket pre post : (forall e, catchable e = true) ->
  gbracket pre post (driver_execute catchable pre_h post_h raw build pre post).1
                    (driver_execute catchable pre_h post_h raw build pre post).2.
Proof.
  intros Hc. unfold driver_execute.
  destruct (gcall_all_cases pre_h GPre pre []) as [->|(l1 & a & l2 & e & Hpre & -> & _)].
  2:{ cbn. by eapply gb_pre. }
  assert (Hpost : forall mid out r, inner_run mid out r ->
     let '(success, error) := match r with Err e => if catchable e then (false, Some e) else (true, None) | Ok _ => (true, None) end in
     let '(tr3, q) := gcall_all (fun tr a => post_h tr a success error out)
                                 (fun a r => GPost a success error out r) (map (fun a => GPre a None) pre ++ mid) post in
     gbracket pre post tr3 (match q with Some e => Err e | None => r end)).
  { intros mid out r Hir. destruct r as [v|e]; [|rewrite Hc].
    - destruct (gcall_all_cases (fun tr a => post_h tr a true None out) (fun a r => GPost a true None out r) post
                  (map (fun a => GPre a None) pre ++ mid)) as [->|(l1 & a & l2 & e & Hp & -> & _)].
      + rewrite <-app_assoc. by apply (gb_ok pre post mid out (Ok v)).
      + rewrite <-app_assoc. by apply (gb_post pre post mid out (Ok v) l1 a l2 e).
    - destruct (gcall_all_cases (fun tr a => post_h tr a false (Some e) out) (fun a r => GPost a false (Some e) out r) post
                  (map (fun a => GPre a None) pre ++ mid)) as [->|(l1 & a & l2 & e' & Hp & -> & _)].
      + rewrite <-app_assoc. by apply (gb_ok pre post mid out (Err e)).
      + rewrite <-app_assoc. by apply (gb_post pre post mid out (Err e) l1 a l2 e'). }
  cbn [app].
  destruct (raw.2) as [v|e] eqn:Hr.
  - destruct build as [b|] eqn:Hb.
    + destruct (b v) as [o|e] eqn:Hbv.
      * specialize (Hpost _ _ _ (ir_build v b o Hr Hb Hbv)). cbn in Hpost. rewrite <-app_assoc. cbn [app].
        destruct (gcall_all _ _ _ post) as [tr3 [e|]]; exact Hpost.
      * specialize (Hpost _ _ _ (ir_build_fail v b e Hr Hb Hbv)). cbn in Hpost. rewrite Hc in *. rewrite <-app_assoc. cbn [app].
        destruct (gcall_all _ _ _ post) as [tr3 [e'|]]; exact Hpost.
    + specialize (Hpost _ _ _ (ir_raw v Hr Hb)). cbn in Hpost.
      destruct (gcall_all _ _ _ post) as [tr3 [e|]]; exact Hpost.
  - specialize (Hpost _ _ _ (ir_fail e Hr)). cbn in Hpost. rewrite Hc in *.
    destruct (gcall_all _ _ _ post) as [tr3 [e'|]]; exact Hpost.
Qed.
End GraphHooks.
