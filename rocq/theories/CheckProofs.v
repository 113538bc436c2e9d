(** Proofs about @check_output. *)
From Coq Require Import Ascii.
From stdpp Require Import pretty.
From Verif Require Import Base Dict NodeModel NodeSpec NodeProofs Strings CheckModel.

Section Proofs.
Context {V E T : Type}.
Variable result_type : T.
Variable passes : V -> bool.
Implicit Types (ns : dict (pnode V E T)) (env : gmap name V) (vs : list (validator V E)).

Lemma validator_names_length base cnt vs : length (validator_names base cnt vs) = length vs.
Proof. revert cnt. induction vs as [|vd vs IH]; intros cnt; cbn; [done|]. by rewrite IH. Qed.

(** The names and results of failing validators of importance FAIL. *)
Definition failing (vs : list (validator V E)) (rs : list V) : list name :=
  map (fun vr => vd_name vr.1) (filter (fun vr => vd_fail vr.1 = true /\ passes vr.2 = false) (zip vs rs)).

Lemma failing_cons vd vs r rs :
  failing (vd :: vs) (r :: rs) = if decide (vd_fail vd = true /\ passes r = false) then vd_name vd :: failing vs rs else failing vs rs.
Proof.
  unfold failing. change (zip (vd :: vs) (r :: rs)) with ((vd, r) :: zip vs rs). rewrite filter_cons. cbn [fst snd].
  by destruct (decide (vd_fail vd = true /\ passes r = false)).
Qed.
Lemma collect_failures_spec names vmap kw vs rs :
  Forall2 (fun nm vd => dget vmap nm = Some vd) names vs -> Forall2 (fun nm r => dget kw nm = Some r) names rs ->
  exists fs, collect_failures names vmap kw = Ok fs /\
    map (fun f => vd_name f.2) (filter (fun f => passes f.1 = false) fs) = failing vs rs.
Proof.
  intros H. revert rs. induction H as [|nm vd names vs Hv Hf IH]; intros rs Hr.
  - exists []. by inversion Hr.
  - inversion Hr as [|? r ? rs' Hk Hr']; subst. destruct (IH rs' Hr') as (fs & E1 & E2). cbn [collect_failures]. rewrite Hv, Hk, E1.
    eexists. split; [done|]. rewrite failing_cons.
    destruct (vd_fail vd) eqn:Ef.
    + rewrite filter_cons. cbn [fst]. destruct (passes r) eqn:Ep.
      * rewrite !decide_False by naive_solver. done.
      * rewrite !decide_True by done. cbn [map]. f_equal. exact E2.
    + rewrite decide_False by naive_solver. exact E2.
Qed.

Lemma final_call_spec raw names vmap kw vs rs v :
  Forall2 (fun nm vd => dget vmap nm = Some vd) names vs -> Forall2 (fun nm r => dget kw nm = Some r) names rs ->
  dget kw raw = Some v ->
  final_call passes raw names vmap kw =
  match failing vs rs with [] => Ok v | bad => Err (NValidation bad) end.
Proof.
  intros H1 H2 H3. destruct (collect_failures_spec names vmap kw vs rs H1 H2) as (fs & E1 & E2). unfold final_call. rewrite E1, <- E2, H3.
  by destruct (filter _ fs).
Qed.

Lemma failing_nil vs rs : length vs = length rs ->
  failing vs rs = [] <-> Forall2 (fun vd r => vd_fail vd = true -> passes r = true) vs rs.
Proof.
  revert rs. induction vs as [|vd vs IH]; intros [|r rs] Hl; try done.
  - injection Hl as Hl. specialize (IH rs Hl). rewrite failing_cons.
    destruct (decide (vd_fail vd = true /\ passes r = false)) as [[D1 D2]|D].
    + split; [done|]. intros HF. inversion HF as [|? ? ? ? Hx]; subst. rewrite Hx in D2 by done. done.
    + rewrite IH. split; [intros HF; constructor; [|done]|intros HF; by inversion HF].
      intros Hv. destruct (passes r) eqn:Ep; [done|]. exfalso. by apply D.
Qed.

Lemma Forall2_conj {A B} (P Q : A -> B -> Prop) l k : Forall2 (fun x y => P x y /\ Q x y) l k <-> Forall2 P l k /\ Forall2 Q l k.
Proof.
  split.
  - intros H. split; (eapply Forall2_impl; [exact H|]); cbn; tauto.
  - intros [H1 H2]. revert H2. induction H1 as [|x y l k Hx HF IH]; intros H2; inversion H2; subst; constructor; [done|by apply IH].
Qed.

(** ** The nodes in a dataflow *)
Lemma check_names vs (n : pnode V E T) : let names := validator_names (pn_name n) [] vs in
  map pn_name (check_output result_type passes vs n) = names ++ [pn_name n; raw_name n].
Proof.
  cbn. unfold check_output. rewrite map_app. cbn. f_equal.
  assert (L := validator_names_length (pn_name n) [] vs). revert L. generalize (validator_names (pn_name n) [] vs) as names.
  intros names. revert vs. induction names as [|nm names IH]; intros [|vd vs] L; try done. cbn. f_equal. apply IH. by injection L.
Qed.

Section Graph.
Variable ns : dict (pnode V E T).
Variable env : gmap name V.
Variable n : pnode V E T.
Variable vs : list (validator V E).
Let names := validator_names (pn_name n) [] vs.
Let vmap := dupd [] (zip names vs).
Hypothesis Hn : forall m, m ∈ check_output result_type passes vs n -> dget ns (pn_name m) = Some m.
Hypothesis Hd : NoDup (map pn_name (check_output result_type passes vs n)).

Lemma names_length : length names = length vs.
Proof. apply validator_names_length. Qed.
Lemma names_nodup : NoDup names /\ raw_name n ∉ names.
Proof.
  rewrite check_names in Hd. fold names in Hd. apply NoDup_app in Hd as (H1 & H2 & _). split; [done|].
  intros H. apply (H2 _ H). right. by left.
Qed.
Lemma raw_dget : dget ns (raw_name n) = Some (raw_node n).
Proof. apply (Hn (raw_node n)). unfold check_output. apply elem_of_app. right. right. by left. Qed.
Lemma final_dget : dget ns (pn_name n) = Some (final_node result_type passes n names vmap).
Proof. apply (Hn (final_node result_type passes n names vmap)). unfold check_output. apply elem_of_app. right. by left. Qed.
Lemma validator_dget i nm vd : names !! i = Some nm -> vs !! i = Some vd -> dget ns nm = Some (validator_node result_type n nm vd).
Proof.
  intros H1 H2. apply (Hn (validator_node result_type n nm vd)). unfold check_output. apply elem_of_app. left.
  apply (elem_of_list_lookup_2 _ i). fold names. rewrite lookup_zip_with, H1. cbn. by rewrite H2.
Qed.
Lemma vmap_spec : Forall2 (fun nm vd => dget vmap nm = Some vd) names vs.
Proof.
  apply Forall2_same_length_lookup. split; [apply names_length|]. intros i nm vd H1 H2.
  unfold vmap. rewrite dget_dupd.
  - rewrite (elem_dget _ nm vd); [done| |].
    + unfold dkeys. rewrite fst_zip by (rewrite names_length; done). apply names_nodup.
    + apply (elem_of_list_lookup_2 _ i). rewrite lookup_zip_with, H1. cbn. by rewrite H2.
  - unfold dkeys. rewrite fst_zip by (rewrite names_length; done). apply names_nodup.
Qed.
Lemma final_inputs x : x ∈ dkeys (pn_inputs (final_node result_type passes n names vmap)) <-> x = raw_name n \/ x ∈ names.
Proof.
  cbn [final_node pn_inputs]. rewrite <- dget_Some_key, dget_dupd.
  - assert (K : dkeys (map (fun nm => (nm, (result_type, REQUIRED))) names) = names).
    { unfold dkeys. rewrite <- list_fmap_compose. cbn. apply list_fmap_id. }
    destruct (dget (map _ names) x) as [tt|] eqn:Ex.
    + split; [|by intros]. intros _. right. rewrite <- K. apply dget_Some_key. eauto.
    + apply dget_None_key in Ex. rewrite K in Ex. cbn. destruct (decide (x = raw_name n)); [split; [by left|done]|].
      split; [by intros [? ?]|]. by intros [? | ?].
  - unfold dkeys. rewrite <- list_fmap_compose. cbn. rewrite list_fmap_id. apply names_nodup.
Qed.
Lemma final_inputs_required x t dt : (x, (t, dt)) ∈ pn_inputs (final_node result_type passes n names vmap) -> dt = REQUIRED.
Proof.
  cbn. unfold dupd. assert (H : forall d : dict (T * deptype), (forall y tt, (y, tt) ∈ d -> tt.2 = REQUIRED) ->
    forall y tt, (y, tt) ∈ foldl (fun d kv => dset d kv.1 kv.2) d (map (fun nm => (nm, (result_type, REQUIRED))) names) -> tt.2 = REQUIRED).
  { induction names as [|nm nms IH]; [done|]. intros d Hd'. cbn [map foldl fst snd]. apply IH. intros y tt Hy.
    assert (Hs : forall (d0 : dict (T * deptype)) k a y tt, (y, tt) ∈ dset d0 k a -> (y, tt) ∈ d0 \/ tt = a).
    { clear. induction d0 as [|[k' a'] d0 IH]; intros k a y tt; cbn.
      - intros [[= -> ->] | []%elem_of_nil]%elem_of_cons. by right.
      - destruct (decide (k = k')); rewrite !elem_of_cons; [intros [[= -> ->] | ?]; [by right|by left; right]|].
        intros [? | Hin%IH]; [by left; left|]. destruct Hin; [left; by right|by right]. }
    apply Hs in Hy as [Hy | ->]; [by eapply Hd'|done]. }
  intros Hx. apply (H [(raw_name n, (pn_type n, REQUIRED))]) in Hx; [done|].
  intros y tt. by intros [[= -> ->] | []%elem_of_nil]%elem_of_cons.
Qed.

Lemma raw_value v : value ns env (raw_name n) v <-> exists m, args ns env (pn_inputs n) m /\ pn_call n (kwargs (pn_inputs n) m) = Ok v.
Proof. exact (value_node_iff ns env _ (raw_node n) v raw_dget). Qed.

Lemma validator_value i nm vd r : names !! i = Some nm -> vs !! i = Some vd ->
  value ns env nm r <-> exists v, value ns env (raw_name n) v /\ vd_validate vd v = Ok r.
Proof.
  intros H1 H2. rewrite (value_node_iff ns env nm _ r (validator_dget i nm vd H1 H2)). cbn [validator_node pn_inputs pn_call].
  assert (K : forall m : gmap name V, kwargs [(raw_name n, (pn_type n, REQUIRED))] m = match m !! raw_name n with Some x => [(raw_name n, x)] | None => [] end).
  { intros m. unfold kwargs. cbn. by destruct (m !! raw_name n). }
  split.
  - intros (m & [M1 M2] & Hc). rewrite K in Hc. destruct (m !! raw_name n) as [v|] eqn:Em; cbn in Hc; [|done].
    exists v. split; [by apply M1|]. destruct (vd_validate vd v); [by injection Hc as ->|done].
  - intros (v & Hv & Hr). exists {[raw_name n := v]}. split.
    + split.
      * intros k w Hk. apply lookup_singleton_Some in Hk as [<- <-]. split; [by left|done].
      * intros k t dt Hk Hm. apply elem_of_list_singleton in Hk as [= -> -> ->]. by rewrite lookup_singleton in Hm.
    + rewrite K, lookup_singleton. cbn. by rewrite Hr.
Qed.

(** The arguments of the final node. *)
Lemma final_args m : (forall y n, dget ns y = Some n -> NoDup (dkeys (pn_inputs n))) ->
  args ns env (pn_inputs (final_node result_type passes n names vmap)) m ->
  exists v rs, value ns env (raw_name n) v /\ Forall2 (fun vd r => vd_validate vd v = Ok r) vs rs /\
    pn_call (final_node result_type passes n names vmap) (kwargs (pn_inputs (final_node result_type passes n names vmap)) m) =
      match failing vs rs with [] => Ok v | bad => Err (NValidation bad) end.
Proof.
  intros W [M1 M2]. set (fin := final_node result_type passes n names vmap) in *.
  assert (Some' : forall x, x ∈ dkeys (pn_inputs fin) -> exists w, m !! x = Some w).
  { intros x Hx. destruct (m !! x) as [w|] eqn:Em; [by exists w|]. apply elem_of_list_fmap in Hx as ([x' [t dt]] & -> & Hx). cbn in Em.
    destruct (M2 _ _ _ Hx Em) as [Ho _]. apply final_inputs_required in Hx. congruence. }
  destruct (Some' (raw_name n)) as [v Hv]; [apply final_inputs; by left|].
  assert (Vv : value ns env (raw_name n) v) by (by apply M1).
  assert (HR : exists rs, Forall2 (fun nm r => m !! nm = Some r) names rs).
  { assert (A : forall x, x ∈ names -> exists w, m !! x = Some w) by (intros; apply Some', final_inputs; by right).
    clear -A. induction names as [|nm nms IH]; [exists []; constructor|]. destruct (A nm) as [w Hw]; [by left|].
    destruct IH as [rs Hrs]; [intros; apply A; by right|]. exists (w :: rs). by constructor. }
  destruct HR as [rs Hrs]. exists v, rs. split_and!; [done| |].
  - assert (L : length vs = length rs) by (rewrite <- names_length; by eapply Forall2_length).
    apply Forall2_same_length_lookup. split; [done|]. intros i vd r H1 H2.
    destruct (Forall2_lookup_r _ _ _ _ _ Hrs H2) as (nm & Hnm & Hm). destruct (M1 _ _ Hm) as [_ Hr].
    apply (validator_value i nm vd r Hnm H1) in Hr as (v' & Hv' & Hr). assert (v' = v) as -> by (by eapply (value_fun ns env)). done.
  - cbn [fin final_node pn_call]. apply final_call_spec; [apply vmap_spec| |].
    + assert (A : forall x, x ∈ names -> x ∈ dkeys (pn_inputs fin)) by (intros; apply final_inputs; by right).
      clear -Hrs A. revert A. generalize (pn_inputs fin). intros ins A. induction Hrs as [|nm r nms rs Hm HF IH]; constructor.
      * rewrite dget_kwargs, decide_True; [done|]. apply A. by left.
      * apply IH. intros x Hx. apply A. by right.
    + rewrite dget_kwargs, decide_True; [done|]. apply final_inputs. by left.
Qed.

Lemma check_args v rs : value ns env (raw_name n) v -> Forall2 (fun vd r => vd_validate vd v = Ok r) vs rs ->
  exists m, args ns env (pn_inputs (final_node result_type passes n names vmap)) m.
Proof.
  intros Hv HF. set (fin := final_node result_type passes n names vmap).
  assert (Hr : Forall2 (fun nm r => value ns env nm r) names rs).
  { assert (L : length vs = length rs) by (by eapply Forall2_length).
    apply Forall2_same_length_lookup. split; [by rewrite names_length|]. intros i nm r H1 H2.
    destruct (Forall2_lookup_r _ _ _ _ _ HF H2) as (vd & Hvd & Hrr). apply (validator_value i nm vd r H1 Hvd). eauto. }
  assert (HM : exists m : gmap name V, forall x, (forall w, m !! x = Some w -> x ∈ names /\ value ns env x w) /\ (x ∈ names -> is_Some (m !! x))).
  { clear -Hr. induction Hr as [|nm r nms rs Hv HF IH].
    - exists ∅. intros x. split; [intros w Hw; by rewrite lookup_empty in Hw|by intros []%elem_of_nil].
    - destruct IH as [m Hm]. exists (<[nm := r]> m). intros x. destruct (decide (x = nm)) as [-> | Hne].
      + rewrite lookup_insert. split; [intros w [= <-]; split; [by left|done]|eauto].
      + rewrite lookup_insert_ne by done. destruct (Hm x) as [A B]. split.
        * intros w Hw. destruct (A w Hw). split; [by right|done].
        * intros [? | ?]%elem_of_cons; [done|by apply B]. }
  destruct HM as [m Hm]. exists (<[raw_name n := v]> m). split.
  - intros k w Hk. apply lookup_insert_Some in Hk as [[<- <-] | [_ Hk]].
    + split; [apply final_inputs; by left|done].
    + destruct (proj1 (Hm k) w Hk). split; [apply final_inputs; by right|done].
  - intros k t dt Hk Hnone. exfalso. assert (Hx : k ∈ dkeys (pn_inputs fin)) by (by apply (elem_of_list_fmap_1 fst) in Hk).
    apply final_inputs in Hx as [-> | Hx]; [by rewrite lookup_insert in Hnone|]. apply lookup_insert_None in Hnone as [Hnone _].
    destruct (proj2 (Hm k) Hx) as [w Hw]. congruence.
Qed.

Lemma check_value v : (forall y n, dget ns y = Some n -> NoDup (dkeys (pn_inputs n))) ->
  value ns env (pn_name n) v <->
  exists m rs, args ns env (pn_inputs n) m /\ pn_call n (kwargs (pn_inputs n) m) = Ok v /\
    Forall2 (fun vd r => vd_validate vd v = Ok r /\ (vd_fail vd = true -> passes r = true)) vs rs.
Proof.
  intros W. rewrite (value_node_iff ns env _ _ v final_dget). split.
  - intros (m & Hm & Hc). destruct (final_args m W Hm) as (v' & rs & Hv & HF & Hc'). rewrite Hc in Hc'.
    destruct (failing vs rs) as [|b bad] eqn:Ef; [|done]. injection Hc' as <-. apply raw_value in Hv as (m0 & Hm0 & Hc0).
    exists m0, rs. split_and!; [done|done|]. apply failing_nil in Ef; [|by eapply Forall2_length]. by apply Forall2_conj.
  - intros (m0 & rs & Hm0 & Hc0 & HF). assert (Hv : value ns env (raw_name n) v) by (apply raw_value; eauto).
    apply Forall2_conj in HF as [HF1 HF2]. destruct (check_args v rs Hv HF1) as [m Hm]. exists m. split; [done|].
    destruct (final_args m W Hm) as (v' & rs' & Hv' & HF' & Hc'). assert (v' = v) as -> by (by eapply (value_fun ns env)).
    assert (rs' = rs) as ->.
    { clear -HF1 HF'. revert rs' HF'. induction HF1 as [|vd r vs rs H1 HF IH]; intros rs' H'; inversion H'; subst; [done|]. f_equal; [congruence|by apply IH]. }
    rewrite Hc'. assert (Ef : failing vs rs = []) by (apply failing_nil; [by eapply Forall2_length|done]). by rewrite Ef.
Qed.
End Graph.

(** ** Names of the nodes *)
Lemma split_last_unique c (a b a' b' : string) : lacks c b -> lacks c b' -> a +:+ String c b = a' +:+ String c b' -> a = a' /\ b = b'.
Proof.
  intros Hb Hb'. revert a'. induction a as [|x a IH]; intros [|x' a'] H; cbn in H.
  - injection H as ->. done.
  - injection H as -> ->. apply lacks_app in Hb as [_ Hb]. cbn in Hb. by destruct Hb.
  - injection H as -> <-. apply lacks_app in Hb' as [_ Hb']. cbn in Hb'. by destruct Hb'.
  - injection H as -> H. apply IH in H as [-> ->]. done.
Qed.
Lemma pretty_no_underscore (i : nat) : lacks "_"%char (pretty i).
Proof. apply pretty_lacks. intros y. unfold pretty_N_char. by repeat case_match. Qed.

Definition numbered (nm : name) (c : nat) : name := if decide (c = 0) then nm else (nm ++ "_" ++ pretty c)%string.
Lemma validator_names_elem base cnt vs x : x ∈ validator_names base cnt vs ->
  exists vd c, vd ∈ vs /\ default 0 (dget cnt (base ++ "_" ++ vd_name vd)%string) <= c /\ x = numbered (base ++ "_" ++ vd_name vd)%string c.
Proof.
  revert cnt. induction vs as [|vd vs IH]; intros cnt H; [by apply elem_of_nil in H|]. cbn [validator_names] in H.
  set (nm := (base ++ "_" ++ vd_name vd)%string) in *. set (c := default 0 (dget cnt nm)) in *.
  apply elem_of_cons in H as [-> | H].
  - exists vd, c. split_and!; [by left|done|]. unfold numbered. fold nm. destruct (decide (1 < S c)), (decide (c = 0)); try lia; [|done].
    by replace (S c - 1) with c by lia.
  - apply IH in H as (vd' & c' & Hv & Hc & ->). exists vd', c'. split_and!; [by right| |done].
    rewrite dget_dset in Hc. destruct (decide (_ = nm)) as [Heq|]; [|done]. rewrite Heq. fold c. cbn in Hc. lia.
Qed.

(** No validator is called like another one with a number. *)
Definition plain_names (vs : list (validator V E)) : Prop :=
  forall v w (k : nat), v ∈ vs -> w ∈ vs -> vd_name v <> (vd_name w ++ "_" ++ pretty k)%string.

Lemma numbered_inj base v w c d vs : plain_names vs -> v ∈ vs -> w ∈ vs ->
  numbered (base ++ "_" ++ vd_name v)%string c = numbered (base ++ "_" ++ vd_name w)%string d -> vd_name v = vd_name w /\ c = d.
Proof.
  intros P Hv Hw. unfold numbered. destruct (decide (c = 0)) as [-> | Hc], (decide (d = 0)) as [-> | Hd]; rewrite ?app_assoc_s; intros H.
  - apply app_inj_l in H. cbn in H. by injection H.
  - apply app_inj_l in H. cbn in H. injection H as H. exfalso. by apply (P v w d).
  - apply app_inj_l in H. cbn in H. injection H as H. exfalso. by apply (P w v c).
  - apply app_inj_l in H. cbn in H. injection H as H. apply split_last_unique in H as [H1 H2]; [|apply pretty_no_underscore|apply pretty_no_underscore].
    split; [done|]. by apply (inj pretty) in H2.
Qed.

Lemma validator_names_nodup base cnt vs : plain_names vs -> NoDup (validator_names base cnt vs).
Proof.
  revert cnt. induction vs as [|vd vs IH]; intros cnt P; cbn [validator_names]; [apply NoDup_nil_2|].
  set (nm := (base ++ "_" ++ vd_name vd)%string) in *. set (c := default 0 (dget cnt nm)) in *.
  assert (Hx : (if decide (1 < S c) then nm ++ "_" ++ pretty (S c - 1) else nm)%string = numbered nm c).
  { unfold numbered. destruct (decide (1 < S c)), (decide (c = 0)); try lia; [|done]. by replace (S c - 1) with c by lia. }
  rewrite Hx. apply NoDup_cons. split.
  - intros (w & d & Hw & Hd & Heq)%validator_names_elem. apply (numbered_inj base vd w c d (vd :: vs) P) in Heq as [Hnm <-]; [|by left|by right].
    rewrite <- Hnm in Hd. fold nm in Hd. rewrite dget_dset_eq in Hd. cbn in Hd. lia.
  - apply IH. intros v w k Hv Hw. apply P; by right.
Qed.

Lemma string_length_app (s t : string) : String.length (s +:+ t) = String.length s + String.length t.
Proof. induction s as [|a s IH]; [done|]. rewrite append_cons. cbn [String.length]. rewrite IH. done. Qed.
Lemma check_nodup vs (n : pnode V E T) : plain_names vs -> (forall v, v ∈ vs -> vd_name v <> "raw") ->
  NoDup (map pn_name (check_output result_type passes vs n)).
Proof.
  intros P R. rewrite check_names. apply NoDup_app. split_and!; [by apply validator_names_nodup| |].
  - intros x (v & c & Hv & _ & ->)%validator_names_elem. unfold raw_name, numbered. intros [Hx | [Hx | []%elem_of_nil]%elem_of_cons]%elem_of_cons.
    + pose proof string_length_app as Hl.
      apply (f_equal String.length) in Hx. destruct (decide (c = 0)); rewrite !Hl in Hx; cbn in Hx; lia.
    + destruct (decide (c = 0)).
      * apply app_inj_l in Hx. cbn in Hx. injection Hx as Hx. by apply (R v Hv).
      * rewrite !app_assoc_s in Hx. apply app_inj_l in Hx. cbn in Hx. injection Hx as Hx.
        destruct (vd_name v) as [|c1 [|c2 [|c3 [|? ?]]]]; cbn in Hx; discriminate Hx.
  - apply NoDup_cons. split; [|apply NoDup_singleton]. intros Hx%elem_of_list_singleton. unfold raw_name in Hx.
    pose proof string_length_app as Hl.
    apply (f_equal String.length) in Hx. rewrite Hl in Hx. cbn in Hx. lia.
Qed.
End Proofs.
