(** Invariants of the caching adapter. *)
From Coq Require Import Ascii.
From Verif Require Import Base Dict Strings ExecModel ExecSpec ExecProofs ExecResults ExecCong
  CacheKeyModel CacheKeyProofs FingerprintModel CacheModel CacheSpec.

Section Proofs.
Context {V E : Type}.
Variable hash : V -> string.
Variable uuid : nat -> string.
Variable head : V -> option V.
Variable compress : string -> string.
Variable ow : bool.
Variable code : string -> string -> gmap name V -> res E V.
Hypothesis Hvo : versions_ok hash uuid compress.

Notation cstate := (cstate V).
Notation version := (version_data hash uuid).
Implicit Types st : cstate.
Implicit Types M : gmap string V.

Definition nonce (tag : string) (n : nat) : string := tag +:+ String "_"%char (uuid n).

(** [M] tells which value every issued data version stands for. *)
Definition vers_ok (M : gmap string V) (n : nat) : Prop :=
  forall s v, M !! s = Some v ->
    (s = hash v /\ hash v <> UNHASHABLE) \/
    (exists k, k < n /\ (s = nonce "<unhashable>" k \/ s = nonce "<disable>" k)).

Definition versions_of (M : gmap string V) (D : dict string) (kw : gmap name V) : Prop :=
  forall d, (kw !! d = None <-> dget D d = None) /\ forall s, dget D d = Some s -> M !! s = kw !! d.

Record sinv (M : gmap string V) (st : cstate) : Prop := {
  si_vers : vers_ok M (cs_uuid st);
  si_res : forall s v, cs_res st !! s = Some v -> M !! s = Some v;
  si_meta : forall k s, cs_meta st !! k = Some s ->
    exists x c D kw v, k = create_cache_key compress x c D /\ NoDup (dkeys D) /\ plain D /\
      versions_of M D kw /\ code (safe_name x) c kw = Ok v /\ M !! s = Some v /\
      (hash v <> UNHASHABLE -> s = hash v);
}.

Lemma nonce_tag t1 t2 m n : t1 <> t2 -> t1 = "<unhashable>" \/ t1 = "<disable>" ->
  t2 = "<unhashable>" \/ t2 = "<disable>" -> nonce t1 m <> nonce t2 n.
Proof.
  intros Hne [-> | ->] [-> | ->]; try done; unfold nonce; rewrite !append_cons; done.
Qed.
Lemma nonce_inj t m n : nonce t m = nonce t n -> m = n.
Proof. intros H. apply app_inj_l in H. injection H as H. by apply Hvo in H. Qed.
Lemma nonce_plain t n : lacks ","%char t -> lacks ","%char (nonce t n).
Proof. intros H. unfold nonce. apply lacks_app. split; [done|]. split; [done|apply Hvo]. Qed.
Lemma nonce_unhashable t n : t = "<unhashable>" \/ t = "<disable>" -> nonce t n <> UNHASHABLE.
Proof.
  intros [-> | ->]; unfold nonce, UNHASHABLE.
  - rewrite !append_cons. intros H. injection H as H. by destruct (uuid n).
  - by rewrite !append_cons.
Qed.

Lemma versions_of_mono M M' D kw : M ⊆ M' -> (forall d s, dget D d = Some s -> is_Some (M !! s)) ->
  versions_of M D kw -> versions_of M' D kw.
Proof.
  intros HM Hi H d. destruct (H d) as [H1 H2]. split; [done|]. intros s Hs.
  rewrite <-(H2 s Hs). destruct (Hi d s Hs) as [v Hv]. rewrite Hv. by eapply lookup_weaken.
Qed.
Lemma versions_of_issued M D kw : versions_of M D kw -> forall d s, dget D d = Some s -> is_Some (M !! s).
Proof.
  intros H d s Hs. destruct (H d) as [H1 H2]. rewrite (H2 s Hs).
  destruct (kw !! d) eqn:Hk; [done|]. exfalso. rewrite (proj1 H1 eq_refl) in Hs. done.
Qed.
Lemma versions_of_grow M M' D kw : M ⊆ M' -> versions_of M D kw -> versions_of M' D kw.
Proof. intros HM H. eapply versions_of_mono; [done| |done]. by eapply versions_of_issued. Qed.
Lemma versions_of_unique M D D' kw kw' : (forall d, dget D d = dget D' d) ->
  versions_of M D kw -> versions_of M D' kw' -> kw = kw'.
Proof.
  intros HD H H'. apply map_eq. intros d. destruct (H d) as [H1 H2], (H' d) as [H1' H2'].
  destruct (dget D d) as [s|] eqn:Hd.
  - rewrite <-(H2 s eq_refl). rewrite <-(H2' s); [done|]. by rewrite <-HD.
  - rewrite (proj2 H1 eq_refl). symmetry. apply H1'. by rewrite <-HD.
Qed.

(** Growing the set of issued versions, or the uuid counter. *)
Lemma sinv_grow M M' st st' : M ⊆ M' -> sinv M st -> vers_ok M' (cs_uuid st') ->
  cs_res st' = cs_res st -> cs_meta st' = cs_meta st -> sinv M' st'.
Proof.
  intros HM Hs Hv Hr Hm. constructor; [done|..].
  - rewrite Hr. intros s v H. eapply lookup_weaken; [|exact HM]. by apply (si_res _ _ Hs).
  - rewrite Hm. intros k s H. destruct (si_meta _ _ Hs k s H) as (x & c & D & kw & v & ? & ? & ? & ? & ? & ? & ?).
    exists x, c, D, kw, v. split_and!; [done|done|done|by eapply versions_of_grow|done|by eapply lookup_weaken|done].
Qed.

(** The fields that versioning leaves alone. *)
Definition same_but_uuid st st' : Prop :=
  cs_meta st' = cs_meta st /\ cs_res st' = cs_res st /\ cs_dv st' = cs_dv st /\
  cs_key st' = cs_key st /\ cs_log st' = cs_log st.
Lemma same_refl st : same_but_uuid st st.
Proof. done. Qed.
Lemma same_trans a b c : same_but_uuid a b -> same_but_uuid b c -> same_but_uuid a c.
Proof. unfold same_but_uuid. intuition congruence. Qed.

Lemma fresh_ok M st t v st' s : t = "<unhashable>" \/ t = "<disable>" ->
  sinv M st -> fresh uuid t st = (st', s) ->
  same_but_uuid st st' /\ lacks ","%char s /\ s <> UNHASHABLE /\
  exists M', M ⊆ M' /\ sinv M' st' /\ M' !! s = Some v.
Proof.
  intros Ht Hs [= <- <-]. change (t +:+ String "_"%char (uuid (cs_uuid st))) with (nonce t (cs_uuid st)).
  split; [done|]. split.
  { apply nonce_plain. destruct Ht as [-> | ->]; by apply (bool_decide_unpack _); vm_compute. }
  split; [by apply nonce_unhashable|].
  assert (Hnew : M !! nonce t (cs_uuid st) = None).
  { destruct (M !! nonce t (cs_uuid st)) as [w|] eqn:Hw; [|done]. exfalso.
    destruct (si_vers _ _ Hs _ _ Hw) as [[Heq _]|(k & Hk & Heq)].
    - symmetry in Heq. destruct Ht as [-> | ->]; [by apply (vo_hash_unhashable _ _ _ Hvo) in Heq|by apply (vo_hash_disable _ _ _ Hvo) in Heq].
    - assert (nonce t (cs_uuid st) = nonce t k) as Heq'.
      { destruct (decide (t = "<unhashable>")) as [->|Hn].
        - destruct Heq as [?|Heq]; [done|]. exfalso. eapply (nonce_tag "<unhashable>" "<disable>"); [done|auto|auto|exact Heq].
        - destruct Ht as [-> | ->]; [done|]. destruct Heq as [Heq|?]; [|done].
          exfalso. eapply (nonce_tag "<disable>" "<unhashable>"); [done|auto|auto|exact Heq]. }
      apply nonce_inj in Heq'. lia. }
  exists (<[nonce t (cs_uuid st) := v]> M). assert (HM : M ⊆ <[nonce t (cs_uuid st) := v]> M) by by apply insert_subseteq.
  split_and!; [done| |apply lookup_insert].
  eapply sinv_grow; [exact HM|exact Hs| |done|done].
  intros s w. rewrite lookup_insert_Some. intros [[<- <-]|[_ Hw]].
  - right. exists (cs_uuid st). cbn. split; [lia|]. destruct Ht as [-> | ->]; auto.
  - destruct (si_vers _ _ Hs _ _ Hw) as [?|(k & Hk & ?)]; [by left|right]. exists k. cbn. split; [lia|done].
Qed.

Lemma version_ok M st v st' s : sinv M st -> version st v = (st', s) ->
  same_but_uuid st st' /\ lacks ","%char s /\ s <> UNHASHABLE /\
  (hash v <> UNHASHABLE -> s = hash v) /\
  exists M', M ⊆ M' /\ sinv M' st' /\ M' !! s = Some v.
Proof.
  intros Hs. unfold version_data. destruct (decide (hash v = UNHASHABLE)) as [Hu|Hu].
  - intros Hf. destruct (fresh_ok M st "<unhashable>" v st' s ltac:(auto) Hs Hf) as (? & ? & ? & ?).
    done.
  - intros [= <- <-]. split; [done|]. split; [apply Hvo|]. split; [done|]. split; [done|].
    destruct (M !! hash v) as [w|] eqn:Hw.
    + assert (w = v) as ->.
      { destruct (si_vers _ _ Hs _ _ Hw) as [[Heq _]|(k & _ & [Heq|Heq])].
        - symmetry. by apply Hvo.
        - by apply (vo_hash_unhashable _ _ _ Hvo) in Heq.
        - by apply (vo_hash_disable _ _ _ Hvo) in Heq. }
      by exists M.
    + exists (<[hash v := v]> M). assert (HM : M ⊆ <[hash v := v]> M) by by apply insert_subseteq.
      split_and!; [done| |apply lookup_insert].
      eapply sinv_grow; [exact HM|exact Hs| |done|done].
      intros s w. rewrite lookup_insert_Some. intros [[<- <-]|[_ Hw']]; [by left|].
      by apply (si_vers _ _ Hs).
Qed.

(** ** One run *)
Section Run.
Variable rq : @request V E.
Hypothesis Hro : request_ok head code rq.
Notation env := (rq_env rq).
Notation g := (ce_graph env).
Notation inputs := (rq_inputs rq).
Notation ov := (rq_overrides rq).
Notation cnode := (cached_node hash uuid head compress ow env inputs).

(** Where a data version kept in memory comes from. *)
Definition source (tr : list (event V (cexn E))) (d : name) (v : V) : Prop :=
  ov !! d = Some v \/ (ov !! d = None /\ inputs !! d = Some v) \/ (exists kw, Call d kw (Ok v) ∈ tr).
Definition rinv (M : gmap string V) (st : cstate) (tr : list (event V (cexn E))) : Prop :=
  forall d s, cs_dv st !! d = Some s -> exists v, M !! s = Some v /\ source tr d v /\
    (hash v <> UNHASHABLE -> s = hash v).

Lemma dep_version_ok M st d v : sinv M st ->
  is_Some (ce_beh env d) -> ce_beh env d <> Some IGNORE ->
  (forall s, cs_dv st !! d = Some s -> M !! s = Some v) ->
  exists st' s M', dep_version hash uuid env st d v = Ok (st', s) /\ same_but_uuid st st' /\
    lacks ","%char s /\ M ⊆ M' /\ sinv M' st' /\ M' !! s = Some v.
Proof.
  intros Hs [b Hb] Hi Hdv. unfold dep_version. rewrite Hb.
  assert (Hmem : exists st' s M',
     (let '(st', s) := match cs_dv st !! d with None => version st v | Some s => (st, s) end in
      if decide (s = UNHASHABLE) then Ok (fresh uuid "<unhashable>" st') else Ok (st', s)) = @Ok (cexn E) _ (st', s) /\
     same_but_uuid st st' /\ lacks ","%char s /\ M ⊆ M' /\ sinv M' st' /\ M' !! s = Some v).
  { destruct (cs_dv st !! d) as [s|] eqn:Hd.
    - specialize (Hdv s eq_refl).
      destruct (si_vers _ _ Hs _ _ Hdv) as [[Heq Hu]|(k & Hk & Heq)].
      + rewrite decide_False by congruence. exists st, s, M. split_and!; try done.
        rewrite Heq. apply Hvo.
      + assert (Hn : s <> UNHASHABLE) by (destruct Heq as [-> | ->]; apply nonce_unhashable; auto).
        rewrite decide_False by done. exists st, s, M. split_and!; try done.
        destruct Heq as [-> | ->]; apply nonce_plain; by apply (bool_decide_unpack _); vm_compute.
    - destruct (version st v) as [st' s] eqn:Hv.
      destruct (version_ok M st v st' s Hs Hv) as (? & ? & Hn & Hh & M' & ? & ? & ?).
      rewrite decide_False by done. exists st', s, M'. split_and!; try done. }
  destruct b.
  - destruct Hmem as (st' & s & M' & -> & ? & ? & ? & ? & ?). exists st', s, M'. split_and!; auto.
  - destruct Hmem as (st' & s & M' & -> & ? & ? & ? & ? & ?). exists st', s, M'. split_and!; auto.
  - destruct (fresh uuid "<disable>" st) as [st' s] eqn:Hf.
    destruct (fresh_ok M st "<disable>" v st' s ltac:(auto) Hs Hf) as (? & ? & Hn & M' & ? & ? & ?).
    exists st', s, M'. split_and!; try done.
  - done.
Qed.

Lemma dep_versions_ok kws : forall M st acc, sinv M st ->
  (forall d v, (d, v) ∈ kws -> is_Some (ce_beh env d) /\ ce_beh env d <> Some IGNORE /\ lacks ","%char d /\
     (forall s, cs_dv st !! d = Some s -> M !! s = Some v)) ->
  exists st' D M', dep_versions hash uuid env st acc kws = Ok (st', acc ++ D) /\ same_but_uuid st st' /\
    M ⊆ M' /\ sinv M' st' /\ plain D /\
    Forall2 (fun p q => p.1 = q.1 /\ M' !! q.2 = Some p.2) kws D.
Proof.
  induction kws as [|[d v] kws IH]; intros M st acc Hs Hk; cbn [dep_versions].
  - exists st, [], M. rewrite app_nil_r. split_and!; try done. constructor.
  - destruct (Hk d v ltac:(by left)) as (Hb & Hi & Hl & Hdv).
    destruct (dep_version_ok M st d v Hs Hb Hi Hdv) as (st1 & s & M1 & -> & Hsame & Hp & HM1 & Hs1 & Hv).
    destruct (IH M1 st1 (acc ++ [(d, s)]) Hs1) as (st2 & D & M2 & -> & Hsame2 & HM2 & Hs2 & HpD & HD).
    { intros d' v' Hin. destruct (Hk d' v' ltac:(by right)) as (? & ? & ? & Hdv'). split_and!; try done.
      destruct Hsame as (_ & _ & Hdd & _). rewrite Hdd. intros s' Hs'. eapply lookup_weaken; [|exact HM1]. by apply Hdv'. }
    exists st2, ((d, s) :: D), M2. rewrite <-app_assoc. cbn [app].
    split_and!; [done|by eapply same_trans|by etrans|done|by constructor|].
    constructor; cbn [fst snd].
    + split; [done|by eapply lookup_weaken].
    + done.
Qed.

Lemma Forall2_versions M (kw : gmap name V) D :
  Forall2 (fun p q => p.1 = q.1 /\ M !! q.2 = Some p.2) (map_to_list kw) D ->
  NoDup (dkeys D) /\ versions_of M D kw.
Proof.
  intros HF. assert (Hk : dkeys D = (map_to_list kw).*1).
  { clear -HF. induction HF as [|p q l l' [H _] _ IH]; [done|]. unfold dkeys in *. rewrite !fmap_cons, IH. by rewrite H. }
  assert (Hnd : NoDup (dkeys D)) by (rewrite Hk; apply NoDup_fst_map_to_list).
  split; [done|]. intros d. split.
  - rewrite dget_None_key, Hk. split.
    + intros Hn Hin. apply elem_of_list_fmap in Hin as ([d' v] & -> & Hin). apply elem_of_map_to_list in Hin.
      cbn in Hn. congruence.
    + intros Hn. destruct (kw !! d) as [v|] eqn:Hd; [|done]. exfalso. apply Hn.
      apply elem_of_list_fmap. exists (d, v). split; [done|]. by apply elem_of_map_to_list.
  - intros s Hs. apply dget_elem in Hs.
    apply elem_of_list_lookup in Hs as [i Hi].
    destruct (Forall2_lookup_r _ _ _ _ _ HF Hi) as ([d' v] & Hi' & Heq & Hv). cbn in Heq, Hv. subst d'.
    rewrite Hv. symmetry. apply elem_of_map_to_list. by eapply elem_of_list_lookup_2.
Qed.

(** What the executor guarantees about the call of a node. *)
Record call_ok (tr : list (event V (cexn E))) (x : name) (kw : gmap name V) (nd : node) : Prop := {
  co_node : g !! x = Some nd;
  co_fun : nd_ext nd = false;
  co_new : x ∉ calls_of tr;
  co_ov : ov !! x = None;
  co_args : forall d v, kw !! d = Some v -> d ∈ dep_names nd /\
     forall w, source tr d w -> w = v;
  co_avail : forall d v, kw !! d = Some v ->
     ov !! d = Some v \/ (inputs ∪ rq_config rq) !! d = Some v \/ exists kw', Call d kw' (Ok v) ∈ tr;
  co_absent : forall d, d ∈ dep_names nd -> kw !! d = None -> forall w, ~ source tr d w;
}.

Definition plain_res (x : name) (kw : gmap name V) : res (cexn E) V :=
  match ce_call env x kw with Ok v => Ok v | Err e => Err (CUser e) end.

Lemma code_version_node x nd : g !! x = Some nd -> nd_ext nd = false -> code_version env inputs x = ce_code env x.
Proof.
  intros Hg He. unfold code_version. destruct (inputs !! x) as [v|] eqn:Hi; [|done].
  assert (nd_ext nd = true) by (eapply (ro_inputs _ _ _ Hro); [by rewrite Hi|done]). congruence.
Qed.

Lemma rinv_no_source M st tr x kw nd : rinv M st tr -> call_ok tr x kw nd -> cs_dv st !! x = None.
Proof.
  intros Hr Hc. destruct (cs_dv st !! x) as [s|] eqn:Hs; [|done]. exfalso.
  destruct (Hr x s Hs) as (v & _ & [Ho|[[_ Hi]|[kw' Hin]]] & _).
  - rewrite (co_ov _ _ _ _ Hc) in Ho. done.
  - assert (nd_ext nd = true) by (eapply (ro_inputs _ _ _ Hro); [by rewrite Hi|apply Hc]).
    rewrite (co_fun _ _ _ _ Hc) in *. done.
  - apply (co_new _ _ _ _ Hc). by eapply elem_calls_of.
Qed.

Lemma full_args tr x kw nd d v : call_ok tr x kw nd ->
  (kw ∪ ce_defaults env x) !! d = Some v ->
  d ∈ dep_names nd /\ forall w, source tr d w -> w = v.
Proof.
  intros Hc. rewrite lookup_union_Some_raw. intros [Hk|[Hk Hd]].
  - by apply (co_args _ _ _ _ Hc).
  - assert (d ∈ dep_names nd) by (eapply (ro_defaults_dom _ _ _ Hro); [apply Hc|by rewrite Hd]).
    split; [done|]. intros w Hw. exfalso. by eapply (co_absent _ _ _ _ Hc d).
Qed.

(** [pre_node_execute] for a node that needs a cache key. *)
Lemma pre_ok M st tr x kw nd : sinv M st -> rinv M st tr -> call_ok tr x kw nd ->
  ce_beh env x = Some DEFAULT \/ ce_beh env x = Some RECOMPUTE ->
  exists st' D M', pre_node_execute hash uuid compress env inputs st x kw
      = Ok (set_key st' x (create_cache_key compress x (ce_code env x) D)) /\
    same_but_uuid st st' /\ M ⊆ M' /\ sinv M' st' /\ plain D /\ NoDup (dkeys D) /\
    versions_of M' D (kw ∪ ce_defaults env x).
Proof.
  intros Hs Hr Hc Hb. unfold pre_node_execute.
  destruct (dep_versions_ok (map_to_list (resolve_defaults env x kw)) M st [] Hs) as (st' & D & M' & Heq & Hsame & HM & Hs' & Hp & HF).
  { intros d v Hin. apply elem_of_map_to_list in Hin.
    destruct (full_args tr x kw nd d v Hc Hin) as [Hd Hw].
    assert (He : edge g x d) by (exists nd; split; [apply Hc|done]).
    split_and!.
    - apply (ro_beh _ _ _ Hro). by eapply (wf_closed _ (ro_wf _ _ _ Hro)).
    - by eapply (ro_ignore _ _ _ Hro).
    - by eapply (ro_names _ _ _ Hro).
    - intros s Hs0. destruct (Hr d s Hs0) as (w & Hm & Hsrc & _). by rewrite <-(Hw w Hsrc). }
  rewrite Heq. exists st', D, M'. cbn [app].
  rewrite (code_version_node x nd) by apply Hc.
  destruct (Forall2_versions M' (resolve_defaults env x kw) D) as [Hnd Hv].
  { exact HF. }
  split_and!; try done.
  by destruct Hb as [-> | ->].
Qed.

(** Where [cs_dv] may have grown. *)
Definition dv_step (M : gmap string V) st st' (x : name) (r : res (cexn E) V) : Prop :=
  cs_dv st' = cs_dv st \/
  exists s v, cs_dv st' = <[x := s]> (cs_dv st) /\ r = Ok v /\ M !! s = Some v /\ (hash v <> UNHASHABLE -> s = hash v).

Lemma rinv_step M M' st st' tr x kw r : rinv M st tr -> M ⊆ M' -> dv_step M' st st' x r ->
  rinv M' st' (tr ++ [Call x kw r]).
Proof.
  intros Hr HM Hd d s Hs.
  assert (Hsrc : forall d v, source tr d v -> source (tr ++ [Call x kw r]) d v).
  { intros d' v [?|[?|[kw' ?]]]; [by left|right; by left|right; right]. exists kw'. apply elem_of_app. by left. }
  destruct Hd as [Hd|(s0 & v & Hd & -> & Hm & Hh)]; rewrite Hd in Hs.
  - destruct (Hr d s Hs) as (v & Hv & ? & ?). exists v. split; [by eapply lookup_weaken|auto].
  - apply lookup_insert_Some in Hs as [[<- <-]|[_ Hs]].
    + exists v. split; [done|]. split; [|done]. right. right. exists kw. apply elem_of_app. right. by apply elem_of_list_singleton.
    + destruct (Hr d s Hs) as (w & Hw & ? & ?). exists w. split; [by eapply lookup_weaken|auto].
Qed.

(** [_execute_node] and what follows it. *)
Lemma execute_ok M st x kw nd : sinv M st -> g !! x = Some nd ->
  (forall k, cs_key st !! x = Some k -> exists D, k = create_cache_key compress x (ce_code env x) D /\
      NoDup (dkeys D) /\ plain D /\ versions_of M D (kw ∪ ce_defaults env x)) ->
  exists st' M', execute_node hash uuid head ow env st x kw true = (st', plain_res x kw) /\
    M ⊆ M' /\ sinv M' st' /\ cs_key st' = cs_key st /\ cs_res st' = cs_res st /\
    cs_log st' = cs_log st ++ [(x, kw ∪ ce_defaults env x)] /\
    match ce_call env x kw with
    | Ok v => exists s, cs_dv st' = <[x := s]> (cs_dv st) /\ M' !! s = Some v /\
                (hash v <> UNHASHABLE -> s = hash v) /\ s <> UNHASHABLE /\
                (forall k, cs_key st !! x = Some k -> is_Some (cs_meta st' !! k)) /\
                (forall k, cs_meta st' !! k = cs_meta st !! k \/ cs_meta st' !! k = Some s)
    | Err _ => cs_dv st' = cs_dv st /\ cs_meta st' = cs_meta st
    end.
Proof.
  intros Hs Hg Hkey. unfold execute_node, plain_res, resolve_defaults.
  assert (Hs1 : sinv M (log_call st x (kw ∪ ce_defaults env x))).
  { eapply sinv_grow; [reflexivity|exact Hs|apply Hs|done|done]. }
  rewrite (ro_defaults _ _ _ Hro). destruct (ce_call env x kw) as [v|e] eqn:Hcall.
  2:{ eexists _, M. split_and!; try done. }
  assert (Hhead : (if decide (x ∈ ce_loaders env) then default v (head v) else v) = v).
  { destruct (decide (x ∈ ce_loaders env)) as [Hl|]; [|done].
    by rewrite (ro_loaders _ _ _ Hro x kw v Hl Hcall). }
  rewrite Hhead.
  destruct (version (log_call st x (kw ∪ ce_defaults env x)) v) as [st2 s] eqn:Hv.
  destruct (version_ok M _ v st2 s Hs1 Hv) as ((Hm2 & Hr2 & Hd2 & Hk2 & Hl2) & Hp & Hn & Hh & M' & HM & Hs2 & Hm).
  rewrite (decide_False (P := x ∈ ce_savers env)) by (apply (ro_savers _ _ _ Hro); by rewrite Hg).
  exists (set_meta ow (set_dv st2 x s) (cs_key st !! x) s), M'. split; [done|]. split; [done|].
  assert (Hfull : code (safe_name x) (ce_code env x) (kw ∪ ce_defaults env x) = Ok v).
  { by rewrite <-(ro_code _ _ _ Hro), (ro_defaults _ _ _ Hro). }
  assert (Hsd : sinv M' (set_dv st2 x s)).
  { eapply sinv_grow; [reflexivity|exact Hs2|apply Hs2|done|done]. }
  split_and!.
  - destruct (cs_key st !! x) as [k|] eqn:Hk; [|done]. cbn [set_meta].
    destruct (Hkey k eq_refl) as (D & -> & HndD & HpD & HvD).
    assert (Hentry : exists x' c D' kw' v', create_cache_key compress x (ce_code env x) D = create_cache_key compress x' c D' /\
        NoDup (dkeys D') /\ plain D' /\ versions_of M' D' kw' /\ code (safe_name x') c kw' = Ok v' /\ M' !! s = Some v' /\
        (hash v' <> UNHASHABLE -> s = hash v')).
    { exists x, (ce_code env x), D, (kw ∪ ce_defaults env x), v. split_and!; try done. by eapply versions_of_grow. }
    constructor; cbn.
    + apply Hsd.
    + apply (si_res _ _ Hsd).
    + intros k' s'. destruct ow.
      * rewrite lookup_insert_Some. intros [[<- <-]|[_ Hk']]; [done|]. by apply (si_meta _ _ Hsd).
      * destruct (cs_meta (set_dv st2 x s) !! create_cache_key compress x (ce_code env x) D) eqn:Hex.
        -- cbn in Hex. rewrite Hex. intros Hk'. by apply (si_meta _ _ Hsd).
        -- cbn in Hex. rewrite Hex. rewrite lookup_insert_Some. intros [[<- <-]|[_ Hk']]; [done|]. by apply (si_meta _ _ Hsd).
  - unfold set_meta. destruct (cs_key st !! x); cbn; by rewrite Hk2.
  - unfold set_meta. destruct (cs_key st !! x); cbn; by rewrite Hr2.
  - unfold set_meta. destruct (cs_key st !! x); cbn; by rewrite Hl2.
  - exists s. split_and!; try done.
    + unfold set_meta. destruct (cs_key st !! x); cbn; by rewrite Hd2.
    + intros k Hk. rewrite Hk. cbn. destruct ow; [by rewrite lookup_insert|].
      destruct (cs_meta st2 !! k) eqn:Hex; [by rewrite Hex|by rewrite lookup_insert].
    + change (cs_meta st2 = cs_meta st) in Hm2. intros k. rewrite <-Hm2.
      unfold set_meta. destruct (cs_key st !! x) as [k0|]; [|by left]. cbn.
      assert (Hins : <[k0:=s]> (cs_meta st2) !! k = cs_meta st2 !! k \/ <[k0:=s]> (cs_meta st2) !! k = Some s).
      { destruct (decide (k = k0)) as [->|]; [right; by rewrite lookup_insert|left; by rewrite lookup_insert_ne]. }
      destruct ow; [done|]. destruct (cs_meta st2 !! k0); [by left|done].
Qed.

(** A cached version found under the key of a call is the version of its result. *)
Lemma meta_hit M st x c D kw s : sinv M st -> NoDup (dkeys D) -> plain D -> versions_of M D kw ->
  cs_meta st !! create_cache_key compress x c D = Some s ->
  exists v, code (safe_name x) c kw = Ok v /\ M !! s = Some v /\ (hash v <> UNHASHABLE -> s = hash v).
Proof.
  intros Hs Hnd Hp Hv Hm.
  destruct (si_meta _ _ Hs _ _ Hm) as (x' & c' & D' & kw' & v & Hk & Hnd' & Hp' & Hv' & Hcall & Hms & Hh).
  destruct (vo_compress _ _ _ Hvo) as [decompress Hdec].
  destruct (create_inj compress decompress Hdec (vo_compress_dash _ _ _ Hvo) _ _ _ _ _ _ Hp Hp' Hk) as (Hx & <- & HD).
  assert (kw = kw') as <-.
  { eapply versions_of_unique; [|exact Hv|exact Hv']. intros d. by apply dget_perm. }
  exists v. by rewrite Hx.
Qed.

(** Cache keys are only set by calls. *)
Definition kinv st (tr : list (event V (cexn E))) : Prop :=
  forall x, is_Some (cs_key st !! x) -> x ∈ calls_of tr.

Lemma kinv_step st st' tr x kw r : kinv st tr -> (forall y, y <> x -> cs_key st' !! y = cs_key st !! y) ->
  kinv st' (tr ++ [Call x kw r]).
Proof.
  intros Hk Heq y Hy. rewrite calls_of_app, elem_of_app. destruct (decide (y = x)) as [->|Hne].
  - right. cbn. by apply elem_of_list_singleton.
  - left. apply Hk. by rewrite <-Heq.
Qed.

(** A key under which a result can be found. *)
Definition cachedk st (k : string) : Prop :=
  exists s, cs_meta st !! k = Some s /\ s <> UNHASHABLE /\ is_Some (cs_res st !! s).

(** The end of a recorded execution. *)
Lemma finish_ok M0 M st st1 tr x kw nd : call_ok tr x kw nd -> M0 ⊆ M ->
  rinv M0 st tr -> kinv st tr ->
  sinv M st1 -> cs_dv st1 = cs_dv st -> (forall y, y <> x -> cs_key st1 !! y = cs_key st !! y) ->
  is_Some (ce_beh env x) -> ce_beh env x <> Some DISABLE ->
  (forall k, cs_key st1 !! x = Some k -> exists D, k = create_cache_key compress x (ce_code env x) D /\
      NoDup (dkeys D) /\ plain D /\ versions_of M D (kw ∪ ce_defaults env x)) ->
  exists st2 st' M',
    execute_node hash uuid head ow env st1 x kw true = (st2, plain_res x kw) /\
    match ce_call env x kw with
    | Ok v => post_node_execute env st2 x v = Ok st'
    | Err _ => st' = st2
    end /\
    M0 ⊆ M' /\ sinv M' st' /\ rinv M' st' (tr ++ [Call x kw (plain_res x kw)]) /\
    kinv st' (tr ++ [Call x kw (plain_res x kw)]) /\
    cs_log st' = cs_log st1 ++ [(x, kw ∪ ce_defaults env x)] /\
    (forall k, cachedk st1 k -> cachedk st' k) /\
    (forall v k, ce_call env x kw = Ok v -> hash v <> UNHASHABLE -> cs_key st1 !! x = Some k -> cachedk st' k).
Proof.
  intros Hc HM0 Hr Hki Hs Hdv Hkey Hb Hnb Hx.
  destruct (execute_ok M st1 x kw nd Hs (co_node _ _ _ _ Hc) Hx) as (st2 & M' & Heq & HM & Hs2 & Hk2 & Hr2 & Hl2 & Hcase).
  rewrite Heq. unfold plain_res in *. destruct (ce_call env x kw) as [v|e] eqn:Hcall.
  - destruct Hcase as (s & Hd2 & Hms & Hh & Hn & Hmk & Hmm).
    set (st' := match cs_res st2 !! s with Some _ => st2 | None => set_res st2 s v end).
    assert (Hfields : cs_dv st' = cs_dv st2 /\ cs_key st' = cs_key st2 /\ cs_log st' = cs_log st2 /\
      cs_meta st' = cs_meta st2 /\ is_Some (cs_res st' !! s) /\
      (forall s', is_Some (cs_res st2 !! s') -> is_Some (cs_res st' !! s'))).
    { unfold st'. destruct (cs_res st2 !! s) as [w|] eqn:Hw; [by rewrite Hw|]. cbn.
      split_and!; try done; [by rewrite lookup_insert|]. intros s' Hs'.
      destruct (decide (s' = s)) as [->|]; [by rewrite lookup_insert|by rewrite lookup_insert_ne]. }
    destruct Hfields as (Hf1 & Hf2 & Hf3 & Hf4 & Hf5 & Hf6).
    assert (Hs' : sinv M' st').
    { unfold st'. destruct (cs_res st2 !! s) as [w|] eqn:Hw; [done|]. constructor; cbn.
      * apply Hs2.
      * intros s' w'. rewrite lookup_insert_Some. intros [[<- <-]|[_ ?]]; [done|]. by apply (si_res _ _ Hs2).
      * apply (si_meta _ _ Hs2). }
    exists st2, st', M'. split_and!; try done.
    + unfold post_node_execute, get_data_version. destruct Hb as [b Hb]. rewrite Hb in Hnb |- *.
      rewrite Hd2, lookup_insert. by destruct b.
    + by etrans.
    + eapply rinv_step; [exact Hr|by etrans|]. right. exists s, v. rewrite Hf1, Hd2, Hdv. done.
    + eapply kinv_step; [exact Hki|]. intros y Hy. rewrite Hf2, Hk2. by apply Hkey.
    + by rewrite Hf3, Hl2.
    + intros k (s' & Hm' & Hn' & Hr'). unfold cachedk. rewrite Hf4. destruct (Hmm k) as [Hkk|Hkk]; rewrite Hkk.
      * exists s'. split_and!; [done|done|]. apply Hf6. by rewrite Hr2.
      * by exists s.
    + intros v' k [= <-] Hh' Hk. destruct (Hmk k Hk) as [s' Hs'k].
      destruct (Hx k Hk) as (D & -> & HndD & HpD & HvD).
      destruct (meta_hit M' st' x (ce_code env x) D _ s' Hs' HndD HpD (versions_of_grow _ _ _ _ HM HvD)) as (v' & Hcode & _ & Hhs).
      { by rewrite Hf4. }
      rewrite <-(ro_code _ _ _ Hro), (ro_defaults _ _ _ Hro), Hcall in Hcode. injection Hcode as <-.
      exists s'. rewrite Hf4. rewrite (Hhs Hh') in *. split_and!; [done|done|]. by rewrite <-(Hh Hh').
  - destruct Hcase as [Hd2 Hm2]. exists st2, st2, M'. split_and!; try done.
    + by etrans.
    + eapply rinv_step; [exact Hr|by etrans|]. left. by rewrite Hd2.
    + eapply kinv_step; [exact Hki|]. intros y Hy. rewrite Hk2. by apply Hkey.
    + intros k. unfold cachedk. by rewrite Hm2, Hr2.
Qed.

Lemma kinv_key st tr x kw nd : kinv st tr -> call_ok tr x kw nd -> cs_key st !! x = None.
Proof.
  intros Hk Hc. destruct (cs_key st !! x) eqn:H; [|done]. exfalso.
  apply (co_new _ _ _ _ Hc), Hk. by rewrite H.
Qed.

Lemma post_from_finish x kw st2 st' : is_Some (ce_beh env x) ->
  match ce_call env x kw with Ok v => post_node_execute env st2 x v = Ok st' | Err _ => st' = st2 end ->
  match plain_res x kw with
  | Err e => (st2, Err e)
  | Ok v => match post_node_execute env st2 x v with Err e => (st2, Err e) | Ok st3 => (st3, Ok v) end
  end = (st', plain_res x kw).
Proof.
  intros _. unfold plain_res. destruct (ce_call env x kw); [by intros ->|by intros ->].
Qed.

(** One node: same result as without the adapter. *)
Lemma cached_ok M st tr x kw nd : sinv M st -> rinv M st tr -> kinv st tr -> call_ok tr x kw nd ->
  exists st' M', cnode st x kw = (st', plain_res x kw) /\
    M ⊆ M' /\ sinv M' st' /\ rinv M' st' (tr ++ [Call x kw (plain_res x kw)]) /\
    kinv st' (tr ++ [Call x kw (plain_res x kw)]) /\ (forall k, cachedk st k -> cachedk st' k).
Proof.
  intros Hs Hr Hk Hc. assert (Hb : is_Some (ce_beh env x)).
  { apply (ro_beh _ _ _ Hro). eexists. apply Hc. }
  assert (Hb' := Hb). destruct Hb' as [b Heqb].
  assert (Hkx := kinv_key st tr x kw nd Hk Hc).
  unfold cached_node.
  assert (Hprep : b = DEFAULT \/ b = RECOMPUTE ->
    exists st1 D M1, pre_node_execute hash uuid compress env inputs st x kw = Ok (set_key st1 x (create_cache_key compress x (ce_code env x) D)) /\
      same_but_uuid st st1 /\ M ⊆ M1 /\ sinv M1 st1 /\ plain D /\ NoDup (dkeys D) /\
      versions_of M1 D (kw ∪ ce_defaults env x)).
  { intros Hbb. apply (pre_ok M st tr x kw nd Hs Hr Hc). rewrite Heqb. destruct Hbb as [-> | ->]; auto. }
  assert (Hgo : b = DEFAULT \/ b = RECOMPUTE -> forall st1 D M1,
      same_but_uuid st st1 -> M ⊆ M1 -> sinv M1 st1 -> plain D -> NoDup (dkeys D) ->
      versions_of M1 D (kw ∪ ce_defaults env x) ->
      exists st2 st' M', execute_node hash uuid head ow env (set_key st1 x (create_cache_key compress x (ce_code env x) D)) x kw true = (st2, plain_res x kw) /\
       match ce_call env x kw with Ok v => post_node_execute env st2 x v = Ok st' | Err _ => st' = st2 end /\
       M ⊆ M' /\ sinv M' st' /\ rinv M' st' (tr ++ [Call x kw (plain_res x kw)]) /\ kinv st' (tr ++ [Call x kw (plain_res x kw)]) /\
       (forall k, cachedk st k -> cachedk st' k)).
  { intros Hbb st1 D M1 (Hm1 & Hr1 & Hd1 & Hk1 & Hl1) HM1 Hs1 Hp Hnd Hv.
    destruct (finish_ok M M1 st (set_key st1 x (create_cache_key compress x (ce_code env x) D)) tr x kw nd Hc HM1 Hr Hk)
      as (st2 & st' & M' & ? & ? & ? & ? & ? & ? & _ & Hck & _).
    - eapply sinv_grow; [reflexivity|exact Hs1|apply Hs1|done|done].
    - done.
    - intros y Hy. cbn. rewrite lookup_insert_ne by done. by rewrite Hk1.
    - done.
    - rewrite Heqb. by destruct Hbb as [-> | ->].
    - cbn. intros k. rewrite lookup_insert. intros [= <-]. by exists D.
    - exists st2, st', M'. split_and!; try done. intros k Hkk. apply Hck. unfold cachedk in *. cbn. by rewrite Hm1, Hr1. }
  destruct b.
  - destruct (Hprep ltac:(auto)) as (st1 & D & M1 & Hpre & Hsame & HM1 & Hs1 & Hp & Hnd & Hv). rewrite Hpre.
    assert (Hd1 : cs_dv st1 !! x = None).
    { destruct Hsame as (_ & _ & -> & _). by eapply rinv_no_source. }
    unfold do_node_execute. rewrite Heqb. unfold get_data_version.
    replace (cs_dv (set_key st1 x (create_cache_key compress x (ce_code env x) D)) !! x) with (@None string) by (cbn; done).
    replace (cs_key (set_key st1 x (create_cache_key compress x (ce_code env x) D)) !! x)
      with (Some (create_cache_key compress x (ce_code env x) D)) by (cbn; by rewrite lookup_insert).
    change (cs_meta (set_key st1 x (create_cache_key compress x (ce_code env x) D))) with (cs_meta st1).
    change (cs_res (set_key st1 x (create_cache_key compress x (ce_code env x) D))) with (cs_res st1).
    destruct (Hgo ltac:(auto) st1 D M1 Hsame HM1 Hs1 Hp Hnd Hv) as (st2 & st' & M' & He & Hpost & ? & ? & ? & ? & ?).
    rewrite He.
    assert (Hexec : exists st0 M0, (let '(st2, y) := (st2, plain_res x kw) in match y with
      | Ok v => match post_node_execute env st2 x v with Ok st3 => (st3, Ok v) | Err e => (st2, Err e) end
      | Err e => (st2, Err e) end) = (st0, plain_res x kw) /\ M ⊆ M0 /\ sinv M0 st0 /\
      rinv M0 st0 (tr ++ [Call x kw (plain_res x kw)]) /\ kinv st0 (tr ++ [Call x kw (plain_res x kw)]) /\ (forall k, cachedk st k -> cachedk st0 k)).
    { exists st', M'. split_and!; try done. assert (Hpf := post_from_finish x kw st2 st' Hb Hpost).
      by destruct (plain_res x kw). }
    destruct (cs_meta st1 !! create_cache_key compress x (ce_code env x) D) as [s|] eqn:Hmeta; [|exact Hexec].
    destruct (decide (s = UNHASHABLE)); [exact Hexec|].
    destruct (cs_res st1 !! s) as [v|] eqn:Hres; [|exact Hexec].
    clear Hexec Hpost He.
    destruct (meta_hit M1 st1 x _ D _ s Hs1 Hnd Hp Hv Hmeta) as (v' & Hcode & Hms & Hh).
    assert (v' = v) as ->. { apply (si_res _ _ Hs1) in Hres. congruence. }
    rewrite <-(ro_code _ _ _ Hro), (ro_defaults _ _ _ Hro) in Hcode.
    unfold post_node_execute. rewrite Heqb. unfold get_data_version.
    replace (cs_dv (set_dv (set_key st1 x (create_cache_key compress x (ce_code env x) D)) x s) !! x) with (Some s)
      by (cbn; by rewrite lookup_insert).
    replace (cs_res (set_dv (set_key st1 x (create_cache_key compress x (ce_code env x) D)) x s) !! s) with (Some v)
      by (cbn; by rewrite Hres).
    destruct Hsame as (Hm1 & Hr1 & Hdd & Hk1 & Hl1).
    eexists _, M1. unfold plain_res. rewrite Hcode. split_and!; try done.
    + eapply sinv_grow; [reflexivity|exact Hs1|apply Hs1|done|done].
    + eapply rinv_step; [exact Hr|done|]. right. exists s, v. split_and!; try done. cbn. by rewrite Hdd.
    + eapply kinv_step; [exact Hk|]. intros y Hy. cbn. rewrite lookup_insert_ne by done. by rewrite Hk1.
    + intros k. unfold cachedk. cbn. by rewrite Hm1, Hr1.
  - destruct (Hprep ltac:(auto)) as (st1 & D & M1 & Hpre & Hsame & HM1 & Hs1 & Hp & Hnd & Hv). rewrite Hpre.
    destruct (Hgo ltac:(auto) st1 D M1 Hsame HM1 Hs1 Hp Hnd Hv) as (st2 & st' & M' & He & Hpost & ? & ? & ? & ? & ?).
    unfold do_node_execute. rewrite Heqb, He. exists st', M'. split_and!; try done.
    assert (Hpf := post_from_finish x kw st2 st' Hb Hpost). by destruct (plain_res x kw).
  - unfold pre_node_execute, do_node_execute, execute_node. rewrite Heqb.
    unfold resolve_defaults. rewrite (ro_defaults _ _ _ Hro). unfold plain_res.
    unfold post_node_execute. rewrite Heqb.
    exists (log_call st x (kw ∪ ce_defaults env x)), M. split_and!; try done.
    + by destruct (ce_call env x kw).
    + eapply sinv_grow; [reflexivity|exact Hs|apply Hs|done|done].
    + eapply rinv_step; [exact Hr|done|by left].
    + by eapply kinv_step.
  - destruct (finish_ok M M st st tr x kw nd Hc ltac:(done) Hr Hk Hs) as (st2 & st' & M' & He & Hpost & ? & ? & ? & ? & _ & ? & _); try done.
    + by rewrite Heqb.
    + by rewrite Hkx.
    + unfold pre_node_execute, do_node_execute. rewrite Heqb, He. exists st', M'. split_and!; try done.
      assert (Hpf := post_from_finish x kw st2 st' Hb Hpost). by destruct (plain_res x kw).
Qed.


(** With DEFAULT behaviour and fingerprinted values. *)
Definition call_key (x : name) (full : gmap name V) : string :=
  create_cache_key compress x (ce_code env x) (map (fun p => (p.1, hash p.2)) (map_to_list full)).

Lemma dep_versions_hash kws : forall st acc,
  (forall d v, (d, v) ∈ kws -> ce_beh env d = Some DEFAULT /\ hash v <> UNHASHABLE /\
     (forall s, cs_dv st !! d = Some s -> s = hash v)) ->
  dep_versions (E := E) hash uuid env st acc kws = Ok (st, acc ++ map (fun p => (p.1, hash p.2)) kws).
Proof.
  induction kws as [|[d v] kws IH]; intros st acc Hk; cbn [dep_versions map].
  - by rewrite app_nil_r.
  - destruct (Hk d v ltac:(by left)) as (Hb & Hh & Hs).
    assert (dep_version (E := E) hash uuid env st d v = Ok (st, hash v)) as ->.
    { unfold dep_version. rewrite Hb. unfold version_data. rewrite (decide_False (P := hash v = UNHASHABLE)) by done.
      destruct (cs_dv st !! d) as [s|].
      - rewrite (Hs s eq_refl). by rewrite decide_False.
      - by rewrite decide_False. }
    rewrite IH; [|intros d' v' Hin; apply Hk; by right]. by rewrite <-app_assoc.
Qed.

Lemma node_hit M st tr x kw nd : all_default rq -> sinv M st -> rinv M st tr -> kinv st tr -> call_ok tr x kw nd ->
  (forall d v, (kw ∪ ce_defaults env x) !! d = Some v -> hash v <> UNHASHABLE) ->
  (forall v, ce_call env x kw = Ok v -> hash v <> UNHASHABLE) ->
  (cachedk st (call_key x (kw ∪ ce_defaults env x)) -> cs_log (cnode st x kw).1 = cs_log st) /\
  (cs_log (cnode st x kw).1 = cs_log st \/
   cs_log (cnode st x kw).1 = cs_log st ++ [(x, kw ∪ ce_defaults env x)]) /\
  (forall v, ce_call env x kw = Ok v -> cachedk (cnode st x kw).1 (call_key x (kw ∪ ce_defaults env x))).
Proof.
  intros Hdef Hs Hr Hk Hc Hh Hres.
  assert (Heqb : ce_beh env x = Some DEFAULT) by (apply Hdef; eexists; apply Hc).
  destruct (pre_ok M st tr x kw nd Hs Hr Hc ltac:(by left)) as (st1 & D & M1 & Hpre & Hsame & HM1 & Hs1 & Hp & Hnd & Hv).
  assert (Hpre' : pre_node_execute hash uuid compress env inputs st x kw = Ok (set_key st x (call_key x (kw ∪ ce_defaults env x)))).
  { unfold pre_node_execute. rewrite Heqb. unfold resolve_defaults. rewrite dep_versions_hash.
    - unfold call_key. cbn [app]. by rewrite (code_version_node x nd) by apply Hc.
    - intros d v Hin. apply elem_of_map_to_list in Hin. destruct (full_args tr x kw nd d v Hc Hin) as [Hd Hw].
      assert (He : edge g x d) by (exists nd; split; [apply Hc|done]).
      split_and!.
      + apply Hdef. by eapply (wf_closed _ (ro_wf _ _ _ Hro)).
      + by eapply Hh.
      + intros s Hds. destruct (Hr d s Hds) as (w & _ & Hsrc & Hhw). rewrite <-(Hw w Hsrc). apply Hhw.
        rewrite (Hw w Hsrc). by eapply Hh. }
  rewrite Hpre' in Hpre.
  assert (Hst : set_key st x (call_key x (kw ∪ ce_defaults env x)) = set_key st1 x (create_cache_key compress x (ce_code env x) D)) by congruence.
  assert (Hkey : call_key x (kw ∪ ce_defaults env x) = create_cache_key compress x (ce_code env x) D).
  { assert (Hl : cs_key (set_key st x (call_key x (kw ∪ ce_defaults env x))) !! x
       = cs_key (set_key st1 x (create_cache_key compress x (ce_code env x) D)) !! x) by by rewrite Hst.
    cbn in Hl. rewrite !lookup_insert in Hl. by injection Hl. }
  assert (Hu : cs_uuid st = cs_uuid st1) by exact (f_equal cs_uuid Hst).
  unfold cached_node. rewrite Hpre'. clear Hst Hpre Hpre'.
  assert (Hdx : cs_dv st !! x = None) by by eapply rinv_no_source.
  unfold do_node_execute. rewrite Heqb. unfold get_data_version.
  set (key := call_key x (kw ∪ ce_defaults env x)) in *.
  assert (E1 : cs_dv (set_key st x key) !! x = None) by (cbn; done). rewrite E1.
  assert (E2 : cs_key (set_key st x key) !! x = Some key) by (cbn; by rewrite lookup_insert). rewrite E2.
  change (cs_meta (set_key st x key)) with (cs_meta st).
  change (cs_res (set_key st x key)) with (cs_res st).
  assert (Hexec : forall y, y = execute_node hash uuid head ow env (set_key st x key) x kw true ->
     let fin := match y with
      | (st2, Ok v) => match post_node_execute env st2 x v with Ok st3 => (st3, Ok v) | Err e => (st2, Err e) end
      | (st2, Err e) => (st2, Err e) end in
     cs_log fin.1 = cs_log st ++ [(x, kw ∪ ce_defaults env x)] /\
     (forall v, ce_call env x kw = Ok v -> cachedk fin.1 key)).
  { intros y ->. destruct (finish_ok M M1 st (set_key st x key) tr x kw nd Hc HM1 Hr Hk) as
      (st2 & st' & M' & He & Hpost & _ & _ & _ & _ & Hlog & _ & Hck).
    - eapply (sinv_grow M1 M1 st1 (set_key st x key)); [done|exact Hs1| |cbn; symmetry; apply Hsame|cbn; symmetry; apply Hsame].
      cbn. rewrite Hu. apply Hs1.
    - done.
    - intros y Hy. cbn. by rewrite lookup_insert_ne.
    - by rewrite Heqb.
    - by rewrite Heqb.
    - intros k. rewrite E2. intros [= <-]. by exists D.
    - rewrite He. assert (Hpf := post_from_finish x kw st2 st' ltac:(by rewrite Heqb) Hpost).
      unfold plain_res in *. destruct (ce_call env x kw) as [v|e] eqn:Hcall.
      + rewrite Hpost. cbn [fst]. split; [done|]. intros v' [= <-]. eapply Hck; [done|by apply Hres|done].
      + cbn [fst]. subst st'. split; [done|]. intros v' [=]. }
  destruct (cs_meta st !! key) as [s|] eqn:Hmeta.
  2:{ destruct (Hexec _ eq_refl) as [Hl Hck]. split_and!; [|by right|done].
      intros (s & Hs' & _). congruence. }
  destruct (decide (s = UNHASHABLE)) as [Hun|Hun].
  { destruct (Hexec _ eq_refl) as [Hl Hck]. split_and!; [|by right|done].
    intros (s' & Hs' & Hn & _). congruence. }
  destruct (cs_res st !! s) as [v|] eqn:Hv0.
  2:{ destruct (Hexec _ eq_refl) as [Hl Hck]. split_and!; [|by right|done].
      intros (s' & Hs' & _ & [v Hv0']). congruence. }
  clear Hexec. unfold post_node_execute. rewrite Heqb. unfold get_data_version.
  assert (E3 : cs_dv (set_dv (set_key st x key) x s) !! x = Some s) by (cbn; by rewrite lookup_insert). rewrite E3.
  assert (E4 : cs_res (set_dv (set_key st x key) x s) !! s = Some v) by (cbn; done). rewrite E4.
  cbn [fst]. split_and!; [done|by left|]. intros w _. exists s. cbn. rewrite Hmeta, Hv0. done.
Qed.
(** ** The whole run *)
Notation start st := (pre_graph_execute hash uuid st inputs ov).
Notation F st := (cached_fn hash uuid head compress ow env inputs (start st)).
Notation run st := (default_execute (F st) g (rq_config rq) inputs ov (rq_final rq)).
Notation rep := (replay hash uuid head compress ow env inputs).

Definition dv_known (M : gmap string V) st (P : name -> V -> Prop) : Prop :=
  forall d s, cs_dv st !! d = Some s -> exists v, M !! s = Some v /\ P d v /\ (hash v <> UNHASHABLE -> s = hash v).

Lemma version_all_ok vs : forall M st (P : name -> V -> Prop), sinv M st -> NoDup vs.*1 ->
  dv_known M st (fun d v => (d ∈ vs.*1) \/ P d v) -> (forall d v, (d, v) ∈ vs -> P d v) ->
  exists M', M ⊆ M' /\ sinv M' (version_all hash uuid st vs) /\ dv_known M' (version_all hash uuid st vs) P /\
    cs_key (version_all hash uuid st vs) = cs_key st /\ cs_log (version_all hash uuid st vs) = cs_log st /\
    cs_meta (version_all hash uuid st vs) = cs_meta st /\ cs_res (version_all hash uuid st vs) = cs_res st.
Proof.
  induction vs as [|[x v] vs IH]; intros M st P Hs Hnd Hd HP.
  - exists M. split_and!; try done. intros d s Hs0. destruct (Hd d s Hs0) as (v & ? & [Hin|?] & ?); [|by exists v].
    cbn in Hin. by apply elem_of_nil in Hin.
  - cbn [version_all foldl]. fold (version_all hash uuid). cbn [fst snd].
    destruct (version st v) as [st1 s] eqn:Hv.
    destruct (version_ok M st v st1 s Hs Hv) as ((Hm1 & Hr1 & Hd1 & Hk1 & Hl1) & _ & Hn & Hh & M1 & HM1 & Hs1 & Hms).
    rewrite fmap_cons in Hnd. apply NoDup_cons in Hnd as [Hx Hnd].
    destruct (IH M1 (set_dv st1 x s) P) as (M' & ? & ? & ? & Ek & El & Em & Er).
    + eapply sinv_grow; [reflexivity|exact Hs1|apply Hs1|done|done].
    + done.
    + intros d s'. cbn. rewrite lookup_insert_Some. intros [[<- <-]|[Hne Hs']].
      * exists v. split_and!; [done| |done]. right. apply HP. by left.
      * rewrite Hd1 in Hs'. destruct (Hd d s' Hs') as (w & Hw & Hor & Hhw). exists w.
        split_and!; [by eapply lookup_weaken| |done].
        destruct Hor as [Hin|?]; [|by right]. rewrite fmap_cons in Hin. apply elem_of_cons in Hin as [Hin|?]; [|by left].
        by cbn in Hin.
    + intros d w Hin. apply HP. by right.
    + exists M'. change (foldl (fun st p => let '(st', s) := version st p.2 in set_dv st' p.1 s) (set_dv st1 x s) vs)
        with (version_all hash uuid (set_dv st1 x s) vs).
      split_and!; try done; [by etrans|by rewrite Ek|by rewrite El|by rewrite Em|by rewrite Er].
Qed.

Lemma start_ok M st : sinv M st ->
  exists M', M ⊆ M' /\ sinv M' (start st) /\ rinv M' (start st) [] /\ kinv (start st) [] /\
    cs_log (start st) = cs_log st /\ cs_meta (start st) = cs_meta st /\ cs_res (start st) = cs_res st.
Proof.
  intros Hs. unfold pre_graph_execute.
  set (st0 := CState (cs_meta st) (cs_res st) ∅ ∅ (cs_uuid st) (cs_log st)).
  assert (Hs0 : sinv M st0) by (eapply sinv_grow; [reflexivity|exact Hs|apply Hs|done|done]).
  destruct (version_all_ok (map_to_list inputs) M st0 (fun d v => inputs !! d = Some v) Hs0) as (M1 & HM1 & Hs1 & Hd1 & Ek1 & El1 & Em1 & Er1).
  { apply NoDup_fst_map_to_list. }
  { intros d s. cbn. by rewrite lookup_empty. }
  { intros d v Hin. by apply elem_of_map_to_list in Hin. }
  destruct (version_all_ok (map_to_list ov) M1 (version_all hash uuid st0 (map_to_list inputs)) (fun d v => source [] d v) Hs1) as (M2 & HM2 & Hs2 & Hd2 & Ek2 & El2 & Em2 & Er2).
  { apply NoDup_fst_map_to_list. }
  { intros d s Hds. destruct (Hd1 d s Hds) as (v & Hv & Hi & Hh). exists v. split_and!; [done| |done].
    destruct (ov !! d) as [w|] eqn:Ho.
    - left. apply elem_of_list_fmap. exists (d, w). split; [done|]. by apply elem_of_map_to_list.
    - right. right. by left. }
  { intros d v Hin. left. by apply elem_of_map_to_list in Hin. }
  exists M2. split_and!; try done; [by etrans| |by rewrite El2, El1|by rewrite Em2, Em1|by rewrite Er2, Er1].
  intros x Hx. rewrite Ek2, Ek1 in Hx. cbn in Hx. rewrite lookup_empty in Hx. by destruct Hx.
Qed.

Lemma calls_of_NoDup_call (tr : list (event V (cexn E))) x kw r kw' r' : NoDup (calls_of tr) ->
  Call x kw r ∈ tr -> Call x kw' r' ∈ tr -> kw = kw' /\ r = r'.
Proof.
  intros Hnd H1 H2. apply elem_of_list_split in H1 as (l1 & l2 & ->).
  rewrite calls_of_app in Hnd. cbn in Hnd. apply NoDup_app in Hnd as (_ & Hd & Hnd).
  apply NoDup_cons in Hnd as [Hx Hnd].
  rewrite elem_of_app, elem_of_cons in H2. destruct H2 as [H2|[[= -> ->]|H2]]; [|done|].
  - exfalso. eapply (Hd x); [by eapply elem_calls_of|by left].
  - exfalso. apply Hx. by eapply elem_calls_of.
Qed.

Lemma run_call_ok st t1 x kw r t2 : trace_of (run st) = t1 ++ Call x kw r :: t2 ->
  exists nd, call_ok t1 x kw nd /\ r = F st t1 x kw.
Proof.
  intros Htr.
  destruct (run_call_args g (ro_wf _ _ _ Hro) (ro_acyclic _ _ _ Hro) _ _ _ _ _ _ _ _ _ _ Htr) as (Hr & nd & Hg & He & Hargs & Habs).
  assert (Hnd := run_calls_nodup g (ro_wf _ _ _ Hro) (ro_acyclic _ _ _ Hro) (F st) (rq_config rq) inputs ov (rq_final rq)).
  assert (Hneed := run_calls_needed g (ro_wf _ _ _ Hro) (ro_acyclic _ _ _ Hro) (F st) (rq_config rq) inputs ov (rq_final rq)).
  rewrite Htr in Hnd, Hneed.
  assert (Hnd1 : NoDup (calls_of t1) /\ x ∉ calls_of t1).
  { rewrite calls_of_app in Hnd. cbn in Hnd. apply NoDup_app in Hnd as (H1 & H2 & _). split; [done|].
    intros Hin. by eapply (H2 x); [|left]. }
  destruct Hnd1 as [Hnd1 Hx].
  assert (Hno : forall y kw' r', Call y kw' r' ∈ t1 -> ov !! y = None /\ exists nd, g !! y = Some nd /\ nd_ext nd = false).
  { intros y kw' r' Hin. destruct (Hneed y) as [Hn ?].
    { rewrite calls_of_app. apply elem_of_app. left. by eapply elem_calls_of. }
    split; [by destruct Hn|done]. }
  exists nd. split; [|done]. constructor; try done.
  - destruct (Hneed x) as [Hn _]; [|by destruct Hn].
    rewrite calls_of_app. apply elem_of_app. right. by left.
  - intros d v Hd. destruct (Hargs d v Hd) as [Hdep Hav]. split; [done|].
    intros w Hw. destruct Hav as [Ho|(Ho & nd' & Hg' & [[He' Hi]|[He' [kw' Hc]]])].
    + destruct Hw as [Hw|[[Hw _]|[kw' Hw]]]; [congruence|congruence|].
      apply Hno in Hw as [? _]. congruence.
    + destruct Hw as [Hw|[[_ Hw]|[kw' Hw]]]; [congruence| |].
      * apply lookup_union_Some_raw in Hi as [Hi|[Hi _]]; congruence.
      * apply Hno in Hw as (_ & nd'' & Hg'' & He''). congruence.
    + destruct Hw as [Hw|[[_ Hw]|[kw'' Hw]]]; [congruence| |].
      * assert (nd_ext nd' = true) by (eapply (ro_inputs _ _ _ Hro); [by rewrite Hw|done]). congruence.
      * destruct (calls_of_NoDup_call t1 d kw' (Ok v) kw'' (Ok w) Hnd1 Hc Hw) as [_ [= ->]]. done.
  - intros d v Hd. destruct (Hargs d v Hd) as [_ [Ho|(_ & nd' & _ & [[_ Hi]|[_ Hc]])]]; auto.
  - intros d Hin Hnone w Hw. apply elem_of_list_fmap in Hin as ([d' dt] & -> & Hin). cbn [fst] in *.
    destruct (Habs d' dt Hin Hnone) as ((Ho & Hi & nd' & Hg' & He') & _).
    apply lookup_union_None in Hi as [Hi _].
    destruct Hw as [Hw|[[_ Hw]|[kw' Hw]]]; [congruence|congruence|].
    apply Hno in Hw as (_ & nd'' & Hg'' & He''). congruence.
Qed.

Lemma run_inv st M : sinv M st -> forall t1 t2, trace_of (run st) = t1 ++ t2 ->
  (exists M', sinv M' (rep (start st) t1) /\ rinv M' (rep (start st) t1) t1 /\ kinv (rep (start st) t1) t1 /\
     (forall k, cachedk st k -> cachedk (rep (start st) t1) k)) /\
  (forall a x kw r b, t1 = a ++ Call x kw r :: b -> r = plain_res x kw).
Proof.
  intros Hs t1. induction t1 as [|ev t1 IH] using rev_ind; intros t2 Htr.
  - split.
    + destruct (start_ok M st Hs) as (M' & _ & ? & ? & ? & _ & Em & Er). exists M'. split_and!; try done.
      intros k. unfold cachedk. cbn [replay foldl]. by rewrite Em, Er.
    + intros a x kw r b H. by destruct a.
  - rewrite <-app_assoc in Htr. cbn [app] in Htr. destruct (IH _ Htr) as [(M1 & Hs1 & Hr1 & Hk1 & Hc1) Hold].
    assert (Hrep : rep (start st) (t1 ++ [ev]) =
      match ev with Call x kw _ => (cnode (rep (start st) t1) x kw).1 | _ => rep (start st) t1 end).
    { unfold replay. by rewrite foldl_app. }
    rewrite Hrep.
    assert (Hnc : (forall x kw r, ev <> Call x kw r) ->
      (exists M', sinv M' (rep (start st) t1) /\ rinv M' (rep (start st) t1) (t1 ++ [ev]) /\ kinv (rep (start st) t1) (t1 ++ [ev]) /\
         (forall k, cachedk st k -> cachedk (rep (start st) t1) k)) /\
      (forall a x kw r b, t1 ++ [ev] = a ++ Call x kw r :: b -> r = plain_res x kw)).
    { intros Hne. split.
      - exists M1. split_and!; try done.
        + intros d s Hd. destruct (Hr1 d s Hd) as (v & ? & Hsrc & ?). exists v. split_and!; try done.
          destruct Hsrc as [?|[?|[kw' ?]]]; [by left|right; by left|right; right]. exists kw'. apply elem_of_app. by left.
        + intros y Hy. rewrite calls_of_app, elem_of_app. left. by apply Hk1.
      - intros a x kw r b Heq. destruct b as [|ev' b _] using rev_ind.
        + apply app_inj_tail in Heq as [_ Heq]. by apply Hne in Heq.
        + rewrite app_comm_cons, app_assoc in Heq. apply app_inj_tail in Heq as [Heq _]. by eapply Hold. }
    destruct ev as [x kw r|x v|x]; [|by apply Hnc..].
    destruct (run_call_ok st t1 x kw r t2 Htr) as (nd & Hc & Hr).
    destruct (cached_ok M1 _ t1 x kw nd Hs1 Hr1 Hk1 Hc) as (st' & M' & Heq & ? & ? & ? & ? & Hmono).
    unfold cached_fn in Hr. rewrite Heq in Hr |- *. cbn [fst snd] in *. subst r.
    split; [exists M'; split_and!; try done; intros k Hkk; by apply Hmono, Hc1|].
    intros a y kw' r b Hab. destruct b as [|ev' b _] using rev_ind.
    + apply app_inj_tail in Hab as [_ [= -> -> ->]]. done.
    + rewrite app_comm_cons, app_assoc in Hab. apply app_inj_tail in Hab as [Hab _]. by eapply Hold.
Qed.

Lemma transparent st M : sinv M st ->
  (cached_execute hash uuid head compress ow st rq).2 = plain_execute rq /\
  (exists M', sinv M' (cached_execute hash uuid head compress ow st rq).1) /\
  (forall k, cachedk st k -> cachedk (cached_execute hash uuid head compress ow st rq).1 k).
Proof.
  intros Hs. unfold cached_execute. cbn [fst snd]. split.
  - symmetry. unfold plain_execute. apply default_cong.
    + apply run_not_diverged; apply Hro.
    + intros t1 x kw r t2 Htr. destruct (run_inv st M Hs (t1 ++ [Call x kw r]) t2) as [_ Hall].
      { by rewrite <-app_assoc. }
      symmetry. by eapply (Hall t1 x kw r []).
  - destruct (run_inv st M Hs (trace_of (run st)) []) as [(M' & ? & _ & _ & Hmono) _]; [by rewrite app_nil_r|].
    unfold trace_of in *. split; [exists M'|]; by destruct (run st).
Qed.

(** What a run adds to the log of invoked functions. *)
Lemma run_log st M : all_default rq -> hashable_run hash rq -> sinv M st ->
  forall t1 t2, trace_of (run st) = t1 ++ t2 ->
  (exists new, cs_log (rep (start st) t1) = cs_log st ++ new /\
    forall x full, (x, full) ∈ new -> ~ cachedk st (call_key x full) /\
      exists kw r, Call x kw r ∈ t1 /\ full = kw ∪ ce_defaults env x) /\
  (forall x kw v, Call x kw (Ok v) ∈ t1 -> cachedk (rep (start st) t1) (call_key x (kw ∪ ce_defaults env x))).
Proof.
  intros Hdef Hhr Hs t1. induction t1 as [|ev t1 IH] using rev_ind; intros t2 Htr.
  - destruct (start_ok M st Hs) as (_ & _ & _ & _ & _ & El & _). split.
    + exists []. rewrite app_nil_r. split; [done|]. intros x full Hin. by apply elem_of_nil in Hin.
    + intros x kw v Hin. by apply elem_of_nil in Hin.
  - rewrite <-app_assoc in Htr. cbn [app] in Htr. destruct (IH _ Htr) as [(new & Hnew & Hin) Hdone].
    destruct (run_inv st M Hs t1 _ Htr) as [(M1 & Hs1 & Hr1 & Hk1 & Hc1) Hold].
    assert (Hrep : rep (start st) (t1 ++ [ev]) =
      match ev with Call x kw _ => (cnode (rep (start st) t1) x kw).1 | _ => rep (start st) t1 end).
    { unfold replay. by rewrite foldl_app. }
    rewrite Hrep.
    assert (Hnc : (forall x kw r, ev <> Call x kw r) ->
      (exists new, cs_log (rep (start st) t1) = cs_log st ++ new /\
        forall x full, (x, full) ∈ new -> ~ cachedk st (call_key x full) /\
          exists kw r, Call x kw r ∈ t1 ++ [ev] /\ full = kw ∪ ce_defaults env x) /\
      (forall x kw v, Call x kw (Ok v) ∈ t1 ++ [ev] -> cachedk (rep (start st) t1) (call_key x (kw ∪ ce_defaults env x)))).
    { intros Hne. split.
      - exists new. split; [done|]. intros x full Hi. destruct (Hin x full Hi) as (? & kw & r & ? & ?). split; [done|].
        exists kw, r. rewrite elem_of_app. auto.
      - intros x kw v Hi. apply elem_of_app in Hi as [Hi|Hi]; [by eapply Hdone|].
        apply elem_of_list_singleton in Hi. by destruct (Hne x kw (Ok v)). }
    destruct ev as [x kw r|x v|x]; [|by apply Hnc..]. clear Hnc.
    destruct (run_call_ok st t1 x kw r t2 Htr) as (nd & Hc & Hr).
    destruct (cached_ok M1 _ t1 x kw nd Hs1 Hr1 Hk1 Hc) as (st' & M' & Heq & _ & _ & _ & _ & Hmono).
    assert (Hplain : trace_of (plain_execute rq) = t1 ++ Call x kw r :: t2).
    { rewrite <-Htr. destruct (transparent st M Hs) as [Ht _]. unfold cached_execute in Ht. cbn [snd] in Ht. by rewrite Ht. }
    assert (Hrr : r = plain_res x kw).
    { unfold cached_fn in Hr. rewrite Heq in Hr. exact Hr. }
    destruct (node_hit M1 _ t1 x kw nd Hdef Hs1 Hr1 Hk1 Hc) as (Hhit & Hlog & Hck).
    + intros d v Hd. apply lookup_union_Some_raw in Hd as [Hd|[_ Hd]].
      * destruct (co_avail _ _ _ _ Hc d v Hd) as [Ho|[Hi|[kw' Hcall]]].
        -- apply (hr_given _ _ Hhr d). auto.
        -- apply lookup_union_Some_raw in Hi as [Hi|[_ Hi]]; apply (hr_given _ _ Hhr d); auto.
        -- eapply (hr_results _ _ Hhr d kw'). rewrite Hplain. apply elem_of_app. by left.
      * eapply (hr_defaults _ _ Hhr x d); [|done]. eexists. apply Hc.
    + intros v Hv. eapply (hr_results _ _ Hhr x kw). rewrite Hplain. apply elem_of_app. right. apply elem_of_cons. left.
      rewrite Hrr. unfold plain_res. by rewrite Hv.
    + split.
      * destruct Hlog as [Hlog|Hlog].
        -- exists new. rewrite Hlog. split; [done|]. intros y full Hi.
           destruct (Hin y full Hi) as (? & kw' & r' & ? & ?). split; [done|]. exists kw', r'. rewrite elem_of_app. auto.
        -- exists (new ++ [(x, kw ∪ ce_defaults env x)]). rewrite Hlog, Hnew, <-app_assoc. split; [done|].
           intros y full Hi. apply elem_of_app in Hi as [Hi|Hi].
           ++ destruct (Hin y full Hi) as (? & kw' & r' & ? & ?). split; [done|]. exists kw', r'. rewrite elem_of_app. auto.
           ++ apply elem_of_list_singleton in Hi as [= -> ->]. split.
              ** intros Hcached. specialize (Hhit (Hc1 _ Hcached)). rewrite Hhit in Hlog.
                 apply (f_equal length) in Hlog. rewrite app_length in Hlog. cbn in Hlog. lia.
              ** exists kw, r. split; [|done]. apply elem_of_app. right. by left.
      * intros y kw' v Hi. apply elem_of_app in Hi as [Hi|Hi].
        -- rewrite Heq. apply Hmono. by eapply Hdone.
        -- apply elem_of_list_singleton in Hi as [= -> -> Hv]. eapply (Hck v).
           unfold plain_res in Hrr. rewrite <-Hv in Hrr. by destruct (ce_call env x kw); simplify_eq.
Qed.

Lemma execute_log st M : all_default rq -> hashable_run hash rq -> sinv M st ->
  exists new, cs_log (cached_execute hash uuid head compress ow st rq).1 = cs_log st ++ new /\
    (forall x full, (x, full) ∈ new -> ~ cachedk st (call_key x full) /\
      exists kw r, Call x kw r ∈ trace_of (plain_execute rq) /\ full = kw ∪ ce_defaults env x) /\
    (forall x kw v, Call x kw (Ok v) ∈ trace_of (plain_execute rq) ->
      cachedk (cached_execute hash uuid head compress ow st rq).1 (call_key x (kw ∪ ce_defaults env x))).
Proof.
  intros Hdef Hhr Hs. destruct (transparent st M Hs) as [Ht _].
  destruct (run_log st M Hdef Hhr Hs (trace_of (run st)) []) as [(new & Hnew & Hin) Hdone]; [by rewrite app_nil_r|].
  unfold cached_execute in *. cbn [fst snd] in *. rewrite <-Ht. exists new. unfold trace_of in *.
  destruct (run st); done.
Qed.
End Run.

Lemma sinv_delete M st st' : sinv M st -> cs_uuid st' = cs_uuid st -> cs_res st' ⊆ cs_res st -> cs_meta st' ⊆ cs_meta st ->
  sinv M st'.
Proof.
  intros Hs Hu Hr Hm. constructor.
  - rewrite Hu. apply Hs.
  - intros s v H. apply (si_res _ _ Hs). by eapply lookup_weaken.
  - intros k s H. apply (si_meta _ _ Hs). by eapply lookup_weaken.
Qed.

Lemma session_transparent acts : forall st M, sinv M st ->
  (forall rq, rq ∈ requests_of acts -> request_ok head code rq) ->
  (session hash uuid head compress ow st acts).2 = map plain_execute (requests_of acts) /\
  (exists M', sinv M' (session hash uuid head compress ow st acts).1) /\
  (no_deletions acts -> forall k, cachedk st k -> cachedk (session hash uuid head compress ow st acts).1 k).
Proof.
  induction acts as [|[rq|k|s| |] acts IH]; intros st M Hs Hall; cbn [session requests_of map].
  - split; [done|]. split; [by exists M|done].
  - cbn [requests_of] in Hall.
    destruct (transparent rq (Hall rq ltac:(by left)) st M Hs) as (Heq & [M' Hs'] & Hck).
    destruct (cached_execute hash uuid head compress ow st rq) as [st' a] eqn:Hc. cbn [fst snd] in *.
    destruct (IH st' M' Hs') as (Heq2 & [M2 Hs2] & Hck2); [intros rq' Hin; apply Hall; by right|].
    destruct (session hash uuid head compress ow st' acts) as [st'' l]. cbn [fst snd] in *.
    split; [by rewrite Heq, Heq2|]. split; [by exists M2|].
    intros Hnd k Hkk. apply Hck2; [done|]. by apply Hck.
  - match goal with |- context [session _ _ _ _ _ ?s acts] => assert (Hs' : sinv M s) by (eapply sinv_delete; [exact Hs|done|done|]; cbn; apply delete_subseteq) end.
    destruct (IH _ M Hs' Hall) as (? & ? & _). split_and!; done.
  - match goal with |- context [session _ _ _ _ _ ?s acts] => assert (Hs' : sinv M s) by (eapply sinv_delete; [exact Hs|done| |done]; cbn; apply delete_subseteq) end.
    destruct (IH _ M Hs' Hall) as (? & ? & _). split_and!; done.
  - match goal with |- context [session _ _ _ _ _ ?s acts] => assert (Hs' : sinv M s) by (eapply sinv_delete; [exact Hs|done|done|]; cbn; apply map_empty_subseteq) end.
    destruct (IH _ M Hs' Hall) as (? & ? & _). split_and!; done.
  - match goal with |- context [session _ _ _ _ _ ?s acts] => assert (Hs' : sinv M s) by (eapply sinv_delete; [exact Hs|done| |done]; cbn; apply map_empty_subseteq) end.
    destruct (IH _ M Hs' Hall) as (? & ? & _). split_and!; done.
Qed.


(** Successful calls are not repeated, whatever ran in between. *)
Lemma never_again st M rq acts rq' : sinv M st ->
  request_ok head code rq -> all_default rq -> hashable_run hash rq ->
  (forall r, r ∈ requests_of acts -> request_ok head code r) -> no_deletions acts ->
  request_ok head code rq' -> all_default rq' -> hashable_run hash rq' ->
  let st1 := (cached_execute hash uuid head compress ow st rq).1 in
  let st2 := (session hash uuid head compress ow st1 acts).1 in
  let st3 := (cached_execute hash uuid head compress ow st2 rq').1 in
  exists new, cs_log st3 = cs_log st2 ++ new /\
    (forall x full, (x, full) ∈ new -> exists kw r, Call x kw r ∈ trace_of (plain_execute rq') /\
        full = kw ∪ ce_defaults (rq_env rq') x) /\
    forall x kw v, Call x kw (Ok v) ∈ trace_of (plain_execute rq) ->
      ce_code (rq_env rq') x = ce_code (rq_env rq) x ->
      (x, kw ∪ ce_defaults (rq_env rq) x) ∉ new.
Proof.
  intros Hs Hok Hdef Hh Hacts Hnd Hok' Hdef' Hh' st1 st2 st3.
  destruct (transparent rq Hok st M Hs) as (_ & [M1 Hs1] & _). fold st1 in Hs1.
  destruct (execute_log rq Hok st M Hdef Hh Hs) as (_ & _ & _ & Hdone). fold st1 in Hdone.
  destruct (session_transparent acts st1 M1 Hs1 Hacts) as (_ & [M2 Hs2] & Hmono). fold st2 in Hs2, Hmono.
  destruct (execute_log rq' Hok' st2 M2 Hdef' Hh' Hs2) as (new & Hnew & Hin & _). fold st3 in Hnew.
  exists new. split_and!; [done| |].
  - intros x full Hi. by apply Hin in Hi as [_ ?].
  - intros x kw v Hcall Hcode Hi. apply Hin in Hi as [Hno _]. apply Hno. apply Hmono; [done|].
    specialize (Hdone x kw v Hcall). unfold call_key in *. by rewrite Hcode.
Qed.

Lemma repeated st M rq out tr : sinv M st ->
  request_ok head code rq -> all_default rq -> hashable_run hash rq ->
  plain_execute rq = Answer out tr ->
  let st1 := (cached_execute hash uuid head compress ow st rq).1 in
  cs_log (cached_execute hash uuid head compress ow st1 rq).1 = cs_log st1.
Proof.
  intros Hs Hok Hdef Hh Hans st1.
  destruct (never_again st M rq [] rq Hs Hok Hdef Hh) as (new & Hnew & Hin & Hno); try done.
  { intros r Hr. by apply elem_of_nil in Hr. }
  fold st1 in Hnew. cbn [session fst] in Hnew. rewrite Hnew.
  destruct new as [|[x full] new]; [by rewrite app_nil_r|]. exfalso.
  destruct (Hin x full ltac:(by left)) as (kw & r & Hcall & ->).
  assert (exists v, r = Ok v) as [v ->].
  { destruct r as [v|e]; [by exists v|]. exfalso. rewrite Hans in Hcall. cbn in Hcall.
    assert (Hf := run_error _ (ro_wf _ _ _ Hok) (ro_acyclic _ _ _ Hok) (plain_fn (rq_env rq)) (rq_config rq) (rq_inputs rq) (rq_overrides rq) (rq_final rq) x kw e).
    fold (plain_execute rq) in Hf. rewrite Hans in Hf. destruct (Hf Hcall) as (? & ? & _). done. }
  eapply (Hno x kw v Hcall eq_refl). by left.
Qed.

Lemma sinv_empty : sinv ∅ empty_cache.
Proof. constructor; intros ? ?; cbn; by rewrite lookup_empty. Qed.
End Proofs.
