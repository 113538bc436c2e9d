(** Proofs about @extract_fields and @extract_columns. *)
From Verif Require Import Base Dict NodeModel NodeSpec NodeProofs ParamModel ExtractModel.

Section Proofs.
Context {V E T : Type}.
Variable vget : V -> key -> option V.
Variable vfill : V -> key -> V -> V.
Hypothesis vget_fill : forall d k w k', vget (vfill d k w) k' = if decide (k' = k) then Some w else vget d k'.
Implicit Types (ns : dict (pnode V E T)) (env : gmap name V).

Lemma filled_get fill ks d k : vget (filled vget vfill fill ks d) k =
  match vget d k with
  | Some v => Some v
  | None => if decide (k ∈ ks) then fill else None
  end.
Proof.
  unfold filled. destruct fill as [w|]; [|by destruct (vget d k), (decide (k ∈ ks))].
  revert d. induction ks as [|k0 ks IH]; intros d; cbn [foldl].
  - rewrite decide_False; [by destruct (vget d k)|by intros []%elem_of_nil].
  - rewrite IH. destruct (vget d k0) as [v0|] eqn:E0.
    + destruct (vget d k) as [v|] eqn:Ek; [done|]. destruct (decide (k ∈ ks)).
      * by rewrite decide_True by (by right).
      * rewrite decide_False; [done|]. intros [-> | ?]%elem_of_cons; congruence.
    + rewrite vget_fill. destruct (decide (k = k0)) as [-> | Hne].
      * rewrite E0. by rewrite decide_True by (by left).
      * destruct (vget d k) as [v|]; [done|]. destruct (decide (k ∈ ks)).
        -- by rewrite decide_True by (by right).
        -- rewrite decide_False; [done|]. intros [-> | ?]%elem_of_cons; congruence.
Qed.

(** A node with one required input. *)
Lemma single_value ns env x nm t ty call v :
  dget ns x = Some (PNode x ty [(nm, (t, REQUIRED))] call) ->
  value ns env x v <-> exists d, value ns env nm d /\ call [(nm, d)] = Ok v.
Proof.
  intros D. rewrite (value_node_iff ns env x _ v D). cbn [pn_inputs pn_call].
  assert (K : forall m : gmap name V, kwargs [(nm, (t, REQUIRED))] m = match m !! nm with Some x => [(nm, x)] | None => [] end).
  { intros m. unfold kwargs. cbn. by destruct (m !! nm). }
  split.
  - intros (m & [M1 M2] & Hc). rewrite K in Hc. destruct (m !! nm) as [d|] eqn:Em.
    + exists d. split; [by apply M1|done].
    + destruct (M2 nm t REQUIRED) as [? _]; [by left|done|done].
  - intros (d & Hd & Hc). exists {[nm := d]}. split.
    + split.
      * intros k w Hk. apply lookup_singleton_Some in Hk as [<- <-]. split; [by left|done].
      * intros k t' dt Hk Hm. apply elem_of_list_singleton in Hk as [= -> -> ->]. by rewrite lookup_singleton in Hm.
    + by rewrite K, lookup_singleton.
Qed.

Lemma generator_value ns env n fill ks d : dget ns (pn_name n) = Some (generator vget vfill n fill ks) ->
  value ns env (pn_name n) d <->
  exists m d0, args ns env (pn_inputs n) m /\ pn_call n (kwargs (pn_inputs n) m) = Ok d0 /\ d = filled vget vfill fill ks d0.
Proof.
  intros D. rewrite (value_node_iff ns env _ _ d D). cbn [generator pn_inputs pn_call]. split.
  - intros (m & Hm & Hc). destruct (pn_call n _) as [d0|] eqn:Ec; [|done]. injection Hc as <-. eauto.
  - intros (m & d0 & Hm & Hc & ->). exists m. split; [done|]. by rewrite Hc.
Qed.

Lemma extractor_value ns env param n t ty c v : pn_name n <> param ->
  dget ns c = Some (extractor vget param n t ty c) ->
  value ns env c v <-> exists d, value ns env (pn_name n) d /\ vget d (KName c) = Some v.
Proof.
  intros Hp D. unfold extractor in D. rewrite (single_value ns env c _ _ _ _ v D).
  assert (X : forall d, extractor_call vget (E := E) param (pn_name n) c [(pn_name n, d)] = match vget d (KName c) with Some v => Ok v | None => Err (NField c) end).
  { intros d. unfold extractor_call. rewrite decide_False by done. cbn. by rewrite decide_True by done. }
  split; intros (d & Hd & H); exists d; (split; [done|]).
  - rewrite X in H. destruct (vget d (KName c)); [by injection H as ->|done].
  - by rewrite X, H.
Qed.

Lemma extracted_value ns env param n fill ks t ty c v : pn_name n <> param -> KName c ∈ ks \/ fill = None ->
  dget ns (pn_name n) = Some (generator vget vfill n fill ks) ->
  dget ns c = Some (extractor vget param n t ty c) ->
  value ns env c v <->
  exists m d0, args ns env (pn_inputs n) m /\ pn_call n (kwargs (pn_inputs n) m) = Ok d0 /\
    (vget d0 (KName c) = Some v \/ (vget d0 (KName c) = None /\ fill = Some v)).
Proof.
  intros Hp Hk D1 D2. rewrite (extractor_value ns env param n t ty c v Hp D2).
  setoid_rewrite (generator_value ns env n fill ks _ D1). split.
  - intros (d & (m & d0 & Hm & Hc & ->) & Hv). exists m, d0. split_and!; [done|done|]. rewrite filled_get in Hv.
    destruct (vget d0 (KName c)); [by left|]. right. split; [done|]. by destruct (decide (KName c ∈ ks)).
  - intros (m & d0 & Hm & Hc & Hv). exists (filled vget vfill fill ks d0). split; [by exists m, d0|]. rewrite filled_get.
    destruct Hv as [-> | [-> ->]]; [done|]. destruct Hk as [? | ?]; [by rewrite decide_True|done].
Qed.
End Proofs.
