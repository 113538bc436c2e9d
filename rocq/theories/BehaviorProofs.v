From Verif Require Import Base Dict CacheModel BehaviorModel BehaviorSpec.

Lemma from_string_spec s b : from_string s = inr b <-> spells s b.
Proof.
  unfold from_string, spells. 
  destruct (String.eqb_spec (upper s) "DEFAULT") as [->|H1]; [by destruct b|].
  destruct (String.eqb_spec (upper s) "RECOMPUTE") as [->|H2]; [by destruct b|].
  destruct (String.eqb_spec (upper s) "DISABLE") as [->|H3]; [by destruct b|].
  destruct (String.eqb_spec (upper s) "IGNORE") as [->|H4]; [by destruct b|].
  by destruct b.
Qed.

Definition expanded (ns : list bnode) (s : bset) : bset :=
  match s with BTrue => BNames (names ns) | _ => s end.
Lemma forced_expanded c ns x b :
  forced c ns x b <-> match expanded ns (category c b) with BNames l => x ∈ l | _ => False end.
Proof. unfold forced, expanded. by destruct (category c b). Qed.
Lemma forced_dec c ns x b : Decision (forced c ns x b).
Proof. unfold forced. destruct (category c b); apply _. Qed.

Definition node_res (c : bconfig) (ns : list bnode) (db dl ds : string) (n : bnode) : berr + behavior :=
  resolve_node n (expanded ns (bc_default c)) (expanded ns (bc_disable c)) (expanded ns (bc_recompute c))
    (expanded ns (bc_ignore c)) db dl ds.

Lemma resolve_eq c ns : init_check c = true ->
  let db := default "default"%string (bc_default_behavior c) in
  let dl := default db (bc_default_loader c) in
  let ds := default db (bc_default_saver c) in
  resolve_behaviors c ns =
  match first_pass (node_res c ns db dl ds) ns [] with
  | inl e => inl e
  | inr beh => second_pass (fun n main => node_res c ns dl "default" "default" (BNode main false (bn_tag n) (bn_loader n) (bn_saver n)))
                 ns (beh, [], [])
  end.
Proof.
  intros H. unfold resolve_behaviors, node_res. unfold init_check in H.
  destruct c as [d r i s db dl ds]. destruct d, r, i, s; cbn in *; done.
Qed.

Lemma from_driver_spec c ns x :
  match from_driver x [(DEFAULT, expanded ns (bc_default c)); (DISABLE, expanded ns (bc_disable c));
                       (RECOMPUTE, expanded ns (bc_recompute c)); (IGNORE, expanded ns (bc_ignore c))] None with
  | inr None => forall b, ~ forced c ns x b
  | inr (Some b) => forced c ns x b /\ forall b', forced c ns x b' -> b' = b
  | inl e => e = BValueError /\ exists b b', b <> b' /\ forced c ns x b /\ forced c ns x b'
  end.
Proof.
  assert (F : forall b, forced c ns x b <-> match expanded ns (category c b) with BNames l => x ∈ l | _ => False end)
    by (intros; apply forced_expanded).
  pose proof (F DEFAULT) as F1; pose proof (F RECOMPUTE) as F2; pose proof (F DISABLE) as F3; pose proof (F IGNORE) as F4.
  cbn [category] in *.
  assert (N : forall s, expanded ns s <> BTrue) by (intros s; by destruct s).
  pose proof (N (bc_default c)) as N1. pose proof (N (bc_recompute c)) as N2.
  pose proof (N (bc_disable c)) as N3. pose proof (N (bc_ignore c)) as N4.
  clear F N.
  destruct (expanded ns (bc_default c)) as [| |l1]; [|done|];
  destruct (expanded ns (bc_disable c)) as [| |l3]; try done;
  destruct (expanded ns (bc_recompute c)) as [| |l2]; try done;
  destruct (expanded ns (bc_ignore c)) as [| |l4]; try done; cbn [from_driver];
  repeat case_decide; cbn [from_driver];
  repeat match goal with
  | |- _ /\ _ => split
  | |- forall b : behavior, _ => intros []
  | |- ~ _ => intro
  | |- _ = BValueError => done
  end;
  try tauto;
  try (intros ?; tauto);
  repeat case_decide;
  first
    [ exists DEFAULT, DISABLE; split; [done|tauto]
    | exists DEFAULT, RECOMPUTE; split; [done|tauto]
    | exists DEFAULT, IGNORE; split; [done|tauto]
    | exists DISABLE, RECOMPUTE; split; [done|tauto]
    | exists DISABLE, IGNORE; split; [done|tauto]
    | exists RECOMPUTE, IGNORE; split; [done|tauto]
    | idtac ].
Qed.

Lemma node_res_ok c ns db dl ds n b : node_res c ns db dl ds n = inr b ->
  if bn_expand n then b = RECOMPUTE
  else
    (forced c ns (bn_name n) b /\ forall b', forced c ns (bn_name n) b' -> b' = b) \/
    ((forall b', ~ forced c ns (bn_name n) b') /\
     match bn_tag n with Some t => spells t b
     | None => spells (match bn_loader n with Some _ => dl | None => if bn_saver n then ds else db end) b end).
Proof.
  unfold node_res, resolve_node. destruct (bn_expand n); [by intros [= <-]|].
  pose proof (from_driver_spec c ns (bn_name n)) as F.
  destruct (bn_tag n) as [t|].
  - destruct (from_string t) as [e|bt] eqn:T; [done|].
    destruct (from_driver _ _ _) as [e|[b1|]]; [done|..].
    + intros [= <-]. by left.
    + intros [= <-]. right. split; [done|]. by apply from_string_spec.
  - destruct (from_driver _ _ _) as [e|[b1|]]; [done|..].
    + intros [= <-]. by left.
    + intros H. right. split; [done|].
      destruct (bn_loader n); [by apply from_string_spec|]. destruct (bn_saver n); by apply from_string_spec.
Qed.
Lemma node_res_exists c ns db dl ds n :
  (bn_expand n = false -> forall b b', forced c ns (bn_name n) b -> forced c ns (bn_name n) b' -> b = b') ->
  (forall t, bn_tag n = Some t -> exists b, spells t b) ->
  (exists b, spells db b) -> (exists b, spells dl b) -> (exists b, spells ds b) ->
  exists b, node_res c ns db dl ds n = inr b.
Proof.
  intros U T [b1 D1%from_string_spec] [b2 D2%from_string_spec] [b3 D3%from_string_spec].
  unfold node_res, resolve_node. destruct (bn_expand n); [by eexists|]. specialize (U eq_refl).
  pose proof (from_driver_spec c ns (bn_name n)) as F.
  destruct (from_driver _ _ _) as [e|[b|]].
  - destruct F as (_ & b & b' & N & F1 & F2). by destruct (N (U b b' F1 F2)).
  - destruct (bn_tag n) as [t|]; [|by eexists]. destruct (T t eq_refl) as [bt Ht%from_string_spec]. rewrite Ht. by eexists.
  - destruct (bn_tag n) as [t|].
    + destruct (T t eq_refl) as [bt Ht%from_string_spec]. rewrite Ht. by eexists.
    + rewrite D1, D2, D3. destruct (bn_loader n); [by eexists|]. destruct (bn_saver n); by eexists.
Qed.

Lemma first_pass_inr res ns acc beh : first_pass res ns acc = inr beh -> NoDup (names ns) ->
  (forall n, n ∈ ns -> exists b, res n = inr b /\ dget beh (bn_name n) = Some b) /\
  (forall x, x ∉ names ns -> dget beh x = dget acc x).
Proof.
  revert acc. induction ns as [|n ns IH]; intros acc H N; cbn in H.
  { injection H as <-. split; [intros n Hn; by apply elem_of_nil in Hn|done]. }
  cbn in N. apply NoDup_cons in N as [N1 N2].
  destruct (res n) as [e|b] eqn:R; [done|]. destruct (IH _ H N2) as [A B]. split.
  - intros n' [-> | Hn]%elem_of_cons; [|by apply A]. exists b. split; [done|]. rewrite B by done. apply dget_dset_eq.
  - intros x Hx. cbn in Hx. apply not_elem_of_cons in Hx as [Hx1 Hx2]. rewrite B by done. by apply dget_dset_ne.
Qed.
Lemma first_pass_exists res ns acc : (forall n, n ∈ ns -> exists b, res n = inr b) -> exists beh, first_pass res ns acc = inr beh.
Proof.
  revert acc. induction ns as [|n ns IH]; intros acc H; cbn; [by eexists|].
  destruct (H n ltac:(left)) as [b ->]. apply IH. intros; apply H; by right.
Qed.
Lemma first_pass_inl res ns acc n e : n ∈ ns -> res n = inl e -> exists e', first_pass res ns acc = inl e'.
Proof.
  revert acc. induction ns as [|n' ns IH]; intros acc Hn R; [by apply elem_of_nil in Hn|]. cbn.
  apply elem_of_cons in Hn as [-> | Hn]; [rewrite R; by eexists|]. destruct (res n'); [by eexists|]. by apply IH.
Qed.

(** Names of the auxiliary nodes of data loaders. *)
Definition secondary (n : bnode) (main : name) : Prop := bn_loader n = Some main /\ main <> bn_name n.

Lemma second_pass_inr fake ns beh l s beh' l' s' :
  second_pass fake ns (beh, l, s) = inr (beh', l', s') -> NoDup (names ns) ->
  (forall x, (forall n main, n ∈ ns -> secondary n main -> bn_name n <> x) -> dget beh' x = dget beh x) /\
  (forall n main, n ∈ ns -> secondary n main ->
     (forall n' main', n' ∈ ns -> secondary n' main' -> bn_name n' <> main) ->
     exists b, dget beh' (bn_name n) = Some b /\
       match dget beh main with Some b' => b = b' | None => fake n main = inr b end).
Proof.
  revert beh l s. induction ns as [|n ns IH]; intros beh l s H N; cbn in H.
  { injection H as <- <- <-. split; [done|]. intros n main Hn; by apply elem_of_nil in Hn. }
  cbn in N. apply NoDup_cons in N as [N1 N2].
  assert (Sk : forall l0 s0, second_pass fake ns (beh, l0, s0) = inr (beh', l', s') -> (forall main, ~ secondary n main) ->
    (forall x, (forall n0 main, n0 ∈ n :: ns -> secondary n0 main -> bn_name n0 <> x) -> dget beh' x = dget beh x) /\
    (forall n0 main, n0 ∈ n :: ns -> secondary n0 main ->
       (forall n' main', n' ∈ n :: ns -> secondary n' main' -> bn_name n' <> main) ->
       exists b, dget beh' (bn_name n0) = Some b /\
         match dget beh main with Some b' => b = b' | None => fake n0 main = inr b end)).
  { intros l0 s0 H0 NS. destruct (IH _ _ _ H0 N2) as [A B]. split.
    - intros x Hx. apply A. intros n0 main Hn. apply Hx; by right.
    - intros n0 main [-> | Hn]%elem_of_cons Hs Hm; [by destruct (NS main)|]. apply B; [done..|].
      intros n' main' Hn'. apply Hm. by right. }
  destruct (bn_loader n) as [main|] eqn:L.
  2:{ eapply Sk; [exact H|]. intros main [X _]. congruence. }
  destruct (decide (main = bn_name n)) as [E|E].
  { eapply Sk; [exact H|]. intros main' [X Y]. congruence. }
  destruct (match dget beh main with Some b => inr b | None => fake n main end) as [e|b] eqn:R; [done|].
  destruct (IH _ _ _ H N2) as [A B].
  assert (S : secondary n main) by done.
  split.
  - intros x Hx. rewrite A.
    + apply dget_dset_ne. intros ->. apply (Hx n main); [left|done..].
    + intros n0 main0 Hn. apply Hx; by right.
  - intros n0 main0 [-> | Hn]%elem_of_cons Hs Hm.
    + destruct Hs as [Hs1 Hs2]. assert (main0 = main) as -> by congruence. exists b. split.
      * rewrite A; [apply dget_dset_eq|]. intros n' main' Hn' _ X. apply N1. apply elem_of_list_fmap. by exists n'.
      * destruct (dget beh main); congruence.
    + destruct (B n0 main0 Hn Hs) as (b0 & Hb & M). { intros n' main' Hn'. apply Hm; by right. }
      exists b0. split; [done|]. rewrite dget_dset_ne in M; [done|].
      intros ->. apply (Hm n main); [left|done..].
Qed.
Lemma second_pass_exists fake ns acc : (forall n main, n ∈ ns -> secondary n main -> exists b, fake n main = inr b) ->
  exists r, second_pass fake ns acc = inr r.
Proof.
  revert acc. induction ns as [|n ns IH]; intros [[beh l] s] H; cbn; [by eexists|].
  assert (H' : forall n main, n ∈ ns -> secondary n main -> exists b, fake n main = inr b) by (intros n0 m0 Hn; apply H; by right).
  destruct (bn_loader n) as [main|] eqn:L; [|by apply IH].
  destruct (decide (main = bn_name n)); [by apply IH|].
  destruct (dget beh main); [by apply IH|].
  destruct (H n main ltac:(left)) as [b ->]; [done|]. by apply IH.
Qed.

Lemma precedence c ns beh l s : behaviors_of c ns = inr (beh, l, s) -> NoDup (names ns) ->
  (forall n, n ∈ ns -> primary n -> exists b, dget beh (bn_name n) = Some b /\ has_behavior c ns n b) /\
  (forall n m, n ∈ ns -> m ∈ ns -> secondary n (bn_name m) -> primary m -> dget beh (bn_name n) = dget beh (bn_name m)) /\
  (forall n main, n ∈ ns -> secondary n main -> main ∉ names ns ->
     exists b, dget beh (bn_name n) = Some b /\
       ((forced c ns main b /\ forall b', forced c ns main b' -> b' = b) \/
        (forall b', ~ forced c ns main b') /\ match bn_tag n with Some t => spells t b | None => b = DEFAULT end)).
Proof.
  unfold behaviors_of. destruct (init_check c) eqn:I; [|done]. rewrite resolve_eq by done.
  destruct (first_pass _ ns []) as [e|beh1] eqn:F; [done|]. intros S N.
  destruct (first_pass_inr _ _ _ _ F N) as [A1 A2]. destruct (second_pass_inr _ _ _ _ _ _ _ _ S N) as [B1 B2].
  assert (P : forall m, m ∈ ns -> primary m -> forall n main, n ∈ ns -> secondary n main -> bn_name n <> bn_name m).
  { intros m Hm Pm n main Hn [Sn1 Sn2] E.
    assert (n = m) as ->.
    { apply elem_of_list_lookup in Hn as [i Hi]. apply elem_of_list_lookup in Hm as [j Hj].
      assert (i = j) as ->; [|congruence].
      apply (NoDup_lookup (names ns) i j (bn_name m)); [done|..]; unfold names; rewrite list_lookup_fmap; [by rewrite Hi, <- E|by rewrite Hj]. }
    destruct Pm as [Pm|Pm]; congruence. }
  split_and!.
  - intros n Hn Pn. destruct (A1 n Hn) as (b & Rb & Hb). exists b. split.
    + rewrite B1; [done|]. by apply P.
    + apply node_res_ok in Rb. exact Rb.
  - intros n m Hn Hm Sn Pm. destruct (B2 n (bn_name m) Hn Sn) as (b & Hb & M).
    { by apply P. }
    destruct (A1 m Hm) as (b' & _ & Hb'). rewrite Hb' in M. subst. rewrite Hb. rewrite B1; [done|]. by apply P.
  - intros n main Hn Sn Nm. destruct (B2 n main Hn Sn) as (b & Hb & M).
    { intros n' main' Hn' _ <-. apply Nm. apply elem_of_list_fmap. by exists n'. }
    rewrite A2 in M by done. change (dget [] main) with (@None behavior) in M.
    apply node_res_ok in M. cbn [bn_expand bn_name bn_tag bn_loader bn_saver] in M. exists b. split; [done|].
    destruct M as [M|[M1 M2]]; [by left|]. right. split; [done|]. destruct (bn_tag n); [done|].
    destruct Sn as [Sn _]. rewrite Sn in M2. destruct b; by vm_compute in M2.
Qed.

Lemma rejected c ns n b b' : n ∈ ns -> bn_expand n = false -> b <> b' ->
  forced c ns (bn_name n) b -> forced c ns (bn_name n) b' -> exists e, behaviors_of c ns = inl e.
Proof.
  intros Hn X NE F1 F2. unfold behaviors_of. destruct (init_check c) eqn:I; [|by eexists]. rewrite resolve_eq by done.
  cbn zeta. set (db := default "default"%string (bc_default_behavior c)).
  set (dl := default db (bc_default_loader c)). set (ds := default db (bc_default_saver c)).
  pose proof (from_driver_spec c ns (bn_name n)) as F.
  assert (G : exists e, node_res c ns db dl ds n = inl e).
  { unfold node_res, resolve_node. rewrite X.
    destruct (match bn_tag n with None => _ | Some t => _ end) as [e|bt]; [by eexists|].
    destruct (from_driver _ _ _) as [e|[b0|]]; [by eexists|..].
    - destruct F as [_ F]. exfalso. apply NE. by rewrite (F b F1), (F b' F2).
    - by destruct (F b F1). }
  destruct G as [e G]. destruct (first_pass_inl (node_res c ns db dl ds) ns [] n e Hn G) as [e' ->]. by eexists.
Qed.

Lemma accepted c ns : init_check c = true ->
  (forall n, n ∈ ns -> bn_expand n = false -> forall b b', forced c ns (bn_name n) b -> forced c ns (bn_name n) b' -> b = b') ->
  (forall n main, n ∈ ns -> bn_loader n = Some main -> forall b b', forced c ns main b -> forced c ns main b' -> b = b') ->
  (forall n t, n ∈ ns -> bn_tag n = Some t -> exists b, spells t b) ->
  (forall t, t ∈ [bc_default_behavior c; bc_default_loader c; bc_default_saver c] -> forall u, t = Some u -> exists b, spells u b) ->
  exists r, behaviors_of c ns = inr r.
Proof.
  intros I U1 U2 T D. unfold behaviors_of. rewrite I, resolve_eq by done. cbn zeta.
  set (db := default "default"%string (bc_default_behavior c)).
  set (dl := default db (bc_default_loader c)). set (ds := default db (bc_default_saver c)).
  assert (Dd : exists b, spells "default" b) by (exists DEFAULT; by vm_compute).
  assert (D1 : exists b, spells db b).
  { unfold db. destruct (bc_default_behavior c) as [u|] eqn:E; [|done]. apply (D (Some u)); [left|done]. }
  assert (D2 : exists b, spells dl b).
  { unfold dl. destruct (bc_default_loader c) as [u|] eqn:E; [|done]. apply (D (Some u)); [right; left|done]. }
  assert (D3 : exists b, spells ds b).
  { unfold ds. destruct (bc_default_saver c) as [u|] eqn:E; [|done]. apply (D (Some u)); [right; right; left|done]. }
  destruct (first_pass_exists (node_res c ns db dl ds) ns []) as [beh ->].
  { intros n Hn. apply node_res_exists; try done; [by apply U1|by intros t; apply T]. }
  apply second_pass_exists. intros n main Hn [Sn1 Sn2].
  apply node_res_exists; try done; cbn; [|by intros t; apply T]. intros _. by apply (U2 n).
Qed.
