(** C58: transformers (@save_to, @with_columns, check_output(target_=...), ...) change exactly the
    nodes that their target selects. *)
From Verif Require Import Base Dict NodeModel NodeSpec NodeProofs PipeModel AdapterModel.

Section Target.
Context {V E T : Type}.
Notation node := (pnode V E T).
Variable non_final : node -> bool.

(** base.py 396-415: without target the sinks that are not tagged as internal, [...] every node,
    names the nodes with these names. *)
Definition targeted (t : target) (nodes : list node) (n : node) : Prop :=
  match t with
  | TNone => non_final n = false /\ forall n', n' ∈ nodes -> pn_name n ∉ dkeys (pn_inputs n')
  | TAll => True
  | TName x => pn_name n = x
  | TNames xs => pn_name n ∈ xs
  end.
(** Every name of the target is a node. *)
Definition found (t : target) (nodes : list node) : Prop :=
  match t with
  | TName x => x ∈ map pn_name nodes
  | TNames xs => forall x, x ∈ xs -> x ∈ map pn_name nodes
  | _ => True
  end.

Lemma select_spec t nodes sel : select_nodes non_final t nodes = Ok sel -> forall n, n ∈ sel <-> n ∈ nodes /\ targeted t nodes n.
Proof.
  destruct t as [| |x|xs]; cbn; intros H n.
  - injection H as <-. unfold final_nodes. rewrite elem_of_list_filter. split.
    + intros [[H1 H2] H3]. split_and!; [done|done|]. intros n' Hn' Hx. apply H1. apply elem_of_concat. exists (dkeys (pn_inputs n')). split; [done|]. apply elem_of_list_fmap. by exists n'.
    + intros (H1 & H2 & H3). split_and!; [|done|done]. intros (l & Hl & (n' & -> & Hn')%elem_of_list_fmap)%elem_of_concat. by apply (H3 n').
  - injection H as <-. tauto.
  - assert (F : sel = filter (fun n => pn_name n = x) nodes) by (destruct (filter _ nodes); [done|by injection H as <-]).
    rewrite F, elem_of_list_filter. tauto.
  - destruct (decide _); [|done]. injection H as <-. rewrite elem_of_list_filter. tauto.
Qed.

Lemma filter_names_length (xs : list name) (nodes : list node) : NoDup (map pn_name nodes) -> NoDup xs ->
  (length (filter (fun n => pn_name n ∈ xs) nodes) = length xs <-> forall x, x ∈ xs -> x ∈ map pn_name nodes).
Proof.
  intros Nn Nx.
  assert (L : length (filter (fun n : node => pn_name n ∈ xs) nodes) = length (filter (fun x => x ∈ map pn_name nodes) xs)).
  { rewrite <- (map_length pn_name). apply Permutation_length, NoDup_Permutation.
    - clear -Nn. induction nodes as [|n l IH]; cbn in *; [apply NoDup_nil_2|]. apply NoDup_cons in Nn as [N1 N2].
      destruct (decide _); cbn; [|by apply IH]. apply NoDup_cons. split; [|by apply IH].
      intros (n' & Hn & [_ Hin]%elem_of_list_filter)%elem_of_list_fmap. apply N1. rewrite Hn. apply elem_of_list_fmap. by exists n'.
    - by apply NoDup_filter.
    - intros x. rewrite elem_of_list_fmap, elem_of_list_filter. setoid_rewrite elem_of_list_filter. rewrite elem_of_list_fmap. split.
      + intros (n & -> & H1 & H2). split; [by exists n|done].
      + intros [(n & -> & H2) H1]. by exists n. }
  rewrite L. clear L Nx. induction xs as [|x xs IH]; cbn; [split; [by intros _ ? []%elem_of_nil|done]|].
  destruct (decide _) as [H|H]; cbn.
  - change (list_filter _ _ xs) with (filter (fun x => x ∈ map pn_name nodes) xs). split.
    + intros [= He] y [-> | Hy]%elem_of_cons; [done|]. by apply IH.
    + intros Hy. f_equal. apply IH. intros y Hy'. apply Hy. by right.
  - change (list_filter _ _ xs) with (filter (fun x => x ∈ map pn_name nodes) xs). split.
    + intros He. exfalso. change (length (filter (fun x => x ∈ map pn_name nodes) xs) = S (length xs)) in He. pose proof (filter_length (fun x => x ∈ map pn_name nodes) xs). lia.
    + intros Hy. exfalso. apply H, Hy. by left.
Qed.

Lemma select_found t nodes : NoDup (map pn_name nodes) -> match t with TNames xs => NoDup xs | _ => True end ->
  (found t nodes -> exists sel, select_nodes non_final t nodes = Ok sel) /\ (~ found t nodes -> select_nodes non_final t nodes = Err ANoTarget).
Proof.
  intros Nn Nx. destruct t as [| |x|xs]; cbn [found select_nodes].
  - split; [eauto|done].
  - split; [eauto|done].
  - destruct (filter (fun n : node => pn_name n = x) nodes) as [|n l] eqn:F.
    + split; [|done]. intros (n & -> & Hn)%elem_of_list_fmap. exfalso.
      assert (Hin : n ∈ filter (fun n' : node => pn_name n' = pn_name n) nodes) by by apply elem_of_list_filter.
      rewrite F in Hin. by apply elem_of_nil in Hin.
    + split; [eauto|]. intros Hx. exfalso. apply Hx. assert (Hin : n ∈ filter (fun n' : node => pn_name n' = x) nodes) by (rewrite F; by left).
      apply elem_of_list_filter in Hin as [<- Hin]. apply elem_of_list_fmap. by exists n.
  - rewrite <- (filter_names_length xs nodes Nn Nx). cbn zeta. split; intros H; [rewrite decide_True by done; eauto|by rewrite decide_False by done].
Qed.

Lemma transform_targets_spec {X} (f : node -> res X (list node)) sel out : transform_targets f sel = Ok out ->
  (forall n, n ∈ sel -> exists ms, f n = Ok ms) /\ forall m, m ∈ out <-> exists n ms, n ∈ sel /\ f n = Ok ms /\ m ∈ ms.
Proof.
  revert out. induction sel as [|n sel IH]; cbn; intros out H.
  - injection H as <-. split; [by intros ? []%elem_of_nil|]. intros m. split; [by intros []%elem_of_nil|by intros (n & ms & []%elem_of_nil & _)].
  - destruct (f n) as [ms|e] eqn:Ef; [|done]. cbn in H. destruct (transform_targets f sel) as [rest|e] eqn:Er; [|done]. cbn in H. injection H as <-.
    destruct (IH rest eq_refl) as [I1 I2]. split.
    + intros n' [-> | Hn']%elem_of_cons; [by exists ms|by apply I1].
    + intros m. rewrite elem_of_app, I2. split.
      * intros [Hm|(n' & ms' & H1 & H2 & H3)]; [exists n, ms; split; [by left|done]|exists n', ms'; split; [by right|done]].
      * intros (n' & ms' & [-> | H1]%elem_of_cons & H2 & H3); [left; congruence|right; by exists n', ms'].
Qed.

(** The result: nodes that are not targeted stay as they are, the others are replaced by the
    nodes that the transformer makes of them. It fails if a name of the target is not a node. *)
Theorem C58_transform_partial t f nodes : NoDup (map pn_name nodes) -> match t with TNames xs => NoDup xs | _ => True end ->
  match transform_dag non_final t f nodes with
  | Ok out => found t nodes /\ (forall n, n ∈ nodes -> targeted t nodes n -> exists ms, f n = Ok ms) /\
      forall m, m ∈ out <-> (m ∈ nodes /\ ~ targeted t nodes m) \/ exists n ms, n ∈ nodes /\ targeted t nodes n /\ f n = Ok ms /\ m ∈ ms
  | Err e => (~ found t nodes /\ e = ANoTarget) \/ (found t nodes /\ exists n, n ∈ nodes /\ targeted t nodes n /\ f n = Err e)
  end.
Proof.
  intros Nn Nx. destruct (select_found t nodes Nn Nx) as [F1 F2].
  assert (Fd : found t nodes \/ ~ found t nodes).
  { destruct t as [| |x|xs]; cbn; [by left|by left| |].
    - destruct (decide (x ∈ map pn_name nodes)); [by left|by right].
    - destruct (decide (Forall (fun x => x ∈ map pn_name nodes) xs)) as [H|H]; rewrite Forall_forall in H; [by left|by right]. }
  unfold transform_dag. destruct Fd as [Hf|Hf]; [|rewrite (F2 Hf); by left].
  destruct (F1 Hf) as [sel Hs]. rewrite Hs. cbn. pose proof (select_spec t nodes sel Hs) as Sel.
  destruct (transform_targets f sel) as [out|e] eqn:Et; cbn.
  - apply transform_targets_spec in Et as [T1 T2]. split_and!; [done| |].
    + intros n Hn Ht. apply T1, Sel. done.
    + intros m. rewrite elem_of_app, T2. unfold compliment. rewrite elem_of_list_filter.
      assert (Hc : m ∈ nodes -> (pn_name m ∉ map pn_name sel <-> ~ targeted t nodes m)).
      { intros Hm. split.
        - intros H Ht. apply H. apply elem_of_list_fmap. exists m. split; [done|]. by apply Sel.
        - intros H (n & Hn & [Hin Ht]%Sel)%elem_of_list_fmap. apply H. replace m with n; [done|].
          apply elem_of_list_lookup in Hm as [i Hi]. apply elem_of_list_lookup in Hin as [j Hj].
          assert (i = j) as ->; [|congruence]. eapply (NoDup_lookup (map pn_name nodes)); [done| |].
          + rewrite list_lookup_fmap, Hi. cbn. done.
          + rewrite list_lookup_fmap, Hj. cbn. by rewrite Hn. }
      split.
      * intros [[H1 H2]|(n & ms & H1 & H2 & H3)]; [left; split; [done|by apply Hc]|right; exists n, ms]. apply Sel in H1 as [? ?]. done.
      * intros [[H1 H2]|(n & ms & H1 & H2 & H3 & H4)]; [left; split; [by apply Hc|done]|right; exists n, ms]. split; [by apply Sel|done].
  - right. split; [done|]. assert (Gen : forall l e, transform_targets f l = Err e -> exists n, n ∈ l /\ f n = Err e).
    { clear. induction l as [|n l IH]; cbn; intros e H; [done|]. destruct (f n) as [ms|e'] eqn:Ef; cbn in H.
      - destruct (transform_targets f l) as [r|e'']; [done|]. injection H as ->. destruct (IH e eq_refl) as (n' & ? & ?). exists n'. split; [by right|done].
      - injection H as ->. exists n. split; [by left|done]. }
    apply Gen in Et as (n & Hn & Hfn). apply Sel in Hn as [? ?]. by exists n.
Qed.
End Target.
Print Assumptions C58_transform_partial.

(** A target that lists a node twice is rejected as missing (only the number of matches is
    compared). *)
Theorem C58_repeated_refuted : exists (nodes : list (pnode nat unit unit)) xs,
  (forall x, x ∈ xs -> x ∈ map pn_name nodes) /\
  transform_dag (fun _ => false) (TNames xs) (fun n => Ok [n]) nodes = Err ANoTarget.
Proof.
  exists [PNode "a" tt [] (fun _ => Ok 0)], ["a"; "a"]. split; [|done].
  intros x Hx. apply elem_of_cons in Hx as [-> | ->%elem_of_list_singleton]; by left.
Qed.
Print Assumptions C58_repeated_refuted.

(** A -> B -> C, B -> D -> E as in the documentation of the target: without target C and E. *)
Example C58_example :
  let n x ps : pnode nat unit unit := PNode x tt (map (fun p => (p, (tt, REQUIRED))) ps) (fun _ => Ok 0) in
  let nodes := [n "A" []; n "B" ["A"]; n "C" ["B"]; n "D" ["B"]; n "E" ["D"]] in
  (pn_name <$> (final_nodes (fun _ => false) nodes)) = ["C"; "E"] /\
  (exists out, transform_dag (fun _ => false) (TNames ["A"; "B"]) (fun m => Ok [m; n (pn_name m ++ "_save")%string [pn_name m]]) nodes = Ok out /\
    map pn_name out = ["C"; "D"; "E"; "A"; "A_save"; "B"; "B_save"]) /\
  NoDup (map pn_name nodes).
Proof. split_and!; [done|eexists; split; reflexivity|]. apply (bool_decide_unpack _). by vm_compute. Qed.
