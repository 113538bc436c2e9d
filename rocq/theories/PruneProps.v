(** C43: pruning of a subdag. *)
From Verif Require Import Base Dict NodeModel NodeProofs PipeModel SubdagModel.

(** A variable is needed if it is a selected node or a node that a needed one depends on. *)
Inductive needed {V E T} (nodes : list (pnode V E T)) (select : list name) : name -> Prop :=
| needed_selected n : n ∈ nodes -> pn_name n ∈ select -> needed nodes select (pn_name n)
| needed_input m n : m ∈ nodes -> needed nodes select (pn_name m) -> n ∈ nodes -> pn_name n ∈ dkeys (pn_inputs m) -> needed nodes select (pn_name n).

Section Prune.
Context {V E T : Type}.
Implicit Types (nodes output : list (pnode V E T)) (m : dict (pnode V E T)).

Definition by_name nodes : dict (pnode V E T) := foldl (fun d n => dset d (pn_name n) n) [] nodes.
Lemma by_name_spec nodes : NoDup (map pn_name nodes) ->
  NoDup (dkeys (by_name nodes)) /\ forall x n, dget (by_name nodes) x = Some n <-> n ∈ nodes /\ pn_name n = x.
Proof.
  unfold by_name. induction nodes as [|n nodes IH] using rev_ind; intros N.
  - split; [apply NoDup_nil_2|]. intros x n. cbn. split; [done|]. by intros [[]%elem_of_nil _].
  - rewrite map_app in N. apply NoDup_app in N as (N1 & N2 & _). destruct (IH N1) as [IH1 IH2]. rewrite foldl_app. cbn.
    split; [by apply NoDup_dkeys_dset|]. intros x n'. rewrite dget_dset. setoid_rewrite elem_of_app. setoid_rewrite elem_of_list_singleton.
    destruct (decide (x = pn_name n)) as [-> | Hx].
    + split; [intros [= ->]; split; [by right|done]|]. intros [[H | ->] Hn]; [|done]. exfalso.
      apply (N2 (pn_name n)); [|by left]. rewrite <- Hn. by apply elem_of_list_fmap_1.
    + rewrite IH2. split; [intros [? ?]; split; [by left|done]|]. intros [[H | ->] Hn]; done.
Qed.

Lemma push_deps_spec m deps : forall stack seen stack' seen', push_deps m deps stack seen = (stack', seen') ->
  exists new, stack' = new ++ stack /\ NoDup new /\
    (forall x, x ∈ new <-> x ∈ deps /\ x ∉ seen /\ is_Some (dget m x)) /\ (forall x, x ∈ seen' <-> x ∈ new \/ x ∈ seen).
Proof.
  unfold push_deps. induction deps as [|d deps IH]; intros stack seen stack' seen' H; cbn [foldl] in H.
  - injection H as <- <-. exists []. split_and!; [done|apply NoDup_nil_2| |].
    + intros x. split; [by intros []%elem_of_nil|by intros [[]%elem_of_nil _]].
    + intros x. split; [by right|]. intros [[]%elem_of_nil | ?]; done.
  - destruct (decide (d ∉ seen /\ is_Some (dget m d))) as [Hd | Hd].
    + destruct (IH _ _ _ _ H) as (new & -> & N & H1 & H2). exists (new ++ [d]). split_and!.
      * by rewrite <- app_assoc.
      * apply NoDup_app. split_and!; [done| |apply NoDup_singleton]. intros x Hx ->%elem_of_list_singleton. apply H1 in Hx as (_ & Hx & _). apply Hx. by left.
      * intros x. rewrite elem_of_app, H1, elem_of_list_singleton, !elem_of_cons. destruct (decide (x = d)) as [-> | Hn]; [naive_solver|].
        split; [|naive_solver]. intros [(? & Hs & ?) | ->]; [|done]. split_and!; [by right| |done]. intros ?. apply Hs. by right.
      * intros x. rewrite H2, elem_of_app, elem_of_list_singleton, elem_of_cons. naive_solver.
    + destruct (IH _ _ _ _ H) as (new & -> & N & H1 & H2). exists new. split_and!; [done|done| |done].
      intros x. rewrite H1, elem_of_cons. split; [naive_solver|]. intros ([-> | Hx] & H3 & H4); [|done]. by destruct Hd.
Qed.

Section Loop.
Variable nodes : list (pnode V E T).
Variable select : list name.
Hypothesis N : NoDup (map pn_name nodes).
Notation m := (by_name nodes).

Record inv (stack seen : list name) (output : list (pnode V E T)) : Prop := {
  inv_nodup : NoDup (stack ++ map pn_name output);
  inv_needed : forall x, x ∈ stack -> needed nodes select x /\ is_Some (dget m x);
  inv_output : forall n, n ∈ output -> n ∈ nodes /\ needed nodes select (pn_name n);
  inv_seen : forall x, x ∈ stack ++ map pn_name output -> x ∈ seen;
  inv_found : forall x, x ∈ seen -> is_Some (dget m x) -> x ∈ stack ++ map pn_name output;
  inv_deps : forall n x, n ∈ output -> x ∈ dkeys (pn_inputs n) -> is_Some (dget m x) -> x ∈ seen;
  inv_select : forall x, x ∈ select -> x ∈ seen;
}.

Lemma inv_bound stack seen output : inv stack seen output -> length stack + length output <= length m.
Proof.
  intros I. replace (length stack + length output) with (length (stack ++ map pn_name output)) by by rewrite app_length, map_length.
  rewrite <- (map_length fst m). apply submseteq_length, NoDup_submseteq; [apply I|].
  intros x [Hx | Hx]%elem_of_app.
  - apply dget_Some_key. by apply (inv_needed _ _ _ I).
  - apply elem_of_list_fmap in Hx as (n & -> & Hn). apply dget_Some_key. exists n. apply (by_name_spec nodes N). split; [|done]. by apply (inv_output _ _ _ I).
Qed.

Lemma inv_pop x stack seen output n stack' seen' : inv (x :: stack) seen output -> dget m x = Some n ->
  push_deps m (dkeys (pn_inputs n)) stack seen = (stack', seen') -> inv stack' seen' (output ++ [n]).
Proof.
  intros I D P. destruct (push_deps_spec _ _ _ _ _ _ P) as (new & -> & Nn & H1 & H2).
  pose proof (proj1 (proj2 (by_name_spec nodes N) x n) D) as [Hn Hx]. subst x.
  assert (Hs : pn_name n ∈ seen) by (apply (inv_seen _ _ _ I); by left).
  assert (Hnd : needed nodes select (pn_name n)) by (apply (inv_needed _ _ _ I); by left).
  split.
  - rewrite map_app. cbn. rewrite <- app_assoc. apply NoDup_app. split_and!; [done| |].
    + intros y Hy Hy'. apply H1 in Hy as (_ & Hy & _). apply Hy. apply (inv_seen _ _ _ I). cbn.
      rewrite !elem_of_app, elem_of_list_singleton in Hy'. rewrite elem_of_cons, elem_of_app. naive_solver.
    + pose proof (inv_nodup _ _ _ I) as Nd. cbn in Nd. rewrite Permutation_cons_append, <- app_assoc in Nd. done.
  - intros y [Hy | Hy]%elem_of_app; [|apply (inv_needed _ _ _ I); by right].
    apply H1 in Hy as (Hd & _ & Hy). split; [|done]. destruct Hy as [n' Hn']. apply (by_name_spec nodes N) in Hn' as [Hn' <-].
    by apply (needed_input _ _ n).
  - intros n' [Hn' | ->%elem_of_list_singleton]%elem_of_app; [by apply (inv_output _ _ _ I)|done].
  - intros y. rewrite map_app, !elem_of_app. cbn. rewrite elem_of_list_singleton. intros Hy. apply H2.
    destruct Hy as [[? | Hy] | [Hy | ->]]; [by left| | |by right].
    + right. apply (inv_seen _ _ _ I). right. apply elem_of_app. by left.
    + right. apply (inv_seen _ _ _ I). right. apply elem_of_app. by right.
  - intros y Hy Hm. rewrite map_app, !elem_of_app. cbn. rewrite elem_of_list_singleton. apply H2 in Hy as [? | Hy]; [by left; left|].
    pose proof (inv_found _ _ _ I y Hy Hm) as Hf. cbn in Hf. rewrite elem_of_cons, elem_of_app in Hf. naive_solver.
  - intros n' y [Hn' | ->%elem_of_list_singleton]%elem_of_app Hy Hm.
    + apply H2. right. by eapply (inv_deps _ _ _ I).
    + apply H2. destruct (decide (y ∈ seen)); [by right|]. left. by apply H1.
  - intros y Hy. apply H2. right. by apply (inv_select _ _ _ I).
Qed.

Lemma prune_loop_spec fuel : forall stack seen output, inv stack seen output -> length m < length output + fuel ->
  exists out, prune_loop m fuel stack seen output = Some out /\ exists seen', inv [] seen' out.
Proof.
  induction fuel as [|fuel IH]; intros stack seen output I Hf.
  - pose proof (inv_bound _ _ _ I). lia.
  - cbn [prune_loop]. destruct stack as [|x stack]; [eauto|].
    destruct (proj2 (inv_needed _ _ _ I x ltac:(by left))) as [n Hn]. rewrite Hn.
    destruct (push_deps m (dkeys (pn_inputs n)) stack seen) as [stack' seen'] eqn:P.
    apply IH; [by eapply inv_pop|]. rewrite app_length. cbn. lia.
Qed.
End Loop.

(** [prune_nodes] returns exactly the nodes that a selected one needs, each once, whatever
    the order of the set of selected nodes, and raises iff a selected name is not a node;
    cycles included. *)
Theorem C43_prune order nodes select :
  NoDup (map pn_name nodes) -> (forall l, order l ≡ₚ l) ->
  match prune_nodes order nodes (Some select) with
  | Pruned out => NoDup (map pn_name out) /\ (forall n, n ∈ out <-> n ∈ nodes /\ needed nodes select (pn_name n)) /\
      forall c, c ∈ select -> c ∈ map pn_name nodes
  | PruneValueError => exists c, c ∈ select /\ c ∉ map pn_name nodes
  | PruneStuck => False
  end.
Proof.
  intros N O. unfold prune_nodes. change (foldl _ [] nodes) with (by_name nodes).
  set (start := filter _ _).
  assert (Hst : forall x, x ∈ start <-> x ∈ select /\ is_Some (dget (by_name nodes) x)).
  { intros x. unfold start. rewrite elem_of_list_filter, elem_of_remove_dups. naive_solver. }
  destruct (prune_loop_spec nodes select N (S (length (by_name nodes))) (rev (order start)) select []) as (out & -> & seen & I).
  - assert (P : rev (order start) ≡ₚ start) by by rewrite <- Permutation_rev, O.
    split.
    + rewrite app_nil_r, P. apply NoDup_filter, NoDup_remove_dups.
    + intros x. rewrite P, Hst. intros [Hx Hs]. split; [|done]. destruct Hs as [n Hn]. apply (by_name_spec nodes N) in Hn as [Hn <-]. by apply needed_selected.
    + by intros n []%elem_of_nil.
    + intros x. cbn. rewrite app_nil_r, P, Hst. by intros [? _].
    + intros x Hx Hs. cbn. rewrite app_nil_r, P, Hst. done.
    + by intros n x []%elem_of_nil.
    + done.
  - cbn. lia.
  - assert (Hall : forall n, n ∈ out <-> n ∈ nodes /\ needed nodes select (pn_name n)).
    { assert (F : forall x, needed nodes select x -> x ∈ map pn_name out).
      { intros x Hx. induction Hx as [n Hn Hs|m' n Hm' _ IH Hn Hd].
        - apply (inv_found _ _ _ _ _ I); [by apply (inv_select _ _ _ _ _ I)|]. exists n. by apply (by_name_spec nodes N).
        - apply (inv_found _ _ _ _ _ I); [|exists n; by apply (by_name_spec nodes N)].
          apply elem_of_list_fmap in IH as (m'' & Heq & Hm''). apply (inv_deps _ _ _ _ _ I m''); [done| |exists n; by apply (by_name_spec nodes N)].
          assert (m'' = m') as ->; [|done]. pose proof (proj1 (inv_output _ _ _ _ _ I _ Hm'')) as Hn''.
          pose proof (proj2 (proj2 (by_name_spec nodes N) (pn_name m') m'') (conj Hn'' (eq_sym Heq))) as G1.
          pose proof (proj2 (proj2 (by_name_spec nodes N) (pn_name m') m') (conj Hm' eq_refl)) as G2. congruence. }
      intros n. split; [apply (inv_output _ _ _ _ _ I)|]. intros [Hn Hd]. apply F in Hd.
      apply elem_of_list_fmap in Hd as (n' & Heq & Hn'). assert (n = n') as ->; [|done].
      pose proof (proj1 (inv_output _ _ _ _ _ I _ Hn')) as Hn''.
      pose proof (proj2 (proj2 (by_name_spec nodes N) (pn_name n) n') (conj Hn'' (eq_sym Heq))) as G1.
      pose proof (proj2 (proj2 (by_name_spec nodes N) (pn_name n) n) (conj Hn eq_refl)) as G2. congruence. }
    destruct (forallb _ select) eqn:B.
    + split_and!; [apply (inv_nodup _ _ _ _ _ I)|done|]. intros c Hc. rewrite forallb_forall in B. apply elem_of_list_In in Hc. apply B in Hc.
      apply bool_decide_eq_true in Hc. apply elem_of_list_fmap in Hc as (n & -> & Hn). apply elem_of_list_fmap_1. by apply Hall.
    + apply not_true_iff_false in B. rewrite forallb_forall in B.
      assert (D : forall l : list name, (exists c, c ∈ l /\ c ∉ map pn_name out) \/ forall c, c ∈ l -> c ∈ map pn_name out).
      { induction l as [|c l IH]; [right; by intros c []%elem_of_nil|]. destruct (decide (c ∈ map pn_name out)) as [Hc|Hc]; [|left; exists c; split; [by left|done]].
        destruct IH as [(c' & ? & ?) | IH]; [left; exists c'; split; [by right|done]|]. right. intros c' [-> | ?]%elem_of_cons; auto. }
      destruct (D select) as [(c & Hc & Hn) | D'].
      * exists c. split; [done|]. intros Hc'. apply Hn. apply elem_of_list_fmap in Hc' as (n & -> & Hn'). apply elem_of_list_fmap_1. apply Hall. split; [done|]. by apply needed_selected.
      * exfalso. apply B. intros c Hc%elem_of_list_In. apply bool_decide_eq_true. by apply D'.
Qed.
Theorem C43_no_selection order nodes : prune_nodes order nodes None = Pruned nodes.
Proof. done. Qed.
End Prune.

(** a -> b -> c, d -> a, with a cycle between b and c *)
Definition prune_ex : list (pnode unit unit unit) :=
  let nd x ins := PNode x tt (map (fun k => (k, (tt, REQUIRED))) ins) (fun _ => Err (NUser tt)) in
  [nd "a" ["i"]; nd "b" ["a"; "c"]; nd "c" ["b"]; nd "d" ["a"]; nd "e" ["d"; "i"]].
Definition pruned_names (r : prune_result (V := unit) (E := unit) (T := unit)) : option (list name) :=
  match r with Pruned out => Some (map pn_name out) | _ => None end.
Example ex_prune : NoDup (map pn_name prune_ex) /\
  pruned_names (prune_nodes id prune_ex (Some ["c"; "c"])) = Some ["c"; "b"; "a"] /\
  pruned_names (prune_nodes (@rev _) prune_ex (Some ["d"; "b"])) = Some ["d"; "a"; "b"; "c"] /\
  prune_nodes id prune_ex (Some ["d"; "i"]) = PruneValueError.
Proof. split; [apply (bool_decide_unpack _); by vm_compute|]. split_and!; by vm_compute. Qed.

Print Assumptions C43_prune.
Print Assumptions C43_no_selection.
