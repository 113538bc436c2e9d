(** C18, C19: topological sort and levels. *)
From Verif Require Import Base TopoModel TopoProofs.

(** ** C18 *)
Theorem C18_sort_is_ordered_permutation :
  forall nodes : list tnode,
    NoDup (tnames nodes) -> (forall n, n ∈ nodes -> NoDup (tn_deps n)) ->
    (forall x, ~ tc (ldep nodes) x x) ->
    exists out, topologically_sort_nodes nodes = Some out /\ Permutation out nodes /\
      forall l1 n l2, out = l1 ++ n :: l2 ->
        forall d, d ∈ tn_deps n -> d ∈ tnames nodes -> d ∈ tnames l1.
Proof. intros. by apply topo_acyclic. Qed.
Print Assumptions C18_sort_is_ordered_permutation.

Theorem C18_sort_with_cycles :
  forall nodes : list tnode,
    NoDup (tnames nodes) -> (forall n, n ∈ nodes -> NoDup (tn_deps n)) ->
    exists out, topologically_sort_nodes nodes = Some out /\
      NoDup (tnames out) /\ (forall n, n ∈ out -> n ∈ nodes) /\
      (forall l1 n l2, out = l1 ++ n :: l2 ->
         forall d, d ∈ tn_deps n -> d ∈ tnames nodes -> d ∈ tnames l1) /\
      (forall n, n ∈ nodes -> n ∈ out <-> ~ exists z, rtc (ldep nodes) (tn_name n) z /\ tc (ldep nodes) z z).
Proof.
  intros nodes Hn Hd. destruct (topo_ok nodes Hn Hd) as (out & Heq & H1 & H2 & H3 & _).
  exists out. split_and!; [done|done|done| |by apply topo_cycles].
  intros l1 n l2 Hl d Hd1 Hd2. eapply H3; [done|]. by apply elem_of_list_filter.
Qed.
Print Assumptions C18_sort_with_cycles.

Definition ex_nodes : list tnode :=
  [TNode "d" ["b"; "c"]; TNode "b" ["a"; "x"]; TNode "c" ["a"; "b"]; TNode "a" []; TNode "e" []].
Definition ex_nodes_cyc : list tnode :=
  [TNode "p" ["q"]; TNode "q" ["p"; "a"]; TNode "r" ["q"]; TNode "a" []; TNode "s" ["a"]].
Example C18_nonvacuous :
  option_map tnames (topologically_sort_nodes ex_nodes) = Some ["a"; "e"; "b"; "c"; "d"] /\
  option_map tnames (topologically_sort_nodes ex_nodes_cyc) = Some ["a"; "s"].
Proof. split; vm_compute; reflexivity. Qed.
Example C18_hypotheses : NoDup (tnames ex_nodes) /\ (forall n, n ∈ ex_nodes -> NoDup (tn_deps n)) /\
  (forall x, ~ tc (ldep ex_nodes) x x).
Proof.
  split_and!.
  - apply (bool_decide_unpack _). vm_compute. done.
  - intros n Hn. repeat (apply elem_of_cons in Hn as [->|Hn]; [apply (bool_decide_unpack _); vm_compute; done|]).
    by apply elem_of_nil in Hn.
  - set (rank := fun x : name => match list_find (fun y => y = x) ["a"; "e"; "b"; "c"; "d"] with Some (i, _) => i | None => 9 end).
    assert (H : forall x d, ldep ex_nodes x d -> rank d < rank x).
    { intros x d (n & Hn & <- & Hd & Hdn).
      assert (Hb : forallb (fun n => forallb (fun d => bool_decide (d ∈ tnames ex_nodes -> rank d < rank (tn_name n))) (tn_deps n)) ex_nodes = true)
        by (vm_compute; reflexivity).
      rewrite forallb_forall in Hb. specialize (Hb n). rewrite <-elem_of_list_In in Hb. specialize (Hb Hn).
      rewrite forallb_forall in Hb. specialize (Hb d). rewrite <-elem_of_list_In in Hb. specialize (Hb Hd).
      by apply bool_decide_eq_true in Hb; apply Hb. }
    assert (Ht : forall x y, tc (ldep ex_nodes) x y -> rank y < rank x).
    { induction 1; [by apply H|]. etransitivity; [done|by apply H]. }
    intros x Hx%Ht. lia.
Qed.

(** ** C19 *)
Theorem C19_levels :
  forall sorted : list tnode,
    NoDup (tnames sorted) ->
    (forall l1 n l2, sorted = l1 ++ n :: l2 -> forall d, d ∈ local_deps sorted n -> d ∈ tnames l1) ->
    exists levels, get_node_levels sorted = Some levels /\
      map fst levels = tnames sorted /\
      forall x n, (x, n) ∈ levels -> longest sorted x n.
Proof. intros. by apply levels_ok. Qed.
Print Assumptions C19_levels.

Theorem C19_groups :
  forall nodes : list tnode,
    NoDup (tnames nodes) -> (forall n, n ∈ nodes -> NoDup (tn_deps n)) ->
    (forall x, ~ tc (ldep nodes) x x) ->
    exists groups, group_nodes_by_level nodes = Some groups /\
      (forall i x, (exists l, groups !! i = Some l /\ x ∈ l) <-> longest nodes x i) /\
      (forall x, x ∈ tnames nodes -> exists i, longest nodes x i) /\
      (forall i l, groups !! i = Some l -> NoDup l /\ l <> []).
Proof. intros. by apply groups_ok. Qed.
Print Assumptions C19_groups.

(** Hence a dependency is always in a strictly lower group. *)
Theorem C19_no_dependency_inside_a_level :
  forall (nodes : list tnode) groups i j li lj x d,
    NoDup (tnames nodes) -> (forall n, n ∈ nodes -> NoDup (tn_deps n)) ->
    (forall x, ~ tc (ldep nodes) x x) ->
    group_nodes_by_level nodes = Some groups ->
    groups !! i = Some li -> groups !! j = Some lj -> x ∈ li -> d ∈ lj -> tc (ldep nodes) x d -> j < i.
Proof.
  intros nodes groups i j li lj x d Hn Hd Hac Hg Hi Hj Hx Hdj Ht.
  destruct (groups_ok nodes Hn Hd Hac) as (groups' & Hg' & Hiff & Htot & _).
  rewrite Hg in Hg'. injection Hg' as <-.
  assert (Hxi : longest nodes x i) by (apply Hiff; eauto).
  assert (Hdl : longest nodes d j) by (apply Hiff; eauto).
  clear -Hxi Hdl Ht Htot. revert i Hxi. induction Ht as [x d He|x y d He Ht IH]; intros i Hxi.
  - by eapply longest_dep.
  - destruct (Htot y) as (k & Hk). { by destruct He as (_ & _ & _ & _ & ?). }
    specialize (IH Hdl k Hk). pose proof (longest_dep _ _ _ _ _ He Hxi Hk). lia.
Qed.
Print Assumptions C19_no_dependency_inside_a_level.

Example C19_nonvacuous :
  group_nodes_by_level ex_nodes = Some [["a"; "e"]; ["b"]; ["c"]; ["d"]].
Proof. vm_compute. reflexivity. Qed.
