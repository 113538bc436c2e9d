(** C45: tag queries. *)
From Verif Require Import Base Dict TagModel.

(** Tag value [t] answers the query [q]: no value is queried, or one of the queried values
    is one of the tag's. *)
Definition answers (t : tagval) (q : qval) : Prop :=
  match q with
  | QNone => True
  | QStr s => s ∈ tag_list t
  | QList l => exists s, s ∈ l /\ s ∈ tag_list t
  | QOther => False
  end.

Lemma answers_existsb t q : q <> QNone ->
  existsb (fun q => existsb (fun s => bool_decide (q = Some s)) (tag_list t)) (query_list q) = true <-> answers t q.
Proof.
  intros Hq. assert (G : forall l (o : option string), existsb (fun s => bool_decide (o = Some s)) l = true <-> exists s, s ∈ l /\ o = Some s).
  { intros l o. rewrite existsb_exists. split; intros (s & H1 & H2); exists s; [apply elem_of_list_In in H1|apply elem_of_list_In in H1]; by apply bool_decide_eq_true in H2 || by (split; [done|apply bool_decide_eq_true]). }
  destruct q as [|s|l|]; cbn [query_list answers]; [done| | |].
  - cbn [existsb]. rewrite orb_false_r, G. split; [intros (s' & H & [= ->]); done|]. intros H. by exists s.
  - rewrite existsb_exists. setoid_rewrite G. split.
    + intros (o & Ho & s & Hs & ->). apply in_map_iff in Ho as (s' & [= ->] & Ho). exists s. split; [by apply elem_of_list_In|done].
    + intros (s & H1 & H2). exists (Some s). split; [apply in_map_iff; exists s; split; [done|by apply elem_of_list_In]|by exists s].
  - cbn [existsb]. rewrite orb_false_r, G. split; [by intros (? & _ & ?)|done].
Qed.

Theorem C45_matches tags query :
  matches_query tags query = true <-> forall tag q, (tag, q) ∈ query -> exists t, dget tags tag = Some t /\ answers t q.
Proof.
  induction query as [|[tag q] query IH].
  - cbn. split; [by intros _ ? ? []%elem_of_nil|done].
  - assert (S : (forall tag' q', (tag', q') ∈ (tag, q) :: query -> exists t, dget tags tag' = Some t /\ answers t q') <->
      (exists t, dget tags tag = Some t /\ answers t q) /\ matches_query tags query = true).
    { rewrite IH. split.
      - intros H. split; [apply H; by left|]. intros tag' q' H'. apply H. by right.
      - intros [H1 H2] tag' q' [[= -> ->] | H]%elem_of_cons; [done|by apply H2]. }
    rewrite S. cbn [matches_query]. destruct (dget tags tag) as [t|]; [|split; [done|by intros [(? & ? & _) _]]].
    destruct (decide (q = QNone)) as [-> | Hq].
    + split; [intros H; split; [by exists t|done]|by intros [_ H]].
    + transitivity ((existsb (fun q => existsb (fun s => bool_decide (q = Some s)) (tag_list t)) (query_list q) = true) /\ matches_query tags query = true).
      * destruct q; [done|..]; destruct (existsb _ _); split; try done; by intros [? ?].
      * rewrite (answers_existsb t q Hq). split; intros [H1 H2]; (split; [|done]).
        -- by exists t.
        -- by destruct H1 as (t' & [= <-] & H1).
Qed.

Lemma NoDup_sublist {A} (l k : list A) : sublist l k -> NoDup k -> NoDup l.
Proof.
  induction 1 as [|x l k S IH|x l k S IH]; intros N; [apply NoDup_nil_2| |].
  - apply NoDup_cons in N as [N1 N2]. apply NoDup_cons. split; [|auto]. intros H. apply N1. by eapply elem_of_submseteq, sublist_submseteq.
  - apply NoDup_cons in N as [_ N2]. auto.
Qed.
(** list_available_variables(tag_filter=q) returns exactly the variables that carry every
    queried tag with one of the queried values, in the order of the graph, each once; it
    raises iff a queried value is not None, a string or a non-empty list. *)
Lemma sublist_map {A B} (f : A -> B) (l k : list A) : sublist l k -> sublist (map f l) (map f k).
Proof. induction 1; cbn; by constructor. Qed.

Theorem C45_filter nodes query : NoDup (map fst nodes) -> query <> [] ->
  match list_available_variables nodes (Some query) with
  | Some vars => (forall tag q, (tag, q) ∈ query -> q <> QOther /\ q <> QList []) /\
      sublist vars (map fst nodes) /\ NoDup vars /\
      forall x tags, (x, tags) ∈ nodes -> x ∈ vars <-> forall tag q, (tag, q) ∈ query -> exists t, dget tags tag = Some t /\ answers t q
  | None => exists tag q, (tag, q) ∈ query /\ (q = QOther \/ q = QList [])
  end.
Proof.
  intros N Hq. unfold list_available_variables. destruct query as [|kq query]; [done|]. set (qs := kq :: query).
  destruct (forallb (fun kq => valid_value kq.2) qs) eqn:B.
  - assert (Sub : sublist (List.filter (fun n : name * dict tagval => matches_query n.2 qs) nodes) nodes).
    { clear. induction nodes as [|n nodes IH]; cbn [List.filter]; [constructor|]. case_match; by constructor. }
    split_and!.
    + intros tag q H. rewrite forallb_forall in B. apply elem_of_list_In in H. apply B in H. cbn in H. destruct q as [| |[|? ?]|]; done.
    + by apply sublist_map.
    + apply (NoDup_sublist _ _ (sublist_map fst _ _ Sub) N).
    + intros x tags H. rewrite <- C45_matches. split.
      * intros ([x' tags'] & -> & H')%elem_of_list_fmap. apply elem_of_list_In, filter_In in H' as [H' M]. cbn in *. apply elem_of_list_In in H'.
        assert (D1 : dget nodes x' = Some tags) by by apply elem_dget. assert (D2 : dget nodes x' = Some tags') by by apply elem_dget. assert (tags' = tags) as <- by congruence. exact M.
      * intros M. apply elem_of_list_fmap. exists (x, tags). split; [done|]. apply elem_of_list_In, filter_In. split; [by apply elem_of_list_In|done].
  - apply not_true_iff_false in B. rewrite forallb_forall in B.
    assert (D : forall l : dict qval, (exists tag q, (tag, q) ∈ l /\ valid_value q = false) \/ forall kq, kq ∈ l -> valid_value kq.2 = true).
    { induction l as [|[tag q] l IH]; [right; by intros ? []%elem_of_nil|]. destruct (valid_value q) eqn:E.
      - destruct IH as [(t' & q' & H1 & H2) | IH]; [left; exists t', q'; split; [by right|done]|]. right. intros kq' [-> | H]%elem_of_cons; auto.
      - left. exists tag, q. split; [by left|done]. }
    destruct (D qs) as [(tag & q & H1 & H2) | D'].
    + exists tag, q. split; [done|]. destruct q as [| |[|? ?]|]; cbn in H2; try done; auto.
    + exfalso. apply B. intros kq' H. apply D'. by apply elem_of_list_In.
Qed.
Theorem C45_no_filter nodes : list_available_variables nodes None = Some (map fst nodes) /\ list_available_variables nodes (Some []) = Some (map fst nodes).
Proof. done. Qed.

Example ex_tags : let nodes := [("a", [("team", TStr "x"); ("env", TList ["dev"; "prod"])]); ("b", [("team", TStr "y")]); ("c", [("env", TStr "prod"); ("team", TList ["x"; "z"])])] in
  NoDup (map fst nodes) /\
  list_available_variables nodes (Some [("env", QList ["prod"; "test"]); ("team", QStr "x")]) = Some ["a"; "c"] /\
  list_available_variables nodes (Some [("env", QNone)]) = Some ["a"; "c"] /\
  list_available_variables nodes (Some [("team", QList ["y"; "z"])]) = Some ["b"; "c"] /\
  list_available_variables nodes (Some [("team", QList [])]) = None.
Proof. split_and!; [apply (bool_decide_unpack _); by vm_compute|by vm_compute..]. Qed.

Print Assumptions C45_matches.
Print Assumptions C45_filter.
Print Assumptions C45_no_filter.
