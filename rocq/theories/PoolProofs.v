(** Which pools are open after a run. *)
From Verif Require Import Base PoolModel.

Section Pools.
Context {E A : Type}.
Variable create_fault shutdown_fault : nat -> option E.
Variable already not_init : E.
Notation ex_init := (ex_init create_fault already).
Notation ex_finalize := (ex_finalize shutdown_fault not_init).
Notation managed_run := (managed_run (A:=A) create_fault shutdown_fault already not_init).

(** ** What is left open *)
Definition pool_ids (l : list executor) : list nat := map ex_id (filter (fun x => ex_pool x = true) l).

Lemma pool_ids_cons x l : pool_ids (x :: l) = if ex_pool x then ex_id x :: pool_ids l else pool_ids l.
Proof. unfold pool_ids. rewrite filter_cons. by destruct (ex_pool x). Qed.
Lemma pool_ids_app l l' : pool_ids (l ++ l') = pool_ids l ++ pool_ids l'.
Proof. unfold pool_ids. by rewrite filter_app, map_app. Qed.

Lemma init_all l : forall o rest, NoDup (pool_ids l) -> (forall i, i ∈ pool_ids l -> i ∉ o /\ create_fault i = None) ->
  each ex_init o (l ++ rest) = each ex_init (list_to_set (pool_ids l) ∪ o) rest.
Proof.
  induction l as [|x l IH]; intros o rest Hnd Hl.
  - cbn. f_equal. set_solver.
  - rewrite pool_ids_cons in *. cbn [each app]. unfold PoolModel.ex_init at 1. destruct (ex_pool x); [|by apply IH].
    apply NoDup_cons in Hnd as [Hn Hnd]. destruct (Hl (ex_id x)) as [Ho Hc]; [by left|].
    rewrite bool_decide_false, Hc by done. rewrite IH; [|done|].
    + f_equal. set_solver.
    + intros i Hi. destruct (Hl i) as [? ?]; [by right|]. split; [|done].
      rewrite not_elem_of_union, not_elem_of_singleton. split; [by intros ->|done].
Qed.
Lemma finalize_all l : forall o rest, NoDup (pool_ids l) -> (forall i, i ∈ pool_ids l -> i ∈ o /\ shutdown_fault i = None) ->
  each ex_finalize o (l ++ rest) = each ex_finalize (o ∖ list_to_set (pool_ids l)) rest.
Proof.
  induction l as [|x l IH]; intros o rest Hnd Hl.
  - cbn. f_equal. set_solver.
  - rewrite pool_ids_cons in *. cbn [each app]. unfold PoolModel.ex_finalize at 1. destruct (ex_pool x); [|by apply IH].
    apply NoDup_cons in Hnd as [Hn Hnd]. destruct (Hl (ex_id x)) as [Ho Hc]; [by left|].
    rewrite bool_decide_true, Hc by done. rewrite IH; [|done|].
    + f_equal. set_solver.
    + intros i Hi. destruct (Hl i) as [? ?]; [by right|]. split; [|done].
      apply elem_of_difference. split; [done|]. rewrite not_elem_of_singleton. by intros ->.
Qed.

Lemma run_clean o l body : NoDup (pool_ids l) ->
  (forall i, i ∈ pool_ids l -> i ∉ o /\ create_fault i = None /\ shutdown_fault i = None) ->
  managed_run o l body = (o, body).
Proof.
  intros Hnd Hl. unfold PoolModel.managed_run.
  pose proof (init_all l o [] Hnd) as Hi. rewrite app_nil_r in Hi. rewrite Hi; [|intros i Hin; by destruct (Hl i Hin) as (? & ? & ?)].
  pose proof (finalize_all l (list_to_set (pool_ids l) ∪ o) [] Hnd) as Hf. rewrite app_nil_r in Hf.
  cbn [each]. rewrite Hf.
  - cbn [each]. f_equal. apply set_eq. intros i. rewrite elem_of_difference, elem_of_union, elem_of_list_to_set.
    split; [intros [[?|?] ?]; done|]. intros Hi'. split; [by right|]. intros Hin. by destruct (Hl i Hin).
  - intros i Hin. split; [set_solver|]. by destruct (Hl i Hin) as (? & ? & ?).
Qed.
Lemma run_create_fault o l1 x l2 e body : ex_pool x = true -> create_fault (ex_id x) = Some e -> NoDup (pool_ids (l1 ++ [x])) ->
  (forall i, i ∈ pool_ids (l1 ++ [x]) -> i ∉ o) -> (forall i, i ∈ pool_ids l1 -> create_fault i = None) ->
  managed_run o (l1 ++ x :: l2) body = (list_to_set (pool_ids l1) ∪ o, Err e).
Proof.
  intros Hp He Hnd Ho Hc. unfold PoolModel.managed_run. rewrite pool_ids_app in *. rewrite pool_ids_cons, Hp in *.
  apply NoDup_app in Hnd as (Hnd & Hdis & _).
  rewrite init_all; [|done|intros i Hi; split; [apply Ho, elem_of_app; by left|by apply Hc]].
  cbn [each]. unfold PoolModel.ex_init at 1. rewrite Hp, bool_decide_false, He; [done|].
  rewrite not_elem_of_union, elem_of_list_to_set. split; [|apply Ho, elem_of_app; right; by left].
  intros Hin. apply (Hdis _ Hin). by left.
Qed.
Lemma run_shutdown_fault o l1 x l2 e body : ex_pool x = true -> shutdown_fault (ex_id x) = Some e -> NoDup (pool_ids (l1 ++ x :: l2)) ->
  (forall i, i ∈ pool_ids (l1 ++ x :: l2) -> i ∉ o /\ create_fault i = None) -> (forall i, i ∈ pool_ids l1 -> shutdown_fault i = None) ->
  managed_run o (l1 ++ x :: l2) body = (list_to_set (pool_ids (x :: l2)) ∪ o, Err e).
Proof.
  intros Hp He Hnd Ho Hc. unfold PoolModel.managed_run.
  pose proof (init_all (l1 ++ x :: l2) o [] Hnd Ho) as Hi. rewrite app_nil_r in Hi. rewrite Hi. cbn [each].
  rewrite pool_ids_app in *. pose proof Hnd as Hnd'. apply NoDup_app in Hnd' as (Hnd1 & Hdis & Hnd2).
  rewrite finalize_all; [|done|].
  - cbn [each]. unfold PoolModel.ex_finalize at 1. rewrite Hp, bool_decide_true, He.
    + f_equal. apply set_eq. intros i. rewrite elem_of_difference, !elem_of_union, !elem_of_list_to_set, elem_of_app. split.
      * intros [[[?|?]|?] ?]; [done|by left|by right].
      * intros [Hin|Hin]; (split; [tauto|]); intros Hin1; [by eapply Hdis|].
        destruct (Ho i) as [? _]; [apply elem_of_app; by left|done].
    + rewrite pool_ids_cons, Hp. rewrite elem_of_difference, elem_of_union, !elem_of_list_to_set, elem_of_app. split.
      * left. right. by left.
      * intros Hin. eapply Hdis; [done|]. rewrite pool_ids_cons, Hp. by left.
  - intros i Hi'. split; [|by apply Hc]. rewrite elem_of_union, elem_of_list_to_set, elem_of_app. by left; left.
Qed.
End Pools.
