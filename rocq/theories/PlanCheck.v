(** Sufficient checks for the plan conditions, used on concrete plans. *)
From stdpp Require Import pretty.
From Verif Require Import Base Dict ExecModel GroupModel StateModel StateProofs StateLive Strings PlanProofs.
From Coq Require Import Ascii.

(** Split at the first dash. *)
Fixpoint split_dash (s : string) : option (string * string) :=
  match s with
  | EmptyString => None
  | String a s' => if decide (a = "-"%char) then Some ("", s')
                   else match split_dash s' with Some (p, e) => Some (String a p, e) | None => None end
  end.
Lemma split_dash_ok s : match split_dash s with
  | Some (p, e) => s = p +:+ String "-"%char e /\ lacks "-" p
  | None => lacks "-" s end.
Proof.
  induction s as [|a s IH]; cbn [split_dash]; [done|]. destruct (decide (a = "-"%char)) as [->|Hne]; [done|].
  destruct (split_dash s) as [[p e]|]; [|done]. destruct IH as [-> ?]. by split.
Qed.

Definition check_task {V} (t : tspec V) : bool :=
  match split_dash (ts_base t) with
  | None => bool_decide (ts_spawn t = None)
  | Some (p, e) => bool_decide (lacks "-" e) &&
      match ts_spawn t with
      | None => true
      | Some T => bool_decide (T = "expand-" +:+ e) && bool_decide (lacks "." p) && negb (bool_decide (ts_deps t = [])) &&
                  negb (bool_decide (ts_purpose t = EXPAND))
      end
  end.
Definition check_plan {V} (tasks : list (tspec V)) : bool :=
  bool_decide (NoDup (map ts_base tasks)) && forallb check_task tasks.

Lemma check_plan_ok {V} (tasks : list (tspec V)) : check_plan tasks = true -> wf_plan tasks.
Proof.
  unfold check_plan. rewrite andb_true_iff, bool_decide_eq_true, forallb_forall. intros [Hnd Hall].
  assert (H : forall t, t ∈ tasks -> check_task t = true) by (intros t Ht; apply Hall, elem_of_list_In, Ht). clear Hall.
  assert (Hs : forall t T, t ∈ tasks -> ts_spawn t = Some T -> exists e p, lacks "-" e /\ lacks "-" p /\ lacks "." p /\
      T = "expand-" +:+ e /\ ts_base t = p +:+ String "-"%char e /\ ts_deps t <> [] /\ ts_purpose t <> EXPAND).
  { intros t T Ht HT. specialize (H t Ht). unfold check_task in H. pose proof (split_dash_ok (ts_base t)) as Hsd.
    destruct (split_dash (ts_base t)) as [[p e]|]; [|apply bool_decide_eq_true in H; congruence].
    rewrite HT in H. rewrite !andb_true_iff, !negb_true_iff, !bool_decide_eq_true, !bool_decide_eq_false in H.
    destruct H as (He & [[-> Hp] Hd] & Hx), Hsd as [Hb Hpd]. by exists e, p. }
  apply wf_plan_ids; [done| | | |].
  - intros t Ht He. destruct (ts_spawn t) as [T|] eqn:HT; [|done]. destruct (Hs t T Ht HT) as (e & p & ? & ? & ? & ? & ? & ? & ?). done.
  - intros t T Ht HT. by destruct (Hs t T Ht HT) as (e & p & ? & ? & ? & ? & ? & ? & ?).
  - intros t T Ht HT. destruct (Hs t T Ht HT) as (e & p & ? & ? & ? & ? & ? & ? & ?). by exists e, p.
  - intros t Ht. specialize (H t Ht). unfold check_task in H. pose proof (split_dash_ok (ts_base t)) as Hsd.
    destruct (split_dash (ts_base t)) as [[p e]|]; [|by exists (ts_base t); split; [|by left]].
    apply andb_true_iff in H as [He _]. apply bool_decide_eq_true in He. destruct Hsd. exists e. split; [done|]. right. by exists p.
Qed.

Definition is_repeated {V} (t : tspec V) : bool := bool_decide (ts_spawn t <> None) && negb (bool_decide (ts_purpose t = GATHER)).
Definition check_live {V} (rank : string -> nat) (tasks : list (tspec V)) : bool :=
  negb (bool_decide (map ts_base tasks = [])) &&
  forallb (fun t =>
    forallb (fun d => (rank d <? rank (ts_base t)) &&
       existsb (fun t' => bool_decide (ts_base t' = d) &&
          (negb (is_repeated t') || (bool_decide (ts_purpose t = GATHER) && bool_decide (ts_spawn t = ts_spawn t')))) tasks) (ts_deps t) &&
    match ts_spawn t with
    | Some T => (rank T <? rank (ts_base t)) && existsb (fun t' => bool_decide (ts_base t' = T) && bool_decide (ts_purpose t' = EXPAND)) tasks
    | None => bool_decide (ts_deps t = []) ||
              existsb (fun t' => bool_decide (ts_base t' ∈ ts_deps t) && negb (bool_decide (ts_purpose t' = EXPAND))) tasks
    end) tasks.

Lemma check_live_ok {V} rank (tasks : list (tspec V)) : check_live rank tasks = true -> live_plan tasks.
Proof.
  unfold check_live. rewrite andb_true_iff, negb_true_iff, bool_decide_eq_false, forallb_forall. intros [Hne Hall].
  assert (H1 : forall t d, t ∈ tasks -> d ∈ ts_deps t -> rank d < rank (ts_base t) /\
    exists t', t' ∈ tasks /\ ts_base t' = d /\ (repeated t' -> ts_purpose t = GATHER /\ ts_spawn t = ts_spawn t')).
  { intros t d Ht Hd. apply elem_of_list_In, Hall in Ht. apply andb_true_iff in Ht as [Ht _]. rewrite forallb_forall in Ht.
    apply elem_of_list_In, Ht in Hd. apply andb_true_iff in Hd as [Hr He]. split; [by apply Nat.ltb_lt|].
    apply existsb_exists in He as (t' & Hin & He). apply elem_of_list_In in Hin. exists t'. split; [done|].
    apply andb_true_iff in He as [Hb He]. apply bool_decide_eq_true in Hb. split; [done|]. intros [[T HT] Hp].
    apply orb_true_iff in He as [He|He].
    - unfold is_repeated in He. rewrite HT in He. cbn in He. apply negb_true_iff, negb_false_iff, bool_decide_eq_true in He. done.
    - by rewrite andb_true_iff, !bool_decide_eq_true in He. }
  assert (H2 : forall t T, t ∈ tasks -> ts_spawn t = Some T -> rank T < rank (ts_base t) /\
    exists t', t' ∈ tasks /\ ts_base t' = T /\ ts_purpose t' = EXPAND).
  { intros t T Ht HT. apply elem_of_list_In, Hall in Ht. apply andb_true_iff in Ht as [_ Ht]. rewrite HT in Ht.
    apply andb_true_iff in Ht as [Hr He]. split; [by apply Nat.ltb_lt|].
    apply existsb_exists in He as (t' & Hin & He). apply elem_of_list_In in Hin. exists t'. split; [done|].
    by rewrite andb_true_iff, !bool_decide_eq_true in He. }
  constructor.
  - intros ->. done.
  - exists rank. split; intros; [by apply H1|by eapply H2].
  - intros sp d Hsp Hd. exact (proj2 (H1 sp d Hsp Hd)).
  - intros sp T Hsp HT. exact (proj2 (H2 sp T Hsp HT)).
  - intros t Ht HT Hd. apply elem_of_list_In, Hall in Ht. apply andb_true_iff in Ht as [_ Ht]. rewrite HT in Ht.
    apply orb_true_iff in Ht as [Ht|Ht]; [by apply bool_decide_eq_true in Ht|].
    apply existsb_exists in Ht as (t' & Hin & He). apply elem_of_list_In in Hin. exists t'. split; [done|].
    apply andb_true_iff in He as [He1 He2]. apply bool_decide_eq_true in He1. apply negb_true_iff, bool_decide_eq_false in He2. done.
Qed.
