(** C23, C24: values of task-based runs. *)
From stdpp Require Import pretty.
From Verif Require Import Base Dict ExecModel ExecSpec TraverseModel TraverseProofs GroupModel StateModel StateProofs TaskSpec TaskGroups TaskModel TaskRun
  StateProps Strings ExecProps.
From Coq Require Import Ascii.

(** ** The dataflow [gA] is of the supported shape *)
Lemma gA_edge x d : edge gA x d <-> (x = "work" /\ (d = "items" \/ d = "bias")) \/ (x = "total" /\ d = "work").
Proof.
  split.
  - intros (nd & Hg & Hd). unfold gA in Hg.
    repeat (apply lookup_insert_Some in Hg as [[<- <-]|[_ Hg]]; [cbn in Hd; rewrite ?elem_of_cons, ?elem_of_nil in Hd; naive_solver|]).
    apply lookup_singleton_Some in Hg as [<- <-]. cbn in Hd. rewrite ?elem_of_cons, ?elem_of_nil in Hd. naive_solver.
  - intros [[-> [->| ->]]|[-> ->]]; eexists; (split; [vm_compute; reflexivity|]); apply (bool_decide_unpack _); vm_compute; done.
Qed.
Lemma gA_dom x : is_Some (gA !! x) -> x ∈ ["items"; "bias"; "work"; "total"].
Proof.
  intros [nd Hg]. unfold gA in Hg. repeat (apply lookup_insert_Some in Hg as [[<- _]|[_ Hg]]; [apply (bool_decide_unpack _); vm_compute; done|]).
  apply lookup_singleton_Some in Hg as [<- _]. apply (bool_decide_unpack _). vm_compute. done.
Qed.
Lemma gA_wf : wf_graph gA /\ acyclic gA.
Proof.
  split; [apply ExecProps.wf_graphb_ok; vm_compute; reflexivity|].
  apply (ExecProps.rankedb_acyclic (ExecProps.rank_in ["items"; "bias"; "work"; "total"])). vm_compute. reflexivity.
Qed.
Lemma gA_tc x d : tc (edge gA) x d -> (x = "work" /\ (d = "items" \/ d = "bias")) \/ (x = "total" /\ (d = "work" \/ d = "items" \/ d = "bias")).
Proof. induction 1 as [x d H%gA_edge|x y d H%gA_edge _ IH]; naive_solver. Qed.
Lemma gA_inner y : inner gA rA "total" y <-> y = "work".
Proof.
  split.
  - intros Hi. pose proof (inner_reach gA rA "total" y Hi) as H. destruct Hi as [_ (m & Hm & Hr)]. apply gA_tc in Hr.
    destruct Hr as [[-> _]|[-> _]]; [done|]. apply gA_tc in H. naive_solver.
  - intros ->. split; [apply tc_once; split; [apply gA_edge; auto|done]|]. exists "items". split; [done|]. apply tc_once, gA_edge. auto.
Qed.
Lemma gA_block (N : name -> Prop) : block gA rA cA (∅ : gmap name val) ∅ N "total" "items".
Proof.
  constructor; try done.
  - apply gA_edge. auto.
  - by apply gA_inner.
  - intros y ->%gA_inner. done.
  - intros y m [->|Hy] [[? ?]|[? ?]]%gA_edge Hm; try (by apply gA_inner in Hy; subst); subst; try done; destruct H0 as [->| ->]; done.
  - intros w y ->%gA_inner _ _ [[? [?|?]]|[-> ?]]%gA_edge; try done. by right.
Qed.
Lemma gA_supported fv : supported gA rA cA (∅ : gmap name val) ∅ (used gA (∅ : gmap name val) ∅ fv).
Proof.
  assert (Hc : forall c, rA c = RCollect -> c = "total").
  { intros c. unfold rA. case_bool_decide; [done|]. by case_bool_decide. }
  constructor.
  - intros c _ ->%Hc. exists "items". apply gA_block.
  - by intros c c' e _ _ ->%Hc ->%Hc.
  - intros x Hx%gA_dom. rewrite !elem_of_cons, elem_of_nil in Hx. destruct Hx as [->|[->|[->|[->|[]]]]]; vm_compute; intuition done.
  - intros x [[? H]|[? H]]; by rewrite lookup_empty in H.
  - intros x v H. by rewrite lookup_empty in H.
  - intros w c e _ _ Hw _ ->%Hc Hb Hi He. exfalso. assert (e = "items") as ->.
    { pose proof (bl_expand _ _ _ _ _ _ _ _ Hb) as H. unfold rA in H. revert H. case_bool_decide; [done|]. by case_bool_decide. }
    apply gA_edge in He as [[-> _]|[_ ?]]; [|done]. apply Hi. by apply gA_inner.
Qed.
Definition execA (n : nat) (fv : list name) :=
  task_execute gA rA cA vlist VL fA "TypeError" (group_by_blocks gA rA elements) elements whichA limitA finA ∅ n ∅ ∅ fv.
Definition answer_of {V E} (a : tanswer V E) (x : name) : option V := match a with TAnswer out _ => out !! x | _ => None end.
(** The collected arguments passed to [x] in a run. *)
Definition passed {V E} (tr : list (tevent V E)) (x p : name) : list (option V) :=
  tr ≫= fun ev => match ev with
                  | TRun _ calls _ => omap (fun c => match c with Call y kw _ => if bool_decide (y = x) then Some (kw !! p) else None | _ => None end) calls
                  | _ => [] end.

(** ** C23 *)
(** Whatever the schedule and the grouping order, a collector is called with one value per item
    of the Parallelizable variable, in the order of the items: the [i]-th one is the meaning of
    the collected variable when the Parallelizable variable is the [i]-th item. *)
Theorem C23_collect_order :
  forall (V E : Type) g role_of carg as_list mk_list f (not_iterable : E) ord which limit fin (config inputs ov all : gmap name V) fv n,
    (forall l, as_list (mk_list l) = Some l) -> (forall s, NoDup (ord s) /\ forall x, x ∈ ord s <-> x ∈ s) ->
    wf_graph g -> acyclic g -> (forall x, role_of x = RExpand -> is_ext g x = false) ->
    combine_config_and_inputs config inputs = Some all -> supported g role_of carg ov all (used g all ov fv) ->
    forall t calls o c kw r,
      TRun t calls o ∈ answer_trace (task_execute g role_of carg as_list mk_list f not_iterable (group_by_blocks g role_of ord) ord
                                       which limit fin config n inputs ov fv) ->
      Call c kw r ∈ calls -> role_of c = RCollect ->
      exists e w items vs, feeds g role_of e (carg c) /\ peval g role_of carg as_list mk_list f all ov e w /\ as_list w = Some items /\
        kw !! carg c = Some (mk_list vs) /\ length vs = length items /\
        forall i item u, items !! i = Some item -> vs !! i = Some u ->
          peval g role_of carg as_list mk_list f all (<[e := item]> ov) (carg c) u.
Proof.
  intros V E g role_of carg as_list mk_list f ni ord which limit fin config inputs ov all fv n Hl Ho Hwf Hac Hext Hall Hsup t calls o c kw r.
  exact (execute_collects g role_of carg as_list mk_list Hl f ni ord Ho Hwf Hac Hext config inputs ov all Hall fv Hsup which limit fin n t calls o c kw r).
Qed.
Print Assumptions C23_collect_order.
(** The blocks finish in reverse order here: the pool gives item 0 back last. *)
Example C23_nonvacuous :
  supported gA rA cA (∅ : gmap name val) ∅ (used gA (∅ : gmap name val) ∅ ["total"]) /\
  passed (answer_trace (execA 60 ["total"])) "total" "work" = [Some (VL [VN 17; VN 27; VN 37])] /\
  finA 16 "expand-items.2.block-items" = true /\ finA 16 "expand-items.0.block-items" = false.
Proof. split_and!; [apply gA_supported|vm_compute; reflexivity|vm_compute; reflexivity|vm_compute; reflexivity]. Qed.
(** An empty expansion: the collector is called with the empty list. *)
Definition f0 (x : name) (kw : gmap name val) : res string val := if bool_decide (x = "items") then Ok (VL []) else fA x kw.
Example C23_empty_nonvacuous :
  passed (answer_trace (task_execute gA rA cA vlist VL f0 "TypeError" (group_by_blocks gA rA elements) elements whichA limitA finA ∅ 60 ∅ ∅ ["total"]))
    "total" "work" = [Some (VL [])].
Proof. vm_compute. reflexivity. Qed.

(** Finding: with an override for the collected variable the collector is called with the empty
    list, although the value of [work] is the override for each of the three items. *)
Theorem C23_overridden_block_variable_refuted :
  passed (answer_trace (task_execute gA rA cA vlist VL fA "TypeError" (group_by_blocks gA rA elements) elements whichA limitA finA ∅ 60
    ∅ {["work" := VN 5]} ["total"])) "total" "work" = [Some (VL [])] /\
  peval gA rA cA vlist VL fA ∅ {["work" := VN 5]} "total" (VL [VN 5; VN 5; VN 5]).
Proof.
  split; [vm_compute; reflexivity|].
  eapply (pe_collect _ _ _ _ _ _ _ _ "total" _ {["work" := VL [VN 5; VN 5; VN 5]]} _ "items" (VL [VN 1; VN 2; VN 3]) _ [VN 5; VN 5; VN 5]);
    [vm_compute; reflexivity|vm_compute; reflexivity|done|done| | |done|done| |by rewrite lookup_singleton| | | |].
  - split; [done|]. apply rtc_once. split; [done|]. apply gA_edge. auto.
  - eapply (pe_fn _ _ _ _ _ _ _ _ _ _ ∅); [vm_compute; reflexivity|vm_compute; reflexivity|done|done|by intros ? ?|by intros ? ?|by intros ? ? ?%elem_of_nil|].
    exists (VL [VN 1; VN 2; VN 3]). split; [done|]. cbn. by exists [VN 1; VN 2; VN 3].
  - intros i item u Hi Hu. apply pe_given. rewrite lookup_insert_ne by done. cbn [cA]. rewrite lookup_singleton.
    apply elem_of_list_lookup_2 in Hu. rewrite !elem_of_cons, elem_of_nil in Hu. destruct Hu as [->|[->|[->|[]]]]; done.
  - intros d w [<- <-]%lookup_singleton_Some. apply (bool_decide_unpack _). vm_compute. done.
  - by intros d w Hne [<- <-]%lookup_singleton_Some.
  - intros d dt Hd%elem_of_list_singleton Hn. injection Hd as -> ->. by rewrite lookup_singleton in Hn.
  - exists (VL [VN 5; VN 5; VN 5]). split; [vm_compute; reflexivity|]. done.
Qed.
Print Assumptions C23_overridden_block_variable_refuted.

(** ** C24 *)
(** A successful run gives every requested variable outside the blocks its meaning. *)
Theorem C24_values :
  forall (V E : Type) g role_of carg as_list mk_list f (not_iterable : E) ord which limit fin (config inputs ov all : gmap name V) fv n out tr,
    (forall l, as_list (mk_list l) = Some l) -> (forall s, NoDup (ord s) /\ forall x, x ∈ ord s <-> x ∈ s) ->
    wf_graph g -> acyclic g -> (forall x, role_of x = RExpand -> is_ext g x = false) ->
    combine_config_and_inputs config inputs = Some all -> supported g role_of carg ov all (used g all ov fv) ->
    task_execute g role_of carg as_list mk_list f not_iterable (group_by_blocks g role_of ord) ord which limit fin config n inputs ov fv
      = TAnswer out tr ->
    forall x, x ∈ fv -> is_Some (g !! x) -> ~ per_item_var g role_of carg ov all fv x ->
      exists v, out !! x = Some v /\ peval g role_of carg as_list mk_list f all ov x v.
Proof.
  intros V E g role_of carg as_list mk_list f ni ord which limit fin config inputs ov all fv n out tr Hl Ho Hwf Hac Hext Hall Hsup.
  exact (execute_values g role_of carg as_list mk_list Hl f ni ord Ho Hwf Hac Hext config inputs ov all Hall fv Hsup which limit fin n out tr).
Qed.
Print Assumptions C24_values.

(** The answers of two runs are the same, whatever the schedules, pools and grouping orders. *)
Theorem C24_schedule_independent :
  forall (V E : Type) g role_of carg as_list mk_list f (not_iterable : E) ord which limit fin ord' which' limit' fin'
         (config inputs ov all : gmap name V) fv n out tr n' out' tr',
    (forall l, as_list (mk_list l) = Some l) ->
    (forall s, NoDup (ord s) /\ forall x, x ∈ ord s <-> x ∈ s) -> (forall s, NoDup (ord' s) /\ forall x, x ∈ ord' s <-> x ∈ s) ->
    wf_graph g -> acyclic g -> (forall x, role_of x = RExpand -> is_ext g x = false) ->
    combine_config_and_inputs config inputs = Some all -> supported g role_of carg ov all (used g all ov fv) ->
    task_execute g role_of carg as_list mk_list f not_iterable (group_by_blocks g role_of ord) ord which limit fin config n inputs ov fv
      = TAnswer out tr ->
    task_execute g role_of carg as_list mk_list f not_iterable (group_by_blocks g role_of ord') ord' which' limit' fin' config n' inputs ov fv
      = TAnswer out' tr' ->
    forall x, x ∈ fv -> is_Some (g !! x) -> ~ per_item_var g role_of carg ov all fv x -> out !! x = out' !! x.
Proof.
  intros V E g role_of carg as_list mk_list f ni ord which limit fin ord' which' limit' fin' config inputs ov all fv n out tr n' out' tr'
    Hl Ho Ho' Hwf Hac Hext Hall Hsup H1 H2 x Hx Hg Hp.
  destruct (C24_values _ _ _ _ _ _ _ _ _ _ _ _ _ _ _ _ _ _ _ _ _ Hl Ho Hwf Hac Hext Hall Hsup H1 x Hx Hg Hp) as (v & -> & Hv).
  destruct (C24_values _ _ _ _ _ _ _ _ _ _ _ _ _ _ _ _ _ _ _ _ _ Hl Ho' Hwf Hac Hext Hall Hsup H2 x Hx Hg Hp) as (v' & -> & Hv').
  f_equal. unfold task_execute in H1. rewrite Hall in H1. destruct (get_upstream_nodes _ _ _ _ _) as [nodes users|m|] eqn:Hq; [|done|done].
  eapply (used_unique g role_of carg as_list mk_list f ord Ho Hwf Hac Hext config inputs ov all Hall fv Hsup nodes users x); try done.
  by apply used_req.
Qed.
Print Assumptions C24_schedule_independent.

(** The run is over at some point, with an answer or an exception. *)
Theorem C24_terminates :
  forall (V E : Type) g role_of carg as_list mk_list f (not_iterable : E) ord which limit fin (config inputs ov all : gmap name V) fv,
    (forall l, as_list (mk_list l) = Some l) -> (forall s, NoDup (ord s) /\ forall x, x ∈ ord s <-> x ∈ s) ->
    wf_graph g -> acyclic g -> (forall x, role_of x = RExpand -> is_ext g x = false) ->
    combine_config_and_inputs config inputs = Some all -> supported g role_of carg ov all (used g all ov fv) ->
    (forall k k' id, k <= k' -> fin k id = true -> fin k' id = true) -> (forall id, exists k, fin k id = true) ->
    (forall i m, limit i = Some m -> 0 < m) -> (exists x, x ∈ fv /\ is_Some (g !! x)) ->
    exists n, forall tr,
      task_execute g role_of carg as_list mk_list f not_iterable (group_by_blocks g role_of ord) ord which limit fin config n inputs ov fv <> TRunning tr.
Proof.
  intros V E g role_of carg as_list mk_list f ni ord which limit fin config inputs ov all fv Hl Ho Hwf Hac Hext Hall Hsup.
  exact (execute_ends g role_of carg as_list mk_list Hl f ni ord Ho Hwf Hac Hext config inputs ov all Hall fv Hsup which limit fin).
Qed.
Print Assumptions C24_terminates.

(** When every used variable is supplied, nothing but an exception of a user function stops a
    run: at every moment the run is going on, over with the values of all the requested
    variables, or over with the exception of a call that happened (the function raised it, or it
    is Parallelizable and its value cannot be iterated over).  No KeyError, no missing value, no
    planning error. *)
Theorem C24_only_user_exceptions :
  forall (V E : Type) g role_of carg as_list mk_list f (not_iterable : E) ord which limit fin (config inputs ov all : gmap name V) fv n,
    (forall l, as_list (mk_list l) = Some l) -> (forall s, NoDup (ord s) /\ forall x, x ∈ ord s <-> x ∈ s) ->
    wf_graph g -> acyclic g -> (forall x, role_of x = RExpand -> is_ext g x = false) ->
    combine_config_and_inputs config inputs = Some all -> supported g role_of carg ov all (used g all ov fv) ->
    (forall x, x ∈ fv -> is_Some (g !! x)) -> (forall x, x ∈ fv -> ~ per_item_var g role_of carg ov all fv x) ->
    (forall x, used g all ov fv x -> ~ absent g all ov x) ->
    match task_execute g role_of carg as_list mk_list f not_iterable (group_by_blocks g role_of ord) ord which limit fin config n inputs ov fv with
    | TRunning _ => True
    | TAnswer out _ => forall x, x ∈ fv -> exists v, out !! x = Some v /\ peval g role_of carg as_list mk_list f all ov x v
    | TRaised e tr => exists t calls e' x kw, e = XUser (EUser e') /\ TRun t calls (Err e) ∈ tr /\ Call x kw (Err e') ∈ calls /\
        (exists nd, g !! x = Some nd /\ forall d, (d, REQUIRED) ∈ nd_deps nd -> is_Some (kw !! d)) /\
        (f x kw = Err e' \/ exists v, f x kw = Ok v /\ role_of x = RExpand /\ as_list v = None /\ e' = not_iterable)
    | _ => False
    end.
Proof.
  intros V E g role_of carg as_list mk_list f ni ord which limit fin config inputs ov all fv n Hl Ho Hwf Hac Hext Hall Hsup Hfv Hper Hpres.
  pose proof (execute_only_user g role_of carg as_list mk_list Hl f ni ord Ho Hwf Hac Hext config inputs ov all Hall fv Hsup which limit fin n
    Hfv Hper Hpres) as H.
  destruct (task_execute _ _ _ _ _ _ _ _ _ _ _ _ _ _ _ _ _); try done.
  destruct H as (t & calls & e' & x & kw & ? & ? & ? & Hr). by exists t, calls, e', x, kw.
Qed.
Print Assumptions C24_only_user_exceptions.

(** If the functions do not raise, the run is over at some point and has succeeded. *)
Theorem C24_succeeds :
  forall (V E : Type) g role_of carg as_list mk_list f (not_iterable : E) ord which limit fin (config inputs ov all : gmap name V) fv,
    (forall l, as_list (mk_list l) = Some l) -> (forall s, NoDup (ord s) /\ forall x, x ∈ ord s <-> x ∈ s) ->
    wf_graph g -> acyclic g -> (forall x, role_of x = RExpand -> is_ext g x = false) ->
    combine_config_and_inputs config inputs = Some all -> supported g role_of carg ov all (used g all ov fv) ->
    (forall x, x ∈ fv -> is_Some (g !! x)) -> (forall x, x ∈ fv -> ~ per_item_var g role_of carg ov all fv x) ->
    (forall x, used g all ov fv x -> ~ absent g all ov x) ->
    (forall x nd kw, g !! x = Some nd -> (forall d, (d, REQUIRED) ∈ nd_deps nd -> is_Some (kw !! d)) ->
       exists v, f x kw = Ok v /\ (role_of x = RExpand -> is_Some (as_list v))) ->
    (forall k k' id, k <= k' -> fin k id = true -> fin k' id = true) -> (forall id, exists k, fin k id = true) ->
    (forall i m, limit i = Some m -> 0 < m) -> fv <> [] ->
    exists n out tr,
      task_execute g role_of carg as_list mk_list f not_iterable (group_by_blocks g role_of ord) ord which limit fin config n inputs ov fv
        = TAnswer out tr /\
      forall x, x ∈ fv -> exists v, out !! x = Some v /\ peval g role_of carg as_list mk_list f all ov x v.
Proof.
  intros V E g role_of carg as_list mk_list f ni ord which limit fin config inputs ov all fv Hl Ho Hwf Hac Hext Hall Hsup Hfv Hper Hpres Hf Hm Hev Hpos Hne.
  destruct (C24_terminates V E g role_of carg as_list mk_list f ni ord which limit fin config inputs ov all fv Hl Ho Hwf Hac Hext Hall Hsup Hm Hev Hpos) as [n Hn].
  { destruct fv as [|x l]; [done|]. exists x. split; [by left|apply Hfv; by left]. }
  pose proof (C24_only_user_exceptions V E g role_of carg as_list mk_list f ni ord which limit fin config inputs ov all fv n
    Hl Ho Hwf Hac Hext Hall Hsup Hfv Hper Hpres) as H. exists n.
  destruct (task_execute _ _ _ _ _ _ _ _ _ _ _ _ _ _ _ _ _) as [out tr| | | | | | |tr']; try done; [by exists out, tr| |by destruct (Hn tr')].
  exfalso. destruct H as (t & calls & e' & x & kw & _ & _ & _ & (nd & Hg & Hkw) & Hr). destruct (Hf x nd kw Hg Hkw) as (v & Hv & Hit).
  destruct Hr as [?|(v' & Hv' & Hr & Hal & _)]; [congruence|]. assert (v' = v) as -> by congruence. destruct (Hit Hr). congruence.
Qed.
Print Assumptions C24_succeeds.

Example C24_nonvacuous :
  supported gA rA cA (∅ : gmap name val) ∅ (used gA (∅ : gmap name val) ∅ ["total"; "bias"]) /\ wf_graph gA /\ acyclic gA /\
  combine_config_and_inputs (∅ : gmap name val) ∅ = Some ∅ /\
  (forall s : gset name, NoDup (elements s) /\ forall x, x ∈ elements s <-> x ∈ s) /\
  answer_of (execA 60 ["total"; "bias"]) "total" = Some (VL [VN 17; VN 27; VN 37]) /\ answer_of (execA 60 ["total"; "bias"]) "bias" = Some (VN 7) /\
  ~ per_item_var gA rA cA (∅ : gmap name val) ∅ ["total"; "bias"] "total".
Proof.
  split_and!; [apply gA_supported|apply gA_wf|apply gA_wf| | |vm_compute; reflexivity|vm_compute; reflexivity|].
  - unfold combine_config_and_inputs. rewrite bool_decide_true by apply map_Forall_empty. by rewrite (left_id_L ∅ (∪)).
  - intros s. split; [apply NoDup_elements|]. intros x. apply elem_of_elements.
  - intros (c & e & _ & Hr & _ & Hi). assert (c = "total") as ->.
    { revert Hr. unfold rA. case_bool_decide; [done|]. by case_bool_decide. }
    by apply gA_inner in Hi.
Qed.

(** [items] raising, or returning something that is not iterable. *)
Definition fE (x : name) (kw : gmap name val) : res string val := if bool_decide (x = "work") then Err "boom" else fA x kw.
Definition fI (x : name) (kw : gmap name val) : res string val := if bool_decide (x = "items") then Ok (VN 3) else fA x kw.
Example C24_only_user_exceptions_nonvacuous :
  (forall x, x ∈ ["total"; "bias"] -> is_Some (gA !! x)) /\
  (forall x, x ∈ ["total"; "bias"] -> ~ per_item_var gA rA cA (∅ : gmap name val) ∅ ["total"; "bias"] x) /\
  (forall x, used gA (∅ : gmap name val) ∅ ["total"; "bias"] x -> ~ absent gA (∅ : gmap name val) ∅ x) /\
  match task_execute gA rA cA vlist VL fE "TypeError" (group_by_blocks gA rA elements) elements whichA limitA finA ∅ 60 ∅ ∅ ["total"; "bias"] with
  | TRaised (XUser (EUser e)) _ => e = "boom" | _ => False end /\
  match task_execute gA rA cA vlist VL fI "TypeError" (group_by_blocks gA rA elements) elements whichA limitA finA ∅ 60 ∅ ∅ ["total"; "bias"] with
  | TRaised (XUser (EUser e)) _ => e = "TypeError" | _ => False end.
Proof.
  assert (Hwork : forall x, per_item_var gA rA cA (∅ : gmap name val) ∅ ["total"; "bias"] x -> x = "work").
  { intros x (c & e & _ & Hr & _ & Hi). assert (c = "total") as ->.
    { revert Hr. unfold rA. case_bool_decide; [done|]. by case_bool_decide. }
    by apply gA_inner in Hi. }
  split_and!; [| | |vm_compute; reflexivity|vm_compute; reflexivity].
  - intros x Hx. rewrite !elem_of_cons, elem_of_nil in Hx. destruct Hx as [->|[->|[]]]; vm_compute; eauto.
  - intros x Hx ->%Hwork. rewrite !elem_of_cons, elem_of_nil in Hx. by destruct Hx as [?|[?|[]]].
  - intros x _ (_ & _ & nd & Hg & Hext). unfold gA in Hg.
    repeat (apply lookup_insert_Some in Hg as [[<- <-]|[_ Hg]]; [done|]). apply lookup_singleton_Some in Hg as [<- <-]. done.
Qed.
Example C24_succeeds_nonvacuous :
  (forall x nd kw, gA !! x = Some nd -> (forall d, (d, REQUIRED) ∈ nd_deps nd -> is_Some (kw !! d)) ->
     exists v, fA x kw = Ok v /\ (rA x = RExpand -> is_Some (vlist v))) /\
  (forall k k' id, k <= k' -> finA k id = true -> finA k' id = true) /\ (forall id, exists k, finA k id = true) /\
  (forall i m, limitA i = Some m -> 0 < m) /\
  answer_of (execA 60 ["total"; "bias"]) "total" = Some (VL [VN 17; VN 27; VN 37]).
Proof.
  split_and!; [|apply finA_mono|apply finA_mono| |vm_compute; reflexivity].
  - intros x nd kw Hg Hkw. unfold fA, rA. case_bool_decide as H1; [eexists; split; [done|]; intros _; by eexists|].
    case_bool_decide as H2; [eexists; split; [done|]; by case_bool_decide|].
    case_bool_decide as H3; [eexists; split; [done|]; by case_bool_decide|].
    assert (x = "total") as ->.
    { assert (Hx : is_Some (gA !! x)) by (rewrite Hg; by eexists). apply gA_dom in Hx. rewrite !elem_of_cons, elem_of_nil in Hx. naive_solver. }
    destruct (Hkw "work") as [v Hv]; [|rewrite Hv; exists v; split; [done|]; by case_bool_decide].
    vm_compute in Hg. injection Hg as <-. apply (bool_decide_unpack _). vm_compute. done.
  - intros i m. unfold limitA. case_bool_decide; [|done]. intros [= <-]. lia.
Qed.

(** Finding: where an input is overridden too, the task-based executor lets the input win
    (driver.py 237, [{**overrides, **inputs}]) and the default executor the override. *)
Definition gD : graph := {[ "a" := Node true [] ["b"]; "b" := Node false [("a", REQUIRED)] [] ]}.
Definition fD (x : name) (kw : gmap name val) : res string val := match kw !! "a" with Some v => Ok v | None => Err "no value" end.
Theorem C24_override_of_input_refuted :
  answer_of (task_execute gD (fun _ => RStandard) cA vlist VL fD "TypeError" (group_by_blocks gD (fun _ => RStandard) elements) elements
               whichA limitA finA ∅ 60 {["a" := VN 1]} {["a" := VN 5]} ["b"]) "b" = Some (VN 1) /\
  match default_execute (fun _ => fD) gD ∅ {["a" := VN 1]} {["a" := VN 5]} ["b"] with Answer out _ => out = [("b", Some (VN 5))] | _ => False end.
Proof. split; vm_compute; reflexivity. Qed.
Print Assumptions C24_override_of_input_refuted.

(** Finding: a variable of a block cannot be requested: after the whole run, a KeyError. *)
Theorem C24_requested_block_variable_refuted :
  match execA 60 ["total"; "work"] with TKeyError k tr => k = "work" /\ length (run_ids tr) = 6 | _ => False end.
Proof. vm_compute. split; reflexivity. Qed.
Print Assumptions C24_requested_block_variable_refuted.

(** Without Parallelizable and Collect the meaning is the one of the default executor (C01). *)
Theorem C24_sequential_meaning :
  forall (V E : Type) g role_of carg as_list mk_list (f : name -> gmap name V -> res E V) (inputs ov : gmap name V) x v,
    (forall x, role_of x = RStandard) ->
    peval g role_of carg as_list mk_list f inputs ov x v <-> eval f g inputs ov x v.
Proof.
  intros V E g role_of carg as_list mk_list f inputs ov x v Hr. split.
  - induction 1 as [ov x v Ho|ov x nd v Ho Hg Hx Hi|ov x nd kw v Ho Hg Hx _ Hkw Hev IH Hab (w & Hf & Hw)|ov x nd kw v e w items vs Ho Hg Hx Hrc];
      [by apply eval_override|by eapply eval_input| |by rewrite Hr in Hrc].
    rewrite Hr in Hw. subst w. by eapply eval_fn.
  - induction 1 as [x v Ho|x nd v Ho Hg Hx Hi|x nd kw v Ho Hg Hx Hkw Hev IH Hab Hf]; [by apply pe_given|by eapply pe_input|].
    eapply pe_fn; try done; [by rewrite Hr|]. exists v. split; [done|]. by rewrite Hr.
Qed.
Print Assumptions C24_sequential_meaning.
