(** C62: grouping strategies do not change the results. *)
From stdpp Require Import pretty.
From Verif Require Import Base Dict ExecModel ExecSpec ExecProofs ExecResults ExecProps TraverseModel TraverseProofs TopoModel GroupModel StateModel StateProofs Strings
  TaskSpec TaskGroups TaskModel TaskRun TaskProps StateProps StrategyModel StrategyProofs.
From Coq Require Import Ascii.

(** The strategies that come with the library (grouping.py 191-317). *)
Inductive library_strategy (g : graph) (role_of : name -> role) : (list name -> option (list ngroup)) -> Prop :=
| individually : library_strategy g role_of (fun nodes => Some (group_individually role_of nodes))
| all_as_one : library_strategy g role_of (group_all role_of)
| by_level : library_strategy g role_of (group_by_level g)
| by_blocks ord : library_strategy g role_of (group_by_blocks g role_of ord).

(** Any strategy, of the library or custom, that puts every node in exactly one group, gives the
    groups different names, and makes no groups that depend on each other in a cycle. *)
Definition partitions (g : graph) (strategy : list name -> option (list ngroup)) : Prop :=
  forall nodes, NoDup nodes -> nodes <> [] -> (forall x, x ∈ nodes -> is_Some (g !! x)) ->
    exists groups, strategy nodes = Some groups /\ plain_grouping g nodes groups.

(** Without Parallelizable and Collect all strategies of the library do. *)
Theorem C62_library_strategies_partition : forall g role_of strategy,
  wf_graph g -> acyclic g -> (forall x, role_of x = RStandard) -> library_strategy g role_of strategy -> partitions g strategy.
Proof.
  intros g role_of strategy Hwf Hac Hstd Hs nodes Hnd Hne Hg. destruct Hs as [| | |ord].
  - eexists. split; [done|]. by apply individually_plain.
  - by apply all_plain.
  - by apply levels_plain.
  - by apply blocks_plain.
Qed.
Print Assumptions C62_library_strategies_partition.

(** A successful run gives the requested variables, and only them, the values they mean. *)
Theorem C62_values :
  forall (V E : Type) g role_of carg as_list mk_list f (not_iterable : E) strategy ord which limit fin (config inputs ov all : gmap name V) fv n out tr,
    (forall l, as_list (mk_list l) = Some l) -> (forall s, NoDup (ord s) /\ forall x, x ∈ ord s <-> x ∈ s) ->
    wf_graph g -> acyclic g -> (forall x, role_of x = RStandard) -> partitions g strategy ->
    combine_config_and_inputs config inputs = Some all ->
    (forall x, is_Some (g !! x) \/ is_Some (ov !! x) \/ is_Some (all !! x) -> lacks ":" x) -> (forall x v, ov !! x = Some v -> all !! x = None) ->
    (forall x, x ∈ fv -> is_Some (g !! x)) -> fv <> [] ->
    task_execute g role_of carg as_list mk_list f not_iterable strategy ord which limit fin config n inputs ov fv = TAnswer out tr ->
    (forall x, x ∈ fv -> exists v, out !! x = Some v /\ eval f g all ov x v) /\ (forall x, is_Some (out !! x) -> x ∈ fv).
Proof.
  intros V E g role_of carg as_list mk_list f ni strategy ord which limit fin config inputs ov all fv n out tr Hl Ho Hwf Hac Hstd Hs Hall Hnm Honce Hfv Hne Hex. split.
  - eapply st_values; eauto.
  - eapply st_dom; eauto.
Qed.
Print Assumptions C62_values.

(** It is also the answer of the default executor. *)
Theorem C62_same_as_default_executor :
  forall (V E : Type) g role_of carg as_list mk_list f (not_iterable : E) strategy ord which limit fin (config inputs ov all : gmap name V) fv n out tr,
    (forall l, as_list (mk_list l) = Some l) -> (forall s, NoDup (ord s) /\ forall x, x ∈ ord s <-> x ∈ s) ->
    wf_graph g -> acyclic g -> (forall x, role_of x = RStandard) -> partitions g strategy ->
    combine_config_and_inputs config inputs = Some all ->
    (forall x, is_Some (g !! x) \/ is_Some (ov !! x) \/ is_Some (all !! x) -> lacks ":" x) -> (forall x v, ov !! x = Some v -> all !! x = None) ->
    (forall x, x ∈ fv -> is_Some (g !! x)) -> fv <> [] ->
    task_execute g role_of carg as_list mk_list f not_iterable strategy ord which limit fin config n inputs ov fv = TAnswer out tr ->
    exists tr', default_execute (fun _ => f) g config inputs ov fv = Answer (map (fun x => (x, out !! x)) fv) tr'.
Proof.
  intros V E g role_of carg as_list mk_list f ni strategy ord which limit fin config inputs ov all fv n out tr Hl Ho Hwf Hac Hstd Hs Hall Hnm Honce Hfv Hne Hex.
  eapply st_default; eauto.
Qed.
Print Assumptions C62_same_as_default_executor.

(** Two runs with different strategies, executors and schedules that succeed agree. *)
Theorem C62_strategies_agree :
  forall (V E : Type) g role_of carg as_list mk_list f (not_iterable : E) strategy strategy' ord ord' which which' limit limit' fin fin'
      (config inputs ov all : gmap name V) fv n n' out tr out' tr',
    (forall l, as_list (mk_list l) = Some l) -> (forall s, NoDup (ord s) /\ forall x, x ∈ ord s <-> x ∈ s) ->
    (forall s, NoDup (ord' s) /\ forall x, x ∈ ord' s <-> x ∈ s) ->
    wf_graph g -> acyclic g -> (forall x, role_of x = RStandard) -> partitions g strategy -> partitions g strategy' ->
    combine_config_and_inputs config inputs = Some all ->
    (forall x, is_Some (g !! x) \/ is_Some (ov !! x) \/ is_Some (all !! x) -> lacks ":" x) -> (forall x v, ov !! x = Some v -> all !! x = None) ->
    (forall x, x ∈ fv -> is_Some (g !! x)) -> fv <> [] ->
    task_execute g role_of carg as_list mk_list f not_iterable strategy ord which limit fin config n inputs ov fv = TAnswer out tr ->
    task_execute g role_of carg as_list mk_list f not_iterable strategy' ord' which' limit' fin' config n' inputs ov fv = TAnswer out' tr' ->
    out = out'.
Proof.
  intros V E g role_of carg as_list mk_list f ni strategy strategy' ord ord' which which' limit limit' fin fin' config inputs ov all fv n n' out tr out' tr'
    Hl Ho Ho' Hwf Hac Hstd Hs Hs' Hall Hnm Honce Hfv Hne Hex Hex'.
  destruct (C62_values V E g role_of carg as_list mk_list f ni strategy ord which limit fin config inputs ov all fv n out tr) as [Hv Hd]; try done.
  destruct (C62_values V E g role_of carg as_list mk_list f ni strategy' ord' which' limit' fin' config inputs ov all fv n' out' tr') as [Hv' Hd']; try done.
  apply map_eq. intros x. destruct (decide (x ∈ fv)) as [Hx|Hx].
  - destruct (Hv x Hx) as (v & -> & He), (Hv' x Hx) as (v' & -> & He'). f_equal. by eapply eval_functional.
  - destruct (out !! x) eqn:H1; [destruct Hx; apply Hd; by rewrite H1|]. destruct (out' !! x) eqn:H2; [destruct Hx; apply Hd'; by rewrite H2|done].
Qed.
Print Assumptions C62_strategies_agree.

(** The run is over at some point. *)
Theorem C62_terminates :
  forall (V E : Type) g role_of carg as_list mk_list f (not_iterable : E) strategy ord which limit fin (config inputs ov all : gmap name V) fv,
    (forall l, as_list (mk_list l) = Some l) -> (forall s, NoDup (ord s) /\ forall x, x ∈ ord s <-> x ∈ s) ->
    wf_graph g -> partitions g strategy -> combine_config_and_inputs config inputs = Some all ->
    (forall x, x ∈ fv -> is_Some (g !! x)) -> fv <> [] ->
    (forall k k' id, k <= k' -> fin k id = true -> fin k' id = true) -> (forall id, exists k, fin k id = true) ->
    (forall i m, limit i = Some m -> 0 < m) ->
    exists n, forall tr, task_execute g role_of carg as_list mk_list f not_iterable strategy ord which limit fin config n inputs ov fv <> TRunning tr.
Proof.
  intros V E g role_of carg as_list mk_list f ni strategy ord which limit fin config inputs ov all fv Hl Ho Hwf Hs Hall Hfv Hne Hm Hev Hpos.
  eapply st_ends; eauto.
Qed.
Print Assumptions C62_terminates.

(** When every used variable is supplied, nothing but an exception of a user function that was
    called stops the run. *)
Theorem C62_only_user_exceptions :
  forall (V E : Type) g role_of carg as_list mk_list f (not_iterable : E) strategy ord which limit fin (config inputs ov all : gmap name V) fv n,
    (forall l, as_list (mk_list l) = Some l) -> (forall s, NoDup (ord s) /\ forall x, x ∈ ord s <-> x ∈ s) ->
    wf_graph g -> acyclic g -> (forall x, role_of x = RStandard) -> partitions g strategy ->
    combine_config_and_inputs config inputs = Some all ->
    (forall x, is_Some (g !! x) \/ is_Some (ov !! x) \/ is_Some (all !! x) -> lacks ":" x) -> (forall x v, ov !! x = Some v -> all !! x = None) ->
    (forall x, x ∈ fv -> is_Some (g !! x)) -> fv <> [] ->
    (forall x, used g all ov fv x -> ~ absent g all ov x) ->
    match task_execute g role_of carg as_list mk_list f not_iterable strategy ord which limit fin config n inputs ov fv with
    | TRunning _ => True
    | TAnswer out _ => forall x, x ∈ fv -> exists v, out !! x = Some v /\ eval f g all ov x v
    | TRaised e tr => exists t calls e' x kw, e = XUser (EUser e') /\ TRun t calls (Err e) ∈ tr /\ Call x kw (Err e') ∈ calls /\
        (exists nd, g !! x = Some nd /\ forall d, (d, REQUIRED) ∈ nd_deps nd -> is_Some (kw !! d)) /\ f x kw = Err e'
    | _ => False
    end.
Proof.
  intros V E g role_of carg as_list mk_list f ni strategy ord which limit fin config inputs ov all fv n Hl Ho Hwf Hac Hstd Hs Hall Hnm Honce Hfv Hne Hpres.
  pose proof (st_only_user g role_of Hstd carg as_list mk_list Hl f ni strategy Hs ord Ho Hwf Hac config inputs ov all Hall
    ltac:(eauto) ltac:(eauto) Honce fv Hfv Hne which limit fin n Hpres) as H.
  destruct (task_execute _ _ _ _ _ _ _ _ _ _ _ _ _ _ _ _ _); try done.
  destruct H as (t & calls & e' & x & kw & ? & ? & ? & ? & [Hr|(v & _ & Hr & _)]); [by exists t, calls, e', x, kw|]. by rewrite Hstd in Hr.
Qed.
Print Assumptions C62_only_user_exceptions.

(** If the functions do not raise, the run is over at some point and has succeeded. *)
Theorem C62_succeeds :
  forall (V E : Type) g role_of carg as_list mk_list f (not_iterable : E) strategy ord which limit fin (config inputs ov all : gmap name V) fv,
    (forall l, as_list (mk_list l) = Some l) -> (forall s, NoDup (ord s) /\ forall x, x ∈ ord s <-> x ∈ s) ->
    wf_graph g -> acyclic g -> (forall x, role_of x = RStandard) -> partitions g strategy ->
    combine_config_and_inputs config inputs = Some all ->
    (forall x, is_Some (g !! x) \/ is_Some (ov !! x) \/ is_Some (all !! x) -> lacks ":" x) -> (forall x v, ov !! x = Some v -> all !! x = None) ->
    (forall x, x ∈ fv -> is_Some (g !! x)) -> fv <> [] ->
    (forall x, used g all ov fv x -> ~ absent g all ov x) ->
    (forall x nd kw, g !! x = Some nd -> (forall d, (d, REQUIRED) ∈ nd_deps nd -> is_Some (kw !! d)) -> exists v, f x kw = Ok v) ->
    (forall k k' id, k <= k' -> fin k id = true -> fin k' id = true) -> (forall id, exists k, fin k id = true) ->
    (forall i m, limit i = Some m -> 0 < m) ->
    exists n out tr,
      task_execute g role_of carg as_list mk_list f not_iterable strategy ord which limit fin config n inputs ov fv = TAnswer out tr /\
      forall x, x ∈ fv -> exists v, out !! x = Some v /\ eval f g all ov x v.
Proof.
  intros V E g role_of carg as_list mk_list f ni strategy ord which limit fin config inputs ov all fv Hl Ho Hwf Hac Hstd Hs Hall Hnm Honce Hfv Hne Hpres Hf Hm Hev Hpos.
  destruct (C62_terminates V E g role_of carg as_list mk_list f ni strategy ord which limit fin config inputs ov all fv Hl Ho Hwf Hs Hall Hfv Hne Hm Hev Hpos) as [n Hn].
  pose proof (C62_only_user_exceptions V E g role_of carg as_list mk_list f ni strategy ord which limit fin config inputs ov all fv n
    Hl Ho Hwf Hac Hstd Hs Hall Hnm Honce Hfv Hne Hpres) as H. exists n.
  destruct (task_execute _ _ _ _ _ _ _ _ _ _ _ _ _ _ _ _ _) as [out tr| | | | | | |tr']; try done; [by exists out, tr| |by destruct (Hn tr')].
  exfalso. destruct H as (t & calls & e' & x & kw & _ & _ & _ & (nd & Hg & Hkw) & Hr). destruct (Hf x nd kw Hg Hkw) as (v & Hv). congruence.
Qed.
Print Assumptions C62_succeeds.

(** All four strategies on the example graph, with an optional input left out. *)
Definition rS (x : name) : role := RStandard.
Definition fS (x : name) (kw : gmap name val) : res string val :=
  Ok (VN (1 + foldr (fun p n => num (Some p.2) + n) 0 (map_to_list kw))).
Definition execS (strategy : list name -> option (list ngroup)) (fv : list name) :=
  task_execute ex_graph rS cA vlist VL fS "TypeError" strategy elements whichA limitA finA ∅ 120 {["a" := VN 5]} ∅ fv.
Definition task_names {V E} (a : tanswer V E) : list string := (show (answer_trace a)) ≫= fun p => if bool_decide (p.1 = "run") then [p.2] else [].
Lemma ex_names x : is_Some (ex_graph !! x) -> x ∈ ["a"; "opt"; "b"; "c"; "d"; "e"; "z"].
Proof.
  intros [nd H]. unfold ex_graph in H. apply elem_of_list_to_map_2 in H. rewrite !elem_of_cons, elem_of_nil in H.
  destruct_or! H; try done; injection H as -> _; apply (bool_decide_unpack _); by vm_compute.
Qed.
Lemma ex_used x : used ex_graph {["a" := VN 5]} (∅ : gmap name val) ["e"; "b"] x -> ~ absent ex_graph {["a" := VN 5]} (∅ : gmap name val) x.
Proof.
  intros Hu (_ & Hin & nd & Hg & Hext). assert (x = "opt") as ->.
  { assert (Hx : is_Some (ex_graph !! x)) by by exists nd. apply ex_names in Hx. rewrite !elem_of_cons, elem_of_nil in Hx.
    destruct_or! Hx; subst; try done; vm_compute in Hg; injection Hg as <-; done. }
  inversion Hu as [? Hf|y nd' ? dt Hy Ho Hgy Hd Hno]; subst; [by rewrite !elem_of_cons, elem_of_nil in Hf; destruct_or! Hf|].
  apply Hno. split_and!; [by vm_compute|done|]. assert (Hx : is_Some (ex_graph !! y)) by by exists nd'. apply ex_names in Hx. rewrite !elem_of_cons, elem_of_nil in Hx.
  destruct_or! Hx; subst; try done; vm_compute in Hgy; injection Hgy as <-; cbn in Hd; rewrite ?elem_of_cons, ?elem_of_nil in Hd; destruct_or? Hd; try done; by injection Hd as ->.
Qed.
Example C62_nonvacuous :
  wf_graph ex_graph /\ acyclic ex_graph /\
  combine_config_and_inputs (∅ : gmap name val) {["a" := VN 5]} = Some {["a" := VN 5]} /\
  (forall x, is_Some (ex_graph !! x) \/ is_Some ((∅ : gmap name val) !! x) \/ is_Some (({["a" := VN 5]} : gmap name val) !! x) -> lacks ":" x) /\
  (forall x, used ex_graph {["a" := VN 5]} (∅ : gmap name val) ["e"; "b"] x -> ~ absent ex_graph {["a" := VN 5]} (∅ : gmap name val) x) /\
  map (fun s => (answer_of (execS s ["e"; "b"]) "e", answer_of (execS s ["e"; "b"]) "b"))
      [(fun nodes => Some (group_individually rS nodes)); group_all rS; group_by_level ex_graph; group_by_blocks ex_graph rS elements]
    = repeat (Some (VN 20), Some (VN 6)) 4 /\
  map (fun s => task_names (execS s ["e"; "b"]))
      [group_all rS; group_by_level ex_graph] = [["root"]; ["level_0"; "level_1"; "level_2"; "level_3"; "level_4"]] /\
  length (task_names (execS (group_by_blocks ex_graph rS elements) ["e"; "b"])) = 5.
Proof.
  split_and!; [apply wf_graphb_ok; by vm_compute|apply ex_acyclic| | |apply ex_used|vm_compute; reflexivity|vm_compute; reflexivity|vm_compute; reflexivity].
  - unfold combine_config_and_inputs. rewrite bool_decide_true; [by rewrite (right_id_L ∅ (∪))|]. intros k v _. apply lookup_empty.
  - intros x [Hx%ex_names|[[? Hx]|[? Hx]]]; [|by rewrite lookup_empty in Hx|apply lookup_singleton_Some in Hx as [<- _]; by vm_compute].
    rewrite !elem_of_cons, elem_of_nil in Hx. destruct_or! Hx; subst; try done; vm_compute; intuition done.
Qed.

(** With an exception: the same one under all strategies. *)
Definition fS' (x : name) (kw : gmap name val) : res string val := if bool_decide (x = "c") then Err "boom" else fS x kw.
Example C62_nonvacuous_error :
  map (fun s => match task_execute ex_graph rS cA vlist VL fS' "TypeError" s elements whichA limitA finA ∅ 120 {["a" := VN 5]} ∅ ["e"; "b"] with
                | TRaised (XUser (EUser e)) _ => Some e | _ => None end)
      [(fun nodes => Some (group_individually rS nodes)); group_all rS; group_by_level ex_graph; group_by_blocks ex_graph rS elements]
    = repeat (Some "boom") 4.
Proof. vm_compute. reflexivity. Qed.

(** Finding: with Parallelizable and Collect the strategies disagree without any error.  Only
    grouping by blocks computes the three items; with the others [work] runs once on the whole
    list, or [total] is computed from nothing. *)
Theorem C62_parallelizable_refuted :
  map (fun s => answer_of (task_execute gA rA cA vlist VL fA "TypeError" s elements whichA limitA finA ∅ 60 ∅ ∅ ["total"]) "total")
      [group_by_blocks gA rA elements; (fun nodes => Some (group_individually rA nodes)); group_all rA; group_by_level gA]
    = [Some (VL [VN 17; VN 27; VN 37]); Some (VL [VN 7]); Some (VL []); Some (VN 7)].
Proof. vm_compute. reflexivity. Qed.
Print Assumptions C62_parallelizable_refuted.

(** Finding: a custom strategy whose groups use each other (two groups, [a, c] and [b], where [b]
    uses [a] and [c] uses [b]) is accepted; the groups wait for each other and the run never
    ends. *)
Definition cyc_strategy (nodes : list name) : option (list ngroup) :=
  Some [NGroup "one" None (filter (fun x => x <> "b") nodes) BLOCK; NGroup "two" None (filter (fun x => x = "b") nodes) BLOCK].
Definition gCyc : graph := {[ "a" := Node false [] ["b"]; "b" := Node false [("a", REQUIRED)] ["c"]; "c" := Node false [("b", REQUIRED)] [] ]}.
Theorem C62_cyclic_groups_refuted :
  wf_graph gCyc /\ acyclic gCyc /\
  forall n, exists tr, task_execute gCyc rS cA vlist VL fS "TypeError" cyc_strategy elements whichA limitA finA ∅ n ∅ ∅ ["c"] = TRunning tr.
Proof.
  split; [apply wf_graphb_ok; by vm_compute|]. split; [apply (rankedb_acyclic (rank_in ["a"; "b"; "c"])); by vm_compute|]. intros n.
  assert (H : match combine_config_and_inputs (∅ : gmap name val) ∅ with
              | Some all => match get_upstream_nodes gCyc (∅ : gmap name val) (Some all) (Some (∅ : gmap name val)) ["c"] with
                  | Found nodes users => match cyc_strategy (elements (nodes ∪ users)) with
                      | Some groups => match create_task_plan gCyc (∅ : gmap name val) groups ["c"] with
                          | Some tasks => is_stuck (run_graph gCyc rS cA vlist VL fS "TypeError" tasks whichA limitA finA 0 (all ∪ ∅))
                          | None => false end
                      | None => false end
                  | _ => false end
              | None => false end = true) by (vm_compute; reflexivity).
  unfold task_execute. destruct (combine_config_and_inputs _ _); [|done]. destruct (get_upstream_nodes _ _ _ _ _); [|done|done].
  destruct (cyc_strategy _); [|done]. destruct (create_task_plan _ _ _ _); [|done].
  destruct (stuck_run gCyc rS cA vlist VL fS "TypeError" l0 whichA limitA finA _ 0 H n) as [r ->]. by exists (r_trace r).
Qed.
Print Assumptions C62_cyclic_groups_refuted.
