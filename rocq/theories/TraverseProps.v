(** C05, C16, C17, C52: graph queries and input validation. *)
From Verif Require Import Base ExecModel ExecSpec ExecProofs ExecResults ExecProps TraverseModel TraverseProofs.

(** ** C16 *)
Theorem C16_upstream_is_reachability :
  forall (V : Type) (config : gmap name V) (g : graph) (xs : list name),
    wf_graph g -> (forall x, x ∈ xs -> is_Some (g !! x)) ->
    exists nodes users, what_is_upstream_of g config xs = Found nodes users /\
      forall y, y ∈ nodes <-> exists x, x ∈ xs /\ rtc (edge g) x y.
Proof. intros. by apply upstream_reach. Qed.
Print Assumptions C16_upstream_is_reachability.

Theorem C16_downstream_is_reachability :
  forall (g : graph) (xs : list name),
    wf_graph g -> (forall x, x ∈ xs -> is_Some (g !! x)) ->
    exists nodes users, get_downstream_nodes g xs = Found nodes users /\
      forall y, y ∈ nodes <-> exists x, x ∈ xs /\ rtc (edge g) y x.
Proof. intros. by apply downstream_reach. Qed.
Print Assumptions C16_downstream_is_reachability.

Theorem C16_upstream_downstream_dual :
  forall (V : Type) (config : gmap name V) (g : graph) (a b : name) us uu ds du,
    wf_graph g -> is_Some (g !! a) -> is_Some (g !! b) ->
    what_is_upstream_of g config [b] = Found us uu ->
    get_downstream_nodes g [a] = Found ds du ->
    a ∈ us <-> b ∈ ds.
Proof.
  intros V config g a b us uu ds du Hwf Ha Hb Hu Hd.
  destruct (upstream_reach g Hwf config [b]) as (us' & uu' & Hu' & Hus).
  { by intros x ->%elem_of_list_singleton. }
  destruct (downstream_reach g Hwf [a]) as (ds' & du' & Hd' & Hds).
  { by intros x ->%elem_of_list_singleton. }
  rewrite Hu in Hu'. rewrite Hd in Hd'. injection Hu' as <- <-. injection Hd' as <- <-.
  rewrite Hus, Hds. split; intros (x & ->%elem_of_list_singleton & Hr); eexists;
    (split; [by apply elem_of_list_singleton|done]).
Qed.
Print Assumptions C16_upstream_downstream_dual.

(** A graph with a cycle a -> b -> a and a bystander c <- a. *)
Definition cyc_graph : graph :=
  list_to_map [("a", Node false [("b", REQUIRED)] ["b"; "c"]);
               ("b", Node false [("a", REQUIRED)] ["a"]);
               ("c", Node false [("a", REQUIRED)] [])].
Example C16_nonvacuous :
  wf_graph cyc_graph /\
  match what_is_upstream_of cyc_graph (∅ : gmap name nat) ["b"] with
  | Found nodes users =>
      bool_decide ("a" ∈ nodes) && bool_decide ("b" ∈ nodes) && negb (bool_decide ("c" ∈ nodes))
  | _ => false
  end = true.
Proof. split; [apply wf_graphb_ok|]; vm_compute; reflexivity. Qed.

(** ** C17 *)
Theorem C17_path_between :
  forall (V : Type) (config : gmap name V) (g : graph) (a b : name),
    wf_graph g ->
    match what_is_the_path_between g config a b with
    | Some s => is_Some (g !! a) /\ is_Some (g !! b) /\
                (* [y] lies on a dependency path from [b] back to [a] *)
                (forall y, y ∈ s <-> rtc (edge g) b y /\ rtc (edge g) y a) /\
                (s = ∅ <-> ~ rtc (edge g) b a)
    | None => g !! a = None \/ g !! b = None
    end.
Proof.
  intros V config g a b Hwf. pose proof (path_between g Hwf config a b) as H.
  destruct (what_is_the_path_between g config a b) as [s|]; [|done].
  destruct H as (Ha & Hb & Hs). split_and!; [done|done| |].
  - intros y. rewrite Hs. tauto.
  - split.
    + intros -> Hr. assert (Hin : b ∈ (∅ : gset name)); [by apply Hs|]. set_solver.
    + intros Hn. apply elem_of_equiv_empty_L. intros y Hy. apply Hs in Hy as [? ?]. apply Hn. by etransitivity.
Qed.
Print Assumptions C17_path_between.

(** The graph-level query behaves the same between two different variables; between a
    variable and itself it reports no path. *)
Theorem C17_nodes_between :
  forall (g : graph) (a b : name), wf_graph g -> acyclic g ->
    match graph_nodes_between g a b with
    | Some s => is_Some (g !! b) /\
        ((tc (edge g) b a /\ forall y, y ∈ s <-> rtc (edge g) b y /\ rtc (edge g) y a) \/
         (~ tc (edge g) b a /\ s = ∅))
    | None => g !! b = None
    end.
Proof. intros g a b Hwf Hac. by apply graph_nodes_between_ok. Qed.
Print Assumptions C17_nodes_between.

Theorem C17_nodes_between_self_refuted :
  exists (g : graph) (a : name), wf_graph g /\ acyclic g /\ is_Some (g !! a) /\
    graph_nodes_between g a a = Some ∅ /\
    exists s, what_is_the_path_between g (∅ : gmap name nat) a a = Some s /\ a ∈ s.
Proof.
  exists ex_graph, "d". split_and!; [apply ex_wf|apply ex_acyclic|by eexists| |].
  - vm_compute. reflexivity.
  - pose proof (C17_path_between nat ∅ ex_graph "d" "d" ex_wf) as H.
    destruct (what_is_the_path_between ex_graph ∅ "d" "d") as [s|].
    + exists s. split; [done|]. by apply H.
    + by destruct H.
Qed.
Print Assumptions C17_nodes_between_self_refuted.

Example C17_nonvacuous :
  match what_is_the_path_between ex_graph (∅ : gmap name nat) "a" "d", graph_nodes_between ex_graph "a" "d" with
  | Some s, Some s' =>
      bool_decide (elements s = elements s') && bool_decide ("b" ∈ s) && bool_decide ("a" ∈ s) && negb (bool_decide ("opt" ∈ s))
  | _, _ => false
  end = true.
Proof. vm_compute. reflexivity. Qed.

(** ** C05 *)
(** Once the driver starts executing, no required variable is missing. *)
Theorem C05_accepted_never_missing :
  forall (V E : Type) (valid_type : name -> V -> bool)
         (F : list (event V E) -> name -> gmap name V -> res E V) (g : graph)
         (config : gmap name V) (inputs overrides : option (gmap name V)) (fv : list name) a y tr,
    wf_graph g -> acyclic g ->
    raw_execute g config valid_type F inputs overrides fv = RRun a ->
    a <> Failed (EMissing y) tr.
Proof.
  intros V E valid_type F g config inputs overrides fv a y tr Hwf Hac Hraw ->.
  apply raw_run in Hraw as (Heq & Hdisj & _ & Hreq); [|done].
  symmetry in Heq. apply run_failed in Heq; [|done|done].
  destruct Heq as (Habs & _ & P & nd & Hn & Hg & Hin). by eapply Hreq.
Qed.
Print Assumptions C05_accepted_never_missing.

(** Accepted requests on functions that do not raise succeed. *)
Theorem C05_accepted_succeeds :
  forall (V E : Type) (valid_type : name -> V -> bool)
         (F : list (event V E) -> name -> gmap name V -> res E V) (g : graph)
         (config : gmap name V) (inputs overrides : option (gmap name V)) (fv : list name) a,
    wf_graph g -> acyclic g ->
    (forall tr x kw, exists v, F tr x kw = Ok v) ->
    raw_execute g config valid_type F inputs overrides fv = RRun a ->
    exists out tr, a = Answer out tr.
Proof.
  intros V E valid_type F g config inputs overrides fv a Hwf Hac HF Hraw.
  apply raw_run in Hraw as (-> & Hdisj & _ & Hreq); [|done]. by apply C06_total.
Qed.
Print Assumptions C05_accepted_succeeds.

(** Full statement of the converse: a rejection for a missing input is justified by a needed
    function that requires an absent variable. It holds without overrides. *)
Theorem C05_rejection_justified_partial :
  forall (V E : Type) (valid_type : name -> V -> bool)
         (F : list (event V E) -> name -> gmap name V -> res E V) (g : graph)
         (config : gmap name V) (inputs : option (gmap name V)) (fv : list name) errs y,
    wf_graph g -> acyclic g ->
    raw_execute g config valid_type F inputs None fv = RInvalid errs ->
    RequiredMissing y ∈ errs ->
    absent g (odefault inputs ∪ config) ∅ y /\
    exists P nd, needed g (∅ : gmap name V) (requested g fv) P /\ g !! P = Some nd /\
      (y, REQUIRED) ∈ nd_deps nd.
Proof. intros. by eapply raw_reject_justified. Qed.
Print Assumptions C05_rejection_justified_partial.

(** With overrides, a reported variable is at least never hidden behind them. *)
Theorem C05_rejection_visible :
  forall (V E : Type) (valid_type : name -> V -> bool)
         (F : list (event V E) -> name -> gmap name V -> res E V) (g : graph)
         (config : gmap name V) (inputs overrides : option (gmap name V)) (fv : list name) errs y,
    wf_graph g -> acyclic g ->
    raw_execute g config valid_type F inputs overrides fv = RInvalid errs ->
    RequiredMissing y ∈ errs ->
    y ∈ fv \/ exists P, needed g (odefault overrides) (requested g fv) P /\ edge g P y.
Proof. intros. by eapply raw_reject_visible. Qed.
Print Assumptions C05_rejection_visible.

(** With overrides it is false: overriding an external variable does not satisfy the
    validation although the execution would succeed. *)
Definition ov_graph : graph :=
  list_to_map [("f", Node false [("y", REQUIRED)] []); ("y", Node true [] ["f"])].
Theorem C05_rejection_refuted :
  exists (g : graph) (overrides : gmap name nat) (f : name -> gmap name nat -> res string nat) (fv : list name),
    wf_graph g /\ acyclic g /\
    raw_execute g ∅ (fun _ _ => true) (fun _ => f) (Some ∅) (Some overrides) fv = RInvalid [RequiredMissing "y"] /\
    exists tr, default_execute (fun _ => f) g ∅ ∅ overrides fv = Answer [("f", Some 1)] tr.
Proof.
  exists ov_graph, {[ "y" := 7 ]}, (fun _ _ => Ok 1), ["f"]. split_and!.
  - apply wf_graphb_ok. vm_compute. reflexivity.
  - apply (rankedb_acyclic (rank_in ["y"; "f"])). vm_compute. reflexivity.
  - vm_compute. reflexivity.
  - eexists. vm_compute. reflexivity.
Qed.
Print Assumptions C05_rejection_refuted.

Example C05_nonvacuous :
  (exists out tr, raw_execute ov_graph ∅ (fun _ _ => true) (fun _ => ex_f) (Some {[ "y" := 7 ]}) None ["f"] = RRun (Answer out tr)) /\
  raw_execute ov_graph ∅ (fun _ _ => true) (fun _ => ex_f) None None ["f"] = RInvalid [RequiredMissing "y"].
Proof. split; [do 2 eexists|]; vm_compute; reflexivity. Qed.

(** ** C52: what a refused request means; nothing is run then ([RRun] is the only outcome
    with a trace). *)
Theorem C52_refusals_are_exact :
  forall (V E : Type) (valid_type : name -> V -> bool)
         (F : list (event V E) -> name -> gmap name V -> res E V) (g : graph)
         (config : gmap name V) (inputs overrides : option (gmap name V)) (fv : list name),
    wf_graph g -> acyclic g ->
    match raw_execute g config valid_type F inputs overrides fv with
    | RRun a =>
        a = default_execute F g config (odefault inputs) (odefault overrides) fv /\
        (forall x, x ∈ fv -> is_Some (g !! x) \/ is_Some (odefault inputs !! x)) /\
        (forall k, config !! k = None \/ odefault inputs !! k = None)
    | RFuel => False
    | RUnknown m => m <> [] /\ forall x, x ∈ m <-> x ∈ fv /\ g !! x = None /\ odefault inputs !! x = None
    | RClash => exists k, is_Some (config !! k) /\ is_Some (odefault inputs !! k)
    | RInvalid errs => errs <> [] /\ forall e, e ∈ errs ->
        match e with
        | RequiredMissing y => is_ext g y = true /\ (odefault inputs ∪ config) !! y = None
        | TypeMismatch y => is_ext g y = true /\
            exists v, (odefault inputs ∪ config) !! y = Some v /\ valid_type y v = false
        end
    end.
Proof.
  intros V E valid_type F g config inputs overrides fv Hwf Hac.
  pose proof (raw_not_run g Hwf config valid_type F inputs overrides fv) as H.
  destruct (raw_execute g config valid_type F inputs overrides fv) as [| | |a|] eqn:Hr; try done.
  apply raw_run in Hr as (? & ? & ? & _); done.
Qed.
Print Assumptions C52_refusals_are_exact.

(** No value of the wrong type reaches a function through an external variable that is
    found upstream of the request. *)
Theorem C52_inputs_type_checked :
  forall (V E : Type) (valid_type : name -> V -> bool)
         (F : list (event V E) -> name -> gmap name V -> res E V) (g : graph)
         (config : gmap name V) (inputs overrides : option (gmap name V)) (fv : list name) a t1 x kw r t2 d w nd,
    wf_graph g -> acyclic g ->
    raw_execute g config valid_type F inputs overrides fv = RRun a ->
    trace_of a = t1 ++ Call x kw r :: t2 -> kw !! d = Some w ->
    g !! d = Some nd -> nd_ext nd = true -> odefault overrides !! d = None ->
    valid_type d w = true.
Proof.
  intros V E valid_type F g config inputs overrides fv a t1 x kw r t2 d w nd Hwf Hac Hraw Htr Hd Hg Hext Ho.
  by eapply raw_input_types.
Qed.
Print Assumptions C52_inputs_type_checked.

Example C52_nonvacuous :
  raw_execute ov_graph ∅ (fun _ _ => true) (fun _ => ex_f) (Some {[ "y" := 7 ]}) None ["f"; "typo"; "y"] = RUnknown ["typo"] /\
  raw_execute ov_graph ∅ (fun _ _ => false) (fun _ => ex_f) (Some {[ "y" := 7 ]}) None ["f"] = RInvalid [TypeMismatch "y"].
Proof. split; vm_compute; reflexivity. Qed.
