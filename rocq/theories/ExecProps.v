(** Properties C01-C04, C06-C10 and C20 (default executor). *)
From Verif Require Import Base Dict ExecModel ExecSpec ExecProofs ExecResults.

(** ** A concrete dataflow for the non-vacuity examples
    [a] external, [opt] external optional, [b a], [c a b opt], [d b c], [e d], [z a]. *)
Definition ex_graph : graph :=
  list_to_map
    [ ("a", Node true [] ["b"; "c"; "z"]);
      ("opt", Node true [] ["c"]);
      ("b", Node false [("a", REQUIRED)] ["c"; "d"]);
      ("c", Node false [("a", REQUIRED); ("b", REQUIRED); ("opt", OPTIONAL)] ["d"]);
      ("d", Node false [("b", REQUIRED); ("c", REQUIRED)] ["e"]);
      ("e", Node false [("d", REQUIRED)] []);
      ("z", Node false [("a", REQUIRED)] []) ].

(** Decision procedures used only to discharge the hypotheses of the examples. *)
Definition wf_graphb (g : graph) : bool :=
  forallb (fun xn : name * node =>
    let '(x, nd) := xn in
    forallb (fun d => match g !! d with
                      | Some nd' => bool_decide (x ∈ nd_rdeps nd')
                      | None => false
                      end) (dep_names nd) &&
    forallb (fun p => match g !! p with
                      | Some nd' => bool_decide (x ∈ dep_names nd')
                      | None => false
                      end) (nd_rdeps nd) &&
    (negb (nd_ext nd) || bool_decide (nd_deps nd = [])) &&
    bool_decide (NoDup (dep_names nd))) (map_to_list g).

Lemma wf_graphb_ok g : wf_graphb g = true -> wf_graph g.
Proof.
  unfold wf_graphb. rewrite forallb_forall. intros H.
  assert (Hx : forall x nd, g !! x = Some nd ->
    (forall d, d ∈ dep_names nd -> exists nd', g !! d = Some nd' /\ x ∈ nd_rdeps nd') /\
    (forall p, p ∈ nd_rdeps nd -> exists nd', g !! p = Some nd' /\ x ∈ dep_names nd') /\
    (nd_ext nd = true -> nd_deps nd = []) /\ NoDup (dep_names nd)).
  { intros x nd Hg. specialize (H (x, nd)). cbn in H.
    assert (Hin : In (x, nd) (map_to_list g)) by (by apply elem_of_list_In, elem_of_map_to_list).
    specialize (H Hin). repeat (apply andb_prop in H as [H ?]).
    rewrite forallb_forall in *.
    split_and!.
    - intros d Hd. apply elem_of_list_In in Hd. specialize (H d Hd).
      destruct (g !! d) as [nd'|] eqn:Hgd; [|done]. exists nd'. split; [done|].
      by apply bool_decide_eq_true in H.
    - intros p Hp. apply elem_of_list_In in Hp.
      match goal with H2 : forall x, In x (nd_rdeps nd) -> _ |- _ => specialize (H2 p Hp); rename H2 into Hp2 end.
      destruct (g !! p) as [nd'|] eqn:Hgd; [|done]. exists nd'. split; [done|].
      by apply bool_decide_eq_true in Hp2.
    - intros Hext. rewrite Hext in *. cbn in *.
      match goal with H2 : bool_decide (nd_deps nd = []) = true |- _ => by apply bool_decide_eq_true in H2 end.
    - match goal with H2 : bool_decide (NoDup _) = true |- _ => by apply bool_decide_eq_true in H2 end. }
  constructor.
  - intros x d (nd & Hg & Hd). destruct (Hx x nd Hg) as (H1 & _). destruct (H1 d Hd) as (nd' & -> & _). by eexists.
  - intros x d nd (ndx & Hg & Hd) Hgd. destruct (Hx x ndx Hg) as (H1 & _).
    destruct (H1 d Hd) as (nd' & ? & ?). congruence.
  - intros x d nd Hgd Hin. destruct (Hx d nd Hgd) as (_ & H2 & _).
    destruct (H2 x Hin) as (nd' & ? & ?). by exists nd'.
  - intros x nd Hg. apply (Hx x nd Hg).
  - intros x nd Hg. apply (Hx x nd Hg).
Qed.

Definition rankedb (rank : name -> nat) (g : graph) : bool :=
  forallb (fun xn : name * node => forallb (fun d => rank d <? rank (fst xn)) (dep_names (snd xn)))
          (map_to_list g).

Lemma rankedb_acyclic rank g : rankedb rank g = true -> acyclic g.
Proof.
  unfold rankedb. rewrite forallb_forall. intros H.
  assert (Hlt : forall x d, edge g x d -> rank d < rank x).
  { intros x d (nd & Hg & Hd). specialize (H (x, nd)). cbn in H.
    assert (Hin : In (x, nd) (map_to_list g)) by (by apply elem_of_list_In, elem_of_map_to_list).
    specialize (H Hin). rewrite forallb_forall in H. apply elem_of_list_In in Hd.
    specialize (H d Hd). by apply Nat.ltb_lt in H. }
  assert (Htc : forall x y, tc (edge g) x y -> rank y < rank x).
  { induction 1 as [x y Hxy|x y z Hxy _ IH]; [by apply Hlt|]. specialize (Hlt x y Hxy). lia. }
  intros x Hx. specialize (Htc x x Hx). lia.
Qed.

(** Rank by position in a list. *)
Definition rank_in (l : list name) (x : name) : nat :=
  match list_find (fun y => y = x) l with Some (i, _) => i | None => 0 end.

Lemma ex_wf : wf_graph ex_graph.
Proof. apply wf_graphb_ok. vm_compute. reflexivity. Qed.
Lemma ex_acyclic : acyclic ex_graph.
Proof. apply (rankedb_acyclic (rank_in ["a"; "opt"; "b"; "c"; "d"; "e"; "z"])). vm_compute. reflexivity. Qed.

(** Functions over [nat]: a node's value is the sum of its arguments plus one;
    [z] raises. *)
Definition ex_f (x : name) (kw : gmap name nat) : res string nat :=
  if decide (x = "z") then Err "boom" else Ok (S (map_fold (fun _ v acc => v + acc) 0 kw)).

Definition ex_run fv :=
  default_execute (fun _ => ex_f) ex_graph ∅ (<["a" := 10]> ∅) ∅ fv.

(** ** C01 *)
Theorem C01_execute_returns_meaning :
  forall (V E : Type) (f : name -> gmap name V -> res E V) (g : graph)
         (config inputs overrides : gmap name V) (fv : list name) out tr,
    wf_graph g -> acyclic g ->
    default_execute (fun _ => f) g config inputs overrides fv = Answer out tr ->
    out.*1 = fv /\
    forall x r, (x, r) ∈ out ->
      match r with
      | Some v => (is_Some (g !! x) /\ eval f g (inputs ∪ config) overrides x v) \/
                  (g !! x = None /\ inputs !! x = Some v)
      | None => absent g (inputs ∪ config) overrides x \/ (g !! x = None /\ inputs !! x = None)
      end.
Proof. intros. by eapply run_values. Qed.
Print Assumptions C01_execute_returns_meaning.

(** The meaning of a variable is unique, so C01 determines the answer. *)
Theorem C01_meaning_unique :
  forall (V E : Type) (f : name -> gmap name V -> res E V) g inputs overrides x v v',
    eval f g inputs overrides x v -> eval f g inputs overrides x v' -> v = v'.
Proof. intros. by eapply eval_functional. Qed.
Print Assumptions C01_meaning_unique.

Example C01_nonvacuous : exists tr, ex_run ["d"; "opt"; "a"] = Answer [("d", Some 34); ("opt", None); ("a", Some 10)] tr.
Proof. eexists. vm_compute. reflexivity. Qed.

(** ** C02 *)
Theorem C02_at_most_once :
  forall (V E : Type) (F : list (event V E) -> name -> gmap name V -> res E V) (g : graph)
         (config inputs overrides : gmap name V) (fv : list name),
    wf_graph g -> acyclic g ->
    NoDup (calls_of (trace_of (default_execute F g config inputs overrides fv))).
Proof. intros. by apply run_calls_nodup. Qed.
Print Assumptions C02_at_most_once.

(** A run that discards a value ([b]) while it is going on. *)
Example C02_nonvacuous :
  calls_of (trace_of (ex_run ["e"])) = ["b"; "c"; "d"; "e"] /\ Drop "b" ∈ trace_of (ex_run ["e"]).
Proof. split; [vm_compute; reflexivity|]. apply elem_of_list_In. vm_compute. tauto. Qed.

(** ** C03 *)
Theorem C03_only_needed_functions_run :
  forall (V E : Type) (F : list (event V E) -> name -> gmap name V -> res E V) (g : graph)
         (config inputs overrides : gmap name V) (fv : list name) x,
    wf_graph g -> acyclic g ->
    x ∈ calls_of (trace_of (default_execute F g config inputs overrides fv)) ->
    needed g overrides (requested g fv) x /\ exists nd, g !! x = Some nd /\ nd_ext nd = false.
Proof. intros. by eapply run_calls_needed. Qed.
Print Assumptions C03_only_needed_functions_run.

(** ... and on success all of them do. *)
Theorem C03_all_needed_functions_run :
  forall (V E : Type) (F : list (event V E) -> name -> gmap name V -> res E V) (g : graph)
         (config inputs overrides : gmap name V) (fv : list name) out tr x nd,
    wf_graph g -> acyclic g ->
    default_execute F g config inputs overrides fv = Answer out tr ->
    needed g overrides (requested g fv) x -> g !! x = Some nd -> nd_ext nd = false ->
    x ∈ calls_of tr.
Proof. intros. by eapply run_needed_called. Qed.
Print Assumptions C03_all_needed_functions_run.

Example C03_nonvacuous :
  calls_of (trace_of (default_execute (fun _ => ex_f) ex_graph ∅ (<["a" := 10]> ∅) (<["b" := 5]> ∅) ["d"]))
  = ["c"; "d"].
Proof. vm_compute. reflexivity. Qed.

(** ** C04 *)
Theorem C04_overrides_cut_the_graph :
  forall (V E : Type) (f f' : name -> gmap name V -> res E V) (g g' : graph)
         (config inputs inputs' overrides : gmap name V) (fv : list name) out tr,
    wf_graph g -> acyclic g -> wf_graph g' -> acyclic g' ->
    (forall k, config !! k = None \/ inputs' !! k = None) ->
    agree f f' g g' inputs inputs' overrides fv ->
    default_execute (fun _ => f) g config inputs overrides fv = Answer out tr ->
    exists tr', default_execute (fun _ => f') g' config inputs' overrides fv = Answer out tr'.
Proof. intros. by eapply (noninterference f f' g g'). Qed.
Print Assumptions C04_overrides_cut_the_graph.

(** An overridden function is never invoked and its override is what is returned/consumed. *)
Theorem C04_override_not_called :
  forall (V E : Type) (F : list (event V E) -> name -> gmap name V -> res E V) (g : graph)
         (config inputs overrides : gmap name V) (fv : list name) x v,
    wf_graph g -> acyclic g -> overrides !! x = Some v ->
    x ∉ calls_of (trace_of (default_execute F g config inputs overrides fv)) /\
    (forall t1 P kw r t2 w,
       trace_of (default_execute F g config inputs overrides fv) = t1 ++ Call P kw r :: t2 ->
       kw !! x = Some w -> w = v).
Proof.
  intros V E F g config inputs overrides fv x v Hwf Hac Ho. split.
  - intros Hin. apply run_calls_needed in Hin as [Hn _]; [|done|done]. inversion Hn; congruence.
  - intros t1 P kw r t2 w Htr Hw.
    destruct (run_call_args g Hwf Hac F config inputs overrides fv t1 P kw r t2 Htr)
      as (_ & nd & _ & _ & Hkw & _).
    destruct (Hkw x w Hw) as [_ [?|[? _]]]; congruence.
Qed.
Print Assumptions C04_override_not_called.

Definition ex_f2 (x : name) (kw : gmap name nat) : res string nat :=
  if decide (x = "b") then Err "other" else ex_f x kw.
Example C04_nonvacuous :
  agree ex_f ex_f2 ex_graph ex_graph (<["a" := 10]> ∅) (<["a" := 10]> ∅) (<["b" := 5]> ∅) ["d"] /\
  exists tr, default_execute (fun _ => ex_f2) ex_graph ∅ (<["a" := 10]> ∅) (<["b" := 5]> ∅) ["d"]
             = Answer [("d", Some 22)] tr.
Proof.
  split; [|eexists; vm_compute; reflexivity].
  split_and!; [done|done|]. intros x Hx. split_and!; try done.
  intros kw. unfold ex_f2. rewrite decide_False; [done|]. intros ->.
  inversion Hx as [? ? Ho|? ? ? ? Ho]; by vm_compute in Ho.
Qed.

(** ** C06 *)
Theorem C06_success_characterisation :
  forall (V E : Type) (f : name -> gmap name V -> res E V) (g : graph)
         (config inputs overrides : gmap name V) (fv : list name),
    wf_graph g -> acyclic g ->
    (exists out tr, default_execute (fun _ => f) g config inputs overrides fv = Answer out tr) <->
    (forall k, config !! k = None \/ inputs !! k = None) /\
    (forall x nd, needed g overrides (requested g fv) x -> g !! x = Some nd -> nd_ext nd = false ->
       exists v, eval f g (inputs ∪ config) overrides x v).
Proof. intros. by apply run_success. Qed.
Print Assumptions C06_success_characterisation.

(** Whatever the functions do, the traversal terminates, and fails only because a function
    raised, a required external variable is missing, or config and inputs clash. *)
Theorem C06_total :
  forall (V E : Type) (F : list (event V E) -> name -> gmap name V -> res E V) (g : graph)
         (config inputs overrides : gmap name V) (fv : list name),
    wf_graph g -> acyclic g ->
    (forall tr x kw, exists v, F tr x kw = Ok v) ->
    (forall k, config !! k = None \/ inputs !! k = None) ->
    (forall P nd y, needed g overrides (requested g fv) P -> g !! P = Some nd ->
       (y, REQUIRED) ∈ nd_deps nd -> ~ absent g (inputs ∪ config) overrides y) ->
    exists out tr, default_execute F g config inputs overrides fv = Answer out tr.
Proof.
  intros V E F g config inputs overrides fv Hwf Hac HF Hdisj Hreq.
  destruct (default_execute F g config inputs overrides fv) as [out tr|e tr| |] eqn:Hrun.
  - eauto.
  - exfalso. pose proof (run_failed g Hwf Hac F _ _ _ _ _ _ Hrun) as Hf. destruct e as [e|y].
    + destruct Hf as (t & x & kw & ->).
      destruct (run_call_args g Hwf Hac F config inputs overrides fv t x kw (Err e) []) as [Hr _].
      { by rewrite Hrun. }
      destruct (HF t x kw) as [v Hv]. congruence.
    + destruct Hf as (Habs & _ & P & nd & Hn & Hg & Hin). by eapply Hreq.
  - exfalso. destruct (default_cases g Hwf Hac F config inputs overrides fv)
      as [(k & [? ?] & [? ?] & _)|[_ [(s & _ & Heq)|(s & e & _ & Heq)]]]; [|congruence|congruence].
    destruct (Hdisj k); congruence.
  - exfalso. by eapply run_not_diverged.
Qed.
Print Assumptions C06_total.

Example C06_nonvacuous : exists out tr, ex_run ["d"; "c"] = Answer out tr.
Proof. do 2 eexists. vm_compute. reflexivity. Qed.

(** ** C07 *)
Theorem C07_arguments :
  forall (V E : Type) (F : list (event V E) -> name -> gmap name V -> res E V) (g : graph)
         (config inputs overrides : gmap name V) (fv : list name) t1 x kw r t2,
    wf_graph g -> acyclic g ->
    trace_of (default_execute F g config inputs overrides fv) = t1 ++ Call x kw r :: t2 ->
    r = F t1 x kw /\
    exists nd, g !! x = Some nd /\ nd_ext nd = false /\
      (forall d w, kw !! d = Some w ->
         d ∈ dep_names nd /\ available g (inputs ∪ config) overrides t1 d w) /\
      (forall d dt, (d, dt) ∈ nd_deps nd -> kw !! d = None ->
         absent g (inputs ∪ config) overrides d /\ dt = OPTIONAL).
Proof. intros. by eapply run_call_args. Qed.
Print Assumptions C07_arguments.

Example C07_nonvacuous :
  exists kw t1 t2, trace_of (ex_run ["d"]) = t1 ++ Call "c" kw (Ok 22) :: t2 /\
    kw !! "a" = Some 10 /\ kw !! "b" = Some 11 /\ kw !! "opt" = None.
Proof.
  eexists _, [_; _; _], _. split; [vm_compute; reflexivity|]. vm_compute. done.
Qed.

(** ** C08 *)
Theorem C08_request_order_irrelevant :
  forall (V E : Type) (f : name -> gmap name V -> res E V) (g : graph)
         (config inputs overrides : gmap name V) (fv fv' : list name) out tr,
    wf_graph g -> acyclic g -> (forall x, x ∈ fv <-> x ∈ fv') ->
    default_execute (fun _ => f) g config inputs overrides fv = Answer out tr ->
    exists out' tr',
      default_execute (fun _ => f) g config inputs overrides fv' = Answer out' tr' /\
      (forall x r, (x, r) ∈ out <-> (x, r) ∈ out') /\
      Permutation (calls_of tr) (calls_of tr').
Proof. intros. by eapply request_order. Qed.
Print Assumptions C08_request_order_irrelevant.

Example C08_nonvacuous :
  exists tr, ex_run ["c"; "d"] = Answer [("c", Some 22); ("d", Some 34)] tr.
Proof. eexists. vm_compute; reflexivity. Qed.

(** ** C09 *)
Theorem C09_exception_stops_the_run :
  forall (V E : Type) (F : list (event V E) -> name -> gmap name V -> res E V) (g : graph)
         (config inputs overrides : gmap name V) (fv : list name) x kw e,
    wf_graph g -> acyclic g ->
    Call x kw (Err e) ∈ trace_of (default_execute F g config inputs overrides fv) ->
    exists t, default_execute F g config inputs overrides fv
                = Failed (EUser e) (t ++ [Call x kw (Err e)]) /\
              forall y kw' e', Call y kw' (Err e') ∉ t.
Proof. intros. by eapply run_error. Qed.
Print Assumptions C09_exception_stops_the_run.

(** Conversely every failure is a raised exception of the last function, or a missing
    required external variable. *)
Theorem C09_failures :
  forall (V E : Type) (F : list (event V E) -> name -> gmap name V -> res E V) (g : graph)
         (config inputs overrides : gmap name V) (fv : list name) e tr,
    wf_graph g -> acyclic g ->
    default_execute F g config inputs overrides fv = Failed e tr ->
    match e with
    | EUser e' => exists t x kw, tr = t ++ [Call x kw (Err e')]
    | EMissing y => absent g (inputs ∪ config) overrides y /\
        (forall x kw e', Call x kw (Err e') ∉ tr) /\
        exists P nd, needed g overrides (requested g fv) P /\ g !! P = Some nd /\
                     (y, REQUIRED) ∈ nd_deps nd
    end.
Proof. intros. by eapply run_failed. Qed.
Print Assumptions C09_failures.

Example C09_nonvacuous :
  Call "z" (<["a" := 10]> ∅) (Err "boom") ∈ trace_of (ex_run ["b"; "z"; "d"]).
Proof. apply elem_of_list_In. vm_compute. tauto. Qed.

(** ** C10 *)
Theorem C10_requested_results_stay :
  forall (V E : Type) (F : list (event V E) -> name -> gmap name V -> res E V) (g : graph)
         (config inputs overrides : gmap name V) (fv : list name) t1 t2 x v,
    wf_graph g -> acyclic g ->
    trace_of (default_execute F g config inputs overrides fv) = t1 ++ t2 ->
    x ∈ fv -> is_Some (g !! x) -> Store x v ∈ t1 -> memory_after t1 ∅ !! x = Some v.
Proof. intros. by eapply run_memory. Qed.
Print Assumptions C10_requested_results_stay.

Theorem C10_discarded_only_when_finished :
  forall (V E : Type) (F : list (event V E) -> name -> gmap name V -> res E V) (g : graph)
         (config inputs overrides : gmap name V) (fv : list name) t1 x t2,
    wf_graph g -> acyclic g ->
    trace_of (default_execute F g config inputs overrides fv) = t1 ++ Drop x :: t2 ->
    x ∉ fv /\ is_Some (memory_after t1 ∅ !! x) /\
    (forall P, edge g P x -> exists v, Store P v ∈ t1) /\
    (forall P kw r, Call P kw r ∈ t2 -> ~ edge g P x).
Proof. intros. by eapply run_drop. Qed.
Print Assumptions C10_discarded_only_when_finished.

Example C10_nonvacuous : Drop "b" ∈ trace_of (ex_run ["e"]) /\ Store "e" 35 ∈ trace_of (ex_run ["e"]).
Proof. split; apply elem_of_list_In; vm_compute; tauto. Qed.

(** ** C20 *)
Theorem C20_config_and_inputs :
  forall (V : Type) (config inputs : gmap name V),
    (combine_config_and_inputs config inputs = None <->
       exists k, is_Some (config !! k) /\ is_Some (inputs !! k)) /\
    (forall m, combine_config_and_inputs config inputs = Some m ->
       forall k v, m !! k = Some v <-> config !! k = Some v \/ inputs !! k = Some v).
Proof.
  intros V config inputs. unfold combine_config_and_inputs. case_bool_decide as Hd.
  - split.
    + split; [done|]. intros (k & [v Hv] & [w Hw]). specialize (Hd k w Hw). cbn in Hd. congruence.
    + intros m [= <-] k v. rewrite lookup_union_Some_raw. split.
      * intros [?|[_ ?]]; [by right|by left].
      * intros [Hc|Hi]; [|by left]. right. split; [|done].
        destruct (inputs !! k) as [w|] eqn:Hk; [|done]. specialize (Hd k w Hk). cbn in Hd. congruence.
  - split; [|done]. split; [|done]. intros _.
    apply map_not_Forall in Hd as (k & v & Hk & Hne); [|apply _]. exists k.
    split; [|by eexists]. destruct (config !! k); [by eexists|done].
Qed.
Print Assumptions C20_config_and_inputs.
Example C20_nonvacuous :
  combine_config_and_inputs (<["a" := 1]> ∅) (<["a" := 2]> ∅ : gmap name nat) = None /\
  exists m, combine_config_and_inputs (<["a" := 1]> ∅) (<["b" := 2]> ∅ : gmap name nat) = Some m.
Proof. split; [|eexists]; vm_compute; reflexivity. Qed.
