(** C61: the asynchronous driver. *)
From Verif Require Import Base ExecModel ExecSpec ExecProofs ExecResults ExecProps TraverseModel TraverseProofs AsyncModel AsyncProofs.
From Coq Require Cantor.

Section Final.
Context {V E : Type}.
Variable g : graph.
Hypothesis Hwf : wf_graph g.
Hypothesis Hacyc : acyclic g.
Variable config : gmap name V.
Variable f : name -> gmap name V -> res E V.
Variable ord : gset name -> list name.
Hypothesis Hord : forall s x, x ∈ ord s <-> x ∈ s.
Variable inputs overrides : option (gmap name V).
Variable fv : list name.
Notation all := (odefault inputs ∪ config).
Notation ov := (odefault overrides).
Notation evalf := (eval f g all ov).
Notation runc := (run g config f ord inputs overrides fv).
Notation default := (default_execute (fun _ => f) g config (odefault inputs) ov fv).

Lemma main_mono cs1 cs2 r : lp_main (runc cs1) = MDone r -> lp_main (runc (cs1 ++ cs2)) = MDone r.
Proof.
  unfold run. rewrite foldl_app. generalize (foldl (step f) (start g config ord inputs overrides fv) cs1) as L.
  induction cs2 as [|c cs2 IH]; intros L HL; [done|]. cbn [foldl]. apply IH. destruct c as [x d|d]; cbn; [|by rewrite HL].
  destruct (lp_tasks L !! x) as [[args [|kw|r']]|]; [|done|done|done].
  destruct (all_there (lp_tasks L) args); [done|]. destruct (args !! d); [|done]. by destruct (slot_error (lp_tasks L) s).
Qed.

Lemma assoc_map {B} (h : name -> B) (l : list (name * B)) : (forall x r, (x, r) ∈ l -> r = h x) -> l = map (fun x => (x, h x)) l.*1.
Proof.
  induction l as [|[x r] l IH]; intros H; [done|]. cbn. f_equal; [f_equal; apply H; left|]. apply IH. intros y s Hy. apply H. by right.
Qed.

Lemma done_values cs out : lp_main (runc cs) = MDone (Ok out) ->
  (forall k, config !! k = None \/ odefault inputs !! k = None) /\
  (forall x, is_Some (out !! x) <-> x ∈ fv) /\ (forall x v, out !! x = Some v -> is_Some (g !! x) /\ evalf x v).
Proof.
  intros Hm. destruct (run_ok g Hwf Hacyc config f ord Hord inputs overrides fv cs) as (tr0 & Hw & Hsp & HL).
  pose proof (li_main _ _ _ _ _ _ _ _ _ HL) as Hmain. unfold main_ok in Hmain. rewrite Hm in Hmain. destruct Hmain as (slots & Heq & -> & Hset).
  rewrite Heq in Hsp. destruct Hsp as (Hdisj & Hfv & Hsl). split; [done|]. split.
  - intros x. rewrite <-Hfv, values_lookup. destruct (slots !! x) as [s|] eqn:Hx; cbn; [|split; by intros [? ?]].
    split; [by eexists|]. intros _. by eapply Hset.
  - intros x v. rewrite values_lookup. destruct (slots !! x) as [s|] eqn:Hx; cbn; [|done]. intros Hv.
    destruct (Hsl x s Hx) as [Hg Hspec]. split; [done|].
    eapply (slot_eval g config f inputs overrides fv tr0 _ _ Hw HL (length tr0) tr0 [] x s v); [done|by rewrite app_nil_r|done|done].
Qed.

Lemma done_all_run cs out x nd : lp_main (runc cs) = MDone (Ok out) -> needed g ov (requested g fv) x -> g !! x = Some nd -> nd_ext nd = false ->
  exists kw v, AStart x kw ∈ lp_trace (runc cs) /\ AEnd x kw (Ok v) ∈ lp_trace (runc cs) /\ evalf x v.
Proof.
  intros Hm Hn Hg Hext. destruct (run_ok g Hwf Hacyc config f ord Hord inputs overrides fv cs) as (tr0 & Hw & Hsp & HL).
  destruct (all_run g Hwf config f inputs overrides fv tr0 _ _ Hw HL out Hsp Hm x Hn nd Hg Hext) as (args & v & Ha).
  destruct (li_ok _ _ _ _ _ _ _ _ _ HL _ _ _ Ha) as (kw & _ & Hs & He). exists kw, v. split; [done|]. split; [done|].
  eapply (slot_eval g config f inputs overrides fv tr0 _ _ Hw HL (length tr0) tr0 [] x (Task x) v); [done|by rewrite app_nil_r| |].
  - right. split; [done|]. destruct (li_tasks _ _ _ _ _ _ _ _ _ HL _ _ _ Ha) as (u1 & r & u2 & ->). eapply elem_calls_of. rewrite elem_of_app. right. left.
  - apply slot_value_task. by exists args.
Qed.

Lemma done_default cs out : lp_main (runc cs) = MDone (Ok out) -> exists tr, default = Answer (map (fun x => (x, out !! x)) fv) tr.
Proof.
  intros Hm. destruct (done_values cs out Hm) as (Hdisj & Hdom & Hv).
  destruct (proj2 (run_success g Hwf Hacyc f config (odefault inputs) ov fv)) as (out' & tr & Hrun).
  { split; [done|]. intros x nd Hn Hg Hext. destruct (done_all_run cs out x nd Hm Hn Hg Hext) as (_ & v & _ & _ & ?). by exists v. }
  exists tr. rewrite Hrun. f_equal. destruct (run_values g Hwf Hacyc f config (odefault inputs) ov fv out' tr Hrun) as [Hk Hr].
  rewrite (assoc_map (fun x => out !! x) out'); [by rewrite Hk|].
  intros x r Hin. specialize (Hr x r Hin).
  assert (Hx : x ∈ fv) by (rewrite <-Hk; apply elem_of_list_fmap; by exists (x, r)).
  apply Hdom in Hx as [w Hw]. rewrite Hw. destruct (Hv x w Hw) as [[nd Hg] Hev]. destruct r as [v|].
  - destruct Hr as [[_ Hr]|[? _]]; [|congruence]. f_equal. by eapply eval_functional.
  - destruct Hr as [Ha|[? _]]; [|congruence]. by destruct (absent_no_eval f g all ov x w Ha).
Qed.

Lemma default_done cs out tr r : (forall x, x ∈ fv -> is_Some (g !! x) \/ is_Some (odefault inputs !! x)) ->
  default = Answer out tr -> lp_main (runc cs) = MDone r ->
  (exists o, r = Ok o /\ out = map (fun x => (x, o !! x)) fv) \/
  (exists x, r = Err (XKey x) /\ x ∈ fv /\ (g !! x = None \/ absent g all ov x)).
Proof.
  intros Hknown Hrun Hm. destruct r as [o|e].
  { left. exists o. split; [done|]. destruct (done_default cs o Hm) as [tr' Hd]. congruence. }
  destruct (run_ok g Hwf Hacyc config f ord Hord inputs overrides fv cs) as (tr0 & Hw & Hsp & HL).
  pose proof (li_main _ _ _ _ _ _ _ _ _ HL) as Hmain. unfold main_ok in Hmain. rewrite Hm in Hmain.
  destruct (proj1 (run_success g Hwf Hacyc f config (odefault inputs) ov fv)) as [Hdisj Hcan]; [by eauto|].
  destruct e as [e|y|x|m| |]; try (rewrite Hmain in Hsp; cbn in Hsp).
  - exfalso. destruct Hmain as (y & kw & Hend). by eapply (no_failure g config f inputs overrides fv).
  - exfalso. destruct Hsp as (Ha & P & nd & HP & HgP & Hin).
    assert (Hext : nd_ext nd = false).
    { destruct (nd_ext nd) eqn:Hx; [|done]. apply (wf_ext _ Hwf _ _ HgP) in Hx. rewrite Hx in Hin. by apply elem_of_nil in Hin. }
    destruct (Hcan P nd HP HgP Hext) as [v Hv]. assert (Ho : ov !! P = None) by by inversion HP.
    inversion Hv as [|? nd' ? Ho' Hg' Hext'|? nd' kw' ? Ho' Hg' Hext' Hdep' Hev' Habs' Hf']; subst; [congruence|congruence|].
    assert (nd' = nd) as -> by congruence. destruct (kw' !! y) as [w|] eqn:Hy.
    + by destruct (absent_no_eval f g all ov y w Ha); apply Hev'.
    + by destruct (Habs' y REQUIRED Hin Hy) as [_ ?].
  - right. exists x. split; [done|]. destruct Hsp as [Hx [[? _]|?]]; auto.
  - exfalso. destruct Hsp as (_ & Hne & Hall). destruct m as [|x m]; [done|]. destruct (Hall x ltac:(left)) as (Hx & Hg & Hi).
    destruct (Hknown x Hx) as [[? ?]|[? ?]]; congruence.
  - exfalso. destruct Hsp as (_ & k & [? ?] & [? ?]). destruct (Hdisj k); congruence.
  - done.
Qed.

(** The schedule [sched] for [n] steps. *)
Definition prefix_of (sched : nat -> choice) (n : nat) : list choice := map sched (seq 0 n).

Lemma fair_finishes (sched : nat -> choice) : (forall c n, exists m, n <= m /\ sched m = c) ->
  exists n r, lp_main (runc (prefix_of sched n)) = MDone r.
Proof.
  intros Hfair. destruct (run_ok g Hwf Hacyc config f ord Hord inputs overrides fv []) as (tr0 & Hw & Hsp & HL).
  apply (fair_done g config f inputs overrides fv tr0 _ (runc []) Hw HL sched (fun n => runc (prefix_of sched n)) Hsp); [exact HL| |done].
  intros n. unfold run, prefix_of. rewrite seq_S, map_app, foldl_app. done.
Qed.

Lemma error_cases cs e : lp_main (runc cs) = MDone (Err e) ->
  match e with
  | XUser e => exists x kw, AStart x kw ∈ lp_trace (runc cs) /\ AEnd x kw (Err e) ∈ lp_trace (runc cs) /\ f x kw = Err e
  | XMissing y => absent g all ov y /\ exists P nd, needed g ov (requested g fv) P /\ g !! P = Some nd /\ (y, REQUIRED) ∈ nd_deps nd
  | XKey x => x ∈ fv /\ ((g !! x = None /\ is_Some (odefault inputs !! x)) \/ absent g all ov x)
  | XUnknown m => m <> [] /\ forall x, x ∈ m -> x ∈ fv /\ g !! x = None /\ odefault inputs !! x = None
  | XClash => exists k, is_Some (config !! k) /\ is_Some (odefault inputs !! k)
  | XFuel => False
  end.
Proof.
  intros Hm. destruct (run_ok g Hwf Hacyc config f ord Hord inputs overrides fv cs) as (tr0 & Hw & Hsp & HL).
  pose proof (li_main _ _ _ _ _ _ _ _ _ HL) as Hmain. unfold main_ok in Hmain. rewrite Hm in Hmain.
  destruct e as [e|y|x|m| |]; try (rewrite Hmain in Hsp; cbn in Hsp); try done.
  - destruct Hmain as (y & kw & Hend). destruct (li_ends _ _ _ _ _ _ _ _ _ HL _ _ _ Hend) as [Hf Hs]. by exists y, kw.
  - by destruct Hsp as (_ & ? & ?).
  - by destruct Hsp as (_ & ?).
Qed.
End Final.

(** ** C61 *)
(** Whatever the order in which the event loop runs the tasks, what [execute] returns has
    exactly the requested variables, with their meanings. *)
Theorem C61_returns_meaning :
  forall (V E : Type) (f : name -> gmap name V -> res E V) (g : graph) config ord inputs overrides fv cs out,
    wf_graph g -> acyclic g -> (forall s x, x ∈ ord s <-> x ∈ s) ->
    lp_main (run g config f ord inputs overrides fv cs) = MDone (Ok out) ->
    (forall x, is_Some (out !! x) <-> x ∈ fv) /\
    (forall x v, out !! x = Some v -> eval f g (odefault inputs ∪ config) (odefault overrides) x v).
Proof.
  intros V E f g config ord inputs overrides fv cs out Hwf Hac Hord Hm.
  destruct (done_values g Hwf Hac config f ord Hord inputs overrides fv cs out Hm) as (_ & ? & Hv). split; [done|].
  intros x v Hx. by destruct (Hv x v Hx).
Qed.
Print Assumptions C61_returns_meaning.

(** It is what [Driver.execute] with the default executor returns. *)
Theorem C61_same_as_driver :
  forall (V E : Type) (f : name -> gmap name V -> res E V) (g : graph) config ord inputs overrides fv cs out,
    wf_graph g -> acyclic g -> (forall s x, x ∈ ord s <-> x ∈ s) ->
    lp_main (run g config f ord inputs overrides fv cs) = MDone (Ok out) ->
    exists tr, default_execute (fun _ => f) g config (odefault inputs) (odefault overrides) fv = Answer (map (fun x => (x, out !! x)) fv) tr.
Proof. intros. by eapply done_default. Qed.
Print Assumptions C61_same_as_driver.

(** Conversely, if the driver has an answer then the asynchronous driver has the same one
    whenever it is done, or there is a KeyError about a requested variable that is not a function. *)
Theorem C61_driver_answers :
  forall (V E : Type) (f : name -> gmap name V -> res E V) (g : graph) config ord inputs overrides fv cs out tr r,
    wf_graph g -> acyclic g -> (forall s x, x ∈ ord s <-> x ∈ s) ->
    (forall x, x ∈ fv -> is_Some (g !! x) \/ is_Some (odefault inputs !! x)) ->
    default_execute (fun _ => f) g config (odefault inputs) (odefault overrides) fv = Answer out tr ->
    lp_main (run g config f ord inputs overrides fv cs) = MDone r ->
    (exists o, r = Ok o /\ out = map (fun x => (x, o !! x)) fv) \/
    (exists x, r = Err (XKey x) /\ x ∈ fv /\ (g !! x = None \/ absent g (odefault inputs ∪ config) (odefault overrides) x)).
Proof. intros. by eapply default_done. Qed.
Print Assumptions C61_driver_answers.

(** At any moment no function has been called twice. *)
Theorem C61_at_most_once :
  forall (V E : Type) (f : name -> gmap name V -> res E V) (g : graph) config ord inputs overrides fv cs,
    wf_graph g -> acyclic g -> (forall s x, x ∈ ord s <-> x ∈ s) ->
    NoDup (starts_of (lp_trace (run g config f ord inputs overrides fv cs))).
Proof.
  intros V E f g config ord inputs overrides fv cs Hwf Hac Hord.
  destruct (run_ok g Hwf Hac config f ord Hord inputs overrides fv cs) as (tr0 & Hw & Hsp & HL).
  apply (starts_nodup_aux). intros t1 x kw t2 Ht. by destruct (li_starts _ _ _ _ _ _ _ _ _ HL _ _ _ _ Ht) as [? _].
Qed.
Print Assumptions C61_at_most_once.

(** A function is called only if it is needed and not before its arguments are there: each is
    an override, an input, or what a function that has returned before gave; none is missing
    but optional ones that are not given. *)
Theorem C61_arguments :
  forall (V E : Type) (f : name -> gmap name V -> res E V) (g : graph) config ord inputs overrides fv cs t1 x kw t2,
    wf_graph g -> acyclic g -> (forall s x, x ∈ ord s <-> x ∈ s) ->
    lp_trace (run g config f ord inputs overrides fv cs) = t1 ++ AStart x kw :: t2 ->
    needed g (odefault overrides) (requested g fv) x /\
    exists nd, g !! x = Some nd /\ nd_ext nd = false /\
      (forall d w, kw !! d = Some w -> d ∈ dep_names nd /\ eval f g (odefault inputs ∪ config) (odefault overrides) d w /\
        (odefault overrides !! d = Some w \/
         odefault overrides !! d = None /\ ((exists nd, g !! d = Some nd /\ nd_ext nd = true) /\ (odefault inputs ∪ config) !! d = Some w) \/
         exists kw', AEnd d kw' (Ok w) ∈ t1)) /\
      (forall d dt, (d, dt) ∈ nd_deps nd -> kw !! d = None -> absent g (odefault inputs ∪ config) (odefault overrides) d /\ dt = OPTIONAL).
Proof.
  intros V E f g config ord inputs overrides fv cs t1 x kw t2 Hwf Hac Hord Ht.
  destruct (run_ok g Hwf Hac config f ord Hord inputs overrides fv cs) as (tr0 & Hw & Hsp & HL).
  destruct (li_starts _ _ _ _ _ _ _ _ _ HL _ _ _ _ Ht) as (_ & Hn & nd & Hg & Hext & Hkw & Habs).
  split; [done|]. exists nd. split; [done|]. split; [done|]. split; [|done].
  intros d w Hd. destruct (Hkw d w Hd) as [? Hcase]. split; [done|]. split.
  - eapply (start_evals g config f inputs overrides fv tr0 _ _ Hw HL x kw); [rewrite Ht, elem_of_app; right; left|done].
  - destruct Hcase as [[?|(? & nd' & ? & ? & ?)]|?]; [by left| |by right; right]. right. left. split; [done|]. split; [by exists nd'|done].
Qed.
Print Assumptions C61_arguments.

(** When [execute] has returned, the functions that have been called are the needed ones, and
    all of them have returned. *)
Theorem C61_runs_what_is_needed :
  forall (V E : Type) (f : name -> gmap name V -> res E V) (g : graph) config ord inputs overrides fv cs out x,
    wf_graph g -> acyclic g -> (forall s x, x ∈ ord s <-> x ∈ s) ->
    lp_main (run g config f ord inputs overrides fv cs) = MDone (Ok out) ->
    ((exists kw, AStart x kw ∈ lp_trace (run g config f ord inputs overrides fv cs)) <->
     needed g (odefault overrides) (requested g fv) x /\ exists nd, g !! x = Some nd /\ nd_ext nd = false) /\
    (forall kw, AStart x kw ∈ lp_trace (run g config f ord inputs overrides fv cs) ->
       exists v, f x kw = Ok v /\ AEnd x kw (Ok v) ∈ lp_trace (run g config f ord inputs overrides fv cs)).
Proof.
  intros V E f g config ord inputs overrides fv cs out x Hwf Hac Hord Hm.
  destruct (run_ok g Hwf Hac config f ord Hord inputs overrides fv cs) as (tr0 & Hw & Hsp & HL).
  assert (Hneed : forall kw, AStart x kw ∈ lp_trace (run g config f ord inputs overrides fv cs) ->
    needed g (odefault overrides) (requested g fv) x /\ exists nd, g !! x = Some nd /\ nd_ext nd = false).
  { intros kw Hin. apply elem_of_list_split in Hin as (t1 & t2 & Ht).
    destruct (li_starts _ _ _ _ _ _ _ _ _ HL _ _ _ _ Ht) as (_ & Hn & nd & Hg & Hext & _). split; [done|]. by exists nd. }
  split; [split|].
  - intros [kw Hin]. by eapply Hneed.
  - intros (Hn & nd & Hg & Hext). destruct (done_all_run g Hwf Hac config f ord Hord inputs overrides fv cs out x nd Hm Hn Hg Hext) as (kw & _ & ? & _). by exists kw.
  - intros kw Hin. destruct (Hneed kw Hin) as (Hn & nd & Hg & Hext).
    destruct (done_all_run g Hwf Hac config f ord Hord inputs overrides fv cs out x nd Hm Hn Hg Hext) as (kw' & v & Hs & He & _).
    destruct (li_st _ _ _ _ _ _ _ _ _ HL _ _ Hin) as (a & st & Ha & -> & _).
    destruct (li_st _ _ _ _ _ _ _ _ _ HL _ _ Hs) as (a' & st' & Ha' & -> & _).
    assert (a' = a) as -> by congruence. exists v. split; [|done]. by destruct (li_ends _ _ _ _ _ _ _ _ _ HL _ _ _ He).
Qed.
Print Assumptions C61_runs_what_is_needed.

(** If [execute] raises, then because a function raised that exception, or because the request
    cannot be met. *)
Theorem C61_exceptions :
  forall (V E : Type) (f : name -> gmap name V -> res E V) (g : graph) config ord inputs overrides fv cs e,
    wf_graph g -> acyclic g -> (forall s x, x ∈ ord s <-> x ∈ s) ->
    lp_main (run g config f ord inputs overrides fv cs) = MDone (Err e) ->
    match e with
    | XUser e => exists x kw, AStart x kw ∈ lp_trace (run g config f ord inputs overrides fv cs) /\
        AEnd x kw (Err e) ∈ lp_trace (run g config f ord inputs overrides fv cs) /\ f x kw = Err e
    | XMissing y => absent g (odefault inputs ∪ config) (odefault overrides) y /\
        exists P nd, needed g (odefault overrides) (requested g fv) P /\ g !! P = Some nd /\ (y, REQUIRED) ∈ nd_deps nd
    | XKey x => x ∈ fv /\ ((g !! x = None /\ is_Some (odefault inputs !! x)) \/ absent g (odefault inputs ∪ config) (odefault overrides) x)
    | XUnknown m => m <> [] /\ forall x, x ∈ m -> x ∈ fv /\ g !! x = None /\ odefault inputs !! x = None
    | XClash => exists k, is_Some (config !! k) /\ is_Some (odefault inputs !! k)
    | XFuel => False
    end.
Proof. intros. by eapply error_cases. Qed.
Print Assumptions C61_exceptions.

(** An event loop that never neglects a task for ever finishes every request; what [execute]
    has returned or raised does not change. *)
Theorem C61_finishes :
  forall (V E : Type) (f : name -> gmap name V -> res E V) (g : graph) config ord inputs overrides fv (sched : nat -> choice),
    wf_graph g -> acyclic g -> (forall s x, x ∈ ord s <-> x ∈ s) ->
    (forall c n, exists m, n <= m /\ sched m = c) ->
    exists n r, forall m, n <= m -> lp_main (run g config f ord inputs overrides fv (prefix_of sched m)) = MDone r.
Proof.
  intros V E f g config ord inputs overrides fv sched Hwf Hac Hord Hfair.
  destruct (fair_finishes g Hwf Hac config f ord Hord inputs overrides fv sched Hfair) as (n & r & Hn).
  exists n, r. intros m Hm. assert (exists cs, prefix_of sched m = prefix_of sched n ++ cs) as [cs ->].
  { exists (map sched (seq n (m - n))). unfold prefix_of. rewrite <-map_app. f_equal. change n with (0 + n) at 2. by rewrite <-seq_app, Nat.add_comm, Nat.sub_add. }
  by apply main_mono.
Qed.
Print Assumptions C61_finishes.

(** If every needed function has a meaning (none of them raises and no required input is
    missing) and every requested variable has one, then the request succeeds. *)
Theorem C61_succeeds :
  forall (V E : Type) (f : name -> gmap name V -> res E V) (g : graph) config ord inputs overrides fv cs r,
    wf_graph g -> acyclic g -> (forall s x, x ∈ ord s <-> x ∈ s) ->
    (forall k, config !! k = None \/ odefault inputs !! k = None) ->
    (forall x, x ∈ fv -> is_Some (g !! x) /\ ~ absent g (odefault inputs ∪ config) (odefault overrides) x) ->
    (forall x nd, needed g (odefault overrides) (requested g fv) x -> g !! x = Some nd -> nd_ext nd = false ->
       exists v, eval f g (odefault inputs ∪ config) (odefault overrides) x v) ->
    lp_main (run g config f ord inputs overrides fv cs) = MDone r -> exists out, r = Ok out.
Proof.
  intros V E f g config ord inputs overrides fv cs r Hwf Hac Hord Hdisj Hfv Hcan Hm.
  destruct (proj2 (run_success g Hwf Hac f config (odefault inputs) (odefault overrides) fv)) as (out & tr & Hrun); [done|].
  destruct (default_done g Hwf Hac config f ord Hord inputs overrides fv cs out tr r) as [(o & -> & _)|(x & _ & Hx & Hno)]; [|done|done|by exists o|].
  - intros x Hx. left. by apply Hfv.
  - destruct (Hfv x Hx) as [[nd Hg] Hna]. by destruct Hno as [?|?]; [congruence|].
Qed.
Print Assumptions C61_succeeds.

(** A run in which the event loop interleaves two branches and calls [d] when both are there. *)
Definition ex_async (f : name -> gmap name nat -> res string nat) inputs fv cs := run ex_graph ∅ f elements (Some inputs) None fv cs.
Definition ex_cs (l : list name) : list choice := map (fun x => CTask x x) l.
Example C61_nonvacuous :
  match lp_main (ex_async ex_f (<["a" := 10]> ∅) ["d"; "b"] (ex_cs ["d"; "c"; "b"; "b"; "c"; "d"; "c"; "d"; "d"] ++ [CMain ""])) with
  | MDone (Ok out) => out !! "d" = Some 34 /\ out !! "b" = Some 11 /\ out !! "c" = None
  | _ => False
  end /\
  starts_of (lp_trace (ex_async ex_f (<["a" := 10]> ∅) ["d"; "b"] (ex_cs ["d"; "c"; "b"; "b"; "c"; "d"; "c"; "d"; "d"] ++ [CMain ""]))) = ["b"; "c"; "d"] /\
  (forall s x, x ∈ elements s <-> x ∈ (s : gset name)).
Proof.
  split; [vm_compute; auto|]. split; [vm_compute; reflexivity|]. intros s x. apply elem_of_elements.
Qed.
(** Fair schedules exist. *)
Definition choice_code (c : choice) : name * name + name := match c with CTask x d => inl (x, d) | CMain d => inr d end.
Definition fair_sched (n : nat) : choice :=
  match decode_nat (A:=name * name + name) (fst (Cantor.of_nat n)) with
  | Some (inl (x, d)) => CTask x d
  | Some (inr d) => CMain d
  | None => CMain ""
  end.
Example C61_nonvacuous_fair : forall c n, exists m, n <= m /\ fair_sched m = c.
Proof.
  intros c n. exists (Cantor.to_nat (encode_nat (choice_code c), n)). split; [pose proof (Cantor.to_nat_non_decreasing (encode_nat (choice_code c)) n); lia|].
  unfold fair_sched. rewrite Cantor.cancel_of_to. cbn [fst]. rewrite decode_encode_nat. by destruct c.
Qed.
Example C61_nonvacuous_error :
  match lp_main (ex_async ex_f (<["a" := 10]> ∅) ["d"; "z"] (ex_cs ["z"; "z"] ++ [CMain "z"])) with
  | MDone (Err (XUser e)) => e = "boom"
  | _ => False
  end.
Proof. vm_compute. reflexivity. Qed.

(** *** Findings *)
(** After [execute] has raised the exception of one function, functions go on being called
    (the default executor stops, C09). *)
Theorem C61_functions_start_after_failure_refuted :
  exists (f : name -> gmap name nat -> res string nat) (g : graph) inputs fv cs cs' e x,
    wf_graph g /\ acyclic g /\
    lp_main (run g ∅ f elements (Some inputs) None fv cs) = MDone (Err (XUser e)) /\
    x ∉ starts_of (lp_trace (run g ∅ f elements (Some inputs) None fv cs)) /\
    x ∈ starts_of (lp_trace (run g ∅ f elements (Some inputs) None fv (cs ++ cs'))).
Proof.
  exists ex_f, ex_graph, (<["a" := 10]> ∅), ["d"; "z"], (ex_cs ["z"; "z"] ++ [CMain "z"]), (ex_cs ["b"]), "boom", "b".
  split; [apply ex_wf|]. split; [apply ex_acyclic|]. split; [vm_compute; reflexivity|].
  split; [apply (bool_decide_unpack _); vm_compute; reflexivity|apply (bool_decide_unpack _); vm_compute; reflexivity].
Qed.
Print Assumptions C61_functions_start_after_failure_refuted.

(** A request that is refused because a required input is missing still has functions called
    ([Driver.execute] checks the inputs first, C52). *)
Definition ex_missing : graph :=
  list_to_map
    [ ("a", Node true [] ["p"]); ("m", Node true [] ["q"]);
      ("p", Node false [("a", REQUIRED)] ["q"]);
      ("q", Node false [("p", REQUIRED); ("m", REQUIRED)] []) ].
Theorem C61_refused_requests_run_functions_refuted :
  exists (f : name -> gmap name nat -> res string nat) (g : graph) inputs fv cs y x,
    wf_graph g /\ acyclic g /\
    lp_main (run g ∅ f elements (Some inputs) None fv []) = MDone (Err (XMissing y)) /\
    x ∈ starts_of (lp_trace (run g ∅ f elements (Some inputs) None fv cs)).
Proof.
  exists ex_f, ex_missing, (<["a" := 10]> ∅), ["q"], (ex_cs ["p"]), "m", "p".
  split; [by apply wf_graphb_ok; vm_compute|]. split; [by apply (rankedb_acyclic (rank_in ["a"; "m"; "p"; "q"])); vm_compute|].
  split; [vm_compute; reflexivity|apply (bool_decide_unpack _); vm_compute; reflexivity].
Qed.
Print Assumptions C61_refused_requests_run_functions_refuted.

(** Requesting an optional input that is not given, or a runtime input that is no node, is a
    KeyError; [Driver.execute] answers. *)
Theorem C61_requests_of_inputs_refuted :
  (exists tr, ex_run ["opt"] = Answer [("opt", None)] tr) /\
  lp_main (ex_async ex_f (<["a" := 10]> ∅) ["opt"] []) = MDone (Err (XKey "opt")) /\
  (exists tr, default_execute (fun _ => ex_f) ex_graph ∅ (<["note" := 3]> ∅) ∅ ["note"] = Answer [("note", Some 3)] tr) /\
  lp_main (ex_async ex_f (<["note" := 3]> ∅) ["note"] []) = MDone (Err (XKey "note")).
Proof.
  split; [eexists; vm_compute; reflexivity|]. split; [vm_compute; reflexivity|].
  split; [eexists; vm_compute; reflexivity|]. vm_compute; reflexivity.
Qed.
Print Assumptions C61_requests_of_inputs_refuted.
