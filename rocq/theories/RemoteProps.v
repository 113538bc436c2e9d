(** C69: the adapters that run functions on a cluster. *)
From Verif Require Import Base ExecModel ExecSpec ExecProofs ExecResults ExecProps AsyncModel AsyncProofs AsyncProps RemoteModel RemoteProofs.
From Coq Require Cantor.

Section Final.
Context {V E R : Type}.
Variable g : graph.
Hypothesis Hwf : wf_graph g.
Hypothesis Hacyc : acyclic g.
Variable f : name -> gmap name V -> res E V.
Variable build : list (name * option V) -> res E R.
Variable reserved : list name.
Variable type_error : E.
Variable eager : bool.
Variable config inputs ov : gmap name V.
Variable fv : list name.
Notation all := (inputs ∪ config).
Notation loc := (default_execute (fun _ => f) g config inputs ov fv).
Notation runc := (rrun g f build reserved type_error eager config inputs ov fv).
Notation rinv' := (rinv g f build eager config inputs ov fv).
Notation inv := (rrun_inv g Hwf Hacyc f build reserved type_error eager config inputs ov fv).

Lemma rmain_mono cs1 cs2 r : rc_main (runc cs1) = DDone r -> rc_main (runc (cs1 ++ cs2)) = DDone r.
Proof.
  unfold rrun. rewrite foldl_app. generalize (foldl (rstep f build eager) (rstart g reserved type_error config inputs ov fv) cs1) as C.
  induction cs2 as [|c cs2 IH]; intros C HC; [done|]. cbn [foldl]. apply IH. destruct c as [|x d|d]; cbn; [by rewrite HC| |].
  - destruct (eager || _); [|done]. destruct (rc_tasks C !! x) as [[args [|kw|r']]|]; [|done|done|done].
    destruct (all_there (rc_tasks C) args); [done|]. by destruct (args !! d ≫= _).
  - destruct (rc_combine C) as [[outs [|vals|r']]|]; [|done|done|done]. destruct (outs_there _ _); [done|]. by destruct (outs_error _ _ _).
Qed.

Lemma done_ok cs r : rc_main (runc cs) = DDone (Ok r) ->
  exists tr0 en0 outs vals tr, walked g config (Some inputs) (Some ov) fv tr0 /\ ending_spec g reserved config inputs ov fv tr0 en0 /\ rinv' tr0 en0 (runc cs) /\
    en0 = EBuild outs /\ osettled (rc_tasks (runc cs)) outs vals /\ loc = Answer vals tr /\ build vals = Ok r.
Proof.
  intros Hm. destruct (inv cs) as (tr0 & en0 & Hw & Hen & HC). pose proof (ri_main _ _ _ _ _ _ _ _ _ _ _ HC) as Hmain. rewrite Hm in Hmain.
  destruct Hmain as [outs Hc]. destruct (ri_combine _ _ _ _ _ _ _ _ _ _ _ HC _ _ Hc) as [Heq [(vals & Hset & Hb)|(e & y & kw & ? & _)]]; [|done].
  destruct (built g Hwf Hacyc f build reserved eager config inputs ov fv tr0 en0 Hw Hen (runc cs) HC outs vals Heq Hset) as [tr Htr].
  by exists tr0, en0, outs, vals, tr.
Qed.

Lemma done_runs cs r x nd : rc_main (runc cs) = DDone (Ok r) -> needed g ov (requested g fv) x -> g !! x = Some nd -> nd_ext nd = false ->
  exists kw v, AStart x kw ∈ rc_trace (runc cs) /\ AEnd x kw (Ok v) ∈ rc_trace (runc cs).
Proof.
  intros Hm Hn Hg Hext. destruct (done_ok cs r Hm) as (tr0 & en0 & outs & vals & tr & Hw & Hen & HC & Heq & Hset & _).
  destruct (remote_all_run g Hwf f build reserved eager config inputs ov fv tr0 en0 Hw Hen (runc cs) HC outs vals Heq Hset x Hn nd Hg Hext) as (args & v & Ha).
  destruct (li_ok _ _ _ _ _ _ _ _ _ (ri_loop _ _ _ _ _ _ _ _ _ _ _ HC) _ _ _ Ha) as (kw & _ & Hs & He). by exists kw, v.
Qed.

Lemma rerror_cases cs e : rc_main (runc cs) = DDone (Err e) ->
  match e with
  | RUser e => (exists x kw, AStart x kw ∈ rc_trace (runc cs) /\ AEnd x kw (Err e) ∈ rc_trace (runc cs) /\ f x kw = Err e) \/
               (exists out tr, loc = Answer out tr /\ build out = Err e)
  | RMissing y => absent g all ov y /\ exists P nd, needed g ov (requested g fv) P /\ g !! P = Some nd /\ (y, REQUIRED) ∈ nd_deps nd
  | RType => exists x nd d, needed g ov (requested g fv) x /\ g !! x = Some nd /\ nd_ext nd = false /\ d ∈ dep_names nd /\ d ∈ reserved
  | RClash => exists k, is_Some (config !! k) /\ is_Some (inputs !! k)
  | RFuel => False
  end.
Proof.
  intros Hm. destruct (inv cs) as (tr0 & en0 & Hw & Hen & HC). pose proof (ri_main _ _ _ _ _ _ _ _ _ _ _ HC) as Hmain. rewrite Hm in Hmain.
  destruct Hmain as [[Heq _]|(outs & e' & -> & Hc)].
  - rewrite Heq in Hen. destruct e; cbn in Hen; try done. by destruct Hen as [_ ?].
  - destruct (ri_combine _ _ _ _ _ _ _ _ _ _ _ HC _ _ Hc) as [Heq [(vals & Hset & Hb)|(e & y & kw & [= ->] & Hend)]].
    + right. destruct (built g Hwf Hacyc f build reserved eager config inputs ov fv tr0 en0 Hw Hen (runc cs) HC outs vals Heq Hset) as [tr Htr]. by exists vals, tr.
    + left. destruct (li_ends _ _ _ _ _ _ _ _ _ (ri_loop _ _ _ _ _ _ _ _ _ _ _ HC) _ _ _ Hend) as [Hf Hs]. by exists y, kw.
Qed.

Lemma local_done cs out tr r : loc = Answer out tr ->
  (forall x nd d, needed g ov (requested g fv) x -> g !! x = Some nd -> d ∈ dep_names nd -> d ∉ reserved) ->
  rc_main (runc cs) = DDone r -> match r with Ok o => build out = Ok o | Err (RUser e) => build out = Err e | Err _ => False end.
Proof.
  intros Hrun Hres Hm. destruct r as [o|e].
  { destruct (done_ok cs o Hm) as (tr0 & en0 & outs & vals & tr' & _ & _ & _ & _ & _ & Hl & Hb). congruence. }
  destruct (proj1 (run_success g Hwf Hacyc f config inputs ov fv)) as [Hdisj Hcan]; [by eauto|].
  pose proof (rerror_cases cs e Hm) as He. destruct e as [e|y| | |].
  - destruct He as [(x & kw & _ & Hend & _)|(out' & tr' & ? & ?)]; [|congruence]. exfalso.
    destruct (inv cs) as (tr0 & en0 & Hw & Hen & HC). pose proof (ri_loop _ _ _ _ _ _ _ _ _ _ _ HC) as HL.
    exact (no_failure g config f (Some inputs) (Some ov) fv tr0 _ _ Hw HL x kw e Hcan Hend).
  - destruct He as (Ha & P & nd & HP & HgP & Hin).
    assert (Hext : nd_ext nd = false).
    { destruct (nd_ext nd) eqn:Hx; [|done]. apply (wf_ext _ Hwf _ _ HgP) in Hx. rewrite Hx in Hin. by apply elem_of_nil in Hin. }
    destruct (Hcan P nd HP HgP Hext) as [v Hv]. assert (Ho : ov !! P = None) by by inversion HP.
    inversion Hv as [|? nd' ? Ho' Hg' Hext'|? nd' kw' ? Ho' Hg' Hext' Hdep' Hev' Habs' Hf']; subst; [congruence|congruence|].
    assert (nd' = nd) as -> by congruence. destruct (kw' !! y) as [w|] eqn:Hy.
    + by destruct (absent_no_eval f g all ov y w Ha); apply Hev'.
    + by destruct (Habs' y REQUIRED Hin Hy) as [_ ?].
  - destruct He as (x & nd & d & ? & ? & _ & ? & ?). by destruct (Hres x nd d).
  - destruct He as (k & [? ?] & [? ?]). destruct (Hdisj k); congruence.
  - done.
Qed.

(** The schedule [sched] for [n] steps. *)
Definition rprefix (sched : nat -> rchoice) (n : nat) : list rchoice := map sched (seq 0 n).
Lemma rfair (sched : nat -> rchoice) : (forall c n, exists m, n <= m /\ sched m = c) ->
  exists n r, rc_main (runc (rprefix sched n)) = DDone r.
Proof.
  intros Hfair. destruct (walk_spec (R:=R) g Hwf Hacyc f reserved type_error config inputs ov fv) as (tr0 & en0 & Hw & Hok & Hen & Hst).
  apply (remote_fair g f build reserved eager config inputs ov fv tr0 en0 Hw Hen sched (fun n => runc (rprefix sched n))); [| |done].
  - unfold rrun, rprefix. cbn [seq map foldl]. rewrite Hst. by apply rinv_start.
  - intros n. unfold rrun, rprefix. rewrite seq_S, map_app, foldl_app. done.
Qed.
End Final.

(** ** C69 *)
(** Whatever the order in which the cluster runs the tasks: if [execute] returns, then it
    returns what the result builder makes of the answer of the default executor. *)
Theorem C69_same_as_driver :
  forall (V E R : Type) (f : name -> gmap name V -> res E V) (build : list (name * option V) -> res E R) (g : graph)
    reserved type_error eager config inputs ov fv cs r,
    wf_graph g -> acyclic g ->
    rc_main (rrun g f build reserved type_error eager config inputs ov fv cs) = DDone (Ok r) ->
    exists out tr, default_execute (fun _ => f) g config inputs ov fv = Answer out tr /\ build out = Ok r.
Proof.
  intros V E R f build g reserved type_error eager config inputs ov fv cs r Hwf Hac Hm.
  destruct (done_ok g Hwf Hac f build reserved type_error eager config inputs ov fv cs r Hm) as (_ & _ & _ & vals & tr & _ & _ & _ & _ & _ & ? & ?). by exists vals, tr.
Qed.
Print Assumptions C69_same_as_driver.

(** Conversely, if the default executor has an answer and no needed function has a parameter
    with a name that the adapter uses, then [execute] ends with what the result builder makes
    of it, be it a result or an exception. *)
Theorem C69_driver_answers :
  forall (V E R : Type) (f : name -> gmap name V -> res E V) (build : list (name * option V) -> res E R) (g : graph)
    reserved type_error eager config inputs ov fv cs out tr r,
    wf_graph g -> acyclic g ->
    default_execute (fun _ => f) g config inputs ov fv = Answer out tr ->
    (forall x nd d, needed g ov (requested g fv) x -> g !! x = Some nd -> d ∈ dep_names nd -> d ∉ reserved) ->
    rc_main (rrun g f build reserved type_error eager config inputs ov fv cs) = DDone r ->
    r = match build out with Ok o => Ok o | Err e => Err (RUser e) end.
Proof.
  intros V E R f build g reserved type_error eager config inputs ov fv cs out tr r Hwf Hac Hrun Hres Hm.
  pose proof (local_done g Hwf Hac f build reserved type_error eager config inputs ov fv cs out tr r Hrun Hres Hm) as H.
  destruct r as [o|[e| | | |]]; try done; by rewrite H.
Qed.
Print Assumptions C69_driver_answers.

(** At any moment no function has been called twice. *)
Theorem C69_at_most_once :
  forall (V E R : Type) (f : name -> gmap name V -> res E V) (build : list (name * option V) -> res E R) (g : graph)
    reserved type_error eager config inputs ov fv cs,
    wf_graph g -> acyclic g ->
    NoDup (starts_of (rc_trace (rrun g f build reserved type_error eager config inputs ov fv cs))).
Proof.
  intros V E R f build g reserved type_error eager config inputs ov fv cs Hwf Hac.
  destruct (rrun_inv g Hwf Hac f build reserved type_error eager config inputs ov fv cs) as (tr0 & en0 & Hw & Hen & HC).
  apply (starts_nodup_aux). intros t1 x kw t2 Ht. by destruct (li_starts _ _ _ _ _ _ _ _ _ (ri_loop _ _ _ _ _ _ _ _ _ _ _ HC) _ _ _ _ Ht) as [? _].
Qed.
Print Assumptions C69_at_most_once.

(** A function is called only if it is needed and not before its arguments are there: each is
    an override, an input, or what a function that has returned before gave; none is missing
    but optional ones that are not given. *)
Theorem C69_arguments :
  forall (V E R : Type) (f : name -> gmap name V -> res E V) (build : list (name * option V) -> res E R) (g : graph)
    reserved type_error eager config inputs ov fv cs t1 x kw t2,
    wf_graph g -> acyclic g ->
    rc_trace (rrun g f build reserved type_error eager config inputs ov fv cs) = t1 ++ AStart x kw :: t2 ->
    needed g ov (requested g fv) x /\
    exists nd, g !! x = Some nd /\ nd_ext nd = false /\
      (forall d w, kw !! d = Some w -> d ∈ dep_names nd /\ eval f g (inputs ∪ config) ov d w /\
        (ov !! d = Some w \/
         ov !! d = None /\ ((exists nd, g !! d = Some nd /\ nd_ext nd = true) /\ (inputs ∪ config) !! d = Some w) \/
         exists kw', AEnd d kw' (Ok w) ∈ t1)) /\
      (forall d dt, (d, dt) ∈ nd_deps nd -> kw !! d = None -> absent g (inputs ∪ config) ov d /\ dt = OPTIONAL).
Proof.
  intros V E R f build g reserved type_error eager config inputs ov fv cs t1 x kw t2 Hwf Hac Ht.
  destruct (rrun_inv g Hwf Hac f build reserved type_error eager config inputs ov fv cs) as (tr0 & en0 & Hw & Hen & HC).
  pose proof (ri_loop _ _ _ _ _ _ _ _ _ _ _ HC) as HL.
  destruct (li_starts _ _ _ _ _ _ _ _ _ HL _ _ _ _ Ht) as (_ & Hn & nd & Hg & Hext & Hkw & Habs).
  split; [done|]. exists nd. split; [done|]. split; [done|]. split; [|done].
  intros d w Hd. destruct (Hkw d w Hd) as [? Hcase]. split; [done|]. split.
  - eapply (start_evals g config f (Some inputs) (Some ov) fv tr0 _ _ Hw HL x kw); [cbn [loop_of lp_trace]; rewrite Ht, elem_of_app; right; left|done].
  - destruct Hcase as [[?|(? & nd' & ? & ? & ?)]|?]; [by left| |by right; right]. right. left. split; [done|]. split; [by exists nd'|done].
Qed.
Print Assumptions C69_arguments.

(** When [execute] has returned, the functions that have been called are the needed ones, and
    all of them have returned. *)
Theorem C69_runs_what_is_needed :
  forall (V E R : Type) (f : name -> gmap name V -> res E V) (build : list (name * option V) -> res E R) (g : graph)
    reserved type_error eager config inputs ov fv cs r x,
    wf_graph g -> acyclic g ->
    rc_main (rrun g f build reserved type_error eager config inputs ov fv cs) = DDone (Ok r) ->
    ((exists kw, AStart x kw ∈ rc_trace (rrun g f build reserved type_error eager config inputs ov fv cs)) <->
     needed g ov (requested g fv) x /\ exists nd, g !! x = Some nd /\ nd_ext nd = false) /\
    (forall kw, AStart x kw ∈ rc_trace (rrun g f build reserved type_error eager config inputs ov fv cs) ->
       exists v, f x kw = Ok v /\ AEnd x kw (Ok v) ∈ rc_trace (rrun g f build reserved type_error eager config inputs ov fv cs)).
Proof.
  intros V E R f build g reserved type_error eager config inputs ov fv cs r x Hwf Hac Hm.
  pose proof (done_runs g Hwf Hac f build reserved type_error eager config inputs ov fv cs r x) as Hruns.
  destruct (rrun_inv g Hwf Hac f build reserved type_error eager config inputs ov fv cs) as (tr0 & en0 & Hw & Hen & HC).
  pose proof (ri_loop _ _ _ _ _ _ _ _ _ _ _ HC) as HL.
  assert (Hneed : forall kw, AStart x kw ∈ rc_trace (rrun g f build reserved type_error eager config inputs ov fv cs) ->
    needed g ov (requested g fv) x /\ exists nd, g !! x = Some nd /\ nd_ext nd = false).
  { intros kw Hin. apply elem_of_list_split in Hin as (t1 & t2 & Ht).
    destruct (li_starts _ _ _ _ _ _ _ _ _ HL _ _ _ _ Ht) as (_ & Hn & nd & Hg & Hext & _). split; [done|]. by exists nd. }
  split; [split|].
  - intros [kw Hin]. by eapply Hneed.
  - intros (Hn & nd & Hg & Hext). destruct (Hruns nd Hm Hn Hg Hext) as (kw & _ & ? & _). by exists kw.
  - intros kw Hin. destruct (Hneed kw Hin) as (Hn & nd & Hg & Hext). destruct (Hruns nd Hm Hn Hg Hext) as (kw' & v & Hs & He).
    destruct (li_st _ _ _ _ _ _ _ _ _ HL _ _ Hin) as (a & st & Ha & -> & _).
    destruct (li_st _ _ _ _ _ _ _ _ _ HL _ _ Hs) as (a' & st' & Ha' & -> & _).
    assert (a' = a) as -> by congruence. exists v. split; [|done]. by destruct (li_ends _ _ _ _ _ _ _ _ _ HL _ _ _ He).
Qed.
Print Assumptions C69_runs_what_is_needed.

(** If [execute] raises, then because a function or the result builder raised that exception,
    because a required input is missing, because a parameter of a needed function has a name
    that the adapter uses, or because inputs and configuration clash. *)
Theorem C69_exceptions :
  forall (V E R : Type) (f : name -> gmap name V -> res E V) (build : list (name * option V) -> res E R) (g : graph)
    reserved type_error eager config inputs ov fv cs e,
    wf_graph g -> acyclic g ->
    rc_main (rrun g f build reserved type_error eager config inputs ov fv cs) = DDone (Err e) ->
    match e with
    | RUser e =>
        (exists x kw, AStart x kw ∈ rc_trace (rrun g f build reserved type_error eager config inputs ov fv cs) /\
           AEnd x kw (Err e) ∈ rc_trace (rrun g f build reserved type_error eager config inputs ov fv cs) /\ f x kw = Err e) \/
        (exists out tr, default_execute (fun _ => f) g config inputs ov fv = Answer out tr /\ build out = Err e)
    | RMissing y => absent g (inputs ∪ config) ov y /\ exists P nd, needed g ov (requested g fv) P /\ g !! P = Some nd /\ (y, REQUIRED) ∈ nd_deps nd
    | RType => exists x nd d, needed g ov (requested g fv) x /\ g !! x = Some nd /\ nd_ext nd = false /\ d ∈ dep_names nd /\ d ∈ reserved
    | RClash => exists k, is_Some (config !! k) /\ is_Some (inputs !! k)
    | RFuel => False
    end.
Proof.
  intros V E R f build g reserved type_error eager config inputs ov fv cs e Hwf Hac Hm.
  exact (rerror_cases g Hwf Hac f build reserved type_error eager config inputs ov fv cs e Hm).
Qed.
Print Assumptions C69_exceptions.

(** A cluster that never neglects a task for ever finishes every request; what [execute] has
    returned or raised does not change. *)
Theorem C69_finishes :
  forall (V E R : Type) (f : name -> gmap name V -> res E V) (build : list (name * option V) -> res E R) (g : graph)
    reserved type_error eager config inputs ov fv (sched : nat -> rchoice),
    wf_graph g -> acyclic g -> (forall c n, exists m, n <= m /\ sched m = c) ->
    exists n r, forall m, n <= m ->
      rc_main (rrun g f build reserved type_error eager config inputs ov fv (map sched (seq 0 m))) = DDone r.
Proof.
  intros V E R f build g reserved type_error eager config inputs ov fv sched Hwf Hac Hfair.
  destruct (rfair g Hwf Hac f build reserved type_error eager config inputs ov fv sched Hfair) as (n & r & Hn).
  exists n, r. intros m Hm. assert (exists cs, map sched (seq 0 m) = map sched (seq 0 n) ++ cs) as [cs ->].
  { exists (map sched (seq n (m - n))). rewrite <-map_app. f_equal. change n with (0 + n) at 2. by rewrite <-seq_app, Nat.add_comm, Nat.sub_add. }
  by apply rmain_mono.
Qed.
Print Assumptions C69_finishes.

(** With dask and ray workflows a request that cannot be met has no function called at all. *)
Theorem C69_lazy :
  forall (V E R : Type) (f : name -> gmap name V -> res E V) (build : list (name * option V) -> res E R) (g : graph)
    reserved type_error config inputs ov fv cs e,
    wf_graph g -> acyclic g ->
    rc_main (rrun g f build reserved type_error false config inputs ov fv cs) = DDone (Err e) -> (forall e', e <> RUser e') ->
    rc_trace (rrun g f build reserved type_error false config inputs ov fv cs) = [].
Proof.
  intros V E R f build g reserved type_error config inputs ov fv cs e Hwf Hac Hm Hne.
  destruct (rrun_inv g Hwf Hac f build reserved type_error false config inputs ov fv cs) as (tr0 & en0 & Hw & Hen & HC).
  pose proof (ri_main _ _ _ _ _ _ _ _ _ _ _ HC) as Hmain. rewrite Hm in Hmain.
  destruct Hmain as [[_ Hc]|(outs & e' & -> & _)]; [|by destruct (Hne e')]. by apply (ri_lazy _ _ _ _ _ _ _ _ _ _ _ HC).
Qed.
Print Assumptions C69_lazy.

(** A run in which tasks start while the driver still submits others; [d] and then the result
    are made when their arguments are there. *)
Definition ex_build (out : list (name * option nat)) : res string (list (name * option nat)) := Ok out.
Definition ex_remote reserved eager (inputs : gmap name nat) fv cs := rrun ex_graph ex_f ex_build reserved "TypeError" eager ∅ inputs ∅ fv cs.
Definition ex_tasks (l : list name) : list rchoice := map (fun x => RTask x x) l.
Example C69_nonvacuous :
  rc_main (ex_remote ray_reserved true (<["a" := 10]> ∅) ["d"; "b"]
    ([RMain] ++ ex_tasks ["b"; "c"; "b"] ++ [RMain; RMain] ++ ex_tasks ["d"; "b"; "c"; "c"; "d"] ++ [RMain] ++ ex_tasks ["d"] ++ [RCombine ""; RCombine ""; RMain]))
    = DDone (Ok [("d", Some 34); ("b", Some 11)]) /\
  rc_main (ex_remote dask_reserved false (<["a" := 10]> ∅) ["d"; "b"]
    ([RMain; RMain; RMain; RMain] ++ ex_tasks ["c"; "b"; "b"; "c"; "c"; "d"; "d"] ++ [RCombine ""; RCombine ""; RMain]))
    = DDone (Ok [("d", Some 34); ("b", Some 11)]) /\
  starts_of (rc_trace (ex_remote dask_reserved false (<["a" := 10]> ∅) ["d"; "b"]
    ([RMain; RMain; RMain; RMain] ++ ex_tasks ["c"; "b"; "b"; "c"; "c"; "d"; "d"] ++ [RCombine ""; RCombine ""; RMain]))) = ["b"; "c"; "d"].
Proof. split_and!; vm_compute; reflexivity. Qed.
Example C69_nonvacuous_reserved : forall fv x nd d,
  needed ex_graph (∅ : gmap name nat) (requested ex_graph fv) x -> ex_graph !! x = Some nd -> d ∈ dep_names nd -> d ∉ ray_reserved ++ dask_reserved.
Proof.
  intros fv x nd d _ Hg Hd.
  assert (H : Forall (fun p => Forall (fun d => d ∉ ray_reserved ++ dask_reserved) (dep_names p.2)) (map_to_list ex_graph)).
  { apply (bool_decide_unpack _). vm_compute. reflexivity. }
  apply elem_of_map_to_list in Hg. pose proof (proj1 (Forall_forall _ _) H _ Hg) as Hn. exact (proj1 (Forall_forall _ _) Hn d Hd).
Qed.
Example C69_nonvacuous_error :
  rc_main (ex_remote ray_reserved true (<["a" := 10]> ∅) ["d"; "z"]
    (replicate 5 RMain ++ ex_tasks ["z"; "z"] ++ [RCombine "z"; RMain])) = DDone (Err (RUser "boom")).
Proof. vm_compute. reflexivity. Qed.
(** Fair schedules exist. *)
Definition rchoice_code (c : rchoice) : name * name + option name := match c with RTask x d => inl (x, d) | RCombine d => inr (Some d) | RMain => inr None end.
Definition fair_rsched (n : nat) : rchoice :=
  match decode_nat (A:=name * name + option name) (fst (Cantor.of_nat n)) with
  | Some (inl (x, d)) => RTask x d
  | Some (inr (Some d)) => RCombine d
  | _ => RMain
  end.
Example C69_nonvacuous_fair : forall c n, exists m, n <= m /\ fair_rsched m = c.
Proof.
  intros c n. exists (Cantor.to_nat (encode_nat (rchoice_code c), n)). split; [pose proof (Cantor.to_nat_non_decreasing (encode_nat (rchoice_code c)) n); lia|].
  unfold fair_rsched. rewrite Cantor.cancel_of_to. cbn [fst]. rewrite decode_encode_nat. by destruct c.
Qed.
(** A request with a missing input, dask and ray. *)
Example C69_nonvacuous_lazy :
  rc_main (rrun ex_missing ex_f ex_build dask_reserved "TypeError" false ∅ (<["a" := 10]> ∅) ∅ ["q"] (RMain :: ex_tasks ["p"; "p"] ++ [RMain])) = DDone (Err (RMissing "m")) /\
  starts_of (rc_trace (rrun ex_missing ex_f ex_build dask_reserved "TypeError" false ∅ (<["a" := 10]> ∅) ∅ ["q"] (RMain :: ex_tasks ["p"; "p"] ++ [RMain]))) = [] /\
  starts_of (rc_trace (rrun ex_missing ex_f ex_build ray_reserved "TypeError" true ∅ (<["a" := 10]> ∅) ∅ ["q"] (RMain :: ex_tasks ["p"; "p"] ++ [RMain]))) = ["p"].
Proof. split_and!; vm_compute; reflexivity. Qed.

(** *** Findings *)
(** A function with a parameter named [node] runs locally but not with ray; one with a parameter
    named [dask_key_name] not with dask. *)
Definition ex_named (k : name) : graph := list_to_map [ (k, Node true [] ["p"]); ("p", Node false [(k, REQUIRED)] []) ].
Definition ex_double (k : name) (x : name) (kw : gmap name nat) : res string nat :=
  match kw !! k with Some n => Ok (2 * n) | None => Err "KeyError" end.
Theorem C69_parameter_names_refuted :
  forall k reserved eager, (k = "node" /\ reserved = ray_reserved /\ eager = true) \/ (k = "dask_key_name" /\ reserved = dask_reserved /\ eager = false) ->
  wf_graph (ex_named k) /\ acyclic (ex_named k) /\
  (exists tr, default_execute (fun _ => ex_double k) (ex_named k) ∅ (<[k := 3]> ∅) ∅ ["p"] = Answer [("p", Some 6)] tr) /\
  rc_main (rrun (ex_named k) (ex_double k) ex_build reserved "TypeError" eager ∅ (<[k := 3]> ∅) ∅ ["p"] [RMain]) = DDone (Err RType).
Proof.
  intros k reserved eager [(-> & -> & ->)|(-> & -> & ->)].
  all: split; [by apply wf_graphb_ok; vm_compute|].
  1: split; [by apply (rankedb_acyclic (rank_in ["node"; "p"])); vm_compute|].
  2: split; [by apply (rankedb_acyclic (rank_in ["dask_key_name"; "p"])); vm_compute|].
  all: split; [eexists; vm_compute; reflexivity|vm_compute; reflexivity].
Qed.
Print Assumptions C69_parameter_names_refuted.

(** After [execute] has raised the exception of one function, other functions go on being called
    (the default executor stops, C09). *)
Theorem C69_functions_start_after_failure_refuted :
  exists (f : name -> gmap name nat -> res string nat) (g : graph) reserved eager inputs fv cs cs' e x,
    wf_graph g /\ acyclic g /\
    rc_main (rrun g f ex_build reserved "TypeError" eager ∅ inputs ∅ fv cs) = DDone (Err (RUser e)) /\
    x ∉ starts_of (rc_trace (rrun g f ex_build reserved "TypeError" eager ∅ inputs ∅ fv cs)) /\
    x ∈ starts_of (rc_trace (rrun g f ex_build reserved "TypeError" eager ∅ inputs ∅ fv (cs ++ cs'))).
Proof.
  exists ex_f, ex_graph, ray_reserved, true, (<["a" := 10]> ∅), ["d"; "z"], (replicate 5 RMain ++ ex_tasks ["z"; "z"] ++ [RCombine "z"; RMain]), (ex_tasks ["b"]), "boom", "b".
  split; [apply ex_wf|]. split; [apply ex_acyclic|]. split; [vm_compute; reflexivity|].
  split; [apply (bool_decide_unpack _); vm_compute; reflexivity|apply (bool_decide_unpack _); vm_compute; reflexivity].
Qed.
Print Assumptions C69_functions_start_after_failure_refuted.

(** Of several functions that raise, which exception [execute] raises depends on the cluster. *)
Definition ex_two_raise : graph := list_to_map [ ("p", Node false [] []); ("q", Node false [] []) ].
Definition ex_raise (x : name) (kw : gmap name nat) : res string nat := Err x.
Theorem C69_which_exception_refuted :
  exists cs1 cs2, wf_graph ex_two_raise /\ acyclic ex_two_raise /\
    rc_main (rrun ex_two_raise ex_raise ex_build ray_reserved "TypeError" true ∅ ∅ ∅ ["p"; "q"] cs1) = DDone (Err (RUser "p")) /\
    rc_main (rrun ex_two_raise ex_raise ex_build ray_reserved "TypeError" true ∅ ∅ ∅ ["p"; "q"] cs2) = DDone (Err (RUser "q")).
Proof.
  exists (replicate 3 RMain ++ ex_tasks ["p"; "p"] ++ [RCombine "p"; RMain]), (replicate 3 RMain ++ ex_tasks ["q"; "q"] ++ [RCombine "q"; RMain]).
  split; [by apply wf_graphb_ok; vm_compute|]. split; [by apply (rankedb_acyclic (rank_in ["p"; "q"])); vm_compute|]. split; vm_compute; reflexivity.
Qed.
Print Assumptions C69_which_exception_refuted.
