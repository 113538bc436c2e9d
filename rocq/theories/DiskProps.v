(** C77: caching on disk is not seen in the results, computes once, and evicts what is not kept. *)
From Verif Require Import Base Dict NodeModel DecorModel DecorProofs DiskModel DiskSpec DiskProofs.

Section Props.
Context {V E : Type} `{EqDecision V}.
Variable none : V.
Notation cnode := (cnode (V := V) (E := E)).
Notation event := (event (V := V) (E := E)).
Notation cache := (cache (V := V)).
Notation adapter := (adapter (V := V)).
Notation step := (step none (E := E)).
Notation run_graph := (run_graph none (E := E)).
Notation happen := (happen none (E := E)).
Implicit Types (n : cnode) (c : cache) (a : adapter) (kw : list (name * V)).

(** Whatever happened before, a run gives what it gives without the adapter. In full this would hold for any nodes; see
    [C77_same_source_refuted]. *)
Theorem C77_transparent_partial U (es : list event) c a ns env : faithful U -> (forall e, e ∈ es -> uses U e) -> (forall n, n ∈ ns -> U n) ->
  foldl happen fresh es = (c, a) -> (run_graph ns env c a).1.1 = plain ns env.
Proof.
  intros Hf Hu Hns Hc. assert (Hr : right_ none U (k_entries c)).
  { assert (Hx := right_happens none U es Hf Hu fresh). rewrite Hc in Hx. apply Hx. intros k v t Hin. by apply elem_of_nil in Hin. }
  unfold DiskModel.run_graph. destruct (run_nodes none ns env c (before_graph (map cn_name ns) a)) as [[r c'] a'] eqn:Er. cbn [fst].
  by destruct (run_nodes_inv none U ns Hf env c _ r c' a' Hns Hr Er).
Qed.

(** What was computed is not computed again, until something is evicted: not by this adapter nor a later one, not for another node
    of the same source. *)
Theorem C77_once n kw c a v c1 a1 (es : list event) c2 a2 n' kw' : step n kw c a = Ok (Ok v, c1, a1) -> cn_name n ∈ a_vars a -> v <> none ->
  kget (k_entries c) (cache_key (cn_hash n) kw) <> Some none -> (forall e, e ∈ es -> is_evict e = false) -> foldl happen (c1, a1) es = (c2, a2) ->
  cn_hash n' = cn_hash n -> map snd kw' = map snd kw -> cn_name n' ∈ a_vars a2 ->
  exists a3, step n' kw' c2 a2 = Ok (Ok v, c2, a3) /\ a_calls a3 = a_calls a2.
Proof.
  intros Hs Hin Hv Hno Hes Hc2 Hh Hkw Hin'. assert (Hk1 : kget (k_entries c1) (cache_key (cn_hash n) kw) = Some v).
  { destruct (step_cases none n kw c a) as [(Hx & _)|[(_ & w & Hw & _ & He)|(_ & Hw & He)]]; [done| |]; rewrite He in Hs.
    - injection Hs as -> <- <-. done.
    - injection Hs as Hr <- <-. cbn. rewrite kadd_get, Hr. destruct Hw as [-> |Hw]; [by rewrite decide_True|done]. }
  assert (Hk2 : kget (k_entries c2) (cache_key (cn_hash n) kw) = Some v).
  { assert (Hx := keeps_happens none es _ _ Hes (c1, a1) Hk1). by rewrite Hc2 in Hx. }
  assert (Hkey : cache_key (cn_hash n') kw' = cache_key (cn_hash n) kw) by (unfold cache_key; by rewrite Hh, Hkw).
  destruct (step_cases none n' kw' c2 a2) as [(Hx & _)|[(_ & w & Hw & _ & He)|(_ & Hw & He)]]; [done| |].
  - rewrite Hkey, Hk2 in Hw. injection Hw as <-. rewrite He. by eexists.
  - rewrite Hkey, Hk2 in Hw. destruct Hw; congruence.
Qed.

(** Other variables are computed every time and leave nothing. *)
Theorem C77_only_vars n kw c a : cn_name n ∉ a_vars a ->
  exists a', step n kw c a = Ok (cn_run n kw, c, a') /\ a_calls a' = a_calls a ++ [(cn_name n, kw)] /\ a_history a' = a_history a.
Proof.
  intros Hn. destruct (step_cases none n kw c a) as [(_ & He)|[(Hx & _)|(Hx & _)]]; [|done..]. rewrite He. by eexists.
Qed.
(** Without [cache_vars], all nodes of the first run are cached. *)
Theorem C77_all_vars names a : (a_vars a = [] -> a_vars (before_graph names a) = names) /\ (a_vars a <> [] -> a_vars (before_graph names a) = a_vars a).
Proof. unfold before_graph. cbn. by destruct (a_vars a). Qed.

(** Eviction: nothing stays but the versions to keep. *)
Theorem C77_evicts (es : list event) c a keep c' : foldl happen fresh es = (c, a) -> evict_all_except (E := E) keep c = (Ok tt, c') ->
  forall k v m h, (k, (v, (m, h))) ∈ k_entries c' -> dget keep m = Some h /\ (k, (v, (m, h))) ∈ k_entries c.
Proof.
  intros Hc Hev k v m h Hin. assert (Hi := inv_happens none es fresh inv_fresh). rewrite Hc in Hi. destruct Hi as [_ Hi]. cbn [fst] in Hi.
  unfold evict_all_except in Hev. destruct (k_history c) as [hist|] eqn:Eh; [|done]. destruct (evict_loop keep hist (k_entries c) []) as [[[l' new']|x] es'] eqn:El; [|done]. injection Hev as <-.
  cbn [k_entries] in Hin. assert (Hl : (evict_loop (E := E) keep hist (k_entries c) []).1 = Ok (l', new')) by (by rewrite El).
  pose proof (proj1 (evict_loop_entries keep hist _ [] l' new' Hl _) Hin) as [Hin0 Hne]. split; [|done]. destruct Hi as [_ Ht]. destruct (Ht k v m h Hin0) as (hs & Hhs & Hh). apply dget_elem in Hhs.
  unfold evicted in Hne. cbn [fst snd] in Hne. destruct (dget keep m) as [h1|] eqn:Ek; [|destruct Hne; by exists hs]. destruct (decide (h1 = h)) as [-> |Hd]; [done|]. exfalso. apply Hne. exists hs. split; [done|].
  assert (Hin1 : h1 ∈ hs). { apply (proj1 (evict_loop_ok keep hist (k_entries c) []) (ex_intro _ _ Hl) m hs h1); [done| |done]. intros ->. by apply elem_of_nil in Hh. }
  destruct (remove_first h1 hs) as [hs'|] eqn:Er; [|by apply remove_first_none in Er]. exists hs'. split; [done|]. apply remove_first_spec in Er as (_ & Hx & _). apply Hx; [congruence|done].
Qed.
(** And those stay, of nodes that were computed once per version (in full: always; see [C77_kept_refuted]). *)
Theorem C77_keeps_partial (es : list event) c a keep c' : foldl happen fresh es = (c, a) -> evict_all_except (E := E) keep c = (Ok tt, c') ->
  forall k v m h, (k, (v, (m, h))) ∈ k_entries c -> dget keep m = Some h -> (forall hist hs, k_history c = Some hist -> dget hist m = Some hs -> NoDup hs) ->
  (k, (v, (m, h))) ∈ k_entries c'.
Proof.
  intros Hc Hev k v m h Hin Hk Hnd. assert (Hi := inv_happens none es fresh inv_fresh). rewrite Hc in Hi. destruct Hi as [_ Hi]. cbn [fst] in Hi.
  unfold evict_all_except in Hev. destruct (k_history c) as [hist|] eqn:Eh; [|done]. destruct (evict_loop keep hist (k_entries c) []) as [[[l' new']|x] es'] eqn:El; [|done]. injection Hev as <-.
  cbn [k_entries]. assert (Hl : (evict_loop (E := E) keep hist (k_entries c) []).1 = Ok (l', new')) by (by rewrite El).
  apply (evict_loop_entries keep hist _ [] l' new' Hl). split; [done|]. intros (hs & Hhs & Hx). cbn [fst snd] in *. rewrite Hk in Hx. destruct Hx as (hs' & Hr & Hh).
  destruct Hi as [Hn _]. apply remove_first_spec in Hr as (_ & _ & Hr). apply Hr in Hh; [done|]. apply (Hnd hist); [done|]. by apply elem_dget.
Qed.
(** It succeeds exactly if something was run and each node to keep that was ever computed was computed in the version to keep. *)
Theorem C77_evict_succeeds keep c : (exists c', evict_all_except (E := E) keep c = (Ok tt, c')) <->
  exists hist, k_history c = Some hist /\ forall m hs h, (m, hs) ∈ hist -> hs <> [] -> dget keep m = Some h -> h ∈ hs.
Proof.
  unfold evict_all_except. destruct (k_history c) as [hist|]; [|split; [by intros [? ?]|by intros (? & ? & _)]].
  assert (Hok := evict_loop_ok (E := E) keep hist (k_entries c) []). destruct (evict_loop keep hist (k_entries c) []) as [[[l' new']|x] es'] eqn:El; cbn [fst] in Hok.
  - split; [|by eexists]. intros _. exists hist. split; [done|]. apply Hok. by eexists.
  - split; [by intros [? ?]|]. intros (hist' & [= <-] & Hx). apply Hok in Hx as [? ?]. done.
Qed.
End Props.

(** *** A case *)
Inductive val := VNone | VNum (z : Z) | VFrame (l : list (name * Z)).
Global Instance val_eq_dec : EqDecision val.
Proof. solve_decision. Defined.
Notation nd := (cnode (V := val) (E := string)).
Definition num (kw : list (name * val)) : Z := match kw with (_, VNum z) :: _ => z | _ => 0%Z end.
Definition double : nd := CNode "double" "h1" ["x"] (fun kw => Ok (VNum (2 * num kw))).
Definition minus : nd := CNode "minus" "h2" ["double"] (fun kw => Ok (VNum (- num kw))).
Definition these (n : nd) : Prop := n = double \/ n = minus.
Example C77_these : faithful these /\ (forall e, e ∈ [New []; Run [double; minus] [("x", VNum 3)]; Evict [("minus", "h2")]] -> uses these e) /\ (forall n, n ∈ [double; minus] -> these n).
Proof.
  split_and!.
  - intros n n' kw kw' [-> | ->] [-> | ->] Hh Hv; try done.
    + cbn. destruct kw as [|[? ?] ?], kw' as [|[? ?] ?]; try done. cbn in Hv. by injection Hv as -> _.
    + cbn. destruct kw as [|[? ?] ?], kw' as [|[? ?] ?]; try done. cbn in Hv. by injection Hv as -> _.
  - intros e He. rewrite !elem_of_cons, elem_of_nil in He. destruct He as [-> |[-> |[-> |[]]]]; cbn; [done| |done].
    intros n Hn. rewrite !elem_of_cons, elem_of_nil in Hn. destruct Hn as [-> |[-> |[]]]; [by left|by right].
  - intros n Hn. rewrite !elem_of_cons, elem_of_nil in Hn. destruct Hn as [-> |[-> |[]]]; [by left|by right].
Qed.
(** A second run computes nothing; eviction keeps what it has to. *)
Example C77_case :
  let ca1 := foldl (happen VNone) fresh [New []; Run [double; minus] [("x", VNum 3)]] in
  let ca2 := happen VNone ca1 (Run [double; minus] [("x", VNum 3)]) in
  a_calls ca1.2 = [("double", [("x", VNum 3)]); ("minus", [("double", VNum 6)])] /\ a_calls ca2.2 = a_calls ca1.2 /\
  (run_graph VNone [double; minus] [("x", VNum 3)] ca1.1 ca1.2).1.1 = Ok [("x", VNum 3); ("double", VNum 6); ("minus", VNum (-6))] /\
  (exists c', evict_all_except (E := string) [("minus", "h2")] ca1.1 = (Ok tt, c') /\ map (fun e => e.2) (k_entries c') = [(VNum (-6), ("minus", "h2"))] /\ length (k_entries ca1.1) = 2) /\
  (forall hist hs, k_history ca1.1 = Some hist -> dget hist "minus" = Some hs -> NoDup hs).
Proof.
  cbn zeta. split_and!; [vm_compute; reflexivity..| |].
  - eexists. split_and!; vm_compute; reflexivity.
  - intros hist hs Hh Hd. vm_compute in Hh. injection Hh as <-. vm_compute in Hd. injection Hd as <-. apply NoDup_singleton.
Qed.
Example C77_once_case : exists c1 a1, step VNone double [("x", VNum 3)] (Cache [] None) (Adapter ["double"] [] [] []) = Ok (Ok (VNum 6), c1, a1) /\
  foldl (happen VNone) (c1, a1) [New ["double"]; Run [double] [("x", VNum 4)]] = happen VNone (c1, init ["double"] c1) (Run [double] [("x", VNum 4)]) /\
  "double" ∈ a_vars (happen VNone (c1, init ["double"] c1) (Run [double] [("x", VNum 4)])).2.
Proof. eexists _, _. split_and!; [vm_compute; reflexivity|vm_compute; reflexivity|vm_compute; by left]. Qed.

(** *** What it does not do *)
(** Nodes whose callables have one source, as those @extract_columns makes (expanders.py 672-681): the second column is the first. *)
Definition frame : nd := CNode "frame" "h0" [] (fun _ => Ok (VFrame [("a", 1%Z); ("b", 2%Z)])).
Definition extract (c : name) : nd :=
  CNode c "extractor" ["frame"] (fun kw => match kw with [(_, VFrame l)] => match dget l c with Some z => Ok (VNum z) | None => Err "No such column" end | _ => Err "type" end).
Theorem C77_same_source_refuted :
  plain [frame; extract "a"; extract "b"] [] = Ok [("frame", VFrame [("a", 1%Z); ("b", 2%Z)]); ("a", VNum 1); ("b", VNum 2)] /\
  (run_graph VNone [frame; extract "a"; extract "b"] [] (Cache [] None) (Adapter [] [] [] [])).1.1 = Ok [("frame", VFrame [("a", 1%Z); ("b", 2%Z)]); ("a", VNum 1); ("b", VNum 1)].
Proof. split; vm_compute; reflexivity. Qed.
(** A node computed for two inputs: of its two entries to keep none stays. *)
Theorem C77_kept_refuted : exists c a c', foldl (happen VNone) fresh [New []; Run [double] [("x", VNum 3)]; Run [double] [("x", VNum 4)]] = (c, a) /\
  length (k_entries c) = 2 /\ evict_all_except (E := string) [("double", "h1")] c = (Ok tt, c') /\ k_entries c' = [].
Proof. eexists _, _, _. split_and!; vm_compute; reflexivity. Qed.
(** A node to keep that was edited and not yet run: a ValueError, when some was already evicted. *)
Theorem C77_edited_refuted : exists c a c', foldl (happen VNone) fresh [New []; Run [double; minus] [("x", VNum 3)]] = (c, a) /\
  evict_all_except (E := string) [("minus", "h3")] c = (Err DValue, c') /\ length (k_entries c) = 2 /\ length (k_entries c') = 1.
Proof. eexists _, _, _. split_and!; vm_compute; reflexivity. Qed.
(** Before anything was run: an AttributeError. *)
Theorem C77_evict_first_refuted : evict_all_except (V := val) (E := string) [("minus", "h2")] (Cache [] None) = (Err DAttribute, Cache [] None).
Proof. reflexivity. Qed.
(** A function that failed once (it has the source it will have when it does not fail) is never cached for these arguments. *)
Definition fetch (up : bool) : nd := CNode "fetch" "h4" [] (fun _ => if up then Ok (VNum 7) else Err "unreachable").
Theorem C77_failed_refuted : let ca := foldl (happen VNone) fresh [New []; Run [fetch false] []; Run [fetch true] []; Run [fetch true] []; Run [fetch true] []] in
  a_calls ca.2 = [("fetch", []); ("fetch", []); ("fetch", []); ("fetch", [])].
Proof. vm_compute. reflexivity. Qed.
(** Nor is None. *)
Definition nothing : nd := CNode "nothing" "h5" [] (fun _ => Ok VNone).
Theorem C77_none_refuted : let ca := foldl (happen VNone) fresh [New []; Run [nothing] []; Run [nothing] []] in a_calls ca.2 = [("nothing", []); ("nothing", [])].
Proof. vm_compute. reflexivity. Qed.
(** Two adapters of one directory: what the first computed is not evicted, the second's history being the last written. *)
Theorem C77_two_adapters_refuted :
  let a1 := init [] (Cache [] None) in let a2 := init [] (Cache [] None) in
  let c1 := (run_graph VNone [double] [("x", VNum 3)] (Cache [] None) a1).1.2 in
  let c2 := (run_graph VNone [minus] [("double", VNum 1)] c1 a2).1.2 in
  exists c', evict_all_except (E := string) [] c2 = (Ok tt, c') /\ map (fun e => e.2) (k_entries c') = [(VNum 6, ("double", "h1"))].
Proof. cbn zeta. eexists. split; vm_compute; reflexivity. Qed.

Print Assumptions C77_transparent_partial.
Print Assumptions C77_once.
Print Assumptions C77_only_vars.
Print Assumptions C77_all_vars.
Print Assumptions C77_evicts.
Print Assumptions C77_keeps_partial.
Print Assumptions C77_evict_succeeds.
Print Assumptions C77_same_source_refuted.
Print Assumptions C77_kept_refuted.
Print Assumptions C77_edited_refuted.
Print Assumptions C77_evict_first_refuted.
Print Assumptions C77_failed_refuted.
Print Assumptions C77_none_refuted.
Print Assumptions C77_two_adapters_refuted.
