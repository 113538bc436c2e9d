(** C59: executing decorated functions computes what their nodes mean. *)
From Verif Require Import Base Dict NodeModel NodeSpec GraphModel GraphSpec GraphProofs GraphResults
     ExecModel ExecSpec ExecProofs ExecResults ExecProps LinkModel PipeProps.

Section Meaning.
Context {V E T : Type}.

(** [n] is the function in effect for [x]: the last one of that name, unless the name is a
    config key or overridden. *)
Definition function_for (config : list name) (overrides : gmap name V) (ps : list (pnode V E T)) (x : name) (n : pnode V E T) : Prop :=
  x ∉ config /\ overrides !! x = None /\
  exists a b, ps = a ++ n :: b /\ pn_name n = x /\ forall n', n' ∈ b -> pn_name n' <> x.

(** The graph [g] has the functions [ns], their parameters as dependencies, and everything
    else as external variables. *)
Record represents (ns : dict (pnode V E T)) (g : graph) : Prop := {
  rp_fn : forall x n, dget ns x = Some n ->
    exists nd, g !! x = Some nd /\ nd_ext nd = false /\ nd_deps nd = map (fun kt => (kt.1, kt.2.2)) (pn_inputs n);
  rp_ext : forall x nd, g !! x = Some nd -> dget ns x = None -> nd_ext nd = true;
  rp_closed : forall x n k, dget ns x = Some n -> k ∈ dkeys (pn_inputs n) -> is_Some (g !! k);
}.

Lemma registered_iff config ps x (n : pnode V E T) :
  dget (registered config ps) x = Some n <->
  x ∉ config /\ exists a b, ps = a ++ n :: b /\ pn_name n = x /\ forall n', n' ∈ b -> pn_name n' <> x.
Proof.
  unfold registered. induction ps as [|m ps IH] using rev_ind.
  - cbn. split; [done|]. intros (_ & [|] & b & He & _); discriminate He.
  - rewrite foldl_app. cbn [foldl].
    assert (S : forall a b, ps ++ [m] = a ++ n :: b -> (b = [] /\ ps = a /\ n = m) \/ exists b', b = b' ++ [m] /\ ps = a ++ n :: b').
    { intros a b. destruct b as [|z b _] using rev_ind.
      - intros He. apply app_inj_tail in He as [-> ->]. by left.
      - intros He. right. exists b. rewrite app_comm_cons, app_assoc in He. apply app_inj_tail in He as [-> ->]. done. }
    case_decide as Hc.
    + rewrite IH. split; intros (Hx & a & b & He & Hn & Hb); (split; [done|]).
      * exists a, (b ++ [m]). subst ps. rewrite <- app_assoc. split_and!; [done|done|].
        intros n' [?|?%elem_of_list_singleton]%elem_of_app; [auto|congruence].
      * apply S in He as [(-> & -> & ->)|(b' & -> & ->)]; [congruence|].
        exists a, b'. split_and!; [done|done|]. intros n' ?. apply Hb, elem_of_app. by left.
    + rewrite dget_dset. case_decide as Hxm.
      * split.
        -- intros [= ->]. split; [congruence|]. exists ps, []. split_and!; [done|done|]. intros n' Hn'. by apply elem_of_nil in Hn'.
        -- intros (_ & a & b & He & Hn & Hb). apply S in He as [(-> & -> & ->)|(b' & -> & ->)]; [done|].
           exfalso. apply (Hb m); [|done]. apply elem_of_app. right. by apply elem_of_list_singleton.
      * rewrite IH. split; intros (Hx & a & b & He & Hn & Hb); (split; [done|]).
        -- exists a, (b ++ [m]). subst ps. rewrite <- app_assoc. split_and!; [done|done|].
           intros n' [?|?%elem_of_list_singleton]%elem_of_app; [auto|congruence].
        -- apply S in He as [(-> & -> & ->)|(b' & -> & ->)]; [congruence|].
           exists a, b'. split_and!; [done|done|]. intros n' ?. apply Hb, elem_of_app. by left.
Qed.

Lemma in_effect_fdef config ps x d :
  in_effect config (map fdef_of ps) x d <-> exists n : pnode V E T, dget (registered config ps) x = Some n /\ d = fdef_of n.
Proof.
  setoid_rewrite registered_iff. unfold in_effect, last_definition. split.
  - intros (Hx & a & b & He & Hn & Hb). apply (fmap_app_inv fdef_of) in He as (a' & r & -> & Hr & ->).
    destruct r as [|n b']; [discriminate Hr|]. injection Hr as -> ->. exists n. split; [|done]. split; [done|].
    exists a', b'. split_and!; [done|done|]. intros n' Hn'. apply (Hb (fdef_of n')). by apply elem_of_list_fmap_1.
  - intros (n & (Hx & a & b & -> & Hn & Hb) & ->). split; [done|].
    exists (map fdef_of a), (map fdef_of b). rewrite map_app. split_and!; [done|done|].
    intros d' (n' & -> & Hn')%elem_of_list_fmap. by apply Hb.
Qed.

Lemma built_represents tm am any config ps allow nodes :
  create_function_graph tm am any (map fdef_of ps) config allow = Ok nodes ->
  (forall n : pnode V E T, n ∈ ps -> NoDup (dkeys (pn_inputs n))) ->
  represents (registered config ps) (to_graph nodes).
Proof.
  intros Hb Hnd. destruct (graph_nodes tm am any config (map fdef_of ps) allow nodes Hb) as (ND & Hk & Hn).
  assert (P : forall x n, dget (registered config ps) x = Some n -> n ∈ ps).
  { intros x n (_ & a & b & -> & _)%registered_iff. apply elem_of_app. right. by left. }
  split.
  - intros x n Hx. assert (Hin : in_effect config (map fdef_of ps) x (fdef_of n)) by (apply in_effect_fdef; eauto).
    assert (Hxk : x ∈ dkeys nodes) by (apply Hk; eauto).
    apply dget_Some_key in Hxk as [gn Hgn]. destruct (Hn x gn Hgn) as (Hf & He & _).
    rewrite to_graph_lookup by done. rewrite Hgn. eexists. split; [done|]. destruct (gn_ext gn) eqn:Hext.
    { by destruct (proj1 (He eq_refl) (fdef_of n)). }
    destruct (Hf eq_refl) as (d & Hd & Hp & Hdeps). apply in_effect_fdef in Hd as (n' & Hn' & ->). assert (n' = n) as -> by congruence.
    split; [done|]. cbn. rewrite Hp, Hdeps. cbn. specialize (Hnd n (P x n Hx)).
    rewrite <- list_fmap_compose. apply list_fmap_ext. intros i [k [t dt]] Hi. cbn.
    by rewrite (elem_dget _ k (t, dt) Hnd (elem_of_list_lookup_2 _ _ _ Hi)).
  - intros x nd Hg Hx. rewrite to_graph_lookup in Hg by done. destruct (dget nodes x) as [gn|] eqn:Hgn; [|done].
    injection Hg as <-. cbn. destruct (gn_ext gn) eqn:Hext; [done|]. destruct (Hn x gn Hgn) as (Hf & _).
    destruct (Hf Hext) as (d & Hd & _). apply in_effect_fdef in Hd as (n' & Hn' & _). congruence.
  - intros x n k Hx Hkin. rewrite to_graph_lookup by done. apply fmap_is_Some, dget_Some_key, Hk. right. right.
    exists x, (fdef_of n). split; [apply in_effect_fdef; eauto|]. done.
Qed.

Section Fixed.
Variable ns ns' : dict (pnode V E T).
Variable g : graph.
Variable env overrides : gmap name V.
Hypothesis R : represents ns g.
Hypothesis W : wf_graph g.
(** [ns'] are the functions that are not overridden. *)
Hypothesis N : forall x n, dget ns' x = Some n <-> dget ns x = Some n /\ overrides !! x = None.

Lemma ns'_none x : dget ns' x = None <-> dget ns x = None \/ is_Some (overrides !! x).
Proof.
  destruct (dget ns' x) as [n|] eqn:H.
  - apply N in H as [H1 H2]. rewrite H1, H2. split; [done|]. intros [?|[? ?]]; done.
  - split; [|done]. intros _. destruct (dget ns x) as [n|] eqn:Hn; [|by left]. right.
    destruct (overrides !! x) as [w|] eqn:Hw; [by eexists|]. assert (dget ns' x = Some n) by (by apply N). congruence.
Qed.

Lemma eval_value x v : eval (callables ns) g env overrides x v -> value ns' (overrides ∪ env) x v.
Proof.
  induction 1 as [x v Ho|x nd v Ho Hg He Hi|x nd kw v Ho Hg He Hd Hev IH Habs Hf].
  - apply value_input; [apply ns'_none; right; by eexists|]. by apply lookup_union_Some_l.
  - apply value_input.
    + apply ns'_none. left. destruct (dget ns x) as [n|] eqn:Hn; [|done].
      destruct (rp_fn _ _ R x n Hn) as (nd' & Hg' & He' & _). congruence.
    + by rewrite lookup_union_r.
  - destruct (dget ns x) as [n|] eqn:Hn; [|by rewrite (rp_ext _ _ R x nd Hg Hn) in He].
    destruct (rp_fn _ _ R x n Hn) as (nd' & Hg' & _ & Hdeps). assert (nd' = nd) as -> by congruence.
    apply (value_node _ _ x n kw v); [by apply N| | | |].
    + intros k w Hk. specialize (Hd k w Hk). unfold dep_names in Hd. rewrite Hdeps in Hd.
      unfold dkeys. by rewrite <- list_fmap_compose in Hd.
    + exact IH.
    + intros k t dt Hin Hk. destruct (Habs k dt) as [(Ho' & Hi' & nd' & Hgk & Hek) Hdt]; [|done|].
      { rewrite Hdeps. apply elem_of_list_fmap. by exists (k, (t, dt)). }
      split; [done|]. split.
      * apply ns'_none. left. destruct (dget ns k) as [nk|] eqn:Hnk; [|done].
        destruct (rp_fn _ _ R k nk Hnk) as (nd'' & Hg'' & He'' & _). congruence.
      * by apply lookup_union_None.
    + unfold callables in Hf. by rewrite Hn in Hf.
Qed.

Lemma value_eval x v : value ns' (overrides ∪ env) x v -> is_Some (g !! x) -> eval (callables ns) g env overrides x v.
Proof.
  induction 1 as [x v Hn Hi|x n m v Hn Hm Hv IH Habs Hc]; intros [nd Hg].
  - destruct (overrides !! x) as [w|] eqn:Ho.
    + rewrite (lookup_union_Some_l _ _ _ _ Ho) in Hi. injection Hi as <-. by apply eval_override.
    + rewrite lookup_union_r in Hi by done. apply ns'_none in Hn as [Hn|[? ?]]; [|congruence].
      eapply eval_input; [done|exact Hg|by apply (rp_ext _ _ R x)|done].
  - apply N in Hn as [Hn Ho]. destruct (rp_fn _ _ R x n Hn) as (nd' & Hg' & He & Hdeps). assert (nd' = nd) as -> by congruence.
    apply (eval_fn _ _ _ _ x nd m v); [done|done|done| | | |].
    + intros d w Hd. unfold dep_names. rewrite Hdeps, <- list_fmap_compose. by apply (Hm d w).
    + intros d w Hd. apply (IH d w Hd). by apply (rp_closed _ _ R x n), (Hm d w).
    + intros d dt Hin Hd. rewrite Hdeps in Hin. apply elem_of_list_fmap in Hin as ([k [t dt']] & [= -> ->] & Hin). cbn in *.
      destruct (Habs k t dt' Hin Hd) as (-> & Hk & Hu). split; [|done]. apply lookup_union_None in Hu as [Hu1 Hu2].
      apply ns'_none in Hk as [Hk|[? ?]]; [|congruence].
      destruct (rp_closed _ _ R x n k Hn) as [ndk Hgk]; [apply elem_of_list_fmap; by exists (k, (t, OPTIONAL))|].
      split_and!; [done|done|]. exists ndk. split; [done|]. by apply (rp_ext _ _ R k).
    + unfold callables. by rewrite Hn.
Qed.

(** If the requested variables have values then so do all functions that are needed. *)
Lemma needed_evals fv :
  (forall x, x ∈ fv -> is_Some (dget ns' x) -> exists v, value ns' (overrides ∪ env) x v) ->
  forall x, needed g overrides (filter (fun x => is_Some (g !! x)) fv) x -> is_Some (dget ns x) ->
  exists v, eval (callables ns) g env overrides x v.
Proof.
  intros Hv x Hx. induction Hx as [x Hx Ho|x d Hx IH Hed Ho]; intros [n Hn].
  - apply elem_of_list_filter in Hx as [Hg Hx]. destruct (Hv x Hx) as [v Hxv]; [exists n; by apply N|].
    exists v. by apply value_eval.
  - destruct Hed as (nd & Hg & Hd). destruct (dget ns x) as [nx|] eqn:Hnx.
    + destruct (IH (ex_intro _ nx eq_refl)) as [v Hxv].
      inversion Hxv as [? ? Hox|? ? ? ? Hgx He|? nd' kw ? Hox Hgx He Hkw Hev Habs Hf]; subst.
      * exfalso. inversion Hx; congruence.
      * destruct (rp_fn _ _ R x nx Hnx) as (nd' & ? & ? & _). congruence.
      * assert (nd' = nd) as -> by congruence. destruct (kw !! d) as [w|] eqn:Hw; [by exists w; apply (Hev d)|].
        unfold dep_names in Hd. apply elem_of_list_fmap in Hd as ([d' dt] & -> & Hd). cbn in *.
        destruct (Habs d' dt Hd Hw) as [(_ & _ & ndd & Hgd & Hextd) _].
        destruct (rp_fn _ _ R d' n Hn) as (? & ? & ? & _). congruence.
    + exfalso. unfold dep_names in Hd. rewrite (wf_ext _ W x nd Hg) in Hd by (by apply (rp_ext _ _ R x)). by apply elem_of_nil in Hd.
Qed.
End Fixed.
End Meaning.

(** The functions [ps] (what the decorated functions of the modules resolve to) are built into
    a graph and executed. Every requested variable of the dataflow is answered by its value:
    [value ns env x v] (NodeSpec) says that a function applied to the values of its
    parameters gives [v], and [ns] are the functions in effect. *)
Theorem C59_execute_returns_values :
  forall (V E T : Type) (types_match adapter_match : T -> T -> bool) (any : T)
         (ps : list (pnode V E T)) (ns : dict (pnode V E T)) (keys : list name) (allow : bool) nodes
         (config inputs overrides : gmap name V) (fv : list name) out tr,
    (forall n, n ∈ ps -> NoDup (dkeys (pn_inputs n))) ->
    create_function_graph types_match adapter_match any (map fdef_of ps) keys allow = Ok nodes ->
    acyclic (to_graph nodes) ->
    (forall x n, dget ns x = Some n <-> function_for keys overrides ps x n) ->
    default_execute (fun _ => callables (registered keys ps)) (to_graph nodes) config inputs overrides fv = Answer out tr ->
    out.*1 = fv /\
    forall x r, (x, r) ∈ out ->
      if decide (x ∈ dkeys nodes) then
        match r with
        | Some v => value ns (overrides ∪ (inputs ∪ config)) x v
        | None => dget ns x = None /\ (overrides ∪ (inputs ∪ config)) !! x = None
        end
      else r = inputs !! x.
Proof.
  intros V E T tm am any ps ns keys allow nodes config inputs overrides fv out tr Hnd Hb Hac Hns Hex.
  pose proof (built_represents _ _ _ _ _ _ _ Hb Hnd) as R.
  destruct (graph_nodes tm am any keys (map fdef_of ps) allow nodes Hb) as (ND & _ & _).
  assert (W : wf_graph (to_graph nodes)).
  { eapply graph_wf; [exact Hb|]. intros d (n & -> & Hn)%elem_of_list_fmap. by apply Hnd. }
  assert (N : forall x n, dget ns x = Some n <-> dget (registered keys ps) x = Some n /\ overrides !! x = None).
  { intros x n. rewrite Hns, registered_iff. unfold function_for. naive_solver. }
  assert (K : forall x, is_Some (to_graph nodes !! x) <-> x ∈ dkeys nodes).
  { intros x. rewrite to_graph_lookup by done. rewrite fmap_is_Some. apply dget_Some_key. }
  destruct (C01_execute_returns_meaning _ _ _ _ _ _ _ _ _ _ W Hac Hex) as [Hfv Hout]. split; [done|].
  intros x r Hr. specialize (Hout x r Hr). case_decide as Hx.
  - apply K in Hx as [nd Hx]. destruct r as [v|].
    + destruct Hout as [[_ Hv]|[? _]]; [|congruence]. eapply eval_value; [exact R|exact N|exact Hv].
    + destruct Hout as [(Ho & Hi & nd' & Hg & He)|[? _]]; [|congruence]. split; [|by apply lookup_union_None].
      destruct (dget ns x) as [n|] eqn:Hn; [|done]. apply N in Hn as [Hn _].
      destruct (rp_fn _ _ R x n Hn) as (? & ? & ? & _). congruence.
  - assert (to_graph nodes !! x = None) as Hg by (apply eq_None_not_Some; by rewrite K).
    destruct r as [v|].
    + destruct Hout as [[[? ?] _]|[_ ->]]; [congruence|done].
    + destruct Hout as [(_ & _ & nd & ? & _)|[_ ->]]; [congruence|done].
Qed.
Print Assumptions C59_execute_returns_values.

(** The run succeeds exactly when the runtime inputs do not repeat a config key and every
    requested function has a value. *)
Theorem C59_execute_succeeds :
  forall (V E T : Type) (types_match adapter_match : T -> T -> bool) (any : T)
         (ps : list (pnode V E T)) (ns : dict (pnode V E T)) (keys : list name) (allow : bool) nodes
         (config inputs overrides : gmap name V) (fv : list name),
    (forall n, n ∈ ps -> NoDup (dkeys (pn_inputs n))) ->
    create_function_graph types_match adapter_match any (map fdef_of ps) keys allow = Ok nodes ->
    acyclic (to_graph nodes) ->
    (forall x n, dget ns x = Some n <-> function_for keys overrides ps x n) ->
    (exists out tr, default_execute (fun _ => callables (registered keys ps)) (to_graph nodes) config inputs overrides fv = Answer out tr) <->
    (forall k, config !! k = None \/ inputs !! k = None) /\
    (forall x, x ∈ fv -> is_Some (dget ns x) -> exists v, value ns (overrides ∪ (inputs ∪ config)) x v).
Proof.
  intros V E T tm am any ps ns keys allow nodes config inputs overrides fv Hnd Hb Hac Hns.
  pose proof (built_represents _ _ _ _ _ _ _ Hb Hnd) as R.
  assert (W : wf_graph (to_graph nodes)).
  { eapply graph_wf; [exact Hb|]. intros d (n & -> & Hn)%elem_of_list_fmap. by apply Hnd. }
  assert (N : forall x n, dget ns x = Some n <-> dget (registered keys ps) x = Some n /\ overrides !! x = None).
  { intros x n. rewrite Hns, registered_iff. unfold function_for. naive_solver. }
  rewrite (C06_success_characterisation _ _ _ _ _ _ _ _ W Hac). split; intros [Hd H]; (split; [done|]).
  - intros x Hx [n Hn]. apply N in Hn as [Hn Ho]. destruct (rp_fn _ _ R x n Hn) as (nd & Hg & He & _).
    destruct (H x nd) as [v Hv]; [|done|done|].
    { apply needed_root; [|done]. apply elem_of_list_filter. split; [by eexists|done]. }
    exists v. eapply eval_value; [exact R|exact N|exact Hv].
  - intros x nd Hx Hg He. eapply (needed_evals (registered keys ps) ns); [exact R|exact W|exact N|exact H|exact Hx|].
    destruct (dget (registered keys ps) x) as [n|] eqn:Hn; [by eexists|]. by rewrite (rp_ext _ _ R x nd Hg Hn) in He.
Qed.
Print Assumptions C59_execute_succeeds.

Lemma value_functional {V E T} (ns : dict (pnode V E T)) env x v v' :
  value ns env x v -> value ns env x v' -> v = v'.
Proof.
  intros H. revert v'. induction H as [x v Hn Hi|x n m v Hn Hm Hv IH Habs Hc]; intros v' H'.
  - inversion H'; congruence.
  - inversion H' as [|? n' m' ? Hn' Hm' Hv' Habs' Hc']; subst; [congruence|]. assert (n' = n) as -> by congruence.
    assert (m = m') as ->; [|congruence]. apply map_eq. intros k.
    assert (Out : forall k w, value ns env k w -> dget ns k = None -> env !! k = None -> False).
    { intros ? ? Hk. inversion Hk; congruence. }
    destruct (m !! k) as [w|] eqn:Hk, (m' !! k) as [w'|] eqn:Hk'; [| | |done].
    + f_equal. apply (IH k w Hk). by apply Hv'.
    + exfalso. pose proof (Hm k w Hk) as Hin. apply elem_of_list_fmap in Hin as ([k0 [t dt]] & -> & Hin). cbn in *.
      destruct (Habs' k0 t dt Hin Hk') as (_ & ? & ?). by eapply Out; [apply Hv|..].
    + exfalso. pose proof (Hm' k w' Hk') as Hin. apply elem_of_list_fmap in Hin as ([k0 [t dt]] & -> & Hin). cbn in *.
      destruct (Habs k0 t dt Hin Hk) as (_ & ? & ?). by eapply Out; [apply Hv'|..].
Qed.

(** Values are unique, so the two theorems determine the answer. *)
Theorem C59_values_unique {V E T} (ns : dict (pnode V E T)) env x v v' :
  value ns env x v -> value ns env x v' -> v = v'.
Proof. apply value_functional. Qed.
Print Assumptions C59_values_unique.

(** ** Example: f(x, y) = x + y with x piped through (_ + 3) and (_ * z), and h(f, q = 5) = f + q *)
Definition link_h : pnode nat string unit :=
  from_fn "h" tt [("f", (tt, REQUIRED)); ("q", (tt, OPTIONAL))] (fun kw => Ok (default 0 (kw !! "f") + default 5 (kw !! "q"))).
Definition link_fns : list (pnode nat string unit) := PipeProps.ex_nodes ++ [link_h].
Definition link_nodes : dict (gnode unit) :=
  match create_function_graph (fun _ _ => true) (fun _ _ => false) tt (map fdef_of link_fns) ["z"] false with Ok nodes => nodes | Err _ => [] end.
Example C59_nonvacuous :
  create_function_graph (fun _ _ => true) (fun _ _ => false) tt (map fdef_of link_fns) ["z"] false = Ok link_nodes /\
  (forall n, n ∈ link_fns -> NoDup (dkeys (pn_inputs n))) /\ acyclic (to_graph link_nodes) /\
  exists tr, default_execute (fun _ => callables (registered ["z"] link_fns)) (to_graph link_nodes)
    {["z" := 4]} {["x" := 2; "y" := 10]} ∅ ["h"; "q"; "f.with_plus"] = Answer [("h", Some 35); ("q", None); ("f.with_plus", Some 5)] tr.
Proof.
  split_and!.
  - by vm_compute.
  - intros m Hm. repeat (apply elem_of_cons in Hm as [-> | Hm]; [apply (bool_decide_unpack _); by vm_compute|]). by apply elem_of_nil in Hm.
  - apply (rankedb_acyclic (rank_in ["x"; "y"; "z"; "q"; "f.with_plus"; "f.with_times"; "f"; "h"])). by vm_compute.
  - eexists. by vm_compute.
Qed.
