(** C70: @with_columns. *)
From Verif Require Import Base Dict NodeModel NodeSpec NodeProofs PipeModel PipeSpec PipeProofs SubdagModel SubdagSpec SubdagProofs
  ExtractModel PruneProps ColumnsModel ColumnsSpec ColumnsProofs.

Section Props.
Context {V E T : Type}.
Context `{EqDecision T}.
Variable vget : V -> key -> option V.
Variable vfill : V -> key -> V -> V.
Variable assign : V -> dict V -> res E V.
Variable column_type : T -> option T.
Variable df_type : T.
Variable captured : dict V -> res (nerr E) V.
Variable order : list name -> list name.
Notation transform := (transform_dag vget vfill assign column_type df_type captured order).

(** Shared hypotheses: the decorated nodes [nodes] are in the graph [ns], whose variable [p] is the dataframe [df];
    [n] is a node of the function that takes [p]. *)
Definition placed (ns : dict (pnode V E T)) (env : gmap name V) (st : wc) (fn : name) (sig : list name) (fns orig nodes : list (pnode V E T))
    (st' : wc) (p : name) (df : V) (n : pnode V E T) : Prop :=
  let N := default fn (wc_namespace st) in
  (forall y n, dget ns y = Some n -> NoDup (dkeys (pn_inputs n))) /\ (forall l, order l ≡ₚ l) /\
  transform st fn sig fns orig = Ok (nodes, st') /\ inject_parameter st sig = Ok p /\ fits fns (passed st) p N /\
  (forall m, m ∈ nodes -> dget ns (pn_name m) = Some m) /\
  n ∈ orig /\ p ∈ dkeys (pn_inputs n) /\ NoDup (dkeys (pn_inputs n)) /\ keyword_fn (pn_call n) /\
  assign_namespace "_append" N ∉ dkeys (pn_inputs n) /\ value ns env p df.

(** A function under @with_columns is called with the dataframe to which the selected columns
    are appended, as the given functions compute them from the columns passed, the dataframe and the variables of the
    graph; its other arguments are as without the decorator. *)
Theorem C70_value ns env st fn sig fns orig nodes st' p df n sel (env' : gmap name V) v :
  placed ns env st fn sig fns orig nodes st' p df n -> wc_select st' = Some sel ->
  (forall k, wanted fns sel k -> k ∉ map pn_name fns -> reads ns env (passed st) p vget df k (env' !! k)) ->
  value ns env (pn_name n) v <->
  exists kw new df', pn_call n kw = Ok v /\ NoDup (dkeys kw) /\ (forall k, k ∈ dkeys kw -> k ∈ dkeys (pn_inputs n)) /\
    new_columns fns env' sel new /\ assign df new = Ok df' /\ dget kw p = Some df' /\
    (forall q t dt, (q, (t, dt)) ∈ pn_inputs n -> q <> p -> given ns env q dt (dget kw q)).
Proof.
  intros (W & O & H & Hp & F & Hn & Ho & Hin & N' & K & Hl & Hw) Hsel B.
  apply transform_inv in H as (p' & t & ct0 & ct & pruned & Hp' & _ & _ & ND & Hct & Hpr & _ & _ & -> & ->).
  rewrite Hp in Hp'. injection Hp' as <-. cbn in Hsel. injection Hsel as Hsel. rewrite Hsel in Hn.
  destruct (pruned_facts vget column_type order st p t ct0 ct fns pruned O (fun h => proj1 (Hct h)) ND Hpr) as (P1 & P2 & P3 & P4). rewrite Hsel in P3.
  set (N := default fn (wc_namespace st)) in *. set (last := assign_namespace "_append" N) in *.
  assert (IG : forall m, m ∈ add_namespace captured (pruned ++ [append_node assign df_type p sel ct]) N [] [] -> dget ns (pn_name m) = Some m).
  { intros m Hm. apply Hn, elem_of_app. by right. }
  pose proof (append_value vget vfill assign column_type df_type captured order ns env fns (passed st) p N t ct0 ct sel pruned df env' W F ND P1 P2 P3 P4 IG Hw B) as AV.
  assert (Dl : dget ns last <> None).
  { unfold last. by rewrite (append_in_graph assign df_type captured ns p N ct sel pruned IG). }
  assert (C : clash_free [(p, last)] ([] : dict V) (pn_inputs n)) by (apply single_clash_free; [done|by left|done]).
  assert (Dn : dget ns (pn_name n) = Some (reassign_inputs n [(p, last)] [])).
  { apply (Hn (reassign_inputs n [(p, last)] [])), elem_of_app. left. apply elem_of_list_fmap. exists n. split; [by rewrite decide_True by done|done]. }
  rewrite (reassign_value ns env (pn_name n) n [(p, last)] [] v K C Dn). split.
  - intros (kw & Hc & Nk & _ & Hk & Hg). pose proof Hin as Hin'. apply elem_of_list_fmap in Hin' as ([p' [tp dt]] & Heq & Hp'). cbn in Heq. subst p'.
    pose proof (Hg p tp dt Hp' eq_refl) as Hgp. unfold rename in Hgp. cbn in Hgp. rewrite decide_True in Hgp by done. cbn in Hgp.
    destruct (dget kw p) as [u|] eqn:Ek; cbn in Hgp; [|by destruct Hgp as (_ & ? & _)].
    apply AV in Hgp as (new & Hnew & Ha). exists kw, new, u. split_and!; [done|done| |done|done|done|].
    + intros k Hkk. apply Hk in Hkk. by rewrite app_nil_r in Hkk.
    + intros q t' dt' Hq Hne. pose proof (Hg q t' dt' Hq eq_refl) as Hgq. unfold rename in Hgq. cbn in Hgq. by rewrite decide_False in Hgq.
  - intros (kw & new & u & Hc & Nk & Hk & Hnew & Ha & Hkp & Hg). exists kw. split_and!; [done|done|by intros ? ? [=]| |].
    + intros k Hkk. rewrite app_nil_r. by apply Hk.
    + intros q tq dt Hq _. unfold rename. cbn. destruct (decide (q = p)) as [-> | Hne]; cbn; [|by apply (Hg q tq dt)].
      rewrite Hkp. cbn. apply AV. by exists new.
Qed.

(** A column that is passed, read and not in the dataframe: the function is not called. *)
Theorem C70_missing_column ns env st fn sig fns orig nodes st' p df n sel c :
  placed ns env st fn sig fns orig nodes st' p df n -> wc_select st' = Some sel ->
  c ∈ passed st -> wanted fns sel c -> vget df (KName c) = None ->
  forall v, ~ value ns env (pn_name n) v.
Proof.
  intros (W & O & H & Hp & F & Hn & Ho & Hin & N' & K & Hl & Hw) Hsel Hc Hwc Hm v Hv.
  apply transform_inv in H as (p' & t & ct0 & ct & pruned & Hp' & _ & _ & ND & Hct & Hpr & _ & _ & -> & ->).
  rewrite Hp in Hp'. injection Hp' as <-. cbn in Hsel. injection Hsel as Hsel. rewrite Hsel in Hn.
  destruct (pruned_facts vget column_type order st p t ct0 ct fns pruned O (fun h => proj1 (Hct h)) ND Hpr) as (P1 & P2 & P3 & P4). rewrite Hsel in P3.
  set (N := default fn (wc_namespace st)) in *. set (last := assign_namespace "_append" N) in *.
  assert (IG : forall m, m ∈ add_namespace captured (pruned ++ [append_node assign df_type p sel ct]) N [] [] -> dget ns (pn_name m) = Some m).
  { intros m Hm'. apply Hn, elem_of_app. by right. }
  pose proof (append_missing vget vfill assign column_type df_type captured order ns env fns (passed st) p N t ct0 ct sel pruned df W F ND P1 P2 P3 P4 IG Hw c Hc Hwc Hm) as AM.
  assert (Dl : dget ns last <> None).
  { unfold last. by rewrite (append_in_graph assign df_type captured ns p N ct sel pruned IG). }
  assert (C : clash_free [(p, last)] ([] : dict V) (pn_inputs n)) by (apply single_clash_free; [done|by left|done]).
  assert (Dn : dget ns (pn_name n) = Some (reassign_inputs n [(p, last)] [])).
  { apply (Hn (reassign_inputs n [(p, last)] [])), elem_of_app. left. apply elem_of_list_fmap. exists n. split; [by rewrite decide_True by done|done]. }
  apply (reassign_value ns env (pn_name n) n [(p, last)] [] v K C Dn) in Hv as (kw & _ & _ & _ & _ & Hg).
  pose proof Hin as Hin'. apply elem_of_list_fmap in Hin' as ([p' [tp dt]] & Heq & Hp'). cbn in Heq. subst p'.
  pose proof (Hg p tp dt Hp' eq_refl) as Hgp. unfold rename in Hgp. cbn in Hgp. rewrite decide_True in Hgp by done. cbn in Hgp.
  destruct (dget kw p) as [u|] eqn:Ek; cbn in Hgp; [by apply AM in Hgp|by destruct Hgp as (_ & ? & _)].
Qed.

(** The selection: what is given, else the columns passed and the functions that return columns. *)
Theorem C70_selection st fn sig fns orig nodes st' : transform st fn sig fns orig = Ok (nodes, st') ->
  wc_columns st' = wc_columns st /\ wc_on_input st' = wc_on_input st /\ wc_namespace st' = wc_namespace st /\
  exists ct p t sel, column_type df_type = Some ct /\ inject_parameter st sig = Ok p /\ param_type orig p t /\ wc_select st' = Some sel /\
    match wc_select st with
    | Some s => sel = s
    | None => forall c, c ∈ sel <-> (exists n, n ∈ fns /\ pn_name n = c /\ pn_type n = ct) \/ (c ∈ passed st /\ column_type t = Some ct)
    end.
Proof.
  intros H. apply transform_inv in H as (p & t & ct0 & ct & pruned & Hp & Ht & _ & _ & _ & _ & _ & Hc & -> & _).
  split_and!; [done|done|done|]. exists ct, p, t, (chosen column_type st t ct fns). split_and!; [done|done|done|done|].
  unfold chosen. destruct (wc_select st) as [s|]; [done|]. intros c. rewrite elem_of_app. split.
  - intros [H | H].
    + right. destruct (decide _); [done|by apply elem_of_nil in H].
    + left. apply elem_of_list_fmap in H as (n & -> & Hn). apply elem_of_list_filter in Hn as [Ht' Hn]. by exists n.
  - intros [(n & Hn & <- & Ht') | [H1 H2]].
    + right. apply elem_of_list_fmap_1. by apply elem_of_list_filter.
    + left. by rewrite decide_True.
Qed.

(** What is added to the graph: under the namespace, the node that appends and those of the columns passed and the functions
    that the selection reads (all of them when nothing is selected); the nodes of the function keep
    their names and those without the parameter are left alone. *)
Theorem C70_nodes st fn sig fns orig nodes st' p : (forall l, order l ≡ₚ l) -> transform st fn sig fns orig = Ok (nodes, st') ->
  inject_parameter st sig = Ok p -> p ∉ passed st ++ map pn_name fns ->
  let N := default fn (wc_namespace st) in
  map pn_name (take (length orig) nodes) = map pn_name orig /\
  (forall n, n ∈ orig -> p ∉ dkeys (pn_inputs n) -> n ∈ nodes) /\
  forall x, x ∈ map pn_name (drop (length orig) nodes) <->
    x = assign_namespace "_append" N \/
    exists c, x = assign_namespace c N /\ c ∈ passed st ++ map pn_name fns /\
      match wc_select st with None => True | Some sel => wanted fns sel c end.
Proof.
  intros O H Hp Hpn N. apply transform_inv in H as (p' & t & ct0 & ct & pruned & Hp' & _ & _ & ND & Hct & Hpr & _ & Hc & -> & ->).
  rewrite Hp in Hp'. injection Hp' as <-. fold N. set (f := fun n => _). set (out := pruned ++ _).
  assert (Hl : length (map f orig) = length orig) by apply map_length.
  split_and!.
  - rewrite <- Hl, take_app. rewrite map_map. apply map_ext. intros n. unfold f. by destruct (decide _).
  - intros n Hn Hnp. apply elem_of_app. left. apply elem_of_list_fmap. exists n. split; [|done]. unfold f. by rewrite decide_False.
  - intros x. rewrite <- Hl, drop_app.
    assert (Hnames : map pn_name (add_namespace captured out N [] []) = map (fun n => assign_namespace (pn_name n) N) out).
    { unfold add_namespace. rewrite map_map. apply map_ext_in. intros n Hn%elem_of_list_In. cbn [namespaced_node pn_name].
      apply rename_declared. left. by apply elem_of_list_fmap_1. }
    rewrite Hnames. unfold out. rewrite map_app, elem_of_app. cbn [map ColumnsModel.append_node pn_name]. rewrite elem_of_list_singleton, Logic.or_comm.
    apply or_iff_compat_l.
    destruct (pruned_facts vget column_type order st p t ct0 ct fns pruned O (fun h => proj1 (Hct h)) ND Hpr) as (P1 & P2 & P3 & P4).
    set (g := extractors vget (passed st) p t ct0 ++ fns) in *.
    assert (Hg : map pn_name g = passed st ++ map pn_name fns) by (unfold g; rewrite map_app, extractor_names; done).
    split.
    + intros (n & -> & Hn)%elem_of_list_fmap. exists (pn_name n). pose proof (P2 _ Hn) as Hng.
      split_and!; [done|rewrite <- Hg; by apply elem_of_list_fmap_1|]. destruct (wc_select st) as [sel|] eqn:Es; [|done].
      pose proof (C43_prune order g sel ND O) as C. change (prune_nodes order g (Some sel) = Pruned pruned) in Hpr. rewrite Hpr in C.
      destruct C as (_ & C2 & _). apply C2 in Hn as [_ Hd]. revert Hd. generalize (pn_name n) as y. intros y Hd.
      induction Hd as [m Hm Hs|m m' Hm _ IH Hm' Hi]; [by apply wanted_sel|]. unfold g in Hm. apply elem_of_app in Hm as [Hm | Hm].
      * exfalso. apply elem_of_list_fmap in Hm as (c & -> & _). cbn in Hi. apply elem_of_list_singleton in Hi. apply Hpn. rewrite <- Hi, <- Hg.
        by apply elem_of_list_fmap_1.
      * by eapply wanted_dep.
    + intros (c & -> & Hcg & Hw). rewrite <- Hg in Hcg.
      assert (Hcp : c ∈ map pn_name pruned).
      { destruct (wc_select st) as [sel|] eqn:Es.
        - assert (Hch : chosen column_type st t ct fns = sel) by (unfold chosen; by rewrite Es). rewrite Hch in P3.
          apply (wanted_pruned vget fns (passed st) p t ct0 sel pruned); done.
        - cbn in Hpr. injection Hpr as <-. done. }
      apply elem_of_list_fmap in Hcp as (n & -> & Hn). apply elem_of_list_fmap. by exists n.
Qed.

(** Which functions and arguments are accepted, when the parameter has one type [t]. *)
Theorem C70_accepts st fn sig fns orig t : (forall l, order l ≡ₚ l) ->
  (forall p n t' dt, inject_parameter st sig = Ok p -> n ∈ orig -> (p, (t', dt)) ∈ pn_inputs n -> t' = t) ->
  (exists nodes st', transform st fn sig fns orig = Ok (nodes, st')) <->
  (exists p, match wc_on_input st with Some q => p = q | None => sig !! 0 = Some p end /\ free orig p) /\
  (wc_on_input st = None -> (exists c cs, wc_columns st = Some (c :: cs)) /\ is_Some (column_type t)) /\
  is_Some (column_type df_type) /\ NoDup (passed st ++ map pn_name fns) /\
  match wc_select st with
  | None => passed st ++ map pn_name fns <> []
  | Some sel => sel <> [] /\ forall c, c ∈ sel -> c ∈ passed st ++ map pn_name fns
  end.
Proof.
  intros O Ht.
  assert (Hip : forall p, inject_parameter st sig = Ok p <-> match wc_on_input st with Some q => p = q | None => sig !! 0 = Some p end).
  { intros p. unfold inject_parameter. destruct (wc_on_input st) as [q|]; [naive_solver|]. destruct sig; cbn; naive_solver. }
  split.
  - intros (nodes & st' & H). apply transform_inv in H as (p & t' & ct0 & ct & pruned & Hp & Hpt & _ & ND & Hct & Hpr & Hne & Hc & _ & _).
    destruct Hpt as (n & dt & Hn & Hpi & Hpn). pose proof (Ht _ _ _ _ Hp Hn Hpi) as ->.
    assert (Hg : map pn_name (extractors vget (passed st) p t ct0 ++ fns) = passed st ++ map pn_name fns) by by rewrite map_app, extractor_names.
    split_and!.
    + exists p. split; [by apply Hip|]. split; [exists n; split; [done|by eapply elem_dkeys]|]. intros m Hm Hmp. apply Hpn. rewrite <- Hmp. by apply elem_of_list_fmap_1.
    + intros h. destruct (Hct h) as (H1 & H2 & H3). split; [|by eexists]. rewrite H2. destruct (passed st) as [|c cs]; [done|]. by exists c, cs.
    + by eexists.
    + by rewrite <- Hg.
    + destruct (wc_select st) as [sel|] eqn:Es.
      * pose proof (C43_prune order _ sel ND O) as C. rewrite Hpr in C. destruct C as (_ & C2 & C3). split.
        -- intros ->. destruct pruned as [|m pruned]; [done|]. destruct (proj1 (C2 m) ltac:(by left)) as [_ Hd].
           induction Hd as [? ? Hs|]; [by apply elem_of_nil in Hs|done].
        -- intros c Hcs. rewrite <- Hg. by apply C3.
      * cbn in Hpr. injection Hpr as <-. rewrite <- Hg. by destruct (extractors vget (passed st) p t ct0 ++ fns).
  - intros ((p & Hp & Hf) & Hcol & [ct Hct] & ND & Hs). apply Hip in Hp. unfold transform_dag, inject_nodes, validate_dataframe. rewrite Hp.
    destruct (dget (injectable_types orig) p) as [t'|] eqn:Et; [|by apply injectable_types_none in Et].
    destruct (injectable_types_some orig p t' Et) as (n & dt & Hn & Hpi & _). pose proof (Ht _ _ _ _ Hp Hn Hpi) as ->.
    assert (Hin : exists initial, initial_nodes (E := E) vget vfill column_type st p t = Ok initial).
    { unfold initial_nodes. destruct (wc_on_input st) as [q|]; [by eexists|]. destruct (Hcol eq_refl) as ((c & cs & Hcs) & [ct0 Hct0]).
      unfold column_nodes. rewrite Hcs, Hct0. by eexists. }
    destruct Hin as [initial Hin]. rewrite Hin. destruct (initial_inv vget vfill column_type st p t initial Hin) as (ct0 & -> & _).
    assert (Hg : map pn_name (extractors vget (passed st) p t ct0 ++ fns) = passed st ++ map pn_name fns) by by rewrite map_app, extractor_names.
    rewrite decide_True by by rewrite Hg. rewrite Hct.
    destruct (wc_select st) as [sel|] eqn:Es.
    + assert (ND' : NoDup (map pn_name (extractors vget (passed st) p t ct0 ++ fns))) by by rewrite Hg.
      pose proof (C43_prune order _ sel ND' O) as C. destruct (prune_nodes order _ (Some sel)) as [[|x pruned]| |]; [| |exfalso|done].
      * exfalso. destruct C as (_ & C2 & C3). destruct sel as [|c sel]; [by destruct Hs|]. assert (Hcg : c ∈ c :: sel) by by left.
        pose proof (C3 c Hcg) as Hcn. apply elem_of_list_fmap in Hcn as (m & -> & Hm). assert (Hbad : m ∈ []); [|by apply elem_of_nil in Hbad].
        apply C2. split; [done|]. by apply needed_selected.
      * by eexists _, _.
      * destruct C as (c & Hcs & Hcn). apply Hcn. rewrite Hg. by apply Hs.
    + cbn [prune_nodes]. rewrite <- Hg in Hs. destruct (extractors vget (passed st) p t ct0 ++ fns) as [|x l]; [done|]. by eexists _, _.
Qed.

(** Only one of [columns_to_pass] and [on_input] may be given. *)
Theorem C70_constructor columns on_input select namespace :
  with_columns columns on_input select namespace = None <-> is_Some columns /\ is_Some on_input.
Proof.
  destruct columns, on_input; cbn; split; try done; intros [[? ?] [? ?]]; done.
Qed.
End Props.
Print Assumptions C70_value.
Print Assumptions C70_missing_column.
Print Assumptions C70_selection.
Print Assumptions C70_nodes.
Print Assumptions C70_accepts.
Print Assumptions C70_constructor.

(** ** Examples *)
Inductive ev := Num (n : nat) | Frame (columns : dict nat).
Definition num (v : option ev) : nat := match v with Some (Num n) => n | _ => 0 end.
Definition eget (v : ev) (k : key) : option ev := match v, k with Frame d, KName c => Num <$> dget d c | _, _ => None end.
Definition efill (v : ev) (_ : key) (_ : ev) : ev := v.
Definition eassign (v : ev) (new : dict ev) : res string ev :=
  match v with
  | Frame d => Ok (Frame (foldl (fun d kv => dset d kv.1 (num (Some kv.2))) d new))
  | Num _ => Err "no attribute assign"
  end.
Definition ecol (t : string) : option string := if decide (t = "DataFrame") then Some "Series" else None.
Definition ecap (kw : dict ev) : res (nerr string) ev := Err (NUser "captured").
Notation etransform := (transform_dag eget efill eassign ecol "DataFrame" ecap (fun l => l)).

(** def s(a, k), def t(s, b), def u(a) -> int; b and a are columns, k is a variable of the graph. *)
Definition fs : pnode ev string string :=
  from_fn "s" "Series" [("a", ("Series", REQUIRED)); ("k", ("int", REQUIRED))] (fun kw => Ok (Num (num (kw !! "a") + num (kw !! "k")))).
Definition ft : pnode ev string string :=
  from_fn "t" "Series" [("s", ("Series", REQUIRED)); ("b", ("Series", REQUIRED))] (fun kw => Ok (Num (num (kw !! "s") * num (kw !! "b")))).
Definition fu : pnode ev string string :=
  from_fn "u" "int" [("a", ("Series", REQUIRED))] (fun kw => Ok (Num (num (kw !! "a")))).
(** @with_columns(s, t, u, columns_to_pass=["a", "b"], select=["t"])  def f(data, w) *)
Definition ff : pnode ev string string :=
  from_fn "f" "DataFrame" [("data", ("DataFrame", REQUIRED)); ("w", ("int", REQUIRED))]
    (fun kw => match kw !! "data" with Some d => Ok d | None => Err "no data" end).
Definition est := WC (Some ["a"; "b"]) None (Some ["t"]) None.
Definition enodes : list (pnode ev string string) :=
  match etransform est "f" ["data"; "w"] [fs; ft; fu] [ff] with Ok (nodes, _) => nodes | Err _ => [] end.
Example ex_columns_nodes : map pn_name enodes = ["f"; "f.t"; "f.b"; "f.s"; "f.a"; "f._append"].
Proof. by vm_compute. Qed.
Definition ens : dict (pnode ev string string) := map (fun n => (pn_name n, n)) enodes.
Definition edf : ev := Frame [("a", 2); ("b", 3); ("z", 4)].
Definition eenv : gmap name ev := {["data" := edf; "k" := Num 10; "w" := Num 1]}.
Definition eenv' : gmap name ev := {["a" := Num 2; "b" := Num 3; "k" := Num 10]}.
Ltac by_dec := apply (bool_decide_unpack _); by vm_compute.

Lemma ens_wf : forall y n, dget ens y = Some n -> NoDup (dkeys (pn_inputs n)).
Proof.
  intros y n H. apply dget_elem in H. unfold ens in H. apply elem_of_list_fmap in H as (n' & [= -> ->] & Hn).
  repeat (apply elem_of_cons in Hn as [-> | Hn]; [by_dec|]). by apply elem_of_nil in Hn.
Qed.
Lemma ens_in : forall n, n ∈ enodes -> dget ens (pn_name n) = Some n.
Proof. intros n Hn. repeat (apply elem_of_cons in Hn as [-> | Hn]; [reflexivity|]). by apply elem_of_nil in Hn. Qed.
Lemma not_namespaced (s N : name) : has_dot s = false -> forall k, s <> assign_namespace k N.
Proof. intros H k ->. by rewrite has_dot_assign in H. Qed.
Lemma e_fits : fits [fs; ft; fu] ["a"; "b"] "data" "f".
Proof.
  split; [by_dec|by_dec| | |by_dec|].
  - split_and!; [done|by_dec|done|]. by apply not_namespaced.
  - intros n Hn. repeat (apply elem_of_cons in Hn as [-> | Hn]; [split_and!; [done|by_dec|by_dec]|]). by apply elem_of_nil in Hn.
  - intros n k Hn Hk H1 H2. assert (k = "k") as ->.
    { repeat (apply elem_of_cons in Hn as [-> | Hn]); [..|by apply elem_of_nil in Hn];
      repeat (apply elem_of_cons in Hk as [-> | Hk]); first [by apply elem_of_nil in Hk|done|exfalso; apply H1; by_dec|exfalso; apply H2; by_dec]. }
    split; [by_dec|]. intros k' _. by apply not_namespaced.
Qed.
Lemma e_placed : placed eget efill eassign ecol "DataFrame" ecap (fun l => l) ens eenv est "f" ["data"; "w"] [fs; ft; fu] [ff] enodes est "data" edf ff.
Proof.
  unfold placed. split_and!; [exact ens_wf|done| |done|exact e_fits|exact ens_in|by left|by left|by_dec|apply from_fn_keyword|by_dec|].
  - unfold enodes. destruct (etransform _ _ _ _ _) as [[nodes st']|] eqn:H; [|by vm_compute in H].
    do 2 f_equal. apply C70_selection in H as (H1 & H2 & H3 & (ct & p & t & sel & _ & _ & _ & H4 & H5)). cbn in H5. subst sel.
    destruct st' as [c o s n]. cbn in *. by subst.
  - by apply value_input.
Qed.
Lemma e_wanted k : wanted [fs; ft; fu] ["t"] k -> k ∈ ["t"; "s"; "b"; "a"; "k"].
Proof.
  induction 1 as [c Hc|n k Hn _ IH Hk]; [apply elem_of_list_singleton in Hc as ->; by_dec|].
  repeat (apply elem_of_cons in Hn as [-> | Hn]); [..|by apply elem_of_nil in Hn];
  repeat (apply elem_of_cons in Hk as [-> | Hk]); first [by apply elem_of_nil in Hk|by_dec].
Qed.
Lemma e_reads : forall k, wanted [fs; ft; fu] ["t"] k -> k ∉ map pn_name [fs; ft; fu] ->
  reads ens eenv (passed est) "data" eget edf k (eenv' !! k).
Proof.
  intros k Hk%e_wanted Hn. repeat (apply elem_of_cons in Hk as [-> | Hk]); [exfalso; apply Hn; by_dec|exfalso; apply Hn; by_dec|..|by apply elem_of_nil in Hk];
    unfold reads.
  - rewrite decide_True by by_dec. by exists (Num 3).
  - rewrite decide_True by by_dec. by exists (Num 2).
  - rewrite decide_False by by_dec. rewrite decide_False by done. left. exists (Num 10). split; [|done]. by apply value_input.
Qed.
(** (2 + 10) * 3 = 36 is appended. *)
Example ex_columns : value ens eenv "f" (Frame [("a", 2); ("b", 3); ("z", 4); ("t", 36)]).
Proof.
  apply (C70_value eget efill eassign ecol "DataFrame" ecap (fun l => l) ens eenv est "f" ["data"; "w"] [fs; ft; fu] [ff] enodes est "data" edf ff ["t"] eenv' _ e_placed eq_refl e_reads).
  exists [("data", Frame [("a", 2); ("b", 3); ("z", 4); ("t", 36)]); ("w", Num 1)], [("t", Num 36)], (Frame [("a", 2); ("b", 3); ("z", 4); ("t", 36)]).
  assert (SI : forall k w, k ∉ ["s"; "t"; "u"] -> eenv' !! k = Some w -> value (standalone [fs; ft; fu]) eenv' k w).
  { intros k w Hk Hw. apply value_input; [|done]. by apply dget_None_key. }
  assert (Vs : value (standalone [fs; ft; fu]) eenv' "s" (Num 12)).
  { apply (value_node _ _ "s" fs {["a" := Num 2; "k" := Num 10]}); [done| | | |by vm_compute].
    - intros k w Hk. apply lookup_insert_Some in Hk as [[<- _] | [_ Hk]]; [by_dec|]. apply lookup_singleton_Some in Hk as [<- _]. by_dec.
    - intros k w Hk. apply lookup_insert_Some in Hk as [[<- <-] | [_ Hk]]; [apply SI; [by_dec|done]|].
      apply lookup_singleton_Some in Hk as [<- <-]. apply SI; [by_dec|done].
    - intros k t dt Hk Hn. repeat (apply elem_of_cons in Hk as [[= -> -> ->] | Hk]; [by vm_compute in Hn|]). by apply elem_of_nil in Hk. }
  split_and!; [by vm_compute|by_dec|intros k Hk; exact Hk| |done|done|].
  - split; [done|]. intros c w Hc. apply dget_elem, elem_of_list_singleton in Hc as [= -> ->].
    apply (value_node _ _ "t" ft {["s" := Num 12; "b" := Num 3]}); [done| | | |by vm_compute].
    + intros k w Hk. apply lookup_insert_Some in Hk as [[<- _] | [_ Hk]]; [by_dec|]. apply lookup_singleton_Some in Hk as [<- _]. by_dec.
    + intros k w Hk. apply lookup_insert_Some in Hk as [[<- <-] | [_ Hk]]; [done|]. apply lookup_singleton_Some in Hk as [<- <-]. apply SI; [by_dec|done].
    + intros k t dt Hk Hn. repeat (apply elem_of_cons in Hk as [[= -> -> ->] | Hk]; [by vm_compute in Hn|]). by apply elem_of_nil in Hk.
  - intros q t dt Hq Hne. repeat (apply elem_of_cons in Hq as [[= -> -> ->] | Hq]); [done| |by apply elem_of_nil in Hq]. cbn. by apply value_input.
Qed.
(** Without column b in the dataframe nothing is computed. *)
Example ex_missing v : ~ value ens {["data" := Frame [("a", 2)]; "k" := Num 10; "w" := Num 1]} "f" v.
Proof.
  pose proof e_placed as (W & O & H & Hp & F & Hn & Ho & Hin & N' & K & Hl & _).
  apply (C70_missing_column eget efill eassign ecol "DataFrame" ecap (fun l => l) ens _ est "f" ["data"; "w"] [fs; ft; fu] [ff] enodes est "data" (Frame [("a", 2)]) ff ["t"] "b").
  - unfold placed. split_and!; try done. by apply value_input.
  - done.
  - by_dec.
  - apply (wanted_dep _ _ ft); [repeat first [apply elem_of_list_here|apply elem_of_list_further]|by apply wanted_sel, elem_of_list_singleton|by_dec].
  - done.
Qed.
(** Nothing selected: the columns passed and the functions that return columns. *)
Example ex_all : match etransform (WC (Some ["a"; "b"]) None None None) "f" ["data"; "w"] [fs; ft; fu] [ff] with
  | Ok (nodes, st') => map pn_name nodes = ["f"; "f.a"; "f.b"; "f.s"; "f.t"; "f.u"; "f._append"] /\ wc_select st' = Some ["a"; "b"; "s"; "t"]
  | Err _ => False
  end.
Proof. by vm_compute. Qed.
Example ex_rejected : etransform (WC (Some ["a"; "s"]) None None None) "f" ["data"; "w"] [fs; ft; fu] [ff] = Err WValueError
  /\ etransform (WC None (Some "other") None None) "f" ["data"; "w"] [fs; ft; fu] [ff] = Err WInvalidDecorator
  /\ etransform (WC None None None None) "f" ["data"; "w"] [fs; ft; fu] [ff] = Err WTypeError
  /\ etransform (WC None (Some "data") (Some ["x"]) None) "f" ["data"; "w"] [fs; ft; fu] [ff] = Err WValueError.
Proof. by vm_compute. Qed.

(** ** Refutations *)
(** The selection is stored in the decorator. Building a second driver from the same module and configuration fails,
    when no function returns a column. *)
Theorem C70_rebuild_refuted : exists st fns nodes st',
  etransform st "f" ["data"; "w"] fns [ff] = Ok (nodes, st') /\ etransform st' "f" ["data"; "w"] fns [ff] = Err WValueError.
Proof.
  exists (WC None (Some "data") None None), [fu].
  destruct (etransform (WC None (Some "data") None None) "f" ["data"; "w"] [fu] [ff]) as [[nodes st']|] eqn:H; [|by vm_compute in H].
  exists nodes, st'. split; [done|]. apply (f_equal (fun r => match r with Ok (_, s) => Some s | Err _ => None end)) in H. vm_compute in H. injection H as <-. by vm_compute.
Qed.
(** A driver for a second configuration, under which there is one more function, does not append that
    function's column, which it does when it is the first to be built. *)
Theorem C70_configuration_refuted : exists st fns1 fns2 n1 st1 n2 st2 n3 st3,
  wc_select st = None /\ etransform st "f" ["data"; "w"] fns1 [ff] = Ok (n1, st1) /\
  etransform st1 "f" ["data"; "w"] fns2 [ff] = Ok (n2, st2) /\ wc_select st2 = Some ["a"; "s"] /\
  etransform st "f" ["data"; "w"] fns2 [ff] = Ok (n3, st3) /\ wc_select st3 = Some ["a"; "s"; "t"].
Proof.
  set (st := WC (Some ["a"]) None None None).
  destruct (etransform st "f" ["data"; "w"] [fs] [ff]) as [[n1 st1]|] eqn:H1; [|by vm_compute in H1].
  pose proof (f_equal (fun r => match r with Ok (_, s) => Some s | Err _ => None end) H1) as S1. vm_compute in S1. injection S1 as S1.
  destruct (etransform st1 "f" ["data"; "w"] [fs; ft] [ff]) as [[n2 st2]|] eqn:H2; [|subst st1; by vm_compute in H2].
  pose proof (f_equal (fun r => match r with Ok (_, s) => Some s | Err _ => None end) H2) as S2. rewrite <- S1 in S2. vm_compute in S2. injection S2 as S2.
  destruct (etransform st "f" ["data"; "w"] [fs; ft] [ff]) as [[n3 st3]|] eqn:H3; [|by vm_compute in H3].
  pose proof (f_equal (fun r => match r with Ok (_, s) => Some s | Err _ => None end) H3) as S3. vm_compute in S3. injection S3 as S3.
  exists st, [fs], [fs; ft], n1, st1, n2, st2, n3, st3. split_and!; [done|done|done|by subst st2|done|by subst st3].
Qed.
(** The type of the dataframe parameter is not checked when it is named by [on_input]: a parameter of type int is accepted. *)
Theorem C70_type_refuted : exists st fns (n : pnode ev string string) nodes st' dt,
  validate st ["x"] [("x", "int"); ("return", "int")] = Ok "int" /\ ("x", ("int", dt)) ∈ pn_inputs n /\
  etransform st "f" ["x"] fns [n] = Ok (nodes, st').
Proof.
  set (st := WC None (Some "x") None None). set (n := from_fn (E := string) "f" "int" [("x", ("int", REQUIRED))] (fun _ => Ok (Num 1))).
  destruct (etransform st "f" ["x"] [fs] [n]) as [[nodes st']|] eqn:H; [|by vm_compute in H].
  exists st, [fs], n, nodes, st', REQUIRED. split_and!; [done|by left|done].
Qed.
Lemma own_input {V E T} (ns : dict (pnode V E T)) env y n t : dget ns y = Some n -> (y, (t, REQUIRED)) ∈ pn_inputs n -> forall v, ~ value ns env y v.
Proof.
  intros D Hi. assert (G : forall x v, value ns env x v -> x <> y); [|intros v Hv; by apply G in Hv].
  intros x v. induction 1 as [x v D' Hx|x n' m v D' Hd Hv IH Ho Hc]; intros ->; [congruence|]. rewrite D in D'. injection D' as <-.
  destruct (m !! y) as [w|] eqn:Em; [by apply (IH _ _ Em)|]. by destruct (Ho _ _ _ Hi Em) as [? _].
Qed.
Lemma graph_in {V E T} (nodes : list (pnode V E T)) : NoDup (map pn_name nodes) ->
  forall m, m ∈ nodes -> dget (map (fun n => (pn_name n, n)) nodes) (pn_name m) = Some m.
Proof.
  intros N m Hm. apply elem_dget; [|apply elem_of_list_fmap; by exists m].
  unfold dkeys. change (@fmap list _ ?A ?B ?f ?l) with (map f l). by rewrite map_map.
Qed.
(** A column passed under the name of the dataframe parameter is accepted, and its node depends on itself. *)
Theorem C70_parameter_name_refuted : exists st nodes st' (ns : dict (pnode ev string string)),
  etransform st "f" ["data"; "w"] [] [ff] = Ok (nodes, st') /\ (forall m, m ∈ nodes -> dget ns (pn_name m) = Some m) /\
  forall env v, ~ value ns env "f.data" v.
Proof.
  set (st := WC (Some ["data"]) None None None). set (r := etransform st "f" ["data"; "w"] [] [ff]).
  assert (C : match r with
    | Ok (nodes, _) => bool_decide (NoDup (map pn_name nodes)) && match dget (map (fun n => (pn_name n, n)) nodes) "f.data" with
        | Some n => bool_decide (pn_inputs n = [("f.data", ("DataFrame", REQUIRED))]) | None => false end
    | Err _ => false end = true) by by vm_compute.
  destruct r as [[nodes st']|] eqn:H; [|done]. apply andb_true_iff in C as [C1 C2]. apply bool_decide_eq_true in C1.
  exists st, nodes, st', (map (fun n => (pn_name n, n)) nodes). split_and!; [done|by apply graph_in|].
  destruct (dget _ "f.data") as [n|] eqn:D; [|done]. apply bool_decide_eq_true in C2.
  intros env. apply (own_input _ _ _ n "DataFrame"); [done|]. rewrite C2. by left.
Qed.
(** Two @with_columns on one function, without namespaces, are both accepted and define the same name twice. *)
Theorem C70_stacked_refuted : exists st1 st2 n1 st1' n2 st2',
  etransform st1 "f" ["data"; "w"] [fs] [ff] = Ok (n1, st1') /\ etransform st2 "f" ["data"; "w"] [fu] n1 = Ok (n2, st2') /\
  ~ NoDup (map pn_name n2).
Proof.
  set (st := WC (Some ["a"]) None None None).
  destruct (etransform st "f" ["data"; "w"] [fs] [ff]) as [[n1 st1']|] eqn:H1; [|by vm_compute in H1].
  assert (G : match etransform st "f" ["data"; "w"] [fu] n1 with Ok (n2, _) => negb (bool_decide (NoDup (map pn_name n2))) | Err _ => false end = true).
  { apply (f_equal (fun r => match r with Ok (ns, _) => ns | Err _ => [] end)) in H1. rewrite <- H1. by vm_compute. }
  destruct (etransform st "f" ["data"; "w"] [fu] n1) as [[n2 st2']|] eqn:H2; [|done].
  exists st, st, n1, st1', n2, st2'. split_and!; [done|done|]. apply negb_true_iff, bool_decide_eq_false in G. done.
Qed.
Print Assumptions C70_rebuild_refuted.
Print Assumptions C70_configuration_refuted.
Print Assumptions C70_type_refuted.
Print Assumptions C70_parameter_name_refuted.
Print Assumptions C70_stacked_refuted.
