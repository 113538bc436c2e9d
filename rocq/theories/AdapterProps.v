(** C57: @load_from, @save_to and @dataloader. *)
From Verif Require Import Base Dict NodeModel NodeSpec NodeProofs PipeModel PipeSpec PipeProofs ExtractProofs SubdagProofs AdapterModel AdapterSpec AdapterProofs.

(** The class that is used is the most recently registered one that applies to the type,
    else the most recently registered one for any type; there is none only if no class is
    of either sort. *)
Theorem C57_class {V E T} (t : T) (classes : list (acls V E T)) :
  match resolve_class t classes with
  | Some c => chosen t classes c
  | None => forall c, c ∈ classes -> ac_applies c t = false /\ ac_any c = false
  end.
Proof.
  destruct (resolve_class t classes) as [c|] eqn:R; [by apply resolve_class_chosen|by apply resolve_class_none].
Qed.
Print Assumptions C57_class.

Section Inject.
Context {V E T : Type}.
(** A parameter of the nodes that is none of them. *)
Definition free_param (nodes : list (pnode V E T)) (p : name) : Prop :=
  p ∉ map pn_name nodes /\ exists n, n ∈ nodes /\ p ∈ dkeys (pn_inputs n).
(** The parameter to inject: the given one, which must be free, or the only free one. *)
Definition injected (nodes : list (pnode V E T)) (inject : option name) (p : name) : Prop :=
  free_param nodes p /\ match inject with Some q => q = p | None => forall q, free_param nodes q -> q = p end.

Lemma injectable_inner (names : list name) (ins : dict (T * deptype)) : forall (d : dict T) p t,
  dget (foldl (fun d kt => if decide (kt.1 ∈ names) then d else dset d kt.1 kt.2.1) d ins) p = Some t ->
  dget d p = Some t \/ (p ∉ names /\ exists dt, (p, (t, dt)) ∈ ins).
Proof.
  induction ins as [|[k [t' dt']] ins IH]; intros d p t H; cbn in H; [by left|].
  apply IH in H as [H|(H1 & dt & H2)]; [|right; split; [done|]; exists dt; by right].
  destruct (decide (k ∈ names)) as [Hk|Hk]; [by left|].
  rewrite dget_dset in H. destruct (decide (p = k)) as [-> | ]; [|by left].
  injection H as ->. right. split; [done|]. exists dt'. by left.
Qed.
Lemma injectable_inner_mono (names : list name) (ins : dict (T * deptype)) : forall (d : dict T) p,
  p ∈ dkeys d \/ (p ∉ names /\ p ∈ dkeys ins) ->
  p ∈ dkeys (foldl (fun d kt => if decide (kt.1 ∈ names) then d else dset d kt.1 kt.2.1) d ins).
Proof.
  induction ins as [|[k [t' dt']] ins IH]; intros d p H; cbn.
  - destruct H as [?|[_ []%elem_of_nil]]; done.
  - apply IH. destruct H as [H|[H1 H2]].
    + left. destruct (decide (k ∈ names)); [done|]. apply dkeys_dset_elem. by right.
    + cbn in H2. apply elem_of_cons in H2 as [-> | H2]; [|by right]. left. rewrite decide_False by done. apply dkeys_dset_elem. by left.
Qed.
Lemma injectable_get (nodes : list (pnode V E T)) p t : dget (injectable_params nodes) p = Some t ->
  p ∉ map pn_name nodes /\ exists n dt, n ∈ nodes /\ (p, (t, dt)) ∈ pn_inputs n.
Proof.
  unfold injectable_params. generalize (map pn_name nodes) as names.
  assert (Gen : forall (names : list name) (l : list (pnode V E T)) (d : dict T), 
    dget (foldl (fun d n => foldl (fun d kt => if decide (kt.1 ∈ names) then d else dset d kt.1 kt.2.1) d (pn_inputs n)) d l) p = Some t ->
    dget d p = Some t \/ (p ∉ names /\ exists n dt, n ∈ l /\ (p, (t, dt)) ∈ pn_inputs n)).
  { intros names. induction l as [|n l IH]; intros d H; cbn in H; [by left|].
    apply IH in H as [H|(H1 & n' & dt & H2 & H3)]; [|right; split; [done|]; exists n', dt; split; [by right|done]].
    apply injectable_inner in H as [H|(H1 & dt & H2)]; [by left|]. right. split; [done|]. exists n, dt. split; [by left|done]. }
  intros names H. apply Gen in H as [H|H]; [done|done].
Qed.
Lemma injectable_free (nodes : list (pnode V E T)) p : p ∈ dkeys (injectable_params nodes) <-> free_param nodes p.
Proof.
  split.
  - intros [t Ht]%dget_Some_key. apply injectable_get in Ht as (H1 & n & dt & H2 & H3). split; [done|]. exists n. split; [done|]. by eapply PipeProofs.elem_dkeys.
  - intros (H1 & n & Hn & Hp). unfold injectable_params. revert H1. generalize (map pn_name nodes) as names. intros names H1.
    assert (Gen : forall (l : list (pnode V E T)) (d : dict T), p ∈ dkeys d \/ n ∈ l ->
      p ∈ dkeys (foldl (fun d n => foldl (fun d kt => if decide (kt.1 ∈ names) then d else dset d kt.1 kt.2.1) d (pn_inputs n)) d l)).
    { induction l as [|n' l IH]; intros d H; cbn; [by destruct H as [?|[]%elem_of_nil]|].
      apply IH. destruct H as [H|[<- | H]%elem_of_cons]; [left; apply injectable_inner_mono; by left|left; apply injectable_inner_mono; by right|by right]. }
    apply Gen. by right.
Qed.
Lemma NoDup_injectable (nodes : list (pnode V E T)) : NoDup (dkeys (injectable_params nodes)).
Proof.
  unfold injectable_params. generalize (map pn_name nodes) as names. intros names.
  assert (Gen : forall (l : list (pnode V E T)) (d : dict T), NoDup (dkeys d) ->
    NoDup (dkeys (foldl (fun d n => foldl (fun d kt => if decide (kt.1 ∈ names) then d else dset d kt.1 kt.2.1) d (pn_inputs n)) d l))).
  { induction l as [|n l IH]; intros d N; cbn; [done|]. apply IH. revert d N. induction (pn_inputs n) as [|[k x] ins IHi]; intros d N; cbn; [done|].
    apply IHi. destruct (decide _); [done|]. by apply NoDup_dkeys_dset. }
  apply Gen, NoDup_nil_2.
Qed.
Lemma select_param_spec (nodes : list (pnode V E T)) inject p : select_param inject (dkeys (injectable_params nodes)) = Ok p <-> injected nodes inject p.
Proof.
  unfold select_param, injected. destruct inject as [q|].
  - destruct (decide (q ∈ _)) as [H|H]; rewrite injectable_free in H.
    + split; [intros [= <-]; done|intros [_ ->]; done].
    + split; [done|intros [? ->]; done].
  - pose proof (fun q => injectable_free nodes q) as F. pose proof (NoDup_injectable nodes) as N.
    destruct (dkeys (injectable_params nodes)) as [|a [|b l]].
    + split; [done|]. intros [H _]. apply F in H. by apply elem_of_nil in H.
    + split.
      * intros [= <-]. split; [apply F; by left|]. intros q Hq. apply F in Hq. by apply elem_of_list_singleton in Hq.
      * intros [_ H]. f_equal. apply H, F. by left.
    + split; [done|]. intros [_ H]. exfalso. apply NoDup_cons in N as [N _]. apply N.
      rewrite (H a), (H b); [by left|apply F; right; by left|apply F; by left].
Qed.
End Inject.

(** @load_from: the function runs with the injected parameter bound to the data that the
    chosen class loads with the declared arguments, and with its other parameters as
    before. The nodes of the loader are named after the function, so that other functions
    are not affected. *)
Theorem C57_load_from_partial {V E T} vpair vfst (tuple_of : T -> T) (ns : dict (pnode V E T)) env classes kws inject fn nodes out :
  (forall a b : V, vfst (vpair a b) = Some a) ->
  load_from vpair vfst tuple_of classes kws inject fn nodes = Ok out ->
  exists p t c n0 dt0, injected nodes inject p /\ n0 ∈ nodes /\ (p, (t, dt0)) ∈ pn_inputs n0 /\ chosen t classes c /\ accepted c kws /\
    ((forall m, m ∈ out -> dget ns (pn_name m) = Some m) -> well_formed c kws -> separate kws ->
     forall n v, n ∈ nodes -> p ∈ dkeys (pn_inputs n) -> NoDup (dkeys (pn_inputs n)) -> keyword_fn (pn_call n) ->
       (fn ++ ".select_data." ++ p)%string ∉ dkeys (pn_inputs n) ->
       value ns env (pn_name n) v <->
       exists kw a data meta, pn_call n kw = Ok v /\ NoDup (dkeys kw) /\ (forall k, k ∈ dkeys kw -> k ∈ dkeys (pn_inputs n)) /\
         adapter_args ns env c kws a /\ ac_load c a = Ok (data, meta) /\ dget kw p = Some data /\
         (forall q t dt, (q, (t, dt)) ∈ pn_inputs n -> q <> p -> given ns env q dt (dget kw q))).
Proof.
  intros Pf H. unfold load_from in H. destruct (select_param inject _) as [p|] eqn:Sp; [|done]. cbn in H.
  apply select_param_spec in Sp. destruct (dget (injectable_params nodes) p) as [t|] eqn:Dt; [|done].
  unfold loader_nodes in H. destruct (resolve_class t classes) as [c|] eqn:Rc; [|done].
  destruct (validate c kws) as [[]|] eqn:Va; [|done]. cbn in H. injection H as <-.
  destruct (injectable_get nodes p t Dt) as (Hp & n0 & dt0 & Hn0 & Hin0).
  apply validate_accepted in Va. exists p, t, c, n0, dt0. split_and!; [done|done|done|by apply resolve_class_chosen|done|].
  intros Hns W S n v Hn Hpn N K Hfresh. cbn [pn_name] in Hns.
  set (l := (fn ++ ".load_data." ++ p)%string) in *. set (s := (fn ++ ".select_data." ++ p)%string) in *.
  assert (Dl : dget ns l = Some (PNode l (tuple_of t) (adapter_inputs c kws) (load_call vpair c kws))).
  { apply (Hns (PNode l (tuple_of t) (adapter_inputs c kws) (load_call vpair c kws))). apply elem_of_app. right. by left. }
  assert (Ds : dget ns s = Some (PNode s t [(l, (tuple_of t, REQUIRED))] (filter_call vfst l))).
  { apply (Hns (PNode s t [(l, (tuple_of t, REQUIRED))] (filter_call vfst l))). apply elem_of_app. right. right. by left. }
  assert (Dn : dget ns (pn_name n) = Some (reassign_inputs n [(p, s)] [])).
  { apply (Hns (reassign_inputs n [(p, s)] [])). apply elem_of_app. left. apply elem_of_list_fmap. exists n. split; [|done]. by rewrite decide_True. }
  assert (C : clash_free [(p, s)] ([] : dict V) (pn_inputs n)) by (apply single_clash_free; [done|by left|done]).
  rewrite (reassign_value ns env (pn_name n) n [(p, s)] [] v K C Dn).
  pose proof (fun u => selected_value vpair vfst c kws W Va S ns env Pf s l t (tuple_of t) u Dl Ds) as Sel.
  split.
  - intros (kw & Hc & Nk & _ & Hk & Hg). pose proof Hpn as Hpn'. apply elem_of_list_fmap in Hpn' as ([p' [tp dt]] & Heq & Hp'). cbn in Heq. subst p'.
    pose proof (Hg p tp dt Hp' eq_refl) as Hgp. unfold rename in Hgp. cbn in Hgp. rewrite decide_True in Hgp by done. cbn in Hgp.
    destruct (dget kw p) as [u|] eqn:Ek; cbn in Hgp; [|destruct Hgp as (_ & Hx & _); congruence].
    apply Sel in Hgp as (a & meta & Ha & Hl). exists kw, a, u, meta. split_and!; [done|done| |done|done|done|].
    + intros k Hkk. apply Hk in Hkk. by rewrite app_nil_r in Hkk.
    + intros q t' dt' Hq Hne. pose proof (Hg q t' dt' Hq eq_refl) as Hgq. unfold rename in Hgq. cbn in Hgq. by rewrite decide_False in Hgq.
  - intros (kw & a & data & meta & Hc & Nk & Hk & Ha & Hl & Hkp & Hg). exists kw. split_and!; [done|done|by intros ? ? [=]| |].
    + intros k Hkk. rewrite app_nil_r. by apply Hk.
    + intros q t' dt Hq _. unfold rename. cbn. destruct (decide (q = p)) as [-> | Hne]; cbn; [|by apply (Hg q t' dt)].
      rewrite Hkp. cbn. apply Sel. by exists a, meta.
Qed.
Print Assumptions C57_load_from_partial.

(** @save_to adds one node: it has the metadata that the chosen class returns when it saves
    the value of the function's node with the declared arguments. The function's own node
    is unchanged. *)
Theorem C57_save_to_partial {V E T} (dict_type : T) non_final (ns : dict (pnode V E T)) env classes kws output tgt nodes out :
  save_to dict_type non_final classes kws output tgt nodes = Ok out ->
  exists n c s, n ∈ nodes /\ chosen (pn_type n) classes c /\ accepted c kws /\
    match tgt with Some x => pn_name n = x | None => non_final n = false /\ forall n', n' ∈ nodes -> pn_name n ∉ dkeys (pn_inputs n') end /\
    pn_name s = match output with Some o => o | None => ("save." ++ pn_name n)%string end /\
    (forall m, m ∈ out <-> m = s \/ m = n \/ (m ∈ nodes /\ pn_name m <> pn_name n)) /\
    (dget ns (pn_name s) = Some s -> well_formed c kws -> separate kws ->
     pn_name n ∉ dkeys kws -> (forall k, dget kws k <> Some (DSource (pn_name n))) ->
     forall v, value ns env (pn_name s) v <->
       exists a data, adapter_args ns env c kws a /\ value ns env (pn_name n) data /\ ac_save c a data = Ok v).
Proof.
  intros H. unfold save_to in H.
  destruct (select_nodes non_final _ nodes) as [sel|] eqn:Se; [|done]. cbn in H.
  destruct sel as [|n [|]]; [done| |done]. unfold saver_node in H.
  destruct (resolve_class (pn_type n) classes) as [c|] eqn:Rc; [|done].
  destruct (validate c kws) as [[]|] eqn:Va; [|done]. cbn in H. injection H as <-.
  assert (Hn : n ∈ nodes /\ default (pn_name n) tgt = pn_name n /\
    match tgt with Some x => pn_name n = x | None => non_final n = false /\ forall n', n' ∈ nodes -> pn_name n ∉ dkeys (pn_inputs n') end).
  { destruct tgt as [x|]; cbn in Se.
    - destruct (filter (fun n => pn_name n = x) nodes) as [|n1 r] eqn:F; [done|]. injection Se as -> ->.
      assert (Hin : n ∈ filter (fun n => pn_name n = x) nodes) by (rewrite F; by left).
      apply elem_of_list_filter in Hin as [Hx Hin]. done.
    - injection Se as Se. assert (Hin : n ∈ final_nodes non_final nodes) by (rewrite Se; by left).
      unfold final_nodes in Hin. apply elem_of_list_filter in Hin as [[H1 H2] H3]. split_and!; [done|done|done|].
      intros n' Hn' Hx. apply H1. apply elem_of_concat. exists (dkeys (pn_inputs n')). split; [done|]. apply elem_of_list_fmap. by exists n'. }
  destruct Hn as (Hn & Hdef & Hsel). rewrite Hdef. apply validate_accepted in Va.
  exists n, c, (PNode match output with Some o => o | None => ("save." ++ pn_name n)%string end dict_type
                (dset (adapter_inputs c kws) (pn_name n) (pn_type n, REQUIRED)) (save_call c kws (pn_name n))).
  split; [done|]. split; [by apply resolve_class_chosen|]. split; [done|]. split; [done|]. split; [reflexivity|]. split.
  - intros m. rewrite elem_of_app. unfold compliment. rewrite elem_of_list_filter. cbn [map]. rewrite elem_of_list_singleton, !elem_of_cons, elem_of_nil. tauto.
  - intros D W S Hk Hs v. cbn [pn_name] in *. apply (saver_value c kws W Va S ns env _ (pn_name n) (pn_type n) dict_type v Hk); [|done].
    intros (k & Hk'). by apply (Hs k).
Qed.
Print Assumptions C57_save_to_partial.

(** @dataloader: the function's name has the data, [name.loader] has the data with the metadata. *)
Theorem C57_dataloader {V E T} vpair vfst (ns : dict (pnode V E T)) env n (t : T) :
  (forall a b : V, vfst (vpair a b) = Some a) ->
  (forall m, m ∈ dataloader vfst n t -> dget ns (pn_name m) = Some m) ->
  (forall kw v, pn_call n kw = Ok v -> exists data meta, v = vpair data meta) ->
  forall data, value ns env (pn_name n) data <->
    exists m meta, args ns env (pn_inputs n) m /\ pn_call n (kwargs (pn_inputs n) m) = Ok (vpair data meta).
Proof.
  intros Pf Hm Hr data. set (l := (pn_name n ++ ".loader")%string) in *.
  assert (D1 : dget ns l = Some (PNode l (pn_type n) (pn_inputs n) (pn_call n))) by (apply (Hm (PNode l (pn_type n) (pn_inputs n) (pn_call n))); by left).
  assert (D2 : dget ns (pn_name n) = Some (PNode (pn_name n) t [(l, (pn_type n, REQUIRED))] (filter_call vfst l))).
  { apply (Hm (PNode (pn_name n) t [(l, (pn_type n, REQUIRED))] (filter_call vfst l))). right. by left. }
  rewrite (single_value ns env (pn_name n) l _ _ _ data D2).
  assert (X : forall d, filter_call (E := E) vfst l [(l, d)] = match vfst d with Some u => Ok u | None => Err (NKey "0") end).
  { intros d. unfold filter_call. cbn. by rewrite decide_True. }
  pose proof (fun v => value_node_iff ns env l _ v D1) as L. cbn [pn_inputs pn_call] in L. split.
  - intros (d & Hd & Hc). apply L in Hd as (m & Ha & Hcall). destruct (Hr _ _ Hcall) as (d0 & meta & ->). rewrite X, Pf in Hc. injection Hc as ->. eauto.
  - intros (m & meta & Ha & Hcall). exists (vpair data meta). split; [apply L; eauto|]. by rewrite X, Pf.
Qed.
Print Assumptions C57_dataloader.

(** ** Examples and disagreements *)
Inductive tv := TN (n : nat) | TP (a b : tv).
Definition tfst (v : tv) : option tv := match v with TP a _ => Some a | TN _ => None end.
Definition num (a : gmap name tv) (k : name) (d : nat) : nat := match a !! k with Some (TN n) => n | _ => d end.
(** A class with a required field [path] and optional fields [sep] (default 1) and [enc] (default 2); what it loads or
    saves records them. *)
Definition csv : acls tv unit unit :=
  ACls [("path", tt)] [("sep", tt); ("enc", tt)] false (fun _ => true)
    (fun a => Ok (TN (100 * num a "path" 0 + 10 * num a "sep" 1 + num a "enc" 2), TN 7))
    (fun a d => Ok (TP (TN (100 * num a "path" 0 + 10 * num a "sep" 1 + num a "enc" 2)) d)).
Definition anyc : acls tv unit unit := ACls [] [] true (fun _ => false) (fun _ => Ok (TN 0, TN 0)) (fun _ d => Ok d).
(** [def f(data, y): return (data, y)] *)
Definition fnode : pnode tv unit unit :=
  from_fn "f" tt [("data", (tt, REQUIRED)); ("y", (tt, REQUIRED))]
    (fun m => match m !! "data", m !! "y" with Some a, Some b => Ok (TP a b) | _, _ => Err tt end).
Definition lkws : dict (dep tv) := [("path", DSource "p"); ("sep", DValue (TN 3)); ("enc", DSource "q")].

Example C57_class_example : resolve_class tt [anyc; csv; anyc] = Some csv /\ resolve_class tt [anyc] = Some anyc.
Proof. done. Qed.

Ltac keyed := apply (bool_decide_unpack _); by vm_compute.

Lemma csv_well kws : NoDup (dkeys kws) -> well_formed csv kws.
Proof. intros N. split; [done|]. cbn. keyed. Qed.

(** The hypotheses of the theorem hold of the function with
    [@load_from.csv(path=source("p"), sep=value(3), enc=source("q"), inject_="data")]. *)
Example C57_load_from_example : exists out,
  load_from TP tfst (fun t => t) [anyc; csv] lkws (Some "data") "f" [fnode] = Ok out /\
  map pn_name out = ["f"; "f.load_data.data"; "f.select_data.data"] /\
  (forall m, m ∈ out -> dget (map (fun n => (pn_name n, n)) out) (pn_name m) = Some m) /\
  well_formed csv lkws /\ separate lkws /\ keyword_fn (pn_call fnode) /\
  value (map (fun n => (pn_name n, n)) out) {["p" := TN 4; "y" := TN 5]} "f" (TP (TN 432) (TN 5)).
Proof.
  eexists. split; [reflexivity|]. split; [reflexivity|]. split_and!.
  - intros m Hm. repeat (apply elem_of_cons in Hm as [-> | Hm]; [reflexivity|]). by apply elem_of_nil in Hm.
  - apply csv_well. cbn. keyed.
  - split.
    + intros k k' s. cbn. repeat (destruct (decide _) as [-> | ]); intros H1 H2; try done; congruence.
    + intros k s u. cbn. destruct (decide (k = "path")); [intros [= <-]; done|]. destruct (decide (k = "sep")); [done|].
      destruct (decide (k = "enc")); [intros [= <-]; done|done].
  - apply from_fn_keyword.
  - assert (Hl : forall ns env, dget ns "f.load_data.data" = Some (PNode "f.load_data.data" tt (adapter_inputs csv lkws) (load_call TP csv lkws)) ->
      dget ns "p" = None -> dget ns "q" = None -> env !! "p" = Some (TN 4) -> env !! "q" = None -> value ns env "f.load_data.data" (TP (TN 432) (TN 7))).
    { intros ns env D P Q Ep Eq. apply (value_node ns env _ _ {["p" := TN 4]} _ D).
      - intros k w Hk. apply lookup_singleton_Some in Hk as [<- <-]. vm_compute. left.
      - intros k w Hk. apply lookup_singleton_Some in Hk as [<- <-]. by apply value_input.
      - intros k t dt Hk Hn. 
        change (adapter_inputs csv lkws) with [("p", (tt, REQUIRED)); ("q", (tt, OPTIONAL))] in Hk.
        apply elem_of_cons in Hk as [[= -> -> ->] | [= -> -> ->]%elem_of_list_singleton]; done.
      - reflexivity. }
    eapply (value_node _ _ "f" _ {["f.select_data.data" := TN 432; "y" := TN 5]}); [reflexivity| | | |reflexivity].
    + intros k w Hk. cbn. rewrite lookup_insert_Some in Hk. destruct Hk as [[<- _]|[_ Hk]]; [by left|]. apply lookup_singleton_Some in Hk as [<- _]. right. by left.
    + intros k w Hk. rewrite lookup_insert_Some in Hk. destruct Hk as [[<- <-]|[_ Hk]].
      * eapply (value_node _ _ "f.select_data.data" _ {["f.load_data.data" := TP (TN 432) (TN 7)]}); [reflexivity| | | |reflexivity].
        -- intros k w Hk. apply lookup_singleton_Some in Hk as [<- _]. by left.
        -- intros k w Hk. apply lookup_singleton_Some in Hk as [<- <-]. by apply Hl.
        -- intros k t dt Hk Hn. cbn in Hk. apply elem_of_list_singleton in Hk as [= -> -> ->]. done.
      * apply lookup_singleton_Some in Hk as [<- <-]. by apply value_input.
    + intros k t dt Hk Hn. cbn in Hk. repeat (apply elem_of_cons in Hk as [[= -> -> ->] | Hk]; [done|]). by apply elem_of_nil in Hk.
Qed.

(** [@save_to.csv(path=source("p"), output_name_="saved")] *)
Example C57_save_to_example : exists out,
  save_to tt (fun _ => false) [anyc; csv] [("path", DSource "p")] (Some "saved") None [fnode] = Ok out /\
  map pn_name out = ["saved"; "f"] /\ well_formed csv [("path", DSource "p")] /\ separate (V := tv) [("path", DSource "p")] /\
  "f" ∉ dkeys (A := dep tv) [("path", DSource "p")].
Proof.
  eexists. split; [reflexivity|]. split; [reflexivity|]. split_and!.
  - apply csv_well. cbn. keyed.
  - split.
    + intros k k' s. cbn. repeat (destruct (decide _) as [-> | ]); done.
    + intros k s u. cbn. destruct (decide (k = "path")); [intros [= <-]; done|done].
  - intros H. cbn in H. by apply elem_of_list_singleton in H.
Qed.

Example C57_dataloader_example :
  let n : pnode tv unit unit := from_fn "g" tt [("p", (tt, REQUIRED))] (fun m => match m !! "p" with Some a => Ok (TP a (TN 7)) | None => Err tt end) in
  map pn_name (dataloader tfst n tt) = ["g.loader"; "g"] /\
  (forall kw v, pn_call n kw = Ok v -> exists data meta, v = TP data meta).
Proof.
  split; [done|]. intros kw v. cbn [pn_call from_fn]. match goal with |- context [find ?f ?l] => destruct (find f l) end; [done|]. destruct (list_to_map kw !! "p"); [|done]. intros [= <-]. by do 2 eexists.
Qed.

(** Two arguments from the same variable: the loader node does not pass the first one. Here
    [sep] and [enc] both come from [q], but the data is loaded with the default [sep]. *)
Theorem C57_shared_source_refuted : exists (kws : dict (dep tv)) (ns : dict (pnode tv unit unit)) env x a right wrong,
  dget ns x = Some (PNode x tt (adapter_inputs csv kws) (load_call TP csv kws)) /\
  well_formed csv kws /\ accepted csv kws /\
  adapter_args ns env csv kws a /\ ac_load csv a = Ok right /\
  value ns env x wrong /\ wrong <> TP right.1 right.2.
Proof.
  exists [("path", DValue (TN 4)); ("sep", DSource "q"); ("enc", DSource "q")].
  eexists [("l", PNode "l" tt (adapter_inputs csv _) (load_call TP csv _))], {["q" := TN 5]}, "l", {["path" := TN 4; "sep" := TN 5; "enc" := TN 5]}, (TN 455, TN 7), (TP (TN 415) (TN 7)).
  split; [reflexivity|]. split; [apply csv_well; cbn; keyed|]. split; [by apply validate_accepted|]. split; [|split; [reflexivity|split; [|done]]].
  - intros k. cbn. destruct (decide (k = "path")) as [-> | H1]; [reflexivity|].
    destruct (decide (k = "sep")) as [-> | H2]; [by apply value_input|].
    destruct (decide (k = "enc")) as [-> | H3]; [by apply value_input|].
    by rewrite !lookup_insert_ne, lookup_singleton_ne.
  - eapply (value_node _ _ "l" _ {["q" := TN 5]}); [reflexivity| | | |reflexivity].
    + intros k w Hk. apply lookup_singleton_Some in Hk as [<- _]. vm_compute. left.
    + intros k w Hk. apply lookup_singleton_Some in Hk as [<- <-]. by apply value_input.
    + intros k t dt Hk Hn. vm_compute in Hk. apply (elem_of_list_singleton (k, (t, dt))) in Hk as [= -> -> ->]. done.
Qed.
Print Assumptions C57_shared_source_refuted.

(** An argument from a variable that is called like an argument given as a literal is not
    passed: [enc=source("sep"), sep=value(3)] loads with the default [enc]. *)
Theorem C57_literal_name_refuted : exists (kws : dict (dep tv)) (ns : dict (pnode tv unit unit)) env x a right wrong,
  dget ns x = Some (PNode x tt (adapter_inputs csv kws) (load_call TP csv kws)) /\
  well_formed csv kws /\ accepted csv kws /\ (forall k k' s, dget kws k = Some (DSource s) -> dget kws k' = Some (DSource s) -> k = k') /\
  adapter_args ns env csv kws a /\ ac_load csv a = Ok right /\
  value ns env x wrong /\ wrong <> TP right.1 right.2.
Proof.
  exists [("path", DValue (TN 4)); ("sep", DValue (TN 3)); ("enc", DSource "sep")].
  eexists [("l", PNode "l" tt (adapter_inputs csv _) (load_call TP csv _))], {["sep" := TN 5]}, "l", {["path" := TN 4; "sep" := TN 3; "enc" := TN 5]}, (TN 435, TN 7), (TP (TN 432) (TN 7)).
  split; [reflexivity|]. split; [apply csv_well; cbn; keyed|]. split; [by apply validate_accepted|]. split; [|split; [|split; [reflexivity|split; [|done]]]].
  - intros k k' s. cbn. repeat (destruct (decide _) as [-> | ]); done.
  - intros k. cbn. destruct (decide (k = "path")) as [-> | H1]; [reflexivity|].
    destruct (decide (k = "sep")) as [-> | H2]; [reflexivity|].
    destruct (decide (k = "enc")) as [-> | H3]; [by apply value_input|].
    by rewrite !lookup_insert_ne, lookup_singleton_ne.
  - eapply (value_node _ _ "l" _ ∅); [reflexivity| | | |reflexivity].
    + by intros k w Hk.
    + by intros k w Hk.
    + intros k t dt Hk Hn. vm_compute in Hk. by apply elem_of_nil in Hk.
Qed.
Print Assumptions C57_literal_name_refuted.

(** A saver field called like the saved node is lost: saving the node [sep] with [sep=value(3)]
    saves with the default [sep]. *)
Theorem C57_field_named_node_refuted : exists (kws : dict (dep tv)) (ns : dict (pnode tv unit unit)) env x data a d right wrong,
  dget ns x = Some (PNode x tt (dset (adapter_inputs csv kws) data (tt, REQUIRED)) (save_call csv kws data)) /\
  well_formed csv kws /\ accepted csv kws /\ separate kws /\
  adapter_args ns env csv kws a /\ value ns env data d /\ ac_save csv a d = Ok right /\
  value ns env x wrong /\ wrong <> right.
Proof.
  exists [("path", DValue (TN 4)); ("sep", DValue (TN 3))].
  eexists [("s", PNode "s" tt (dset (adapter_inputs csv _) "sep" (tt, REQUIRED)) (save_call csv _ "sep"))], {["sep" := TN 5]}, "s", "sep", {["path" := TN 4; "sep" := TN 3]}, (TN 5), (TP (TN 432) (TN 5)), (TP (TN 412) (TN 5)).
  split; [reflexivity|]. split; [apply csv_well; cbn; keyed|]. split; [by apply validate_accepted|].
  split; [split; [intros k k' s; cbn; repeat (destruct (decide _) as [-> | ]); done|intros k s u; cbn; repeat (destruct (decide (k = _)) as [-> | ]); done]|].
  split; [|split; [by apply value_input|split; [reflexivity|split; [|done]]]].
  - intros k. cbn. destruct (decide (k = "path")) as [-> | H1]; [reflexivity|].
    destruct (decide (k = "sep")) as [-> | H2]; [reflexivity|].
    by rewrite lookup_insert_ne, lookup_singleton_ne.
  - eapply (value_node _ _ "s" _ {["sep" := TN 5]}); [reflexivity| | | |reflexivity].
    + intros k w Hk. apply lookup_singleton_Some in Hk as [<- _]. vm_compute. left.
    + intros k w Hk. apply lookup_singleton_Some in Hk as [<- <-]. by apply value_input.
    + intros k t dt Hk Hn. vm_compute in Hk. apply (elem_of_list_singleton (k, (t, dt))) in Hk as [= -> -> ->]. done.
Qed.
Print Assumptions C57_field_named_node_refuted.

(** A saver argument from the saved node itself makes the saver node raise KeyError. *)
Theorem C57_saved_source_refuted : exists (kws : dict (dep tv)) (ns : dict (pnode tv unit unit)) env x data a d right,
  dget ns x = Some (PNode x tt (dset (adapter_inputs csv kws) data (tt, REQUIRED)) (save_call csv kws data)) /\
  well_formed csv kws /\ accepted csv kws /\ separate kws /\ data ∉ dkeys kws /\
  adapter_args ns env csv kws a /\ value ns env data d /\ ac_save csv a d = Ok right /\
  (forall m, args ns env (dset (adapter_inputs csv kws) data (tt, REQUIRED)) m -> save_call csv kws data (kwargs (dset (adapter_inputs csv kws) data (tt, REQUIRED)) m) = Err (NKey data)) /\
  forall v, ~ value ns env x v.
Proof.
  exists [("path", DSource "d")].
  eexists [("s", PNode "s" tt (dset (adapter_inputs csv _) "d" (tt, REQUIRED)) (save_call csv _ "d"))], {["d" := TN 5]}, "s", "d", {["path" := TN 5]}, (TN 5), (TP (TN 512) (TN 5)).
  assert (Key : forall (ns : dict (pnode tv unit unit)) env m, args ns env (dset (adapter_inputs csv [("path", DSource "d")]) "d" (tt, REQUIRED)) m ->
    save_call csv [("path", DSource "d")] "d" (kwargs (dset (adapter_inputs csv [("path", DSource "d")]) "d" (tt, REQUIRED)) m) = Err (NKey "d")).
  { intros ns env m _. change (dset (adapter_inputs csv [("path", DSource "d")]) "d" (tt, REQUIRED)) with [("d", (tt, REQUIRED))].
    unfold kwargs. cbn [omap list_omap fst]. destruct (m !! "d") as [w|]; reflexivity. }
  split; [reflexivity|]. split; [apply csv_well; cbn; keyed|]. split; [by apply validate_accepted|].
  split; [split; [intros k k' s; cbn; repeat (destruct (decide _) as [-> | ]); done|intros k s u; cbn; destruct (decide (k = _)) as [-> | ]; [intros [= <-]; done|done]]|].
  split; [intros H; by apply elem_of_list_singleton in H|].
  split; [|split; [by apply value_input|split; [reflexivity|split; [apply Key|]]]].
  - intros k. cbn. destruct (decide (k = "path")) as [-> | H1]; [by apply value_input|]. by rewrite lookup_singleton_ne.
  - intros v Hv. eapply value_node_iff in Hv as (m & Hm & Hc); [|reflexivity]. cbn [pn_inputs pn_call] in Hm, Hc. rewrite (Key _ _ m Hm) in Hc. done.
Qed.
Print Assumptions C57_saved_source_refuted.

(** The documented way to stack two savers names a parameter of the function as target
    (adapters.py 660-668); no node of the function has that name, so making the nodes fails. *)
Theorem C57_documented_layering_refuted : exists (kws : dict (dep tv)) (n : pnode tv unit unit),
  "data" ∈ dkeys (pn_inputs n) /\ accepted csv kws /\
  save_to tt (fun _ => false) [csv] kws (Some "data_save_output2") (Some "data") [n] = Err ANoTarget.
Proof.
  exists [("path", DSource "raw_data_path2")], fnode. split; [by left|]. split; [by apply validate_accepted|done].
Qed.
Print Assumptions C57_documented_layering_refuted.
