(** C68: @mutate passes the outputs of a function through the mutators, in order. *)
From Verif Require Import Base Dict NodeModel NodeSpec NodeProofs PipeModel PipeSpec PipeProofs PipeProps AdapterModel TargetProps MutateModel MutateSpec MutateProofs.

(** After importing a module in which apply_to objects are not shared, the nodes of a function
    are those of its definition with the steps of all later @mutate that name it added to
    the end of every pipe_output that it has, or to a new one if it has none. *)
Theorem C68_pipeline {V E T} (any_type : T) (non_final : pnode V E T -> bool) p1 f nodes decs hidden p2 st :
  Forall inline (p1 ++ SDef f nodes decs hidden :: p2) -> Forall (fun s => binds s <> Some (pf_name f)) p2 ->
  import (p1 ++ SDef f nodes decs hidden :: p2) = Ok st ->
  nodes_of any_type non_final st (pf_name f) =
    Some (if hidden then Ok []
          else run_decs any_type non_final (pf_name f) (extended (concat (map (mutations (pf_name f)) p2)) (map written decs)) nodes).
Proof. intros H1 H2 H3. apply nodes_of_view. by apply (import_view p1 f nodes decs hidden p2 st). Qed.
Print Assumptions C68_pipeline.

Lemma filter_target_steps {V E T} (n : pnode V E T) aps : filter_target n aps = steps_for n aps.
Proof.
  unfold filter_target, steps_for. induction aps as [|[a on] aps IH]; [done|]. cbn [omap list_omap]. cbn [snd fst].
  destruct on as [xs|].
  - destruct (decide (pn_name n ∈ xs)) as [Hin|Hin].
    + rewrite filter_cons_True by (cbn; by apply bool_decide_eq_true). cbn [fmap list_fmap fst]. f_equal. exact IH.
    + rewrite filter_cons_False by (cbn; by rewrite bool_decide_eq_true). exact IH.
  - rewrite filter_cons_True by done. cbn [fmap list_fmap fst]. f_equal. exact IH.
Qed.

Lemma steps_value_skip {V E T} (ns : dict (pnode V E T)) env aps w v :
  (forall a, a ∈ aps -> ap_resolves a = false) -> steps_value ns env aps w v <-> v = w.
Proof.
  induction aps as [|a aps IH]; intros H.
  - split; [by inversion 1|intros ->; constructor].
  - rewrite <- IH by (intros; apply H; by right). split.
    + inversion 1; subst; [done|]. match goal with H0 : ap_resolves a = true |- _ => by rewrite (H a (elem_of_list_here _ _)) in H0 end.
    + intros Hs. apply sv_skip; [by apply H; left|done].
Qed.

(** The value of one piped node, whether or not a step resolves. *)
Lemma piped_value {V E T} (any_type : T) (ns : dict (pnode V E T)) env n aps nsp fn ms v :
  (forall y n, dget ns y = Some n -> NoDup (dkeys (pn_inputs n))) -> keyword_fn (pn_call n) ->
  pipe_output any_type aps nsp fn n = Some ms ->
  (forall m, m ∈ ms -> dget ns (pn_name m) = Some m) ->
  chain_fits aps (map pn_name ms) ->
  value ns env (pn_name n) v <->
  exists w m, args ns env (pn_inputs n) m /\ pn_call n (kwargs (pn_inputs n) m) = Ok w /\ steps_value ns env aps w v.
Proof.
  intros W K Hp Hin Hf.
  destruct (decide (Exists (fun a => ap_resolves a = true) aps)) as [He|He].
  - apply Exists_exists in He as (a & Ha & Hr). apply (C55_pipe_output_partial any_type ns env n aps nsp fn ms v); try done. by exists a.
  - assert (Hno : forall a, a ∈ aps -> ap_resolves a = false).
    { intros a Ha. destruct (ap_resolves a) eqn:Hr; [|done]. destruct He. apply Exists_exists. by exists a. }
    rewrite C55_no_steps in Hp by done. injection Hp as <-. rewrite (value_node_iff ns env _ n) by (apply Hin; by left).
    split.
    + intros (m & Hm & Hc). exists v, m. split_and!; [done|done|]. by apply steps_value_skip.
    + intros (w & m & Hm & Hc & Hs). apply steps_value_skip in Hs as ->; [|done]. by exists m.
Qed.

(** Each output of a function that has at most one pipe_output, without target, is the value that
    the function gives, passed through the steps of that pipe_output and then through the mutators in the
    order of the module, as far as they are meant for this output. Assumed, as for
    pipe_output: the parameters of each step stand for distinct names. *)
Theorem C68_value_partial {V E T} (any_type : T) (non_final : pnode V E T -> bool) (ns : dict (pnode V E T)) env
    p1 f nodes decs own nsp p2 st out n v :
  decs = [] /\ own = [] /\ nsp = NsDefault \/ decs = [SPipe own nsp TNone] ->
  Forall inline (p1 ++ SDef f nodes decs false :: p2) -> Forall (fun s => binds s <> Some (pf_name f)) p2 ->
  import (p1 ++ SDef f nodes decs false :: p2) = Ok st ->
  nodes_of any_type non_final st (pf_name f) = Some (Ok out) ->
  output_node non_final nodes n -> keyword_fn (pn_call n) ->
  (forall y n, dget ns y = Some n -> NoDup (dkeys (pn_inputs n))) ->
  (forall m, m ∈ out -> dget ns (pn_name m) = Some m) ->
  let aps := steps_for n (omap app_of own ++ concat (map (mutations (pf_name f)) p2)) in
  chain_fits aps (map pn_name out) ->
  value ns env (pn_name n) v <->
  exists w m, args ns env (pn_inputs n) m /\ pn_call n (kwargs (pn_inputs n) m) = Ok w /\ steps_value ns env aps w v.
Proof.
  intros Hd Hin Hb Hi Hout (Hn & Hnf & Hsink) K W Hdn aps Hfit.
  rewrite (C68_pipeline any_type non_final p1 f nodes decs false p2 st Hin Hb Hi) in Hout. injection Hout as Hout.
  set (ms := concat (map (mutations (pf_name f)) p2)) in *.
  assert (Hcase : (aps = [] /\ n ∈ out) \/ exists ts, pipe_output any_type aps nsp (pf_name f) n = Some ts /\ forall m, m ∈ ts -> m ∈ out).
  { assert (Hrun : forall all, bindr (run_dec any_type non_final (pf_name f) (RPipe all nsp TNone) nodes) (run_decs any_type non_final (pf_name f) []) = Ok out ->
      exists ts, pipe_output any_type (steps_for n all) nsp (pf_name f) n = Some ts /\ forall m, m ∈ ts -> m ∈ out).
    { intros all H. cbn [run_dec select_nodes] in H.
      destruct (transform_targets _ (final_nodes non_final nodes)) as [o|] eqn:Ht; [|done]. cbn in H. injection H as <-.
      apply transform_targets_spec in Ht as [T1 T2].
      assert (Hs : n ∈ final_nodes non_final nodes).
      { unfold final_nodes. apply elem_of_list_filter. split_and!; [|done|done].
        intros (l & Hl & (n' & -> & Hn')%elem_of_list_fmap)%elem_of_concat. by apply (Hsink n'). }
      destruct (T1 n Hs) as [ts Hts]. exists ts. rewrite <- filter_target_steps. destruct (pipe_output any_type (filter_target n all) nsp (pf_name f) n) as [ts'|] eqn:Hp; [|done].
      split; [congruence|]. intros m Hm. apply elem_of_app. right. apply T2. exists n, ts. rewrite Hp. done. }
    destruct Hd as [(-> & -> & ->)| ->].
    - cbn [map] in Hout. unfold extended in Hout. cbn [existsb] in Hout. destruct ms as [|s ms'] eqn:Hms.
      + cbn in Hout. injection Hout as <-. left. by split; [|].
      + right. apply Hrun. exact Hout.
    - right. apply Hrun. exact Hout. }
  destruct Hcase as [[Ha Hno]|(ts & Hp & Hts)].
  - rewrite (value_node_iff ns env _ n) by by apply Hdn. rewrite Ha. split.
    + intros (m & Hm & Hc). exists v, m. split_and!; [done|done|constructor].
    + intros (w & m & Hm & Hc & Hs). inversion Hs; subst. by exists m.
  - apply (piped_value any_type ns env n aps nsp (pf_name f) ts v); [done|done|done|by intros m Hm; apply Hdn, Hts|].
    intros a Ha Hr. destruct (Hfit a Ha Hr) as (F1 & F2 & F3). split_and!; [done|done|].
    intros t (m & -> & Hm)%elem_of_list_fmap. apply F3. apply elem_of_list_fmap. exists m. split; [done|by apply Hts].
Qed.
Print Assumptions C68_value_partial.

(** The nodes of the function that are not outputs stay as they are. *)
Theorem C68_inner_nodes {V E T} (any_type : T) (non_final : pnode V E T -> bool) p1 f nodes decs own nsp p2 st out m :
  decs = [] \/ decs = [SPipe own nsp TNone] ->
  Forall inline (p1 ++ SDef f nodes decs false :: p2) -> Forall (fun s => binds s <> Some (pf_name f)) p2 ->
  import (p1 ++ SDef f nodes decs false :: p2) = Ok st ->
  nodes_of any_type non_final st (pf_name f) = Some (Ok out) ->
  m ∈ nodes -> NoDup (map pn_name nodes) -> ~ output_node non_final nodes m -> m ∈ out.
Proof.
  intros Hd Hin Hb Hi Hout Hm Hnd Hno.
  rewrite (C68_pipeline any_type non_final p1 f nodes decs false p2 st Hin Hb Hi) in Hout. injection Hout as Hout.
  set (ms := concat (map (mutations (pf_name f)) p2)) in *.
  assert (Hrun : forall all nsp, bindr (run_dec any_type non_final (pf_name f) (RPipe all nsp TNone) nodes) (run_decs any_type non_final (pf_name f) []) = Ok out -> m ∈ out).
  { intros all nsp' H. cbn [run_dec select_nodes] in H.
    destruct (transform_targets _ (final_nodes non_final nodes)) as [o|]; [|done]. cbn in H. injection H as <-.
    apply elem_of_app. left. unfold compliment. apply elem_of_list_filter. split; [|done].
    intros (n & Hn & Hf)%elem_of_list_fmap. unfold final_nodes in Hf. apply elem_of_list_filter in Hf as [[F1 F2] F3].
    assert (n = m) as ->.
    { clear -Hnd Hn Hm F3. induction nodes as [|a nodes IH]; [by apply elem_of_nil in Hm|]. cbn in Hnd. apply NoDup_cons in Hnd as [Ha Hnd].
      apply elem_of_cons in Hm as [->|Hm]; apply elem_of_cons in F3 as [->|F3]; [done| | |by apply IH].
      - destruct Ha. rewrite Hn. by apply elem_of_list_fmap_1.
      - destruct Ha. rewrite <- Hn. by apply elem_of_list_fmap_1. }
    apply Hno. split_and!; [done|done|]. intros n' Hn' Hk. apply F1. apply elem_of_concat. eexists. split; [exact Hk|]. by apply (elem_of_list_fmap_1 (fun n => dkeys (pn_inputs n))). }
  destruct Hd as [->| ->].
  - cbn [map] in Hout. unfold extended in Hout. cbn [existsb] in Hout. destruct ms as [|s ms'].
    + cbn in Hout. by injection Hout as <-.
    + by apply (Hrun (s :: ms') NsDefault).
  - by apply (Hrun _ nsp Hout).
Qed.
Print Assumptions C68_inner_nodes.

(** The mutators are not part of the graph. *)
Theorem C68_mutators_hidden {V E T} (any_type : T) (non_final : pnode V E T -> bool) p1 t args kws p2 st :
  Forall inline (p1 ++ SMutate t args kws :: p2) -> Forall (fun s => binds s <> Some (pf_name t)) p2 ->
  import (p1 ++ SMutate t args kws :: p2) = Ok st -> nodes_of any_type non_final st (pf_name t) = Some (Ok []).
Proof.
  intros Hin Hb H. pose proof H as H0. unfold import in H. rewrite load_app in H.
  apply Forall_app in Hin as [Hin1 [Hi Hin2]%Forall_cons].
  destruct (load _ p1) as [st1|] eqn:H1; [|done]. cbn [bindr load] in H.
  destruct (exec st1 (SMutate t args kws)) as [st2|] eqn:He; [|done]. cbn [bindr] in H.
  assert (Hs1 : sound st1) by exact (import_sound p1 st1 Hin1 H1).
  destruct (exec_view st1 _ st2 (pf_name t) Hs1 Hi He) as [Hs2 _].
  destruct (load_view p2 (pf_name t) Hin2 st2 st Hs2 H) as [_ Hv]. specialize (Hv Hb).
  assert (Hv2 : exists ds, view (ms_fns st2) (ms_heap st2) (pf_name t) = Some (t, [], true, ds)).
  { cbn in He. destruct (alloc _ _ _ _) as [r|]; [|done]. cbn in He. destruct (same_module _ _ _ _); [|done]. cbn in He.
    destruct (mutate_all _ _ _ _ _) as [q|]; [|done]. cbn in He. injection He as <-. unfold view. cbn. rewrite dget_dset_eq. by eexists. }
  destruct Hv2 as [ds Hv2]. rewrite Hv2 in Hv. by rewrite (nodes_of_view any_type non_final st (pf_name t) _ _ _ _ Hv).
Qed.
Print Assumptions C68_mutators_hidden.

(** A module is refused when a mutator names a function of another module, and nothing is changed then. *)
Theorem C68_other_module {V E T} p1 (t : pyfn V E T) args kws st a x fo :
  import p1 = Ok st -> (forall v, MVar v ∉ args) ->
  (forall b, b ∈ args -> exists y, (b = MFn y \/ exists p, b = MNew p /\ pa_target p = Some y) /\ is_Some (dget (ms_fns st) y)) ->
  a ∈ args -> (a = MFn x \/ exists p, a = MNew p /\ pa_target p = Some x) ->
  dget (ms_fns st) x = Some fo -> pf_module (fo_fn fo) <> pf_module t ->
  import (p1 ++ [SMutate t args kws]) = Err MModule.
Proof.
  intros H1 Hin Hdef Ha Hx Hfo Hm. unfold import in *. rewrite load_app, H1. cbn.
  assert (Hal : exists r, alloc (ms_fns st) (ms_vars st) (ms_heap st) args = Ok r).
  { clear -Hdef. generalize (ms_heap st). induction args as [|b args IH]; intros h; [by eexists|]. cbn [alloc].
    destruct (Hdef b (elem_of_list_here _ _)) as (y & Hb & [fy Hy]).
    assert (Hr : match b with
        | MFn x => if dget (ms_fns st) x then Ok (h ++ [apply_to x []], length h) else Err MName
        | MNew p => match pa_target p with
                    | Some x => if dget (ms_fns st) x then Ok (h ++ [p], length h) else Err MName
                    | None => Ok (h ++ [p], length h)
                    end
        | MVar v => match dget (ms_vars st) v with Some id => Ok (h, id) | None => Err MName end
        end = Ok (E := merr) (h ++ [object b], length h)).
    { destruct Hb as [-> |(p & -> & Hp)]; [by rewrite Hy|by rewrite Hp, Hy]. }
    rewrite Hr. cbn. destruct (IH ltac:(intros c Hc; apply Hdef; by right) (h ++ [object b])) as [r ->]. by eexists. }
  destruct Hal as [[h ids] Hal]. rewrite Hal. cbn. apply alloc_inline in Hal as [-> ->]; [|done].
  assert (Hmod : forall pre l, (forall b, b ∈ l -> exists y, (b = MFn y \/ exists p, b = MNew p /\ pa_target p = Some y) /\ is_Some (dget (ms_fns st) y)) ->
     a ∈ l -> same_module (pf_module t) (ms_fns st) (pre ++ map object l) (seq (length pre) (length l)) = Err MModule).
  { intros pre l. revert pre. induction l as [|b l IH]; intros pre Hl Hal; [by apply elem_of_nil in Hal|]. cbn [map length seq same_module].
    replace ((pre ++ object b :: map object l) !! length pre) with (Some (object b)).
    2: { rewrite lookup_app_r by lia. by rewrite Nat.sub_diag. }
    cbn [mbind option_bind]. destruct (Hl b (elem_of_list_here _ _)) as (y & Hb & [fy Hy]).
    assert (Ht : pa_target (object b) = Some y) by (destruct Hb as [-> |(p & -> & Hp)]; done).
    rewrite Ht, Hy. destruct (decide (pf_module (fo_fn fy) = pf_module t)) as [Heq|]; [|done].
    apply elem_of_cons in Hal as [-> | Hal].
    - exfalso. assert (pa_target (object b) = Some x) by (destruct Hx as [-> |(p & -> & Hp)]; done). assert (y = x) as -> by congruence. congruence.
    - specialize (IH (pre ++ [object b])). rewrite <- app_assoc, app_length in IH. cbn in IH. rewrite Nat.add_1_r in IH. apply IH; [|done].
      intros c Hc. apply Hl. by right. }
  rewrite Hmod; done.
Qed.
Print Assumptions C68_other_module.

(** ** Example: [f(x, y) = x + y]; [@mutate(f, n=3) def _plus(v, n=1)]; [@mutate(apply_to(f, k=source("z"))) def _times(v, k)] *)
Definition f_py : pyfn nat string unit := PyFn "f" "m" (pn_inputs add_fn) tt (pn_call add_fn).
Definition plus_py : pyfn nat string unit := PyFn "_plus" "m" plus_params tt plus_fn.
Definition times_py : pyfn nat string unit := PyFn "_times" "m" times_params tt times_fn.
Definition mut_tail : list (stmt nat string unit) :=
  [SMutate plus_py [MFn "f"] [("n", DValue 3)]; SMutate times_py [MNew (apply_to "f" [("k", DSource "z")])] []].
Definition mut_prog : list (stmt nat string unit) := SDef f_py [add_fn] [] false :: mut_tail.
Definition none_internal (n : pnode nat string unit) : bool := false.
Definition final_of (prog : list (stmt nat string unit)) : mstate nat string unit :=
  match import prog with Ok st => st | Err _ => MState [] [] [] end.
Definition nodes_after (prog : list (stmt nat string unit)) (x : name) : list (pnode nat string unit) :=
  match nodes_of tt none_internal (final_of prog) x with Some (Ok ns) => ns | _ => [] end.

Example mut_names : map pn_name (nodes_after mut_prog "f") = ["f.raw"; "f.with_plus"; "f.with_times"; "f"] /\ nodes_after mut_prog "_plus" = [].
Proof. by split; vm_compute. Qed.
Definition mut_out := nodes_after mut_prog "f".
Definition mut_steps := [plus_step [] [("n", DValue 3)]; times_step [] [("k", DSource "z")] true].
Example mut_hypotheses :
  Forall inline mut_prog /\ Forall (fun s => binds s <> Some "f") mut_tail /\
  import mut_prog = Ok (final_of mut_prog) /\ nodes_of tt none_internal (final_of mut_prog) "f" = Some (Ok mut_out) /\
  output_node none_internal [add_fn] add_fn /\ keyword_fn (pn_call add_fn) /\
  (forall y n, dget (named mut_out) y = Some n -> NoDup (dkeys (pn_inputs n))) /\
  (forall m, m ∈ mut_out -> dget (named mut_out) (pn_name m) = Some m) /\
  steps_for add_fn (concat (map (mutations "f") mut_tail)) = mut_steps /\
  chain_fits mut_steps (map pn_name mut_out).
Proof.
  assert (D : forall m, m ∈ mut_out -> NoDup (dkeys (pn_inputs m)) /\ dget (named mut_out) (pn_name m) = Some m).
  { assert (D1 : Forall (fun m => NoDup (dkeys (pn_inputs m))) mut_out) by (apply (bool_decide_unpack _); vm_compute; exact I).
    assert (D2 : NoDup (dkeys (named mut_out))) by (apply (bool_decide_unpack _); vm_compute; exact I).
    revert D1 D2. generalize mut_out as o. intros o D1 D2 m Hm. rewrite Forall_forall in D1. split; [by apply D1|].
    apply elem_dget; [done|]. apply elem_of_list_fmap. by exists m. }
  assert (Dn : map pn_name mut_out = ["f.raw"; "f.with_plus"; "f.with_times"; "f"]) by (vm_compute; reflexivity).
  assert (Dh : forall y n, dget (named mut_out) y = Some n -> n ∈ mut_out).
  { generalize mut_out as o. intros o y n Hy. apply dget_elem, elem_of_list_fmap in Hy as (m & [= -> ->] & Hm). done. }
  split_and!.
  - repeat (apply Forall_cons; split); [done| | |by apply Forall_nil]; intros v Hv; apply elem_of_list_singleton in Hv; done.
  - repeat (apply Forall_cons; split); [done|done|by apply Forall_nil].
  - vm_compute; reflexivity.
  - vm_compute; reflexivity.
  - split_and!; [by left|done|]. intros n' ->%elem_of_list_singleton. apply (bool_decide_unpack _). by vm_compute.
  - apply from_fn_keyword.
  - intros y n Hy. by apply D, (Dh y).
  - intros m Hm. by apply D.
  - vm_compute; reflexivity.
  - rewrite Dn. intros a Ha Hr. repeat (apply elem_of_cons in Ha as [-> | Ha]); [| |by apply elem_of_nil in Ha].
    + split_and!; [apply (bool_decide_unpack _); by vm_compute|apply plus_keyword|]. intros t Ht. eapply two_params_distinct; [reflexivity|].
      repeat (apply elem_of_cons in Ht as [-> | Ht]; [by vm_compute|]). by apply elem_of_nil in Ht.
    + split_and!; [apply (bool_decide_unpack _); by vm_compute|apply times_keyword|]. intros t Ht. eapply two_params_distinct; [reflexivity|].
      repeat (apply elem_of_cons in Ht as [-> | Ht]; [by vm_compute|]). by apply elem_of_nil in Ht.
Qed.
(** ((2 + 10) + 3) * 4 *)
Example mut_value : value (named mut_out) ex_env "f" 60.
Proof.
  destruct mut_hypotheses as (H1 & H2 & H3 & H4 & H5 & H6 & H7 & H8 & H9 & H10).
  assert (N : Forall (fun x => dget (named mut_out) x = None) ["x"; "y"; "z"]) by (repeat (apply Forall_cons; split); [vm_compute; reflexivity..|by apply Forall_nil]).
  revert H3 H4 H7 H8 H10 N. generalize mut_out as o. generalize (final_of mut_prog) as st. intros st o H3 H4 H7 H8 H10 N.
  assert (I : forall x u, x ∈ ["x"; "y"; "z"] -> ex_env !! x = Some u -> value (named o) ex_env x u).
  { intros x u Hx Hu. apply value_input; [|done]. rewrite Forall_forall in N. by apply N. }
  change "f" with (pn_name add_fn).
  apply (C68_value_partial tt none_internal (named o) ex_env [] f_py [add_fn] [] [] NsDefault mut_tail st o add_fn 60);
    [by left|exact H1|exact H2|exact H3|exact H4|exact H5|exact H6|exact H7|exact H8| |].
  { change (chain_fits (steps_for add_fn (concat (map (mutations "f") mut_tail))) (map pn_name o)). rewrite H9. exact H10. }
  change (omap app_of [] ++ concat (map (mutations (pf_name f_py)) mut_tail)) with (concat (map (mutations "f") mut_tail)).
  rewrite H9. exists 12, {["x" := 2; "y" := 10]}. split_and!.
  - split.
    + intros k w Hk. apply lookup_insert_Some in Hk as [[<- <-]|[_ Hk]]; [split; [by left|apply I; [set_solver|done]]|].
      apply lookup_singleton_Some in Hk as [<- <-]. split; [right; by left|apply I; [set_solver|done]].
    + intros k t dt Hk Hn. repeat (apply elem_of_cons in Hk as [[= -> -> ->] | Hk]; [by vm_compute in Hn|]). by apply elem_of_nil in Hk.
  - by vm_compute.
  - apply (sv_step _ _ _ _ 12 15); [done| |apply (sv_step _ _ _ _ 15 60); [done| |constructor]].
    + exists [("v", 12); ("n", 3)]. split_and!; [by vm_compute|apply (bool_decide_unpack _); by vm_compute|done|].
      intros i p t dt Hi. destruct i as [|[|i]]; cbn in Hi; try done; injection Hi as <- <- <-; by cbn.
    + exists [("v", 15); ("k", 4)]. split_and!; [by vm_compute|apply (bool_decide_unpack _); by vm_compute|done|].
      intros i p t dt Hi. destruct i as [|[|i]]; cbn in Hi; try done; injection Hi as <- <- <-; cbn; [done|]. apply I; [set_solver|done].
Qed.
(** [f] with a node [g] that it is computed from. *)
Example inner_hypotheses :
  let g := PNode "g" tt (pn_inputs add_fn) (pn_call add_fn) in
  let h : pnode nat string unit := PNode "f" tt [("g", (tt, REQUIRED))] (pn_call add_fn) in
  let prog := SDef f_py [g; h] [] false :: mut_tail in
  Forall inline prog /\ is_Some (nodes_of tt none_internal (final_of prog) "f") /\ import prog = Ok (final_of prog) /\
  NoDup (map pn_name [g; h]) /\ ~ output_node none_internal [g; h] g /\ map pn_name (nodes_after prog "f") = ["g"; "f.raw"; "f.with_plus"; "f.with_times"; "f"].
Proof.
  cbv zeta. split_and!.
  - apply Forall_cons; split; [done|]. destruct mut_hypotheses as [H _]. by apply Forall_cons in H as [_ H].
  - vm_compute. by eexists.
  - vm_compute. reflexivity.
  - apply (bool_decide_unpack _). by vm_compute.
  - intros (_ & _ & H). eapply H; [right; left|]. cbn. by left.
  - vm_compute. reflexivity.
Qed.
Example other_module_hypotheses : exists st fo,
  import [SDef f_py [add_fn] [] false] = Ok st /\ dget (ms_fns st) "f" = Some fo /\
  pf_module (fo_fn fo) <> pf_module (PyFn "_plus" "other" plus_params tt plus_fn : pyfn nat string unit) /\
  import [SDef f_py [add_fn] [] false; SMutate (PyFn "_plus" "other" plus_params tt plus_fn) [MFn "f"] []] = Err MModule.
Proof. eexists _, _. split_and!; reflexivity || done. Qed.

(** ** Refutations *)
(** Two outputs [a] and [b] (as from @parameterize). *)
Definition out_node (x : name) : pnode nat string unit := PNode x (pn_type add_fn) (pn_inputs add_fn) (pn_call add_fn).
Definition step_on (x : name) : papp nat string unit := PApp (Some times_py) None [DValue 2] [] true None NsDefault (Some [x]).
Definition two_pipes : stmt nat string unit :=
  SDef f_py [out_node "a"; out_node "b"] [SPipe [step_on "a"] NsDefault TNone; SPipe [step_on "b"] NsDefault TNone] false.
Definition plus_all : stmt nat string unit := SMutate plus_py [MFn "f"] [("n", DValue 3)].
(** One pipe_output per output is accepted; with a mutator, which both of them get, there are two nodes
    of the same name, which the graph rejects (graph.py 174-177). *)
Theorem C68_two_pipes_refuted : exists st nodes st' nodes',
  import [two_pipes] = Ok st /\ nodes_of tt none_internal st "f" = Some (Ok nodes) /\ NoDup (map pn_name nodes) /\
  import [two_pipes; plus_all] = Ok st' /\ nodes_of tt none_internal st' "f" = Some (Ok nodes') /\ ~ NoDup (map pn_name nodes').
Proof.
  exists (final_of [two_pipes]), (nodes_after [two_pipes] "f"), (final_of [two_pipes; plus_all]), (nodes_after [two_pipes; plus_all] "f").
  split_and!; try (vm_compute; reflexivity).
  - apply (bool_decide_unpack _). by vm_compute.
  - apply (bool_decide_eq_false _). by vm_compute.
Qed.
Print Assumptions C68_two_pipes_refuted.

(** [@mutate(f)] is for all outputs, but a pipe_output of the function with [on_output="a"] keeps
    it from the output [b]. *)
Definition on_a : stmt nat string unit :=
  SDef f_py [out_node "a"; out_node "b"] [SPipe [PApp (Some times_py) None [DValue 2] [] true None NsDefault None] NsDefault (TNames ["a"])] false.
Theorem C68_restricted_refuted : exists st nodes,
  import [on_a; plus_all] = Ok st /\ nodes_of tt none_internal st "f" = Some (Ok nodes) /\
  "a.with_plus" ∈ map pn_name nodes /\ dget (named nodes) "b" = Some (out_node "b").
Proof.
  exists (final_of [on_a; plus_all]), (nodes_after [on_a; plus_all] "f"). split_and!; try (vm_compute; reflexivity).
  apply (bool_decide_unpack _). by vm_compute.
Qed.
Print Assumptions C68_restricted_refuted.

(** One apply_to object given to two mutators: the second is applied twice, the first never. *)
Definition shared_prog : list (stmt nat string unit) :=
  [SDef f_py [add_fn] [] false; SLet "t" (apply_to "f" [("n", DValue 3)]);
   SMutate plus_py [MVar "t"] []; SMutate (PyFn "_minus" "m" plus_params tt plus_fn) [MVar "t"] []].
Theorem C68_shared_object_refuted : exists st nodes,
  import shared_prog = Ok st /\ nodes_of tt none_internal st "f" = Some (Ok nodes) /\
  map pn_name nodes = ["f.raw"; "f.with_minus"; "f.with_minus_1"; "f"].
Proof. exists (final_of shared_prog), (nodes_after shared_prog "f"). split_and!; vm_compute; reflexivity. Qed.
Print Assumptions C68_shared_object_refuted.

(** Mutating a mutator is accepted and changes nothing. *)
Definition mutated_mutator : list (stmt nat string unit) :=
  [SDef f_py [add_fn] [] false; plus_all; SMutate times_py [MFn "_plus"] [("k", DValue 2)]].
Theorem C68_mutated_mutator_refuted : exists st st',
  import (take 2 mutated_mutator) = Ok st /\ import mutated_mutator = Ok st' /\
  nodes_of tt none_internal st' "_plus" = Some (Ok []) /\
  nodes_of tt none_internal st' "f" = nodes_of tt none_internal st "f".
Proof. exists (final_of (take 2 mutated_mutator)), (final_of mutated_mutator). split_and!; vm_compute; reflexivity. Qed.
Print Assumptions C68_mutated_mutator_refuted.
