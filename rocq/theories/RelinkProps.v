(** C65: adding nodes to a graph. *)
From Verif Require Import Base Dict ExecModel ExecSpec ExecProps GraphModel GraphSpec GraphProofs GraphResults RelinkModel RelinkSpec RelinkProofs.

(** ** What the new graph is *)
(** The nodes that are added must have new names. The new graph has the old nodes, the new nodes and inputs for the
    parameters of the new nodes that are neither; every node keeps its kind and its parameters; all edges are those of the
    parameters, in both directions, each once. *)
Theorem C65_new_graph {T} (types_match adapter_match : T -> T -> bool) (old new g : dict (gnode T)) :
  linked old -> sensible new -> with_nodes types_match adapter_match old new = Ok g ->
  (forall x, x ∈ dkeys old -> x ∉ dkeys new) /\
  linked g /\ wf_graph (to_graph g) /\
  (forall x, x ∈ dkeys g <-> x ∈ dkeys old \/ x ∈ dkeys new \/ exists P, asks new P x) /\
  (forall x n, dget old x = Some n \/ dget new x = Some n ->
     exists n', dget g x = Some n' /\ gn_ext n' = gn_ext n /\ gn_params n' = gn_params n) /\
  (forall x n, x ∉ dkeys old -> x ∉ dkeys new -> dget g x = Some n -> gn_ext n = true /\ gn_params n = []).
Proof.
  intros Hl Hs Hw. apply with_nodes_inv in Hw as [Hd Hu].
  assert (Hgm := fun x => dget_merged new old x (sn_nodup _ Hs)).
  assert (Hkm : forall x, x ∈ dkeys (merged old new) <-> x ∈ dkeys old \/ x ∈ dkeys new).
  { intros x. rewrite <-!dget_Some_key, Hgm. destruct (dget new x), (dget old x); split; intros; try (by left); try (by right); eauto; naive_solver. }
  destruct (update_linked types_match adapter_match (merged old new) g) as (Hlg & Hk & Ho & Hn); [|done|].
  { apply sensible_merged; [by apply ln_sensible|done]. }
  assert (Hold : forall x n, dget old x = Some n -> dget (merged old new) x = Some n).
  { intros x n Hx. rewrite Hgm. destruct (dget new x) eqn:Hnx; [|done]. destruct (Hd x); apply dget_Some_key; by eexists. }
  split_and!; try done.
  - by apply linked_wf.
  - intros x. rewrite Hk, Hkm. split.
    + intros [[?|?]|[P (n & HP & Hx)]]; [by left|by right; left|]. rewrite Hgm in HP. destruct (dget new P) as [m|] eqn:Hm.
      * injection HP as ->. right. right. exists P, n. done.
      * left. apply (ln_closed _ Hl P). by exists n.
    + intros [?|[?|[P (n & HP & Hx)]]]; [by left; left|by left; right|]. right. exists P, n. split; [|done]. by rewrite Hgm, HP.
  - intros x n [Hx|Hx]; apply Ho; [by apply Hold|]. by rewrite Hgm, Hx.
  - intros x n Hxo Hxn. apply Hn. rewrite Hgm. apply dget_None_key in Hxo, Hxn. by rewrite Hxn.
Qed.
Print Assumptions C65_new_graph.

(** A name that both have is refused, and nothing else is refused as a duplicate. *)
Theorem C65_duplicates {T} (types_match adapter_match : T -> T -> bool) (old new : dict (gnode T)) :
  (exists x, x ∈ dkeys old /\ x ∈ dkeys new) <->
  exists x, with_nodes types_match adapter_match old new = Err (DuplicateNames x) /\ x ∈ dkeys old /\ x ∈ dkeys new.
Proof.
  split; [|intros (x & _ & ?); by exists x]. intros (x & Ho & Hn).
  destruct (with_nodes types_match adapter_match old new) as [g|[y|e]] eqn:Hw.
  - apply with_nodes_inv in Hw as [Hd _]. by destruct (Hd x Ho).
  - exists y. split; [done|]. by eapply with_nodes_dup.
  - exfalso. unfold with_nodes in Hw. destruct (filter _ _) as [|z l] eqn:Hf; [|done].
    assert (Hin : x ∈ filter (fun x => x ∈ dkeys new) (dkeys old)) by (by apply elem_of_list_filter).
    rewrite Hf in Hin. by apply elem_of_nil in Hin.
Qed.
Print Assumptions C65_duplicates.

(** ** What executions of the new graph return *)
(** The old variables mean what they meant, whatever the added functions do, and executions of them return the same. *)
Theorem C65_old_variables {T V E} (types_match adapter_match : T -> T -> bool) (old new g : dict (gnode T))
    (f : name -> gmap name V -> res E V) config inputs overrides fv :
  linked old -> sensible new -> with_nodes types_match adapter_match old new = Ok g ->
  acyclic (to_graph old) -> (forall x, ~ tc (fun a b => asks new a b /\ b ∈ dkeys new) x x) ->
  (forall x, x ∈ fv -> x ∈ dkeys old) ->
  acyclic (to_graph g) /\
  (forall x v, x ∈ dkeys old -> eval f (to_graph g) inputs overrides x v <-> eval f (to_graph old) inputs overrides x v) /\
  (forall out, (exists tr, default_execute (fun _ => f) (to_graph g) config inputs overrides fv = Answer out tr) <->
               (exists tr, default_execute (fun _ => f) (to_graph old) config inputs overrides fv = Answer out tr)).
Proof.
  intros Hl Hs Hw Hac Hnc Hfv. destruct (C65_new_graph _ _ _ _ _ Hl Hs Hw) as (Hd & Hlg & _ & Hk & Hn & Hi).
  assert (Hcon : contains g old) by (intros x n Hx; apply Hn; by left).
  assert (Hacg : acyclic (to_graph g)).
  { apply (no_cycles g old); try done. intros x Hx. apply (Hnc x). clear -Hx Hd Hk Hn Hi Hlg Hl.
    assert (Hstep : forall a b, asks g a b /\ a ∉ dkeys old /\ b ∉ dkeys old -> asks new a b).
    { intros a b ((n & Ha & Hb) & Hao & Hbo). destruct (dget new a) as [m|] eqn:Hm.
      - destruct (Hn a m ltac:(by right)) as (m' & Hm' & _ & Hp). exists m. split; [done|]. rewrite <-Hp. congruence.
      - apply dget_None_key in Hm. destruct (Hi a n Hao Hm Ha) as [_ Hp]. rewrite Hp in Hb. by apply elem_of_nil in Hb. }
    assert (Hfrom : forall b c, tc (fun a b => asks g a b /\ a ∉ dkeys old /\ b ∉ dkeys old) b c -> b ∈ dkeys new).
    { intros b c Hbc. assert (Hbn : exists c', asks g b c' /\ b ∉ dkeys old /\ c' ∉ dkeys old) by (inversion Hbc; subst; eauto).
      destruct Hbn as (c' & Hc'). apply Hstep in Hc' as (m & Hm & _). apply dget_Some_key. by eexists. }
    assert (Hy := Hfrom _ _ Hx). revert Hx Hy. generalize x at 2 3 5. intros y Hx Hy.
    induction Hx as [a b Hab|a b c Hab Hbc IH].
    + constructor. split; [by apply Hstep|done].
    + eapply tc_l; [|by apply IH]. split; [by apply Hstep|by eapply Hfrom]. }
  split_and!; [done| |].
  - intros x v Hx. split; [intros Hv; by apply (eval_down f inputs overrides g old Hlg Hl Hcon)|by apply (eval_up f inputs overrides g old Hlg Hl Hcon)].
  - intros out. by apply same_answers.
Qed.
Print Assumptions C65_old_variables.

(** ** When nodes can be added *)
(** Nodes can be added when their names are new, what they take has an accepted type and those that take the same new
    input accept each other's annotations; no type of an old node changes. *)
Theorem C65_can_be_added {T} (types_match adapter_match : T -> T -> bool) (old new : dict (gnode T)) :
  linked old -> accepting types_match adapter_match old -> sensible new ->
  (forall x, x ∈ dkeys old -> x ∉ dkeys new) ->
  (forall P x t n, asks_typed new P x t -> dget old x = Some n \/ dget new x = Some n -> accepts types_match adapter_match t (gn_type n) = true) ->
  (forall P P' x t t', asks_typed new P x t -> asks_typed new P' x t' -> x ∉ dkeys old -> x ∉ dkeys new -> accepts types_match adapter_match t t' = true) ->
  exists g, with_nodes types_match adapter_match old new = Ok g /\ accepting types_match adapter_match g /\
    forall x n, dget old x = Some n \/ dget new x = Some n -> exists n', dget g x = Some n' /\ gn_type n' = gn_type n.
Proof.
  intros Hl Ha Hs Hd Hknown Hfresh.
  assert (Hgm := fun x => dget_merged new old x (sn_nodup _ Hs)).
  assert (Hold : forall x n, dget old x = Some n -> dget (merged old new) x = Some n).
  { intros x n Hx. rewrite Hgm. destruct (dget new x) eqn:Hnx; [|done]. destruct (Hd x); apply dget_Some_key; by eexists. }
  assert (Hin : forall P x t, asks_typed old P x t -> x ∈ dkeys old).
  { intros P x t (n & dt & HP & Ht). apply (ln_closed _ Hl P). exists n. split; [done|]. apply elem_of_list_fmap. by exists (x, (t, dt)). }
  destruct (update_succeeds types_match adapter_match (merged old new)) as (g & Hu & Hty & Hacc).
  - apply sensible_merged; [by apply ln_sensible|done].
  - intros P x t n HP Hx. rewrite Hgm in Hx. apply asks_typed_merged in HP as [HP|[_ HP]]; [| |by apply sn_nodup].
    + eapply Hknown; [done|]. destruct (dget new x) as [m|]; [right|left]; done.
    + assert (Hxo := Hin _ _ _ HP). destruct (dget new x) as [m|] eqn:Hm; [destruct (Hd x Hxo); apply dget_Some_key; by eexists|].
      by eapply Ha.
  - intros P P' x t t' HP HP' Hx.
    assert (Hxo : x ∉ dkeys old). { intros H. apply Hx. apply dget_Some_key in H as [n H]. apply dget_Some_key. exists n. by apply Hold. }
    assert (Hxn : x ∉ dkeys new). { intros H. apply Hx. apply dget_Some_key in H as [n H]. apply dget_Some_key. exists n. by rewrite Hgm, H. }
    apply asks_typed_merged in HP as [HP|[_ HP]]; [| by destruct Hxo; eapply Hin |by apply sn_nodup].
    apply asks_typed_merged in HP' as [HP'|[_ HP']]; [by eapply Hfresh| by destruct Hxo; eapply Hin |by apply sn_nodup].
  - exists g. split; [by rewrite with_nodes_disjoint by done; unfold replace_nodes; rewrite Hu|]. split; [done|].
    intros x n [Hx|Hx]; apply Hty; [by apply Hold|]. by rewrite Hgm, Hx.
Qed.
Print Assumptions C65_can_be_added.

(** Graphs that are built qualify: they are linked, and, when adapters do not loosen the types and what is accepted stays
    accepted as inputs get narrower types, accepting. *)
Theorem C65_built_graphs_qualify {T} (types_match adapter_match : T -> T -> bool) (any_type : T) defs config allow g :
  (forall d, d ∈ defs -> NoDup (fd_params d).*1) ->
  create_function_graph types_match adapter_match any_type defs config allow = Ok g ->
  linked g /\
  ((forall t, types_match t t = true) -> (forall t, types_match t any_type = true) -> (forall t u, adapter_match t u = false) ->
   (forall t u v, types_match t u = true -> types_match u v = true -> types_match v u = false -> types_match t v = true) ->
   accepting types_match adapter_match g).
Proof.
  intros Hp Hc. split; [by eapply built_linked|]. intros. by eapply built_accepting.
Qed.
Print Assumptions C65_built_graphs_qualify.

(** Classes, Any and unions of classes satisfy this. *)
Theorem C65_classes_and_unions_qualify (subclass : nat -> nat -> bool) :
  (forall a b c, subclass a b = true -> subclass b c = true -> subclass a c = true) ->
  (forall t, ty_match subclass t t = true) /\ (forall t, ty_match subclass t TAny = true) /\
  (forall t u v, ty_match subclass t u = true -> ty_match subclass u v = true -> ty_match subclass v u = false -> ty_match subclass t v = true).
Proof. intros Htr. split_and!; [apply ty_match_refl|done|by apply ty_match_narrow]. Qed.
Print Assumptions C65_classes_and_unions_qualify.

(** ** Loaders *)
(** Loaders take the place of the nodes with their names: everything downstream gets what they load, as if it was
    overridden, and everything else is as before. *)
Theorem C65_loaded_values {T V E} (types_match adapter_match : T -> T -> bool) (old new g : dict (gnode T))
    (f : name -> gmap name V -> res E V) inputs overrides (loaded : gmap name V) :
  linked old -> sensible new -> replace_nodes types_match adapter_match old new = Ok g ->
  (forall x, x ∈ dkeys new <-> is_Some (loaded !! x)) ->
  (forall x v, loaded !! x = Some v -> overrides !! x = None -> eval f (to_graph g) inputs overrides x v) ->
  linked g /\ wf_graph (to_graph g) /\
  forall x v, x ∈ dkeys old ->
    eval f (to_graph g) inputs overrides x v <-> eval f (to_graph old) inputs (overrides ∪ loaded) x v.
Proof.
  intros Hl Hs Hr Hdom Hld. unfold replace_nodes in Hr.
  destruct (update_dependencies _ _ _ _) as [g'|] eqn:Hu; [|done]. injection Hr as ->.
  assert (Hgm := fun x => dget_merged new old x (sn_nodup _ Hs)).
  destruct (update_linked types_match adapter_match (merged old new) g) as (Hlg & Hk & Ho & Hn); [|done|].
  { apply sensible_merged; [by apply ln_sensible|done]. }
  assert (Hkeep : forall x n, dget old x = Some n -> loaded !! x = None ->
    exists n', dget g x = Some n' /\ gn_ext n' = gn_ext n /\ gn_params n' = gn_params n).
  { intros x n Hx Hlx. apply Ho. rewrite Hgm. destruct (dget new x) eqn:Hnx; [|done].
    assert (Hin : x ∈ dkeys new) by (apply dget_Some_key; by eexists). apply Hdom in Hin as [? ?]. congruence. }
  split_and!; [done|by apply linked_wf|]. intros x v Hx.
  split.
  - intros Hv. by eapply (loaded_down f inputs overrides g old Hlg Hl loaded Hkeep Hld).
  - intros Hv. by eapply (loaded_up f inputs overrides g old Hlg Hl loaded Hkeep Hld).
Qed.
Print Assumptions C65_loaded_values.

(** ** A concrete case *)
(** Class 1 is a subclass of class 0; [a] is an input that gets the narrower type. *)
Definition rl_sub (a b : nat) : bool := Nat.eqb a 1 && Nat.eqb b 0.
Definition rl_defs : list (fdef ty) :=
  [FDef "b" (TClass 2) [("a", (TClass 0, REQUIRED))];
   FDef "c" (TClass 2) [("a", (TClass 1, REQUIRED)); ("b", (TUnion [2; 3], REQUIRED))]].
Definition rl_old : dict (gnode ty) :=
  match create_function_graph (ty_match rl_sub) (fun _ _ => false) TAny rl_defs ["k"] false with Ok g => g | Err _ => [] end.
(** A saver of [c] that takes a path, and a join of [a] and the saver. *)
Definition rl_new : dict (gnode ty) :=
  [("save", GNode false (TClass 5) [("c", (TAny, REQUIRED)); ("path", (TClass 6, REQUIRED))] [] []);
   ("join", GNode false (TClass 5) [("save", (TClass 5, REQUIRED)); ("a", (TClass 0, REQUIRED))] [] [])].
Definition rl_g : dict (gnode ty) := match with_nodes (ty_match rl_sub) (fun _ _ => false) rl_old rl_new with Ok g => g | Err _ => [] end.

Lemma rl_built : create_function_graph (ty_match rl_sub) (fun _ _ => false) TAny rl_defs ["k"] false = Ok rl_old.
Proof. vm_compute. reflexivity. Qed.
Lemma rl_added : with_nodes (ty_match rl_sub) (fun _ _ => false) rl_old rl_new = Ok rl_g.
Proof. vm_compute. reflexivity. Qed.
Lemma rl_sub_trans : forall a b c, rl_sub a b = true -> rl_sub b c = true -> rl_sub a c = true.
Proof.
  intros a b c H1 H2. unfold rl_sub in *. apply andb_true_iff in H1 as [_ H1], H2 as [H2 _].
  apply Nat.eqb_eq in H1, H2. congruence.
Qed.
Lemma rl_linked : linked rl_old /\ accepting (ty_match rl_sub) (fun _ _ => false) rl_old.
Proof.
  destruct (C65_classes_and_unions_qualify rl_sub rl_sub_trans) as (H1 & H2 & H3).
  assert (Hp : forall d, d ∈ rl_defs -> NoDup (fd_params d).*1).
  { intros d Hd. repeat (apply elem_of_cons in Hd as [-> | Hd]); [..|by apply elem_of_nil in Hd]; cbn; by apply (bool_decide_unpack _); vm_compute. }
  destruct (C65_built_graphs_qualify _ _ _ _ _ _ _ Hp rl_built) as [Hl Ha]. split; [done|]. by apply Ha.
Qed.
Lemma dget_cases {A} (d : dict A) (P : name -> A -> Prop) : Forall (fun kn => P kn.1 kn.2) d -> forall x n, dget d x = Some n -> P x n.
Proof. intros H x n Hx. rewrite Forall_forall in H. apply (H (x, n)). by apply dget_elem. Qed.
Lemma rl_sensible : sensible rl_new.
Proof.
  constructor.
  - by apply (bool_decide_unpack _); vm_compute.
  - apply (dget_cases _ (fun _ n => NoDup (gn_params n).*1)). repeat constructor; cbn; by apply (bool_decide_unpack _); vm_compute.
  - apply (dget_cases _ (fun _ n => gn_ext n = true -> gn_params n = [])). by repeat constructor.
Qed.
Example C65_nonvacuous :
  linked rl_old /\ accepting (ty_match rl_sub) (fun _ _ => false) rl_old /\ sensible rl_new /\
  with_nodes (ty_match rl_sub) (fun _ _ => false) rl_old rl_new = Ok rl_g /\
  acyclic (to_graph rl_old) /\ (forall x, ~ tc (fun a b => asks rl_new a b /\ b ∈ dkeys rl_new) x x) /\
  dkeys rl_g = ["b"; "c"; "a"; "k"; "save"; "join"; "path"] /\
  gn_type <$> dget rl_g "a" = Some (TClass 1) /\ gn_rdeps <$> dget rl_g "a" = Some ["b"; "c"; "join"] /\
  gn_deps <$> dget rl_g "join" = Some ["save"; "a"].
Proof.
  destruct rl_linked as [Hl Ha]. do 4 (split; [first [exact Hl|exact Ha|exact rl_sensible|exact rl_added]|]). split_and!; try (vm_compute; reflexivity).
  - apply (rankedb_acyclic (rank_in ["a"; "k"; "b"; "c"])). by vm_compute.
  - assert (Hstep : forall a b, asks rl_new a b /\ b ∈ dkeys rl_new -> a = "join" /\ b = "save").
    { intros a b [(n & Hn & Hb) Hk]. revert Hb Hk. revert a n Hn. apply (dget_cases _ (fun a n => b ∈ (gn_params n).*1 -> b ∈ dkeys rl_new -> a = "join" /\ b = "save")). repeat (apply Forall_cons; split); [..|by apply Forall_nil]; cbn; intros Hb Hk;
        repeat (apply elem_of_cons in Hb as [-> | Hb]); try (by apply elem_of_nil in Hb);
        repeat (apply elem_of_cons in Hk as [Hk | Hk]); try (by apply elem_of_nil in Hk); done. }
    intros x Hx. assert (Hj : forall a b, tc (fun a b => asks rl_new a b /\ b ∈ dkeys rl_new) a b -> a = "join" /\ b = "save").
    { induction 1 as [a b H|a b c H H' [IH1 IH2]]; [by apply Hstep|]. apply Hstep in H as [-> ->]. done. }
    destruct (Hj x x Hx). congruence.
Qed.

(** The second linking sees the narrowed input: a function that needs class 0 or class 1 can be added, one that needs an
    unrelated class cannot, and a name that exists cannot. *)
Example C65_refused :
  with_nodes (ty_match rl_sub) (fun _ _ => false) rl_old [("s", GNode false (TClass 5) [("a", (TClass 9, REQUIRED))] [] [])] = Err (Linking (InputTypes "a")) /\
  with_nodes (ty_match rl_sub) (fun _ _ => false) rl_old [("s", GNode false (TClass 5) [("c", (TClass 9, REQUIRED))] [] [])] = Err (Linking (EdgeTypes "c")) /\
  with_nodes (ty_match rl_sub) (fun _ _ => false) rl_old [("s", GNode false (TClass 5) [] [] []); ("b", GNode false (TClass 5) [] [] [])] = Err (DuplicateNames "b").
Proof. split_and!; vm_compute; reflexivity. Qed.

(** A loader takes the place of [b]. *)
Definition rl_load : dict (gnode ty) := [("b", GNode false (TClass 2) [("file", (TClass 6, REQUIRED))] [] [])].
Definition rl_f (x : name) (kw : gmap name nat) : res string nat :=
  if decide (x = "b") then Ok 100 else Ok (S (map_fold (fun _ v acc => v + acc) 0 kw)).
Definition rl_loaded : dict (gnode ty) := match replace_nodes (ty_match rl_sub) (fun _ _ => false) rl_old rl_load with Ok g => g | Err _ => [] end.
Example C65_loaded_nonvacuous :
  linked rl_old /\ sensible rl_load /\ replace_nodes (ty_match rl_sub) (fun _ _ => false) rl_old rl_load = Ok rl_loaded /\
  (forall x, x ∈ dkeys rl_load <-> is_Some ((<["b" := 100]> ∅ : gmap name nat) !! x)) /\
  (forall x v, (<["b" := 100]> ∅ : gmap name nat) !! x = Some v -> (∅ : gmap name nat) !! x = None ->
     eval rl_f (to_graph rl_loaded) (<["file" := 7]> ∅) ∅ x v) /\
  exists tr, default_execute (fun _ => rl_f) (to_graph rl_loaded) ∅ (<["file" := 7]> (<["a" := 1]> ∅)) ∅ ["c"] = Answer [("c", Some 102)] tr.
Proof.
  split_and!; [apply rl_linked| |vm_compute; reflexivity| | |eexists; vm_compute; reflexivity].
  - constructor; [by apply (bool_decide_unpack _); vm_compute| |].
    + apply (dget_cases _ (fun _ n => NoDup (gn_params n).*1)). repeat constructor; cbn; by apply (bool_decide_unpack _); vm_compute.
    + apply (dget_cases _ (fun _ n => gn_ext n = true -> gn_params n = [])). by repeat constructor.
  - intros x. cbn. rewrite elem_of_list_singleton. split.
    + intros ->. rewrite lookup_insert. by eexists.
    + intros [v Hv]. apply lookup_insert_Some in Hv as [[<- _]|[_ Hv]]; [done|]. by rewrite lookup_empty in Hv.
  - intros x v Hx _. apply lookup_insert_Some in Hx as [[<- <-]|[_ Hx]]; [|by rewrite lookup_empty in Hx].
    eapply (eval_fn _ _ _ _ "b" (Node false [("file", REQUIRED)] ["c"]) (<["file" := 7]> ∅)); [done|by vm_compute|done|..].
    + intros d w Hd. apply lookup_insert_Some in Hd as [[<- _]|[_ Hd]]; [by left|]. by rewrite lookup_empty in Hd.
    + intros d w Hd. apply lookup_insert_Some in Hd as [[<- <-]|[_ Hd]]; [|by rewrite lookup_empty in Hd].
      eapply (eval_input _ _ _ _ "file" (Node true [] ["b"])); [done|by vm_compute|done|done].
    + intros d dt Hd Hn. apply elem_of_list_singleton in Hd as [= -> ->]. by rewrite lookup_insert in Hn.
    + by vm_compute.
Qed.
