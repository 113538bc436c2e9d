(** C42: subdags. *)
From Verif Require Import Base Dict NodeModel NodeSpec NodeProofs PipeModel SubdagModel SubdagSpec SubdagProofs.

(** _validate_config_inputs accepts exactly disjoint inputs and configurations. *)
Theorem C42_validated {V} (config : dict V) (inputs : dict (dep V)) :
  config_inputs_ok config inputs = true <-> forall k, k ∈ dkeys inputs -> k ∉ dkeys config.
Proof.
  unfold config_inputs_ok. rewrite forallb_forall. split.
  - intros H k Hk Hc%elem_of_list_In. apply H, bool_decide_eq_true in Hc. done.
  - intros H k Hc%elem_of_list_In. apply bool_decide_eq_true. intros Hk. by apply (H k).
Qed.

(** A variable of the subdag has in the enclosing graph, under its namespaced name, exactly
    the value it has in the stand-alone dataflow with the inputs bound as declared; the
    final node has exactly the value of the decorated function on these values (and on
    the variables of the enclosing graph for external inputs). *)
Theorem C42_subdag_partial {V E T} captured type_of (ns : dict (pnode V E T)) env nodes inputs config N final external fn (env' : gmap name V) :
  (forall y n, dget ns y = Some n -> NoDup (dkeys (pn_inputs n))) ->
  well_declared nodes inputs config ->
  (forall n, n ∈ subdag captured type_of nodes inputs config N final external fn -> dget ns (pn_name n) = Some n) ->
  (forall n k, n ∈ nodes -> k ∈ dkeys (pn_inputs n) -> ~ declared nodes inputs config k ->
    k ∉ sub_reserved /\ forall k', k' ∈ dkeys (pn_inputs n) -> k <> assign_namespace k' N) ->
  (forall k, used nodes k -> k ∉ map pn_name nodes -> binding ns env inputs config k (env' !! k)) ->
  (forall x v, x ∈ map pn_name nodes -> value ns env (assign_namespace x N) v <-> value (standalone nodes) env' x v) /\
  (NoDup (dkeys (pn_inputs fn)) ->
   (forall k k', k ∈ external -> k ∈ dkeys (pn_inputs fn) -> k' ∈ dkeys (pn_inputs fn) -> k <> assign_namespace k' N) ->
   (forall k, k ∈ dkeys (pn_inputs fn) -> k ∉ external -> k ∈ map pn_name nodes \/
      (match dget inputs k with Some (DSource _) => used nodes k | Some (DValue _) => True | None => k ∈ dkeys config end /\
       binding ns env inputs config k (env' !! k))) ->
   forall v, value ns env final v <-> exists m : gmap name V,
    (forall k w, m !! k = Some w -> k ∈ dkeys (pn_inputs fn) /\
       if decide (k ∈ external) then value ns env k w else value (standalone nodes) env' k w) /\
    (forall k t dt, (k, (t, dt)) ∈ pn_inputs fn -> m !! k = None -> k ∈ external /\ dt = OPTIONAL /\ dget ns k = None /\ env !! k = None) /\
    pn_call fn (kwargs (pn_inputs fn) m) = Ok v).
Proof.
  intros W wd Hin Hap Hb.
  assert (Hin' : forall n, n ∈ add_namespace captured nodes N inputs config ++ static_nodes type_of (add_namespace captured nodes N inputs config) N inputs config -> dget ns (pn_name n) = Some n).
  { intros n Hn. apply Hin. unfold subdag. rewrite app_assoc. apply elem_of_app. by left. }
  assert (HV : forall x v, x ∈ map pn_name nodes -> value ns env (assign_namespace x N) v <-> value (standalone nodes) env' x v).
  { intros x v Hx. split.
    - intros Hv. apply elem_of_list_fmap in Hx as (n & -> & Hn). by eapply subdag_sound.
    - intros Hv. by eapply subdag_complete. }
  split; [done|]. intros Nf Ea Hd v.
  assert (Df : dget ns final = Some (final_node fn final N external)).
  { apply (Hin (final_node fn final N external)). unfold subdag. rewrite !elem_of_app. right. right. by apply elem_of_list_singleton. }
  rewrite (final_value ns env N fn final external Nf Df Ea v).
  assert (HP : forall k w, k ∈ dkeys (pn_inputs fn) -> k ∉ external -> value ns env (assign_namespace k N) w <-> value (standalone nodes) env' k w).
  { intros k w Hk Hx. destruct (decide (k ∈ map pn_name nodes)) as [Hn|Hn]; [by apply HV|].
    destruct (Hd k Hk Hx) as [? | [Hk1 Hk2]]; [done|]. rewrite (value_input_iff (standalone nodes) env' k w) by by eapply standalone_none.
    unfold binding in Hk2. destruct (dget inputs k) as [[s|u]|] eqn:Ei.
    - rewrite (source_value captured type_of ns env nodes inputs config N wd Hin' Hap k s w Ei Hk1). destruct Hk2 as (w' & Hw' & ->).
      split; [intros Hw; f_equal; by eapply value_fun|by intros [= ->]].
    - erewrite literal_value by done. rewrite Hk2. naive_solver.
    - apply dget_Some_key in Hk1 as [u Hu]. rewrite Hu in Hk2. erewrite config_value by done. rewrite Hk2. naive_solver. }
  assert (HD : forall k, k ∈ dkeys (pn_inputs fn) -> k ∉ external -> dget ns (assign_namespace k N) = None -> False).
  { intros k Hk Hx Hn. destruct (decide (k ∈ map pn_name nodes)) as [Hkn|Hkn].
    - apply elem_of_list_fmap in Hkn as (n & -> & Hnn). erewrite namespaced_in in Hn by done. done.
    - destruct (Hd k Hk Hx) as [? | [Hk1 Hk2]]; [done|]. destruct (env' !! k) as [w|] eqn:Ew.
      + assert (Hv : value (standalone nodes) env' k w) by (apply value_input; [by eapply standalone_none|done]). apply HP in Hv; [|done|done].
        unfold binding in Hk2. destruct (dget inputs k) as [[s|u]|] eqn:Ei.
        * assert (Hs : exists w, value ns env (assign_namespace k N) w) by eauto. destruct Hk1 as (n & Hn1 & Hn2).
          assert (G : exists t, dget ns (assign_namespace k N) = Some (identity_node s (assign_namespace k N) t)).
          { destruct (known_types_get (add_namespace captured nodes N inputs config) (assign_namespace k N)) as [t Ht].
            { exists (namespaced_node captured (new_name_map nodes N inputs config) n). split; [by apply elem_of_list_fmap_1|].
              rewrite (namespaced_inputs captured nodes inputs config N wd Hap), dkeys_renamed by done.
              rewrite <- (rename_declared nodes inputs config N) by (right; left; apply dget_Some_key; by eexists). by apply elem_of_list_fmap_1. }
            exists t. apply (Hin' (identity_node s (assign_namespace k N) t)). apply elem_of_app. right. unfold static_nodes. apply elem_of_app. left.
            apply elem_of_list_omap. exists (k, DSource s). split; [by apply dget_elem|]. cbn [fst snd]. by rewrite Ht. }
          destruct G as [t G]. congruence.
        * assert (G : dget ns (assign_namespace k N) = Some (static_node (assign_namespace k N) (type_of u) u)); [|congruence].
          apply (Hin' (static_node (assign_namespace k N) (type_of u) u)). apply elem_of_app. right. unfold static_nodes. apply elem_of_app. left.
          apply elem_of_list_omap. exists (k, DValue u). split; [by apply dget_elem|done].
        * apply dget_Some_key in Hk1 as [u Hu]. assert (G : dget ns (assign_namespace k N) = Some (static_node (assign_namespace k N) (type_of u) u)); [|congruence].
          apply (Hin' (static_node (assign_namespace k N) (type_of u) u)). apply elem_of_app. right. unfold static_nodes. apply elem_of_app. right.
          apply elem_of_list_fmap. exists (k, u). split; [done|by apply dget_elem].
      + unfold binding in Hk2. destruct (dget inputs k) as [[s|u]|]; [by destruct Hk2 as (? & _ & ?)|done|].
        apply dget_Some_key in Hk1 as [u Hu]. by rewrite Hu in Hk2. }
  split; intros (m & M1 & M2 & C); exists m; split_and!; try done.
  - intros k w Hk. destruct (M1 k w Hk) as [Hki Hv]. split; [done|]. cbn in Hv. case_decide; [done|]. by apply HP.
  - intros k t dt Hk Hn. destruct (M2 k t dt Hk Hn) as (Ho & H1 & H2). cbn in H1, H2. case_decide as Hx; [done|]. exfalso. apply (HD k); [by eapply elem_dkeys|done|done].
  - intros k w Hk. destruct (M1 k w Hk) as [Hki Hv]. split; [done|]. cbn. case_decide; [done|]. by apply HP.
  - intros k t dt Hk Hn. destruct (M2 k t dt Hk Hn) as (Hx & Ho & H1 & H2). cbn. rewrite decide_True by done. done.
Qed.

(** @parameterized_subdag: each of its subdags is as above, with its own inputs and
    configuration taking precedence over the common ones. *)
Theorem C42_parameterized_partial {V E T} captured type_of (ns : dict (pnode V E T)) env collect inputs config external ps fn N p (env' : gmap name V) :
  let inputs' := dupd inputs (sp_inputs p) in
  let config' := dupd config (sp_config p) in
  let nodes := collect config' in
  (forall y n, dget ns y = Some n -> NoDup (dkeys (pn_inputs n))) ->
  (N, p) ∈ ps -> well_declared nodes inputs' config' ->
  (forall n, n ∈ parameterized_subdag captured type_of collect inputs config external ps fn -> dget ns (pn_name n) = Some n) ->
  (forall n k, n ∈ nodes -> k ∈ dkeys (pn_inputs n) -> ~ declared nodes inputs' config' k ->
    k ∉ sub_reserved /\ forall k', k' ∈ dkeys (pn_inputs n) -> k <> assign_namespace k' N) ->
  (forall k, used nodes k -> k ∉ map pn_name nodes -> binding ns env inputs' config' k (env' !! k)) ->
  forall x v, x ∈ map pn_name nodes -> value ns env (assign_namespace x N) v <-> value (standalone nodes) env' x v.
Proof.
  intros inputs' config' nodes W Hp wd Hin Hap Hb.
  apply (C42_subdag_partial captured type_of ns env nodes inputs' config' N N (default external (sp_external p)) fn env' W wd); [|done|done].
  intros n Hn. apply Hin. unfold parameterized_subdag. apply elem_of_list_In, in_flat_map. exists (N, p). split; [by apply elem_of_list_In|]. by apply elem_of_list_In.
Qed.

(** ** A concrete case *)
(** a(x) = x + 1, b(a, c, z) = 100 a + 10 c + z *)
Definition sget (kw : dict Z) (k : name) : Z := default 0%Z (dget kw k).
Definition sa : pnode Z string string := PNode "a" "int" [("x", ("int", REQUIRED))] (fun kw => Ok (sget kw "x" + 1)%Z).
Definition sb : pnode Z string string :=
  PNode "b" "int" [("a", ("int", REQUIRED)); ("c", ("int", REQUIRED)); ("z", ("int", REQUIRED))]
    (fun kw => Ok (100 * sget kw "a" + 10 * sget kw "c" + sget kw "z")%Z).
(** @subdag(a, b, inputs={"x": source("u"), "c": value(7)}, external_inputs=["w"])  def f(b, w): b - w *)
Definition sf : pnode Z string string :=
  PNode "f" "int" [("b", ("int", REQUIRED)); ("w", ("int", REQUIRED))] (fun kw => Ok (sget kw "b" - sget kw "w")%Z).
Definition sin : dict (dep Z) := [("x", DSource "u"); ("c", DValue 7%Z)].
Definition scap : dict Z -> res (nerr string) Z := fun _ => Err (NUser "captured").
Definition snodes : list (pnode Z string string) := subdag scap (fun _ => "int") [sa; sb] sin [] "f" "f" ["w"] sf.
Definition sns : dict (pnode Z string string) := map (fun n => (pn_name n, n)) snodes.
Definition senv : gmap name Z := {["u" := 3%Z; "z" := 5%Z; "w" := 1%Z]}.
Definition senv' : gmap name Z := {["x" := 3%Z; "c" := 7%Z; "z" := 5%Z]}.
Example ex_subdag_names : map pn_name snodes = ["f.a"; "f.b"; "f.x"; "f.c"; "f"].
Proof. by vm_compute. Qed.
Ltac in_cases H := repeat (apply elem_of_cons in H as [H | H]; [|]); [..|by apply elem_of_nil in H].
Ltac by_dec := apply (bool_decide_unpack _); by vm_compute.
Lemma sns_wf : forall y n, dget sns y = Some n -> NoDup (dkeys (pn_inputs n)).
Proof.
  intros y n H. apply dget_elem in H. unfold sns in H. apply elem_of_list_fmap in H as (n' & [= -> ->] & Hn).
  repeat (apply elem_of_cons in Hn as [-> | Hn]; [by_dec|]). by apply elem_of_nil in Hn.
Qed.
Lemma sns_in : forall n, n ∈ snodes -> dget sns (pn_name n) = Some n.
Proof. intros n Hn. repeat (apply elem_of_cons in Hn as [-> | Hn]; [reflexivity|]). by apply elem_of_nil in Hn. Qed.
Lemma s_declared : well_declared [sa; sb] sin [].
Proof.
  split_and!; try by_dec.
  - intros n Hn. repeat (apply elem_of_cons in Hn as [-> | Hn]; [by_dec|]). by apply elem_of_nil in Hn.
  - intros k Hk. repeat (apply elem_of_cons in Hk as [-> | Hk]; [split; by_dec|]). by apply elem_of_nil in Hk.
  - by intros k []%elem_of_nil.
Qed.
Lemma s_apart : forall n k, n ∈ [sa; sb] -> k ∈ dkeys (pn_inputs n) -> ~ declared [sa; sb] sin [] k ->
    k ∉ sub_reserved /\ forall k', k' ∈ dkeys (pn_inputs n) -> k <> assign_namespace k' "f".
Proof.
  intros n k Hn Hk Hd. assert (k = "z") as ->.
  { destruct (decide (k = "z")) as [|Hz]; [done|]. exfalso. apply Hd. unfold declared.
    repeat (apply elem_of_cons in Hn as [-> | Hn]); [..|by apply elem_of_nil in Hn];
    repeat (apply elem_of_cons in Hk as [-> | Hk]); first [by apply elem_of_nil in Hk|done|left; by_dec|right; left; by_dec]. }
  split; [by_dec|]. intros k' _. unfold assign_namespace. cbn. discriminate.
Qed.
Lemma s_bound : forall k, used [sa; sb] k -> k ∉ map pn_name [sa; sb] -> binding sns senv sin [] k (senv' !! k).
Proof.
  intros k (n & Hn & Hk) Hno.
  repeat (apply elem_of_cons in Hn as [-> | Hn]); [..|by apply elem_of_nil in Hn];
  repeat (apply elem_of_cons in Hk as [-> | Hk]); try by apply elem_of_nil in Hk.
  - exists 3%Z. split; [by apply value_input|done].
  - exfalso. apply Hno. by_dec.
  - by vm_compute.
  - left. exists 5%Z. split; [by apply value_input|done].
Qed.
(** f.b = 100 * 4 + 10 * 7 + 5 and f = f.b - 1 *)
Example ex_subdag : value sns senv "f.b" 475%Z /\ value sns senv "f" 474%Z.
Proof.
  destruct (C42_subdag_partial scap (fun _ => "int") sns senv [sa; sb] sin [] "f" "f" ["w"] sf senv' sns_wf s_declared sns_in s_apart s_bound) as [HV HF].
  assert (SI : forall k w, k ∉ ["a"; "b"] -> senv' !! k = Some w -> value (standalone [sa; sb]) senv' k w).
  { intros k w Hk Hw. apply value_input; [|done]. apply dget_None_key. done. }
  assert (Va : value (standalone [sa; sb]) senv' "a" 4%Z).
  { eapply (value_node _ _ "a" sa {["x" := 3%Z]}); [done| | | |by vm_compute].
    - intros k w Hk. apply lookup_singleton_Some in Hk as [<- _]. by_dec.
    - intros k w Hk. apply lookup_singleton_Some in Hk as [<- <-]. apply SI; [by_dec|done].
    - intros k t dt Hk Hn. by apply elem_of_list_singleton in Hk as [= -> -> ->]. }
  assert (Vb : value (standalone [sa; sb]) senv' "b" 475%Z).
  { eapply (value_node _ _ "b" sb {["a" := 4%Z; "c" := 7%Z; "z" := 5%Z]}); [done| | | |by vm_compute].
    - intros k w Hk. do 2 (apply lookup_insert_Some in Hk as [[<- _] | [_ Hk]]; [by_dec|]). apply lookup_singleton_Some in Hk as [<- _]. by_dec.
    - intros k w Hk. apply lookup_insert_Some in Hk as [[<- <-] | [_ Hk]]; [done|].
      apply lookup_insert_Some in Hk as [[<- <-] | [_ Hk]]; [apply SI; [by_dec|done]|].
      apply lookup_singleton_Some in Hk as [<- <-]. apply SI; [by_dec|done].
    - intros k t dt Hk Hn. repeat (apply elem_of_cons in Hk as [[= -> -> ->] | Hk]; [by vm_compute in Hn|]). by apply elem_of_nil in Hk. }
  split; [apply (HV "b"); [by_dec|done]|].
  apply HF.
  - by_dec.
  - intros k k' Hk _ _. apply elem_of_list_singleton in Hk as ->. unfold assign_namespace. cbn. discriminate.
  - intros k Hk He. repeat (apply elem_of_cons in Hk as [-> | Hk]); [left; by_dec|exfalso; apply He; by_dec|by apply elem_of_nil in Hk].
  - exists {["b" := 475%Z; "w" := 1%Z]}. split_and!; [| |by vm_compute].
    + intros k w Hk. apply lookup_insert_Some in Hk as [[<- <-] | [_ Hk]]; [split; [by_dec|done]|].
      apply lookup_singleton_Some in Hk as [<- <-]. split; [by_dec|]. by apply value_input.
    + intros k t dt Hk Hn. repeat (apply elem_of_cons in Hk as [[= -> -> ->] | Hk]; [by vm_compute in Hn|]). by apply elem_of_nil in Hk.
Qed.

(** ** Refutation *)
(** @subdag(a, inputs={"x": source("u"), "p": source("u")})  def g(a, p): no node of the
    subdag uses p, so no node is created for it, and g cannot be computed although u is
    given; with the literal value(3) instead of source("u") it can. *)
Definition sg : pnode Z string string :=
  PNode "g" "int" [("a", ("int", REQUIRED)); ("p", ("int", REQUIRED))] (fun kw => Ok (sget kw "a" - sget kw "p")%Z).
Definition gns (d : dep Z) : dict (pnode Z string string) :=
  map (fun n => (pn_name n, n)) (subdag scap (fun _ => "int") [sa] [("x", DSource "u"); ("p", d)] [] "g" "g" [] sg).
Definition genv : gmap name Z := {["u" := 3%Z]}.
Theorem C42_unused_source_refuted :
  value (gns (DSource "u")) genv "u" 3%Z /\ (forall v, ~ value (gns (DSource "u")) genv "g" v) /\
  dkeys (gns (DSource "u")) = ["g.a"; "g.x"; "g"] /\ value (gns (DValue 3%Z)) genv "g" 1%Z.
Proof.
  split_and!.
  - by apply value_input.
  - intros v Hv. eapply value_node_iff in Hv as (m & [M1 M2] & _); [|reflexivity].
    assert (Hm : m !! "g.p" = None).
    { destruct (m !! "g.p") as [w|] eqn:Em; [|done]. destruct (M1 _ _ Em) as [_ Hw]. apply value_input_iff in Hw; [|by vm_compute]. by vm_compute in Hw. }
    destruct (M2 "g.p" "int" REQUIRED) as (? & _); [right; by left|done|done].
  - by vm_compute.
  - assert (Vx : value (gns (DValue 3%Z)) genv "g.x" 3%Z).
    { eapply (value_node _ _ "g.x" _ {["u" := 3%Z]}); [reflexivity| | | |by vm_compute].
      - intros k w Hk. apply lookup_singleton_Some in Hk as [<- _]. by_dec.
      - intros k w Hk. apply lookup_singleton_Some in Hk as [<- <-]. by apply value_input.
      - intros k t dt Hk Hn. by apply elem_of_list_singleton in Hk as [= -> -> ->]. }
    assert (Va : value (gns (DValue 3%Z)) genv "g.a" 4%Z).
    { eapply (value_node _ _ "g.a" _ {["g.x" := 3%Z]}); [reflexivity| | | |by vm_compute].
      - intros k w Hk. apply lookup_singleton_Some in Hk as [<- _]. by_dec.
      - intros k w Hk. by apply lookup_singleton_Some in Hk as [<- <-].
      - intros k t dt Hk Hn. by apply elem_of_list_singleton in Hk as [= -> -> ->]. }
    assert (Vp : value (gns (DValue 3%Z)) genv "g.p" 3%Z).
    { eapply (value_node _ _ "g.p" _ ∅); [reflexivity| | | |by vm_compute].
      - intros k w Hk. by rewrite lookup_empty in Hk.
      - intros k w Hk. by rewrite lookup_empty in Hk.
      - by intros k t dt []%elem_of_nil. }
    eapply (value_node _ _ "g" _ {["g.a" := 4%Z; "g.p" := 3%Z]}); [reflexivity| | | |by vm_compute].
    + intros k w Hk. apply lookup_insert_Some in Hk as [[<- <-] | [_ Hk]]; [by_dec|]. apply lookup_singleton_Some in Hk as [<- <-]. by_dec.
    + intros k w Hk. apply lookup_insert_Some in Hk as [[<- <-] | [_ Hk]]; [done|]. by apply lookup_singleton_Some in Hk as [<- <-].
    + intros k t dt Hk Hn. repeat (apply elem_of_cons in Hk as [[= -> -> ->] | Hk]; [by vm_compute in Hn|]). by apply elem_of_nil in Hk.
Qed.

Print Assumptions C42_validated.
Print Assumptions C42_subdag_partial.
Print Assumptions C42_parameterized_partial.
Print Assumptions C42_unused_source_refuted.
