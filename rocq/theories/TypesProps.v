(** Annotations: what the checks of values decide, and what a built graph guarantees. *)
From Verif Require Import Base Dict ExecModel ExecSpec ExecProofs ExecResults ExecProps ExecCong GraphModel GraphSpec GraphProofs GraphResults RelinkModel RelinkSpec RelinkProofs TypesModel TypesSpec TypesProofs TypesRun.

(** ** C66: checks of values *)
Section Checks.
Context {V : Type} `{!EqDecision V}.
Variable class_of : V -> cls.
Variable sub : cls -> cls -> bool.
Variable items : V -> list V.
Variable entries : V -> list (V * V).
Variable one_shot : V -> bool.
Variable none : V.
Notation means := (means class_of sub items entries).

(** The strict check never raises and decides the meaning of the annotation, for values and annotations nested to any
    depth. *)
Theorem C66_check_instance_partial (t : ann V) v : hierarchy sub -> checkable t ->
  (check_instance class_of sub items entries t v = Some true <-> means t v) /\
  (check_instance class_of sub items entries t v = Some false <-> ~ means t v).
Proof.
  intros Hh Hc. destruct (check_instance_decides class_of sub items entries Hh t Hc v) as [[-> H]|[-> H]]; split; split; done.
Qed.

(** The check of inputs accepts every value of the annotated type ... *)
Theorem C66_inputs_accepted_partial (final : cls -> Prop) (t : ann V) v :
  (forall o w, final o -> sub (class_of w) o = true -> class_of w = o) -> lenient final t ->
  means t v -> valid_input class_of sub items one_shot none t v = true.
Proof.
  intros Hf Hl Hm. unfold valid_input. apply orb_true_iff. right. by apply (check_input_accepts class_of sub items entries one_shot final).
Qed.
(** ... and, where no generics are involved, nothing else but None. *)
Theorem C66_inputs_exact (t : ann V) v : hierarchy sub -> flat t ->
  valid_input class_of sub items one_shot none t v = true <-> v = none \/ means t v.
Proof.
  intros Hh Hf. unfold valid_input. rewrite orb_true_iff, bool_decide_eq_true. split; (intros [->|H]; [by left|right]).
  - by apply (check_input_flat class_of sub items entries Hh one_shot t Hf v 0).
  - apply (check_input_accepts class_of sub items entries one_shot (fun _ => False)); [done| |done].
    clear H. induction t as [|c|o args IH|ts IH|vs|] using ann_rect'; try done. rewrite flat_union in Hf. apply lenient_union.
    rewrite Forall_forall in IH. intros t Ht. apply IH; [done|by apply Hf].
Qed.

(** The adapter: a function is invoked exactly when its arguments are of the declared types, a value is passed on exactly
    when it is of the declared type, and the values are the same as without the adapter. *)
Section Adapter.
Context {E : Type}.
Variable bad_input bad_output : name -> E.
Variable params : name -> list (name * ann V).
Variable returns : name -> ann V.
Variable x : name.
Notation checked := (checked class_of sub items entries none bad_input bad_output true true params returns).
Definition well_called (kw : gmap name V) : Prop := forall p w, kw !! p = Some w -> exists t, (p, t) ∈ params x /\ means t w.
Theorem C66_adapter_partial (f : gmap name V -> res E V) kw :
  hierarchy sub -> (forall p t, (p, t) ∈ params x -> checkable t) -> NoDup (params x).*1 -> checkable (returns x) ->
  ((checked f x kw).2 = true <-> well_called kw) /\
  (~ well_called kw -> (checked f x kw).1 = Err (bad_input x)) /\
  (forall v, (checked f x kw).1 = Ok v <-> well_called kw /\ f kw = Ok v /\ means (returns x) v) /\
  (forall v, well_called kw -> f kw = Ok v -> ~ means (returns x) v -> (checked f x kw).1 = Err (bad_output x)) /\
  (forall e, well_called kw -> f kw = Err e -> means (returns x) none -> (checked f x kw).1 = Err e).
Proof.
  intros Hh Hc Hnd Hr. assert (Hin := inputs_pass_means class_of sub items entries Hh params x kw Hc Hnd). fold (well_called kw) in Hin.
  assert (Hout := fun v => passes_means class_of sub items entries Hh (returns x) v Hr).
  unfold TypesModel.checked. destruct (inputs_pass class_of sub items entries params x kw); cbn [negb andb fst snd].
  - assert (Hw : well_called kw) by (by apply Hin). destruct (f kw) as [v|e].
    + specialize (Hout v). destruct (passes class_of sub items entries (returns x) v); cbn [negb andb fst snd].
      * assert (Hm : means (returns x) v) by (by apply Hout). split_and!; try done.
        -- intros w. split; [by intros [= <-]|]. by intros (_ & ? & _).
        -- intros w _ [= <-]. done.
      * assert (Hm : ~ means (returns x) v) by (intros Hm; by apply Hout in Hm). split_and!; try done.
        intros w. split; [done|]. intros (_ & [= <-] & ?). done.
    + specialize (Hout none). destruct (passes class_of sub items entries (returns x) none); cbn [negb andb fst snd].
      * split_and!; try done; first [by intros w; split; [|intros (_ & ? & _)]|by intros e' _ [= <-]].
      * split_and!; try done; first [by intros w; split; [|intros (_ & ? & _)]|intros e' _ _ Hm; by apply Hout in Hm].
  - assert (Hw : ~ well_called kw) by (intros Hw; by apply Hin in Hw).
    split_and!; try done. intros v. split; [done|]. by intros (? & _).
Qed.
(** When the check of an argument or of the value raises, execute raises; in the former case the function is not invoked. *)
Theorem C66_adapter_unsupported (f : gmap name V -> res E V) kw :
  (forall p t w, NoDup (params x).*1 -> (p, t) ∈ params x -> kw !! p = Some w -> check_instance class_of sub items entries t w = None ->
     checked f x kw = (Err (bad_input x), false)) /\
  (forall v, f kw = Ok v -> check_instance class_of sub items entries (returns x) v = None -> exists e, (checked f x kw).1 = Err e).
Proof.
  unfold TypesModel.checked. split.
  - intros p t w Hnd Hp Hw Hc.
    assert (Hin : inputs_pass class_of sub items entries params x kw = false); [|by rewrite Hin].
    apply not_true_iff_false. unfold inputs_pass. intros H. rewrite forallb_forall in H.
    specialize (H (p, w)). cbn in H. rewrite (elem_dget (params x) p t Hnd Hp) in H. unfold passes in H. rewrite Hc in H.
    assert (false = true); [|done]. apply H, elem_of_list_In. by apply elem_of_map_to_list.
  - intros v Hv Hc. rewrite Hv. destruct (_ && _); cbn; [by eexists|]. unfold passes. rewrite Hc. cbn. by eexists.
Qed.
End Adapter.
End Checks.
Print Assumptions C66_check_instance_partial.
Print Assumptions C66_inputs_accepted_partial.
Print Assumptions C66_inputs_exact.
Print Assumptions C66_adapter_partial.
Print Assumptions C66_adapter_unsupported.

(** ** C67: types in built graphs *)
Section Graphs.
Context {V : Type} `{!EqDecision V}.
Variable class_of : V -> cls.
Variable sub : cls -> cls -> bool.
Variable items : V -> list V.
Variable entries : V -> list (V * V).
Notation means := (means class_of sub items entries).
Notation narrower := (narrower class_of sub items entries).
Notation no_adapter := (fun _ _ : ann V => false).

(** Types that match: the values of the producer's type are values of the consumer's, unless the consumer speaks about
    something the producer's type does not tell. *)
Theorem C67_match_partial (t u : ann V) : hierarchy sub -> proper sub t -> proper sub u -> tells sub t u ->
  ann_match sub t u = true -> narrower t u.
Proof. intros Hh. by apply match_narrower. Qed.

(** All edges of a graph that is built are like this, also those of inputs whose type was narrowed on the way. *)
Theorem C67_edges_partial (defs : list (fdef (ann V))) config allow g :
  hierarchy sub ->
  (forall x t u, asked config defs x t -> offered config defs x u -> proper sub t /\ proper sub u /\ tells sub t u) ->
  create_function_graph (ann_match sub) no_adapter AAny defs config allow = Ok g ->
  forall P x t n, asks_typed g P x t -> dget g x = Some n -> narrower t (gn_type n).
Proof.
  intros Hh Hp Hc. eapply built_narrowed; [by intros t v|by intros t u w H1 H2 v Hv; apply H1, H2| |exact Hc].
  intros x t u Ha Ho Hm. destruct (Hp x t u Ha Ho) as (H1 & H2 & H3). by apply C67_match_partial.
Qed.

(** So if functions return what they declare as long as they get what they ask for, and inputs and overrides are of the types
    of their nodes, then in every run every function gets what it asks for and every answer is of its node's type. *)
Section Runs.
Context {E : Type}.
Variable g : dict (gnode (ann V)).
Definition well_typed_functions (F : list (event V E) -> name -> gmap name V -> res E V) : Prop :=
  forall tr x n kw v, dget g x = Some n -> gn_ext n = false ->
    (forall p t dt w, (p, (t, dt)) ∈ gn_params n -> kw !! p = Some w -> means t w) -> F tr x kw = Ok v -> means (gn_type n) v.
Definition well_typed_values (inputs overrides : gmap name V) : Prop :=
  (forall x n v, inputs !! x = Some v -> dget g x = Some n -> gn_ext n = true -> means (gn_type n) v) /\
  (forall x n v, overrides !! x = Some v -> dget g x = Some n -> means (gn_type n) v).
Definition well_typed_edges : Prop := forall P x t n, asks_typed g P x t -> dget g x = Some n -> narrower t (gn_type n).

Theorem C67_calls F config inputs overrides fv :
  linked g -> acyclic (to_graph g) -> well_typed_edges -> well_typed_functions F -> well_typed_values (inputs ∪ config) overrides ->
  (forall x kw r, Call x kw r ∈ trace_of (default_execute F (to_graph g) config inputs overrides fv) ->
     exists n, dget g x = Some n /\ (forall p t dt w, (p, (t, dt)) ∈ gn_params n -> kw !! p = Some w -> means t w) /\
       (forall v, r = Ok v -> means (gn_type n) v)) /\
  (forall out tr x v n, default_execute F (to_graph g) config inputs overrides fv = Answer out tr ->
     (x, Some v) ∈ out -> dget g x = Some n -> means (gn_type n) v).
Proof.
  intros Hl Hac He HF [Hi Ho]. split.
  - intros x kw r. by apply (run_call_typed means g Hl Hac He F HF).
  - intros out tr x v n. by apply (run_answer_typed means g Hl Hac He F HF).
Qed.

(** Then the checking adapter is not noticed. *)
Definition declared_params (x : name) : list (name * ann V) :=
  match dget g x with Some n => map (fun p => (p.1, p.2.1)) (gn_params n) | None => [] end.
Definition declared_type (x : name) : ann V := match dget g x with Some n => gn_type n | None => AAny end.
Definition with_checker (none : V) (bad_input bad_output : name -> E) (F : list (event V E) -> name -> gmap name V -> res E V)
  : list (event V E) -> name -> gmap name V -> res E V :=
  fun tr x kw => (checked class_of sub items entries none bad_input bad_output true true declared_params declared_type (F tr x) x kw).1.
Theorem C67_checker_silent none bad_input bad_output F config inputs overrides fv out tr :
  hierarchy sub -> linked g -> acyclic (to_graph g) -> well_typed_edges -> well_typed_functions F ->
  well_typed_values (inputs ∪ config) overrides ->
  (forall x n, dget g x = Some n -> checkable (gn_type n) /\ forall p t dt, (p, (t, dt)) ∈ gn_params n -> checkable t) ->
  default_execute F (to_graph g) config inputs overrides fv = Answer out tr ->
  default_execute (with_checker none bad_input bad_output F) (to_graph g) config inputs overrides fv = Answer out tr.
Proof.
  intros Hh Hl Hac He HF Hv Hck Hrun. rewrite <-Hrun. apply default_cong; [by rewrite Hrun|].
  intros t1 x kw r t2 Htr.
  destruct (run_call_args (to_graph g) (linked_wf g Hl) Hac F config inputs overrides fv t1 x kw r t2 Htr) as (Hr & nd & Hx & _ & Hkw & _).
  assert (Hin : Call x kw r ∈ trace_of (default_execute F (to_graph g) config inputs overrides fv)).
  { rewrite Htr. apply elem_of_app. right. by left. }
  destruct (C67_calls F config inputs overrides fv Hl Hac He HF Hv) as [Hcalls _].
  destruct (Hcalls x kw r Hin) as (n & Hn & Hargs & Hres).
  destruct r as [v|e].
  2: { destruct (run_error (to_graph g) (linked_wf g Hl) Hac F config inputs overrides fv x kw e Hin) as (t & Ht & _). congruence. }
  destruct (Hck x n Hn) as [Hckt Hckp].
  assert (Hdp : declared_params x = map (fun p => (p.1, p.2.1)) (gn_params n)) by (unfold declared_params; by rewrite Hn).
  assert (Hdt : declared_type x = gn_type n) by (unfold declared_type; by rewrite Hn).
  assert (Hfst : (map (fun p : name * (ann V * deptype) => (p.1, p.2.1)) (gn_params n)).*1 = (gn_params n).*1).
  { rewrite <-list_fmap_compose. done. }
  unfold with_checker. apply (C66_adapter_partial class_of sub items entries none bad_input bad_output declared_params declared_type x (F t1 x) kw Hh).
  - rewrite Hdp. intros p t Hp. apply elem_of_list_fmap in Hp as ([q [u dt]] & [= -> ->] & Hq). by eapply Hckp.
  - rewrite Hdp, Hfst. by eapply (sn_params _ (ln_sensible _ Hl)).
  - by rewrite Hdt.
  - split; [|split; [done|]]; [|rewrite Hdt; by apply Hres].
    intros p w Hw. rewrite Hdp. destruct (Hkw p w Hw) as [Hp _].
    apply graph_node in Hx as (n' & Hn' & ->); [|done]. assert (n' = n) as -> by congruence.
    rewrite dep_names_to_node, (ln_deps _ Hl x n Hn) in Hp. apply elem_of_list_fmap in Hp as ([q [t dt]] & -> & Hq).
    exists t. split; [|by eapply Hargs]. apply elem_of_list_fmap. by exists (q, (t, dt)).
Qed.
End Runs.
End Graphs.
Print Assumptions C67_match_partial.
Print Assumptions C67_edges_partial.
Print Assumptions C67_calls.
Print Assumptions C67_checker_silent.

(** ** A concrete world *)
Inductive atom := NoneV | IntV (n : nat) | StrV (s : string).
#[global] Instance atom_eq : EqDecision atom. Proof. solve_decision. Defined.
(** Atoms, collections of atoms and dictionaries, the latter two tagged with their class. *)
Inductive pv := At (a : atom) | Coll (c : cls) (l : list atom) | Map (c : cls) (l : list (atom * atom)).
#[global] Instance pv_eq : EqDecision pv. Proof. solve_decision. Defined.
Definition py_class (v : pv) : cls :=
  match v with
  | At NoneV => "NoneType" | At (IntV _) => "int" | At (StrV _) => "str"
  | Coll c _ | Map c _ => c
  end.
Fixpoint chars (s : string) : list pv :=
  match s with EmptyString => [] | String a s' => At (StrV (String a EmptyString)) :: chars s' end.
Definition py_items (v : pv) : list pv :=
  match v with At (StrV s) => chars s | At _ => [] | Coll _ l => map At l | Map _ l => map (fun kv => At kv.1) l end.
Definition py_entries (v : pv) : list (pv * pv) :=
  match v with Map _ l => map (fun kv => (At kv.1, At kv.2)) l | _ => [] end.
Definition py_once (v : pv) : bool := bool_decide (py_class v = "generator").
Definition py_supers : dict (list cls) :=
  [("bool", ["int"]); ("str", ["Sequence"; "Iterable"]); ("list", ["Sequence"; "Iterable"]); ("tuple", ["Sequence"; "Iterable"]);
   ("range", ["Sequence"; "Iterable"]); ("Sequence", ["Iterable"]); ("set", ["Iterable"]); ("dict", ["Mapping"; "Iterable"]);
   ("OrderedDict", ["dict"; "Mapping"; "Iterable"]); ("Mapping", ["Iterable"]); ("generator", ["Iterable"])].
Definition supers (c : cls) : list cls := default [] (dget py_supers c).
Definition py_sub (a b : cls) : bool := bool_decide (a = b) || bool_decide (b = "object") || bool_decide (b ∈ supers a).
Lemma py_sub_spec a b : py_sub a b = true <-> a = b \/ b = "object" \/ b ∈ supers a.
Proof. unfold py_sub. rewrite !orb_true_iff, !bool_decide_eq_true. tauto. Qed.
Lemma supers_check (P : cls -> list cls -> Prop) : Forall (fun kl => P kl.1 kl.2) py_supers -> forall c b, b ∈ supers c -> P c (supers c).
Proof.
  intros H c b. unfold supers. destruct (dget py_supers c) as [l|] eqn:Hc; cbn; [|by intros Hb; apply elem_of_nil in Hb].
  intros _. rewrite Forall_forall in H. by apply (H (c, l)), dget_elem.
Qed.
Lemma py_hierarchy : hierarchy py_sub.
Proof.
  constructor.
  - intros c. apply py_sub_spec. by left.
  - intros a b c. rewrite !py_sub_spec. intros [-> |[-> |Hb]]; [done|..].
    + intros [<- |[-> |Hc]]; [by right; left..|]. by apply elem_of_nil in Hc.
    + intros [<- |[-> |Hc]]; [by right; right|by right; left|]. right; right.
      assert (Hck := supers_check (fun _ l => forall b c, b ∈ l -> c ∈ supers b -> c ∈ l)).
      eapply Hck; [|exact Hb|exact Hb|exact Hc]. clear. unfold py_supers. repeat (apply Forall_cons; split); [..|by apply Forall_nil];
        cbn; intros b c Hb Hc; repeat (apply elem_of_cons in Hb as [-> | Hb]; [vm_compute in Hc; set_solver|]); by apply elem_of_nil in Hb.
  - intros c Hc. assert (Hl : forall d, d ∈ ["list"; "set"; "tuple"] -> py_sub c d = false).
    { intros d Hd. apply not_true_is_false. rewrite py_sub_spec. apply py_sub_spec in Hc as [-> |[? |Hc]]; [|done|].
      - repeat (apply elem_of_cons in Hd as [-> | Hd]; [intros [? |[? |Hin]]; [done..|]; vm_compute in Hin; set_solver|]). by apply elem_of_nil in Hd.
      - assert (Hne : c <> d /\ d ∉ supers c).
        { revert Hd. assert (Hck := supers_check (fun k l => "dict" ∈ l -> d ∈ ["list"; "set"; "tuple"] -> k <> d /\ d ∉ l)).
          eapply Hck; [|exact Hc|done]. clear. unfold py_supers.
          repeat (apply Forall_cons; split); [..|by apply Forall_nil]; cbn; intros H1 Hd; try (exfalso; clear -H1; set_solver).
          split; repeat (apply elem_of_cons in Hd as [-> | Hd]; [set_solver|]); by apply elem_of_nil in Hd. }
        destruct Hne as [H1 H2]. intros [? |[-> |?]]; [done| |done]. clear -Hd. set_solver. }
    split_and!; apply Hl; set_solver.
Qed.
Notation py_means := (means py_class py_sub py_items py_entries).
Notation py_check := (check_instance py_class py_sub py_items py_entries).
Notation py_valid := (valid_input py_class py_sub py_items py_once (At NoneV)).
Definition INT : ann pv := AClass "int".
Definition STR : ann pv := AClass "str".
Definition ints (l : list nat) : list atom := map IntV l.

(** [Optional[Dict[str, int]]] with [{"a": 1}] and [{"a": "b"}]; [List[int]] with a list of ints. *)
Example C66_check_nonvacuous :
  let t := AUnion [AGen "dict" [STR; INT]; AClass "NoneType"] in
  hierarchy py_sub /\ checkable t /\
  py_means t (Map "dict" [(StrV "a", IntV 1)]) /\ py_check t (Map "dict" [(StrV "a", IntV 1)]) = Some true /\
  ~ py_means t (Map "dict" [(StrV "a", StrV "b")]) /\ py_check t (Map "dict" [(StrV "a", StrV "b")]) = Some false /\
  checkable (AGen "list" [INT]) /\ py_means (AGen "list" [INT]) (Coll "list" (ints [1; 2])).
Proof.
  intros t.
  assert (Ht : checkable t) by (cbn; tauto). assert (Hl : checkable (AGen "list" [INT])) by (cbn; tauto).
  split; [apply py_hierarchy|]. split; [done|].
  split; [by apply (C66_check_instance_partial py_class py_sub py_items py_entries t _ py_hierarchy Ht); vm_compute|]. split; [by vm_compute|].
  split; [by apply (C66_check_instance_partial py_class py_sub py_items py_entries t _ py_hierarchy Ht); vm_compute|]. split; [by vm_compute|].
  split; [done|]. by apply (C66_check_instance_partial py_class py_sub py_items py_entries _ _ py_hierarchy Hl); vm_compute.
Qed.
Example C66_inputs_nonvacuous :
  let t := AUnion [AGen "Sequence" [INT]; AClass "NoneType"] in
  (forall o w, False -> py_sub (py_class w) o = true -> py_class w = o) /\ lenient (fun _ => False) t /\
  py_means t (Coll "range" (ints [0; 1])) /\ py_valid t (Coll "range" (ints [0; 1])) = true /\ py_valid t (At (IntV 3)) = false /\
  flat (AUnion [INT; ALiteral [At (StrV "a")]]) /\ py_valid (AUnion [INT; ALiteral [At (StrV "a")]]) (At (StrV "b")) = false.
Proof.
  intros t. split; [done|]. split; [cbn; split; [|done]; split; [done|]; right; tauto|]. split.
  { cbn. left. split; [done|]. intros x Hx. repeat (apply elem_of_cons in Hx as [-> | Hx]; [done|]). by apply elem_of_nil in Hx. }
  split_and!; try by vm_compute.
Qed.

(** *** Where the claim fails *)
(** Fixed tuples: a pair of the right types is refused, and triples of the first type are let through. *)
Theorem C66_fixed_tuples_refuted : exists (t : ann pv) v w,
  py_means t v /\ py_check t v = Some false /\ ~ py_means t w /\ py_check t w = Some true.
Proof.
  exists (AGen "tuple" [INT; STR]), (Coll "tuple" [IntV 1; StrV "a"]), (Coll "tuple" (ints [1; 2; 3])). split_and!; try by vm_compute.
  - split; [done|]. repeat constructor.
  - intros [_ H]. vm_compute in H. inversion H as [|? ? ? ? _ H1]; subst. inversion H1 as [|? ? ? ? H2 _]; subst. by vm_compute in H2.
Qed.
(** Values that are neither list, set, tuple nor dict make the check raise, though they are of the annotated type; so do
    dictionaries for [Iterable[str]]. *)
Theorem C66_other_generics_raise_refuted : exists (t u : ann pv) v w,
  py_means t v /\ py_check t v = None /\ py_means u w /\ py_check u w = None.
Proof.
  exists (AGen "Iterable" [INT]), (AGen "Iterable" [STR]), (Coll "range" (ints [0; 1])), (Map "dict" [(StrV "a", IntV 1)]).
  split_and!; try by vm_compute.
  - split; [done|]. intros x Hx. repeat (apply elem_of_cons in Hx as [-> | Hx]; [done|]). by apply elem_of_nil in Hx.
  - split; [done|]. intros x Hx. repeat (apply elem_of_cons in Hx as [-> | Hx]; [done|]). by apply elem_of_nil in Hx.
Qed.
(** When a function raises, the check of the result None raises as well, and the user sees that exception. *)
Theorem C66_exception_replaced_refuted : exists (params : name -> list (name * ann pv)) (returns : name -> ann pv) (f : gmap name pv -> res string pv),
  checkable (returns "x") /\ f ∅ = Err "division by zero" /\
  checked py_class py_sub py_items py_entries (At NoneV) (fun _ => "bad input") (fun _ => "bad output") true true params returns f "x" ∅ = (Err "bad output", true).
Proof. by exists (fun _ => []), (fun _ => INT), (fun _ => Err "division by zero"). Qed.
(** Inputs annotated with tuples, with [Mapping[...]], or with [Dict[...]] when given a subclass of dict, are rejected. *)
Theorem C66_inputs_rejected_refuted :
  (exists v, py_means (AGen "tuple" [INT; STR]) v /\ py_valid (AGen "tuple" [INT; STR]) v = false) /\
  (exists v, py_means (AGen "Mapping" [STR; INT]) v /\ py_valid (AGen "Mapping" [STR; INT]) v = false) /\
  (exists v, py_means (AGen "dict" [STR; INT]) v /\ py_valid (AGen "dict" [STR; INT]) v = false).
Proof.
  split_and!.
  - exists (Coll "tuple" [IntV 1; StrV "a"]). split; [|by vm_compute]. split; [done|]. repeat constructor.
  - exists (Map "dict" [(StrV "a", IntV 1)]). split; [|by vm_compute]. split; [done|]. intros k w Hk.
    apply elem_of_list_singleton in Hk as [= -> ->]. done.
  - exists (Map "OrderedDict" [(StrV "a", IntV 1)]). split; [|by vm_compute]. split; [done|]. intros k w Hk.
    apply elem_of_list_singleton in Hk as [= -> ->]. done.
Qed.
(** Elements are hardly looked at: [["a"]] is accepted for [List[int]], a string for [List[str]]. *)
Theorem C66_inputs_loose_refuted :
  (exists v, ~ py_means (AGen "list" [INT]) v /\ py_valid (AGen "list" [INT]) v = true) /\
  (exists v, ~ py_means (AGen "list" [STR]) v /\ py_valid (AGen "list" [STR]) v = true).
Proof.
  split.
  - exists (Coll "list" [StrV "a"]). split; [|by vm_compute]. intros [_ H]. specialize (H (At (StrV "a")) ltac:(by left)). done.
  - exists (At (StrV "abc")). split; [|by vm_compute]. by intros [H _].
Qed.
(** A generator loses its first element to the check, one for each member of a union. *)
Theorem C66_generator_drained_refuted : exists (t u : ann pv) v,
  py_means t v /\ py_items v = map At (ints [1; 2; 3]) /\
  remaining py_items py_once v (check_input_type py_class py_sub py_items py_once t v 0).2 = map At (ints [2; 3]) /\
  remaining py_items py_once v (check_input_type py_class py_sub py_items py_once u v 0).2 = map At (ints [3]).
Proof.
  exists (AGen "Iterable" [INT]), (AUnion [AGen "Iterable" [STR]; AGen "Iterable" [INT]]), (Coll "generator" (ints [1; 2; 3])).
  split_and!; try by vm_compute. split; [done|]. intros x Hx. repeat (apply elem_of_cons in Hx as [-> | Hx]; [done|]). by apply elem_of_nil in Hx.
Qed.
Print Assumptions C66_generator_drained_refuted.

(** *** C67: an example *)
(** [n(a: Optional[List[int]]) -> int], [m(a: List[int]) -> List[int]], [out(m: list, n: Union[int, str], k: int = 0) -> str]:
    the input [a] becomes a [List[int]]. *)
Definition tg_defs : list (fdef (ann pv)) :=
  [FDef "n" INT [("a", (AUnion [AGen "list" [INT]; AClass "NoneType"], REQUIRED))];
   FDef "m" (AGen "list" [INT]) [("a", (AGen "list" [INT], REQUIRED))];
   FDef "out" STR [("m", (AClass "list", REQUIRED)); ("n", (AUnion [STR; INT], REQUIRED)); ("k", (INT, OPTIONAL))]].
Definition tg_g : dict (gnode (ann pv)) :=
  match create_function_graph (ann_match py_sub) (fun _ _ => false) AAny tg_defs [] false with Ok g => g | Err _ => [] end.
Definition tg_F (_ : list (event pv string)) (x : name) (kw : gmap name pv) : res string pv :=
  if String.eqb x "n" then match kw !! "a" with Some (Coll _ l) => Ok (At (IntV (length l))) | _ => Err "TypeError" end
  else if String.eqb x "m" then match kw !! "a" with Some v => Ok v | None => Err "TypeError" end
  else Ok (At (StrV "done")).
Definition tg_inputs : gmap name pv := {["a" := Coll "list" (ints [1; 2; 3])]}.
Lemma dget_forall {A} (d : dict A) (P : name -> A -> Prop) : Forall (fun kn => P kn.1 kn.2) d -> forall x n, dget d x = Some n -> P x n.
Proof. intros H x n Hx. rewrite Forall_forall in H. apply (H (x, n)). by apply dget_elem. Qed.
Lemma tg_built : create_function_graph (ann_match py_sub) (fun _ _ => false) AAny tg_defs [] false = Ok tg_g.
Proof. by vm_compute. Qed.
Lemma in_effect_elem {T} config (defs : list (fdef T)) x d : in_effect config defs x d -> d ∈ defs /\ fd_name d = x.
Proof. intros (_ & a & b & -> & Hn & _). split; [|done]. apply elem_of_app. right. by left. Qed.
Definition tg_asked : list (name * ann pv) :=
  [("a", AUnion [AGen "list" [INT]; AClass "NoneType"]); ("a", AGen "list" [INT]); ("m", AClass "list"); ("n", AUnion [STR; INT]); ("k", INT)].
Lemma tg_asked_elem x t : asked [] tg_defs x t -> (x, t) ∈ tg_asked.
Proof.
  intros (y & d & dt & Hd & Hp). apply in_effect_elem in Hd as [Hd _].
  repeat (apply elem_of_cons in Hd as [-> | Hd]; [cbn in Hp; repeat (apply elem_of_cons in Hp as [[= -> -> ->] | Hp]; [by repeat (try (by left); right)|]); by apply elem_of_nil in Hp|]).
  by apply elem_of_nil in Hd.
Qed.
Lemma tg_involved x t u : asked [] tg_defs x t -> offered [] tg_defs x u -> proper py_sub t /\ proper py_sub u /\ tells py_sub t u.
Proof.
  intros Ha Ho. apply tg_asked_elem in Ha.
  assert (Hu : (x, u) ∈ [("n", INT); ("m", AGen "list" [INT]); ("out", STR); ("a", AUnion [AGen "list" [INT]; AClass "NoneType"]); ("a", AGen "list" [INT]); ("k", INT)]).
  { destruct Ho as [(d & Hd & ->)|[Hno Hask]].
    - apply in_effect_elem in Hd as [Hd <-]. repeat (apply elem_of_cons in Hd as [-> | Hd]; [by repeat (try (by left); right)|]). by apply elem_of_nil in Hd.
    - apply (in_force_none (fun _ _ => true) (fun _ _ => true) AAny) in Hno. apply tg_asked_elem in Hask.
      repeat (apply elem_of_cons in Hask as [[= -> ->] | Hask]; [first [by vm_compute in Hno|by repeat (try (by left); right)]|]). by apply elem_of_nil in Hask. }
  unfold tg_asked in Ha.
  repeat (apply elem_of_cons in Ha as [[= -> ->] | Ha]; [repeat (apply elem_of_cons in Hu as [Hu1 | Hu]; [first [discriminate Hu1|injection Hu1 as ->; cbn; split_and!; try done; naive_solver]|]); by apply elem_of_nil in Hu|]).
  by apply elem_of_nil in Ha.
Qed.
Lemma tg_params d : d ∈ tg_defs -> NoDup (fd_params d).*1.
Proof.
  intros Hd. repeat (apply elem_of_cons in Hd as [-> | Hd]); [..|by apply elem_of_nil in Hd]; cbn; by apply (bool_decide_unpack _); vm_compute.
Qed.
Lemma tg_functions : well_typed_functions py_class py_sub py_items py_entries tg_g tg_F.
Proof.
  intros tr x n kw v Hn. revert x n Hn.
  apply (dget_forall _ (fun x n => gn_ext n = false -> (forall p t dt w, (p, (t, dt)) ∈ gn_params n -> kw !! p = Some w -> py_means t w) -> tg_F tr x kw = Ok v -> py_means (gn_type n) v)).
  let d := eval vm_compute in tg_g in change tg_g with d.
  repeat (apply Forall_cons; split); [..|by apply Forall_nil]; cbn [fst snd gn_params gn_type gn_ext]; intros He Hargs; try done; unfold tg_F; cbn [String.eqb Ascii.eqb Bool.eqb].
  all: try (intros [= <-]; done).
  - destruct (kw !! "a") as [[a|c l|c l]|] eqn:Hk; try done. by intros [= <-].
  - destruct (kw !! "a") as [w|] eqn:Hk; [|done]. intros [= <-]. apply (Hargs "a" _ REQUIRED w); [by left|done].
Qed.
Example C67_nonvacuous :
  linked tg_g /\ acyclic (to_graph tg_g) /\ well_typed_edges py_class py_sub py_items py_entries tg_g /\
  well_typed_functions py_class py_sub py_items py_entries tg_g tg_F /\
  well_typed_values py_class py_sub py_items py_entries tg_g (tg_inputs ∪ ∅) ∅ /\
  (forall x n, dget tg_g x = Some n -> checkable (gn_type n) /\ forall p t dt, (p, (t, dt)) ∈ gn_params n -> checkable t) /\
  gn_type <$> dget tg_g "a" = Some (AGen "list" [INT]) /\
  (exists tr, default_execute tg_F (to_graph tg_g) ∅ tg_inputs ∅ ["out"; "n"] = Answer [("out", Some (At (StrV "done"))); ("n", Some (At (IntV 3)))] tr).
Proof.
  assert (Hl : linked tg_g) by (eapply built_linked; [apply tg_params|apply tg_built]).
  split_and!.
  - done.
  - apply (rankedb_acyclic (rank_in ["a"; "k"; "n"; "m"; "out"])). by vm_compute.
  - exact (C67_edges_partial py_class py_sub py_items py_entries tg_defs [] false tg_g py_hierarchy tg_involved tg_built).
  - apply tg_functions.
  - split.
    + intros x n v. rewrite (right_id ∅ (∪)). unfold tg_inputs. rewrite lookup_singleton_Some. intros [<- <-] Hn. vm_compute in Hn. injection Hn as <-. intros _.
      split; [done|]. intros y Hy. repeat (apply elem_of_cons in Hy as [-> | Hy]; [done|]). by apply elem_of_nil in Hy.
    + intros x n v. by rewrite lookup_empty.
  - apply (dget_forall _ (fun _ n => checkable (gn_type n) /\ forall p t dt, (p, (t, dt)) ∈ gn_params n -> checkable t)).
    let d := eval vm_compute in tg_g in change tg_g with d. repeat (apply Forall_cons; split); [..|by apply Forall_nil]; cbn [fst snd gn_params gn_type];
      (split; [cbn; tauto|]); intros p t dt Hp;
      repeat (apply elem_of_cons in Hp as [[= -> -> ->] | Hp]; [cbn; tauto|]); by apply elem_of_nil in Hp.
  - by vm_compute.
  - eexists. by vm_compute.
Qed.

(** *** Where the claim fails *)
(** A producer annotated with Any is accepted by everybody; a bare class is accepted for a generic; an input annotated with
    Any by one consumer is not narrowed by the others, nor is one that went through a bare class. *)
Definition consumers (ts : list (name * ann pv)) (x : name) : list (fdef (ann pv)) :=
  map (fun ft => FDef ft.1 INT [(x, (ft.2, REQUIRED))]) ts.
Definition unsound (defs : list (fdef (ann pv))) : Prop :=
  exists g P x t n v, create_function_graph (ann_match py_sub) (fun _ _ => false) AAny defs [] false = Ok g /\
    asks_typed g P x t /\ dget g x = Some n /\ py_means (gn_type n) v /\ ~ py_means t v.
Theorem C67_any_refuted : unsound (FDef "x" AAny [] :: consumers [("f", INT)] "x") /\ unsound (consumers [("f", AAny); ("g", INT)] "x").
Proof.
  split.
  - eexists _, "f", "x", INT, _, (At (StrV "a")). split; [vm_compute; reflexivity|]. split; [eexists _, REQUIRED; split; [vm_compute; reflexivity|by left]|].
    split; [vm_compute; reflexivity|]. by split.
  - eexists _, "g", "x", INT, _, (At (StrV "a")). split; [vm_compute; reflexivity|]. split; [eexists _, REQUIRED; split; [vm_compute; reflexivity|by left]|].
    split; [vm_compute; reflexivity|]. by split.
Qed.
Theorem C67_bare_classes_refuted :
  unsound (FDef "x" (AClass "list") [] :: consumers [("f", AGen "list" [INT])] "x") /\
  unsound (consumers [("f", AGen "Iterable" [INT]); ("g", AClass "Sequence"); ("h", AGen "list" [STR])] "x").
Proof.
  assert (Hno : ~ py_means (AGen "list" [INT]) (Coll "list" [StrV "a"])).
  { intros [_ H]. specialize (H (At (StrV "a")) ltac:(by left)). done. }
  split.
  - eexists _, "f", "x", (AGen "list" [INT]), _, (Coll "list" [StrV "a"]). split; [vm_compute; reflexivity|]. split; [eexists _, REQUIRED; split; [vm_compute; reflexivity|by left]|].
    split; [vm_compute; reflexivity|]. by split.
  - eexists _, "f", "x", (AGen "Iterable" [INT]), _, (Coll "list" [StrV "a"]). split; [vm_compute; reflexivity|]. split; [eexists _, REQUIRED; split; [vm_compute; reflexivity|by left]|].
    split; [vm_compute; reflexivity|]. split.
    + split; [done|]. intros y Hy. by apply elem_of_list_singleton in Hy as ->.
    + intros [_ H]. specialize (H (At (StrV "a")) ltac:(by left)). done.
Qed.
Print Assumptions C67_bare_classes_refuted.
(** Values that are passed as overrides, and None passed as input, are not checked: functions get them as they are. *)
Theorem C67_unchecked_values_refuted :
  (exists tr kw r, trace_of (default_execute tg_F (to_graph tg_g) ∅ tg_inputs {["n" := At NoneV]} ["out"]) = tr /\ Call "out" kw r ∈ tr /\ kw !! "n" = Some (At NoneV)) /\
  py_valid (AGen "list" [INT]) (At NoneV) = true /\ ~ py_means (AUnion [STR; INT]) (At NoneV) /\ ~ py_means (AGen "list" [INT]) (At NoneV).
Proof.
  split_and!.
  - eexists _, _, _. split; [reflexivity|]. split; [vm_compute; repeat first [apply elem_of_list_here|apply elem_of_list_further]|vm_compute; reflexivity].
  - by vm_compute.
  - cbn. intros [H|[H|H]]; done.
  - by intros [H _].
Qed.
