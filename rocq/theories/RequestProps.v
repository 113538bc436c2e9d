(** Theorems about what is asked for (C85). *)
From Coq Require Import Ascii.
From stdpp Require Import pretty sorting.
From Verif Require Import Base Dict Strings GraphModel ConfigModel ConfigProofs ConfigProps RequestModel RequestSpec RequestProofs.

Section Props.
Context (names : gmap nat name) (modules : list string) (shown : string).
Notation convert := (convert_output_values names modules shown).

(** Names, variables and functions of the modules stand for what they are called: all of them, in the
    order they were given, as often as they were given. Nothing else is converted. That names are not
    empty is assumed: see [C85_empty_refuted]. *)
Theorem C85_converted_partial os ss : "" ∉ ss -> Forall (named names) os -> (forall o, o ∈ os -> o <> ONamed None /\ forall s, asks names modules o s -> s <> "") ->
  convert os = Ok ss <-> Forall2 (asks names modules) os ss.
Proof.
  intros Hne Hn Hreal. split.
  - intros (Hp & He & ->)%convert_ok. clear Hne. apply concat_nil in He. induction os as [|o os IH]; [constructor|].
    apply Forall_cons in Hp as [Ho Hp]. apply Forall_cons in Hn as [Hno Hn]. apply Forall_cons in He as [Heo He].
    cbn [map concat].
    assert (exists s, asks names modules o s) as [s Hs].
    { destruct o as [s|[s|]|i m|m|s].
      - exists s. constructor.
      - exists s. constructor.
      - by destruct (Hreal (ONamed None) ltac:(left)) as [[] _].
      - rewrite errs_func in Heo. case_decide; [|done]. destruct (Hno i m eq_refl) as [s Hs]. exists s. by constructor.
      - by destruct (Ho m).
      - done. }
    destruct (asks_vals names modules shown o s Hs) as [-> _]; [by apply (Hreal o ltac:(left))|].
    constructor; [done|]. apply IH; [done| |done..]. intros; apply Hreal; by right.
  - intros H.
    assert (Hp : Forall nameable os). { clear -H. induction H as [|o s os ss Ho _ IH]; constructor; [|done]. intros m ->. inversion Ho. }
    assert (concat (map (errs names modules shown) os) = [] /\ concat (map (vals names modules shown) os) = ss) as [He Hv].
    { clear Hp Hn Hreal. induction H as [|o s os ss Ho _ IH]; [done|]. apply not_elem_of_cons in Hne as [Hs Hne].
      destruct (asks_vals names modules shown o s Ho) as [A B]; [done|]. cbn. rewrite A, B. destruct (IH Hne) as [-> ->]. done. }
    rewrite convert_eq by done. by rewrite decide_True, Hv.
Qed.

(** If something stands for nothing, nothing at all is converted, and all that stand for nothing are
    reported with the reason, in order; provided there are no callables without names. *)
Theorem C85_refused os : Forall (named names) os -> (forall m, OCallable m ∉ os) ->
  (exists o e, o ∈ os /\ refused names modules shown o e) <->
  exists es, convert os = Err (RValue (pretty (length es) ++ " errors encountered:" ++ separator ++ joined separator es)) /\ es <> [] /\ Sorted le es /\
    (exists parts, es ≡ₚ concat parts /\ Forall2 (fun o p => (exists e, p = [e] /\ refused names modules shown o e) \/ (p = [] /\ forall e, ~ refused names modules shown o e)) os parts).
Proof.
  intros Hn Hc.
  assert (Hp : Forall nameable os). { apply Forall_forall. intros o Ho m ->. by apply (Hc m). }
  set (E := map (errs names modules shown) os).
  assert (HE : Forall2 (fun o p => (exists e, p = [e] /\ refused names modules shown o e) \/ (p = [] /\ forall e, ~ refused names modules shown o e)) os E).
  { unfold E. clear E Hp Hc. induction os as [|o os IH]; [constructor|]. apply Forall_cons in Hn as [Ho Hn]. constructor; [|by apply IH].
    destruct (errs_one names modules shown o) as [H|[e H]]; rewrite H.
    - right. split; [done|]. intros e. rewrite <- errs_refused, H by done. apply not_elem_of_nil.
    - left. exists e. split; [done|]. apply errs_refused; [done|]. rewrite H. by left. }
  rewrite convert_eq by done. fold E. split.
  - intros (o & e & Ho & He). exists (merge_sort le (concat E)).
    assert (Hne : concat E <> []).
    { apply (errs_refused names modules shown o e (proj1 (Forall_forall _ _) Hn o Ho)) in He. intros H. apply concat_nil in H.
      rewrite Forall_forall in H. rewrite (H (errs names modules shown o)) in He; [by apply elem_of_nil in He|].
      apply elem_of_list_fmap. eauto. }
    rewrite decide_False by done. split_and!; [done| |apply Sorted_merge_sort; apply _|].
    + intros H. pose proof (merge_sort_Permutation le (concat E)) as Hm. rewrite H in Hm. by apply Permutation_nil_l in Hm.
    + exists E. split; [apply merge_sort_Permutation|done].
  - intros (es & Heq & Hne & _ & _). case_decide as HN; [done|].
    destruct (concat E) as [|e l] eqn:EE; [done|].
    assert (He : e ∈ concat E) by (rewrite EE; left). unfold E in He. clear -He Hn.
    induction os as [|o os IH]; [by apply elem_of_nil in He|]. cbn in He. apply Forall_cons in Hn as [Ho Hn].
    apply elem_of_app in He as [He|He].
    + exists o, e. split; [left|]. by apply errs_refused in He.
    + destruct (IH Hn He) as (o' & e' & ? & ?). exists o', e'. split; [by right|done].
Qed.

(** The order of what is asked for changes nothing but the order of the names. *)
Theorem C85_order os os' ss : os ≡ₚ os' -> convert os = Ok ss -> exists ss', convert os' = Ok ss' /\ ss ≡ₚ ss'.
Proof.
  intros Hperm (Hp & He & ->)%convert_ok.
  assert (Hp' : Forall nameable os') by by rewrite <- Hperm.
  rewrite (convert_eq names modules shown os') by done.
  pose proof (concat_perm (errs names modules shown) _ _ Hperm) as H. rewrite He in H. symmetry in H. apply Permutation_nil_r in H. rewrite H.
  rewrite decide_True by done. eexists. split; [done|]. by apply concat_perm.
Qed.

(** What is asked for together is what is asked for separately. *)
Theorem C85_together os os' ss ss' : convert os = Ok ss -> convert os' = Ok ss' -> convert (os ++ os') = Ok (ss ++ ss').
Proof.
  intros (Hp & He & ->)%convert_ok (Hp' & He' & ->)%convert_ok.
  rewrite convert_eq by by apply Forall_app. by rewrite !map_app, !concat_app, He, He', decide_True.
Qed.
End Props.

Section Drivers.
Context {V P : Type} (eqv : V -> V -> bool) (inv : V -> list V -> bool) (none pfalse : V).
Notation config := (gmap name V).
Notation func := (func (V := V) (P := P)).
Notation build := (build (P := P) eqv inv none pfalse).
Notation later := (later (P := P) eqv inv none pfalse).

(** Asking a driver for a function of its modules whose decorators accept the configuration is asking
    for what that function computes, whatever drivers were built afterwards, of whatever functions
    (of which none is another function with the same identity). *)
Theorem C85_function_partial (c : config) fs st st' nodes (f : func) m modules shown n nm p bs :
  NoDup (map f_id fs) -> build c fs st = (st', inr nodes) -> f ∈ fs -> m ∈ modules ->
  st !! f_id f = Some n -> hidden n = false -> (forall d, d ∈ f_decs f -> resolves eqv inv none (cd_res d) c = true) ->
  called f n nm -> nm <> "" -> c !! nm = None -> f_gen f nm c = [(nm, p)] ->
  (forall b, b ∈ bs -> forall g : func, g ∈ b.2 -> f_id g = f_id f -> g = f) ->
  convert_output_values (later bs st') modules shown [OFunc (f_id f) m] = Ok [nm] /\ dget nodes nm = Some p.
Proof.
  intros N Hb Hf Hm Hst Hh Hd Hc Hne Hnc Hg Hbs.
  destruct (resolve_called eqv inv none pfalse c f n nm Hc Hd) as [R K]. split.
  - assert (later bs st' !! f_id f = Some nm) as E.
    { apply later_fixed.
      - rewrite (build_names eqv inv none pfalse c fs st st' nodes f N Hf ltac:(by rewrite Hst) Hb). rewrite Hst. cbn. by rewrite R.
      - intros b Hin g Hgin Hid. by rewrite (Hbs b Hin g Hgin Hid). }
    by apply convert_one.
  - apply (build_exact eqv inv none pfalse c fs st st' nodes nm p N Hb). split; [done|]. exists f, nm. rewrite Hst. cbn.
    split_and!; [done..|]. rewrite Hg. left.
Qed.

(** A variant whose only decorator does not accept the configuration of the only driver so far stands
    for its own full name, which is no variable of the dataflow unless a function makes it. *)
Theorem C85_other_variant_partial (c : config) fs st st' nodes (f : func) d m modules shown n :
  NoDup (map f_id fs) -> build c fs st = (st', inr nodes) -> f ∈ fs -> m ∈ modules ->
  st !! f_id f = Some n -> hidden n = false -> n <> "" -> f_decs f = [d] -> resolves eqv inv none (cd_res d) c = false ->
  (forall g nm p, g ∈ fs -> (n, p) ∉ f_gen g nm c) ->
  convert_output_values st' modules shown [OFunc (f_id f) m] = Ok [n] /\ dget nodes n = None.
Proof.
  intros N Hb Hf Hm Hst Hh Hne Hd Hr Hg. split.
  - pose proof (build_names eqv inv none pfalse c fs st st' nodes f N Hf ltac:(by rewrite Hst) Hb) as E.
    rewrite Hst, Hd in E. cbn in E. rewrite filter_irrelevant, Hr in E. cbn in E.
    by apply convert_one.
  - destruct (dget nodes n) as [p|] eqn:E; [|done].
    apply (build_exact eqv inv none pfalse c fs st st' nodes n p N Hb) in E as (_ & g & nm & Hgf & _ & _ & Hin). by destruct (Hg g nm p Hgf).
Qed.
End Drivers.

(** A public function that a module defines itself can be asked for if the module is the driver's. *)
Theorem C85_own_functions names modules shown module members mb i s : mb ∈ find_functions module members -> module ∈ modules -> mb_module mb = module ->
  names !! i = Some s -> s <> "" -> convert_output_values names modules shown [OFunc i (mb_module mb)] = Ok [s].
Proof.
  intros _ Hm -> Hs Hne. by apply convert_one.
Qed.

(** ** Non-vacuity *)
Definition namesEx : gmap nat name := {[0 := "x__us"; 1 := "x__row"; 2 := "total"]}.
Definition ask (o : list obj) := convert_output_values namesEx ["mod"] "{'mod'}" o.
Example C85_ask : ask [OFunc 2 "mod"; OStr "y"; ONamed (Some "z"); OStr "y"] = Ok ["total"; "y"; "z"; "y"].
Proof. by vm_compute. Qed.
Example C85_ask_all : Forall2 (asks namesEx ["mod"]) [OFunc 2 "mod"; OStr "y"; ONamed (Some "z"); OStr "y"] ["total"; "y"; "z"; "y"].
Proof. repeat constructor. Qed.
Example C85_ask_refused : ask [OOther "3"; OStr "y"; OFunc 2 "lib"] =
  Err (RValue ("2 errors encountered:" ++ separator ++ "Function lib.total is a function not in a module given to the materializer. Valid choices are {'mod'}." ++
     separator ++ "Materializer dependency 3 is not a string, a function, or a driver.Variable.")).
Proof. by vm_compute. Qed.
Example C85_us : let b := ibuild {["region" := 1]} mods mod_names in
  convert_output_values (later ieq iin 0 7 [({["region" := 2]}, mods); (∅, mods)] b.1) ["mod"] "{'mod'}" [OFunc 0 "mod"] = Ok ["x"] /\
  b.2 = inr [("x", 10); ("helper__two__parts", 12)].
Proof. split; by vm_compute. Qed.
Example C85_us_called : called (Func (V := nat) (P := nat) 0 [CDec (When [("region", 1)]) None] (plain 10)) "x__us" "x".
Proof.
  apply called_variant with (suffix := "us"); [done|by intros d ->%elem_of_list_singleton|done|..]; intros p q E.
  - assert (H : ~ has2 "x") by (apply rfind2_none; by vm_compute). apply H. by exists p, q.
  - assert (H : ~ has2 "_us") by (apply rfind2_none; by vm_compute). apply H. by exists p, q.
Qed.
Example C85_row : let b := ibuild {["region" := 1]} mods mod_names in
  convert_output_values b.1 ["mod"] "{'mod'}" [OFunc 1 "mod"] = Ok ["x__row"].
Proof. by vm_compute. Qed.

(** ** Refutations *)
(** Empty names, and things whose [name] is None, are dropped without a word: fewer things are
    computed than were asked for. *)
Theorem C85_empty_refuted : exists os ss, ask os = Ok ss /\ length ss < length os.
Proof. exists [OStr "y"; OStr ""; ONamed None], ["y"]. split; [by vm_compute|cbn; lia]. Qed.

(** Two drivers of the same functions, with different configurations: once the second is built, the
    first, asked for the variant of the second, computes its own variant instead of refusing. *)
Theorem C85_stale_refuted : exists (c1 c2 : gmap name nat) fs st i j (n1 n2 : dict nat) p,
  i <> j /\
  (ibuild c1 fs st).2 = inr n1 /\ (ibuild c2 fs (ibuild c1 fs st).1).2 = inr n2 /\
  (* the first driver knows nothing of the function j, and says so before the second is built *)
  (exists x, convert_output_values (ibuild c1 fs st).1 ["mod"] "" [OFunc j "mod"] = Ok [x] /\ dget n1 x = None) /\
  (* afterwards it takes it for i *)
  (exists x, convert_output_values (ibuild c2 fs (ibuild c1 fs st).1).1 ["mod"] "" [OFunc j "mod"] = Ok [x] /\
             convert_output_values (ibuild c2 fs (ibuild c1 fs st).1).1 ["mod"] "" [OFunc i "mod"] = Ok [x] /\ dget n1 x = Some p).
Proof.
  exists {["region" := 1]}, {["region" := 2]}, mods, mod_names, 0, 1, [("x", 10); ("helper__two__parts", 12)], [("x", 11); ("helper__two__parts", 12)], 10.
  split_and!; [done|by vm_compute..|exists "x__row"; split; by vm_compute|exists "x"; split_and!; by vm_compute].
Qed.

(** A single driver: a function with two decorators of which only the first accepts is not part of the
    dataflow; asking for it computes the other variant. *)
Theorem C85_half_refuted : exists (c : gmap name nat) fs st (nodes : dict nat) x,
  (ibuild c fs st).2 = inr nodes /\ (forall p, (p = 10) -> forall k, (k, p) ∉ nodes) /\
  (exists f, f ∈ fs /\ f_id f = 0 /\ f_gen f x c = [(x, 10)]) /\
  convert_output_values (ibuild c fs st).1 ["mod"] "" [OFunc 0 "mod"] = Ok [x] /\ dget nodes x = Some 11.
Proof.
  exists {["a" := 1]}, [Func 0 [CDec (When [("a", 1)]) None; CDec (When [("b", 1)]) None] (plain 10); Func 1 [CDec (WhenNot [("b", 1)]) None] (plain 11)],
    {[0 := "x__ab"; 1 := "x__a"]}, [("x", 11)], "x".
  split_and!; [by vm_compute| | |by vm_compute..].
  - intros p -> k H. apply elem_of_list_singleton in H. done.
  - eexists. split; [left|]. split; by vm_compute.
Qed.

(** A function of another module whose name contains that of the driver's is part of the dataflow, but
    cannot be asked for. *)
Theorem C85_submodule_refuted : exists module members mb names i s,
  mb ∈ find_functions module members /\ names !! i = Some (mb_name mb) /\ convert_output_values names [module] s [OFunc i (mb_module mb)] <> Ok [mb_name mb] /\
  convert_output_values names [module] s [OStr (mb_name mb)] = Ok [mb_name mb].
Proof.
  exists "pkg", [Member "total" true "total" "pkg.sums"], (Member "total" true "total" "pkg.sums"), {[0 := "total"]}, 0, "{'pkg'}".
  split_and!; [apply elem_of_list_filter; split; [by vm_compute|left]|done|by vm_compute|by vm_compute].
Qed.

(** With a callable that has no name what else is wrong is not reported. *)
Theorem C85_callable_refuted : exists os o e, o ∈ os /\ refused namesEx ["mod"] "{'mod'}" o e /\ ask os = Err RAttribute.
Proof. exists [OOther "3"; OCallable "mod"], (OOther "3"). eexists. split; [left|]. split; [constructor|by vm_compute]. Qed.

Print Assumptions C85_converted_partial.
Print Assumptions C85_refused.
Print Assumptions C85_order.
Print Assumptions C85_together.
Print Assumptions C85_function_partial.
Print Assumptions C85_other_variant_partial.
Print Assumptions C85_own_functions.
Print Assumptions C85_empty_refuted.
Print Assumptions C85_stale_refuted.
Print Assumptions C85_half_refuted.
Print Assumptions C85_submodule_refuted.
Print Assumptions C85_callable_refuted.
