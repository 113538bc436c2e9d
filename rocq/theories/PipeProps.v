(** C55: @pipe_input and @pipe_output compose functions. *)
From stdpp Require Import pretty.
From Verif Require Import Base Dict NodeModel NodeSpec NodeProofs PipeModel PipeSpec PipeProofs.

(** [value ns env x v]: variable [x] evaluates to [v] in the nodes [ns] with inputs [env]
    (NodeSpec). [steps_value ns env aps w v]: the steps whose resolvers accept the
    configuration, applied in order to [w], give [v] (PipeSpec). *)

Lemma elem_injectable {V E T} (nodes : list (pnode V E T)) p : p ∈ injectable nodes <-> free nodes p.
Proof.
  unfold injectable, free. rewrite elem_of_list_filter, elem_of_concat. split.
  - intros (Hn & l & Hp & Hl). apply elem_of_list_fmap in Hl as (n & -> & Hin). split; [by exists n|].
    intros m Hm <-. apply Hn. apply elem_of_list_fmap. by exists m.
  - intros [(n & Hin & Hp) Hn]. split.
    + intros Hm. apply elem_of_list_fmap in Hm as (m & -> & Hm). by apply (Hn m).
    + exists (dkeys (pn_inputs n)). split; [done|]. apply elem_of_list_fmap. by exists n.
Qed.
Lemma pipe_param_target {V E T} (nodes : list (pnode V E T)) on_input sig p :
  pipe_param (injectable nodes) on_input sig = Some p <-> pipe_target on_input sig nodes p.
Proof.
  assert (Hhd : match sig with q :: _ => if decide (q ∈ injectable nodes) then Some q else None | [] => None end = Some p <->
    free nodes p /\ sig !! 0 = Some p).
  { destruct sig as [|q sig]; cbn; [by split; [done|intros [_ ?]]|]. case_decide as Hq; rewrite elem_injectable in Hq; naive_solver. }
  unfold pipe_param, pipe_target. destruct on_input as [q|].
  - case_decide as Hq; rewrite elem_injectable in Hq.
    + case_decide as Hs; naive_solver.
    + rewrite Hhd. split.
      * intros [Hf Hh]. split; [done|]. split; [by eapply elem_of_list_lookup_2|]. right. split; [by intros ? [= <-]|done].
      * intros (Hf & _ & [[= ->]|[_ Hh]]); done.
  - rewrite Hhd. split.
    + intros [Hf Hh]. split; [done|]. split; [by eapply elem_of_list_lookup_2|]. by right.
    + by intros (Hf & _ & [[=]|[_ Hh]]).
Qed.

(** Each node generated by a function decorated with @pipe_input that has the target parameter
    computes the function with that parameter bound to the result of the steps and every
    other parameter as before. Assumed: the parameters of a step stand for distinct
    names, and no node of a step has the name of another parameter of the function. *)
Theorem C55_pipe_input_partial {V E T} (ns : dict (pnode V E T)) env orig n on_input aps nsp fn sig nodes p w v :
  (forall y n, dget ns y = Some n -> NoDup (dkeys (pn_inputs n))) ->
  NoDup (dkeys (pn_inputs n)) -> keyword_fn (pn_call n) ->
  pipe_input on_input aps nsp fn sig orig = Some nodes ->
  pipe_target on_input sig orig p ->
  n ∈ orig -> p ∈ dkeys (pn_inputs n) ->
  (forall m, m ∈ nodes -> dget ns (pn_name m) = Some m) ->
  chain_fits aps (p :: map pn_name (drop (length orig) nodes)) ->
  (forall m, m ∈ drop (length orig) nodes -> pn_name m = p \/ pn_name m ∉ dkeys (pn_inputs n)) ->
  value ns env p w ->
  value ns env (pn_name n) v <->
  exists kw u, pn_call n kw = Ok v /\ NoDup (dkeys kw) /\ (forall k, k ∈ dkeys kw -> k ∈ dkeys (pn_inputs n)) /\
    steps_value ns env aps w u /\ dget kw p = Some u /\
    (forall q t dt, (q, (t, dt)) ∈ pn_inputs n -> q <> p -> given ns env q dt (dget kw q)).
Proof. intros H1 H2 H3 H4 H5. apply pipe_param_target in H5. by apply pipe_input_value with (on_input := on_input) (nsp := nsp) (fn := fn) (sig := sig). Qed.

(** There is such a parameter, exactly one, unless the decorator is refused. *)
Theorem C55_pipe_target {V E T} (orig : list (pnode V E T)) on_input aps nsp fn sig nodes :
  pipe_input on_input aps nsp fn sig orig = Some nodes ->
  exists p, pipe_target on_input sig orig p /\ forall q, pipe_target on_input sig orig q -> q = p.
Proof.
  intros H. unfold pipe_input in H. destruct (pipe_param _ _ _) as [p|] eqn:Hp; [|done]. exists p.
  split; [by apply pipe_param_target|]. intros q Hq. apply pipe_param_target in Hq. congruence.
Qed.

(** A function decorated with @pipe_output, some step of which resolves, computes the steps
    applied to the result of the original function. *)
Theorem C55_pipe_output_partial {V E T} (any_type : T) (ns : dict (pnode V E T)) env n aps nsp fn nodes v :
  (forall y n, dget ns y = Some n -> NoDup (dkeys (pn_inputs n))) ->
  keyword_fn (pn_call n) ->
  pipe_output any_type aps nsp fn n = Some nodes ->
  (exists a, a ∈ aps /\ ap_resolves a = true) ->
  (forall m, m ∈ nodes -> dget ns (pn_name m) = Some m) ->
  chain_fits aps (map pn_name nodes) ->
  value ns env (pn_name n) v <->
  exists w m, args ns env (pn_inputs n) m /\ pn_call n (kwargs (pn_inputs n) m) = Ok w /\ steps_value ns env aps w v.
Proof. apply pipe_output_value. Qed.

(** When no step resolves the function is left as it is. *)
Theorem C55_no_steps {V E T} (any_type : T) (n : pnode V E T) aps nsp fn :
  (forall a, a ∈ aps -> ap_resolves a = false) -> pipe_output any_type aps nsp fn n = Some [n].
Proof.
  intros H. unfold pipe_output. destruct aps as [|a0 aps]; [done|]. set (l := a0 :: aps) in *. clearbody l.
  set (t := pn_name (renamed_node n (pn_name n ++ ".raw"))). set (nsp' := match nsp with NsNone => NsNone | NsDefault => NsName (pn_name n) | NsName s => NsName s end).
  assert (C : chain_transforms t (l ++ [identity_step any_type fn]) nsp' fn = chain_transforms t [identity_step any_type fn] nsp' fn).
  { unfold chain_transforms. generalize ([] : dict nat) as cnt. induction l as [|a l IH]; [done|]. intros cnt. cbn [List.app chain].
    rewrite (H a) by (by left). apply IH. intros b Hb. apply H. by right. }
  rewrite C. done.
Qed.

(** ** Example: f(x, y) = x + y with x piped through (_ + 3) and (_ * z) *)
Definition add_fn : pnode nat string unit :=
  from_fn "f" tt [("x", (tt, REQUIRED)); ("y", (tt, REQUIRED))]
    (fun kw => Ok (default 0 (kw !! "x") + default 0 (kw !! "y"))).
Definition plus_params : dict (unit * deptype) := [("v", (tt, REQUIRED)); ("n", (tt, OPTIONAL))].
Definition plus_fn := pn_call (from_fn (E := string) "_plus" tt plus_params
  (fun kw : gmap name nat => Ok (default 0 (kw !! "v") + default 1 (kw !! "n")))).
Definition times_params : dict (unit * deptype) := [("v", (tt, REQUIRED)); ("k", (tt, REQUIRED))].
Definition times_fn := pn_call (from_fn (E := string) "_times" tt times_params
  (fun kw : gmap name nat => Ok (default 0 (kw !! "v") * default 0 (kw !! "k")))).
Definition plus_step (args : list (dep nat)) (kws : dict (dep nat)) : app nat string unit :=
  App "_plus" plus_params tt plus_fn args kws true None NsDefault.
Definition times_step (args : list (dep nat)) (kws : dict (dep nat)) (r : bool) : app nat string unit :=
  App "_times" times_params tt times_fn args kws r None NsDefault.
Definition ex_steps := [plus_step [] [("n", DValue 3)]; times_step [] [("k", DSource "y")] false; times_step [DSource "z"] [] true].
Definition named (l : list (pnode nat string unit)) : dict (pnode nat string unit) := map (fun n => (pn_name n, n)) l.
Definition ex_nodes : list (pnode nat string unit) := default [] (pipe_input None ex_steps NsDefault "f" ["x"; "y"] [add_fn]).
Definition ex_env : gmap name nat := {["x" := 2; "y" := 10; "z" := 4]}.

Lemma plus_keyword : keyword_fn plus_fn.
Proof. apply (from_fn_keyword (T := unit)). Qed.
Lemma times_keyword : keyword_fn times_fn.
Proof. apply (from_fn_keyword (T := unit)). Qed.
Lemma two_params_distinct (a : app nat string unit) t p q tp tq : ap_params a = [(p, tp); (q, tq)] -> stands a t 1 q <> t -> distinct a t.
Proof.
  intros Hp Hs i j p1 p2 t1 t2 Hi Hj Heq. rewrite Hp in Hi, Hj.
  destruct i as [|[|i]], j as [|[|j]]; cbn in Hi, Hj; try done; injection Hi as <- <-; injection Hj as <- <-; [by symmetry in Heq|done].
Qed.

Example ex_names : map pn_name ex_nodes = ["f"; "f.with_plus"; "f.with_times"].
Proof. by vm_compute. Qed.
Example ex_hypotheses :
  (forall y n, dget (named ex_nodes) y = Some n -> NoDup (dkeys (pn_inputs n))) /\
  NoDup (dkeys (pn_inputs add_fn)) /\ keyword_fn (pn_call add_fn) /\
  pipe_input None ex_steps NsDefault "f" ["x"; "y"] [add_fn] = Some ex_nodes /\
  pipe_target None ["x"; "y"] [add_fn] "x" /\
  (forall m, m ∈ ex_nodes -> dget (named ex_nodes) (pn_name m) = Some m) /\
  chain_fits ex_steps ("x" :: map pn_name (drop 1 ex_nodes)) /\
  (forall m, m ∈ drop 1 ex_nodes -> pn_name m = "x" \/ pn_name m ∉ dkeys (pn_inputs add_fn)) /\
  value (named ex_nodes) ex_env "x" 2.
Proof.
  assert (D : forall m, m ∈ ex_nodes -> NoDup (dkeys (pn_inputs m)) /\ dget (named ex_nodes) (pn_name m) = Some m).
  { intros m Hm. repeat (apply elem_of_cons in Hm as [-> | Hm]; [split; [apply (bool_decide_unpack _); by vm_compute|reflexivity]|]).
    by apply elem_of_nil in Hm. }
  split_and!.
  - intros y n Hy. apply D. unfold named in Hy. apply dget_elem in Hy. apply elem_of_list_fmap in Hy as (m & [= -> ->] & Hm). done.
  - apply (bool_decide_unpack _); by vm_compute.
  - apply from_fn_keyword.
  - reflexivity.
  - apply pipe_param_target. by vm_compute.
  - intros m Hm. by apply D.
  - intros a Ha Hr. repeat (apply elem_of_cons in Ha as [-> | Ha]); [| | |by apply elem_of_nil in Ha].
    + split_and!; [apply (bool_decide_unpack _); by vm_compute|apply plus_keyword|]. intros t Ht. eapply two_params_distinct; [reflexivity|].
      repeat (apply elem_of_cons in Ht as [-> | Ht]; [by vm_compute|]). by apply elem_of_nil in Ht.
    + by vm_compute in Hr.
    + split_and!; [apply (bool_decide_unpack _); by vm_compute|apply times_keyword|]. intros t Ht. eapply two_params_distinct; [reflexivity|].
      repeat (apply elem_of_cons in Ht as [-> | Ht]; [by vm_compute|]). by apply elem_of_nil in Ht.
  - intros m Hm. right. repeat (apply elem_of_cons in Hm as [-> | Hm]; [apply (bool_decide_unpack _); by vm_compute|]). by apply elem_of_nil in Hm.
  - apply value_input; by vm_compute.
Qed.
(** (2 + 3) * 4 + 10 *)
Example ex_value : value (named ex_nodes) ex_env "f" 30.
Proof.
  destruct ex_hypotheses as (H1 & H2 & H3 & H4 & H5 & H6 & H7 & H8 & H9).
  assert (I : forall x u, dget (named ex_nodes) x = None -> ex_env !! x = Some u -> value (named ex_nodes) ex_env x u) by (intros; by apply value_input).
  apply (C55_pipe_input_partial (named ex_nodes) ex_env [add_fn] add_fn None ex_steps NsDefault "f" ["x"; "y"] ex_nodes "x" 2 30); try done; [by left|by left|].
  exists [("x", 20); ("y", 10)], 20. split_and!.
  - by vm_compute.
  - apply (bool_decide_unpack _); by vm_compute.
  - done.
  - apply (sv_step _ _ _ _ 2 5); [done| |apply sv_skip; [done|]; apply (sv_step _ _ _ _ 5 20); [done| |constructor]].
    + exists [("v", 2); ("n", 3)]. split_and!; [by vm_compute|apply (bool_decide_unpack _); by vm_compute|done|].
      intros i p t dt Hi. destruct i as [|[|i]]; cbn in Hi; try done; injection Hi as <- <- <-; by cbn.
    + exists [("v", 5); ("k", 4)]. split_and!; [by vm_compute|apply (bool_decide_unpack _); by vm_compute|done|].
      intros i p t dt Hi. destruct i as [|[|i]]; cbn in Hi; try done; injection Hi as <- <- <-; cbn; [done|]. by apply I.
  - done.
  - intros q t dt Hq Hne. repeat (apply elem_of_cons in Hq as [[= -> -> ->] | Hq]; [first [done|by apply I]|]). by apply elem_of_nil in Hq.
Qed.

(** The same steps with @pipe_output. *)
Definition ex_out : list (pnode nat string unit) := default [] (pipe_output tt ex_steps NsDefault "f" add_fn).
Example ex_out_names : map pn_name ex_out = ["f.raw"; "f.with_plus"; "f.with_times"; "f"].
Proof. by vm_compute. Qed.
Example ex_out_hypotheses :
  (forall y n, dget (named ex_out) y = Some n -> NoDup (dkeys (pn_inputs n))) /\
  pipe_output tt ex_steps NsDefault "f" add_fn = Some ex_out /\
  (exists a, a ∈ ex_steps /\ ap_resolves a = true) /\
  (forall m, m ∈ ex_out -> dget (named ex_out) (pn_name m) = Some m) /\
  chain_fits ex_steps (map pn_name ex_out).
Proof.
  assert (D : forall m, m ∈ ex_out -> NoDup (dkeys (pn_inputs m)) /\ dget (named ex_out) (pn_name m) = Some m).
  { intros m Hm. repeat (apply elem_of_cons in Hm as [-> | Hm]; [split; [apply (bool_decide_unpack _); by vm_compute|reflexivity]|]).
    by apply elem_of_nil in Hm. }
  split_and!.
  - intros y n Hy. apply D. unfold named in Hy. apply dget_elem in Hy. apply elem_of_list_fmap in Hy as (m & [= -> ->] & Hm). done.
  - reflexivity.
  - exists (plus_step [] [("n", DValue 3)]). split; [by left|done].
  - intros m Hm. by apply D.
  - intros a Ha Hr. repeat (apply elem_of_cons in Ha as [-> | Ha]); [| | |by apply elem_of_nil in Ha].
    + split_and!; [apply (bool_decide_unpack _); by vm_compute|apply plus_keyword|]. intros t Ht. eapply two_params_distinct; [reflexivity|].
      repeat (apply elem_of_cons in Ht as [-> | Ht]; [by vm_compute|]). by apply elem_of_nil in Ht.
    + by vm_compute in Hr.
    + split_and!; [apply (bool_decide_unpack _); by vm_compute|apply times_keyword|]. intros t Ht. eapply two_params_distinct; [reflexivity|].
      repeat (apply elem_of_cons in Ht as [-> | Ht]; [by vm_compute|]). by apply elem_of_nil in Ht.
Qed.

(** With [on_input] the steps go to that parameter. *)
Example ex_on_input :
  pipe_target (Some "y") ["x"; "y"] [add_fn] "y" /\
  map (fun n => dkeys (pn_inputs n)) (default [] (pipe_input (Some "y") ex_steps NsDefault "f" ["x"; "y"] [add_fn])) =
    [["x"; "f.with_times"]; ["y"]; ["f.with_plus"; "z"]].
Proof. split; [apply pipe_param_target; by vm_compute|by vm_compute]. Qed.

(** ** Refutations *)
(** An [on_input] that names no parameter is not refused: the steps go to the first parameter. *)
Theorem C55_unknown_on_input_refuted : exists (n : pnode nat string unit) aps q nodes,
  q ∉ dkeys (pn_inputs n) /\ pipe_input (Some q) aps NsDefault "f" ["x"; "y"] [n] = Some nodes /\
  pipe_target (Some q) ["x"; "y"] [n] "x" /\ pipe_input None aps NsDefault "f" ["x"; "y"] [n] = Some nodes.
Proof.
  exists add_fn, ex_steps, "typo", ex_nodes. split_and!; [apply (bool_decide_unpack _); by vm_compute|reflexivity|apply pipe_param_target; by vm_compute|reflexivity].
Qed.
Print Assumptions C55_unknown_on_input_refuted.

(** [@pipe_input(step(_plus, n=value(5))) def f(n)]: with n = 2 the step should give 2 + 5,
    but [v] gets the literal and [n] its default, so f is 5 + 1. *)
Definition id_fn : pnode nat string unit := from_fn "f" tt [("n", (tt, REQUIRED))] (fun kw => Ok (default 0 (kw !! "n"))).
Definition lit_nodes : list (pnode nat string unit) := default [] (pipe_input None [plus_step [] [("n", DValue 5)]] NsDefault "f" ["n"] [id_fn]).
Theorem C55_literal_name_refuted : exists env : gmap name nat,
  pipe_input None [plus_step [] [("n", DValue 5)]] NsDefault "f" ["n"] [id_fn] = Some lit_nodes /\
  env !! "n" = Some 2 /\
  step_value (named lit_nodes) env (plus_step [] [("n", DValue 5)]) 2 7 /\
  value (named lit_nodes) env "f" 6 /\ ~ value (named lit_nodes) env "f" 7.
Proof.
  exists {["n" := 2]}.
  assert (A : value (named lit_nodes) {["n" := 2]} "f" 6).
  { eapply (value_node _ _ "f" _ {["f.with_plus" := 6]}); [reflexivity| | | |by vm_compute].
    - intros k w Hk. apply lookup_singleton_Some in Hk as [<- <-]. by left.
    - intros k w Hk. apply lookup_singleton_Some in Hk as [<- <-].
      eapply (value_node _ _ "f.with_plus" _ {["n" := 2]}); [reflexivity| | | |by vm_compute].
      + intros k w Hk. apply lookup_singleton_Some in Hk as [<- <-]. by left.
      + intros k w Hk. apply lookup_singleton_Some in Hk as [<- <-]. by apply value_input.
      + intros k t dt Hk Hn. apply elem_of_list_singleton in Hk as [= -> -> ->]. by rewrite lookup_singleton in Hn.
    - intros k t dt Hk Hn. apply elem_of_list_singleton in Hk as [= -> -> ->]. by rewrite lookup_singleton in Hn. }
  split_and!; [reflexivity|done| |done|].
  - exists [("v", 2); ("n", 5)]. split_and!; [by vm_compute|apply (bool_decide_unpack _); by vm_compute|done|].
    intros i p t dt Hi. destruct i as [|[|i]]; cbn in Hi; try done; injection Hi as <- <- <-; by cbn.
  - intros B. assert (6 = 7); [|done]. refine (value_fun _ _ "f" 6 7 _ A B).
    intros y n Hy. unfold named in Hy. apply dget_elem in Hy. apply elem_of_list_fmap in Hy as (m & [= -> ->] & Hm).
    repeat (apply elem_of_cons in Hm as [-> | Hm]; [apply (bool_decide_unpack _); by vm_compute|]). by apply elem_of_nil in Hm.
Qed.

(** [step(_times, k=source("x"))] on parameter [x] (squaring): the node raises TypeError. *)
Definition square_nodes : list (pnode nat string unit) := default [] (pipe_input None [times_step [] [("k", DSource "x")] true] NsDefault "f" ["x"; "y"] [add_fn]).
Theorem C55_same_source_refuted : exists env : gmap name nat, exists n,
  pipe_input None [times_step [] [("k", DSource "x")] true] NsDefault "f" ["x"; "y"] [add_fn] = Some square_nodes /\
  step_value (named square_nodes) env (times_step [] [("k", DSource "x")] true) 3 9 /\
  dget (named square_nodes) "f.with_times" = Some n /\ args (named square_nodes) env (pn_inputs n) {["x" := 3]} /\
  pn_call n (kwargs (pn_inputs n) {["x" := 3]}) = Err (NMissing "v").
Proof.
  exists {["x" := 3]}. eexists. split_and!; [reflexivity| |reflexivity| |by vm_compute].
  - exists [("v", 3); ("k", 3)]. split_and!; [by vm_compute|apply (bool_decide_unpack _); by vm_compute|done|].
    intros i p t dt Hi. destruct i as [|[|i]]; cbn in Hi; try done; injection Hi as <- <- <-; cbn; [done|]. by apply value_input.
  - split.
    + intros k w Hk. apply lookup_singleton_Some in Hk as [<- <-]. split; [by left|by apply value_input].
    + intros k t dt Hk Hn. apply elem_of_list_singleton in Hk as [= -> -> ->]. by rewrite lookup_singleton in Hn.
Qed.

(** [on_input] naming no parameter: the steps are applied to the first parameter instead of
    the decorator being refused. *)
Theorem C55_on_input_refuted : exists (n : pnode nat string unit) aps fn sig nodes m,
  "typo" ∉ sig /\ pipe_input (Some "typo") aps NsDefault fn sig [n] = Some nodes /\
  m ∈ nodes /\ pn_name m = pn_name n /\ dkeys (pn_inputs m) <> dkeys (pn_inputs n).
Proof.
  exists add_fn, ex_steps, "f", ["x"; "y"], ex_nodes. eexists. split_and!; [apply (bool_decide_unpack _); by vm_compute|reflexivity|by left|done|by vm_compute].
Qed.

(** The same step before and after a function: two nodes have the same name
    (base.py 817-826: injectors first, then transformers on the final node). *)
Theorem C55_both_pipes_refuted : exists (n m : pnode nat string unit) a steps out,
  pipe_input None [a] NsDefault "f" ["x"; "y"] [n] = Some (m :: steps) /\
  pipe_output tt [a] NsDefault "f" m = Some out /\ ~ NoDup (map pn_name (steps ++ out)).
Proof.
  exists add_fn. eexists _, (plus_step [] []), _, _. split_and!; [reflexivity|reflexivity|].
  intros N. assert (H : bool_decide (NoDup ["f.with_plus"; "f.raw"; "f.with_plus"; "f"]) = true); [|by vm_compute in H].
  apply bool_decide_eq_true. exact N.
Qed.

Print Assumptions C55_pipe_input_partial.
Print Assumptions C55_pipe_output_partial.
Print Assumptions C55_no_steps.
Print Assumptions C55_literal_name_refuted.
Print Assumptions C55_same_source_refuted.
Print Assumptions C55_on_input_refuted.
Print Assumptions C55_both_pipes_refuted.
Print Assumptions C55_pipe_target.
