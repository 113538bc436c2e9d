(** C74: decorators act in the order of their classes; @resolve stands for the decorator it returns. *)
From Verif Require Import Base Dict NodeModel NodeProofs DecorModel DecorSpec DecorProofs.

Section Props.
Context {F N V E : Type}.
Variable truthy : V -> bool.
Variable vfalse : V.
Variable from_fn : F -> res E N.
Variable add_origin : F -> N -> N.
Notation deco := (deco F N V E).
Notation config := (gmap name V).
Notation resolve_nodes := (resolve_nodes truthy vfalse from_fn add_origin).
Notation made := (made vfalse from_fn add_origin).
Implicit Types (c : config) (d : deco) (ds : list deco).

(** A stack of decorators is accepted when each of them accepts the function and those that want to be the only ones
    of their class have none of their class beneath them. *)
Theorem C74_accepts ds f : (exists o, decorate ds f = Ok o) <->
  (forall d, d ∈ ds -> validates d f = Ok ()) /\
  (forall ds1 d ds2, ds = ds1 ++ d :: ds2 -> allows_multiple d = false -> forall d', d' ∈ ds2 -> class_of d' <> class_of d).
Proof. apply decorate_accepts. Qed.

(** The nodes of a decorated function: each class of decorators acts on what the one before it made, within a class
    from the function outwards, each decorator seeing the configuration it asks for. If there are no such nodes, building fails. *)
Theorem C74_value ds f o c ns : Forall wf_deco ds -> Forall static ds -> decorate ds f = Ok o ->
  resolve_nodes o c = Ok ns <-> made c ds f ns.
Proof.
  intros Hw Hs Hd. rewrite (resolve_nodes_ran truthy vfalse from_fn add_origin ds f o c Hd).
  assert (Hof : lof "dynamic" ds = []).
  { destruct (lof "dynamic" ds) as [|d l] eqn:Ed; [done|]. assert (Hin : d ∈ lof "dynamic" ds) by (rewrite Ed; by left). apply elem_of_list_filter in Hin as [Hl Hin].
    rewrite Forall_forall in Hs. specialize (Hs d). destruct d as [? ? ? ? []|]; try done. exfalso. apply Hs. by apply elem_of_list_In, in_rev, elem_of_list_In. }
  rewrite Hof. cbn [mapr bindr rev app]. by apply ran_made.
Qed.

Lemma stands_resolve c ds rs : Forall wf_deco ds ->
  Forall2 (stands_for truthy c) (of CDynamic ds) rs <-> mapr (fun d => resolve truthy d c) (lof "dynamic" ds) = Ok (map Some rs).
Proof.
  intros Hw. rewrite of_lof. cbn [lname]. rewrite mapr_ok, Forall2_fmap_r. pose proof (lof_wf "dynamic" ds Hw) as Hwd. pose proof (lof_lifecycle "dynamic" ds) as Hl. revert rs.
  induction (lof "dynamic" ds) as [|d l IH]; intros rs; [split; intros H; inversion H; constructor|].
  apply Forall_cons_1 in Hwd as [Hd Hwd]. assert (Hr : forall r, stands_for truthy c d r <-> resolve truthy d c = Ok (Some r)).
  { intros r. specialize (Hl d ltac:(by left)). destruct Hd as [? ? ? ? []|req opt ps fn Np Hn _]; try done. by rewrite resolve_stands. }
  assert (IH' := IH Hwd ltac:(intros; apply Hl; by right)). split; intros H; inversion H; subst; (constructor; [by apply Hr|by apply IH']).
Qed.

(** With @resolve: the decorators that the @resolves stand for act after the others of their class. *)
Theorem C74_resolve ds f o c ns : Forall wf_deco ds -> decorate ds f = Ok o ->
  resolve_nodes o c = Ok ns <-> exists rs, Forall2 (stands_for truthy c) (of CDynamic ds) rs /\ made c (rev rs ++ ds) f ns.
Proof.
  intros Hw Hd. rewrite (resolve_nodes_ran truthy vfalse from_fn add_origin ds f o c Hd).
  assert (Hwr : forall rs, Forall2 (stands_for truthy c) (of CDynamic ds) rs -> Forall wf_deco (rev rs ++ ds)).
  { intros rs Hrs. rewrite of_lof in Hrs. cbn [lname] in Hrs. apply Forall_app. split; [|done]. apply Forall_rev. pose proof (lof_wf "dynamic" ds Hw) as Hwd. clear -Hrs Hwd. induction Hrs as [|d r l rs Hr _ IH]; constructor.
    - apply Forall_cons_1 in Hwd as [Hwd _]. destruct Hwd as [|req opt ps fn _ _ Hfn]; [done|]. destruct Hr as (_ & args & _ & _ & Hr). by apply Hfn in Hr.
    - apply IH. by apply Forall_cons_1 in Hwd as [_ ?]. }
  rewrite bindr_ok. split.
  - intros (dyn & Hdyn & H). apply bindr_ok in H as (rs & Hrs & H). assert (dyn = map Some rs) as ->.
    { apply mapr_ok in Hrs. clear -Hrs. induction Hrs as [|[d|] r dyn rs Hr _ IH]; [done| |done]. injection Hr as ->. cbn. by rewrite IH. }
    apply stands_resolve in Hdyn; [|done]. exists rs. split; [done|]. apply ran_made in H; [done|by apply Hwr].
  - intros (rs & Hrs & H). exists (map Some rs). split; [by apply stands_resolve|]. apply bindr_ok. exists rs. split; [|by apply ran_made; [apply Hwr|]].
    apply mapr_ok, Forall2_fmap_l. clear. induction rs; by constructor.
Qed.

Lemma ran_same c ds ds' f : (forall k, k <> CDynamic -> of k ds = of k ds') -> ran vfalse from_fn add_origin c ds f = ran vfalse from_fn add_origin c ds' f.
Proof.
  intros H. unfold ran. cbn zeta. pose proof (fun k Hk => eq_trans (eq_trans (eq_sym (of_lof k ds)) (H k Hk)) (of_lof k ds')) as H'.
  pose proof (H' CResolver ltac:(done)) as H1. pose proof (H' CCreator ltac:(done)) as H2. pose proof (H' CInjector ltac:(done)) as H3. pose proof (H' CExpander ltac:(done)) as H4.
  pose proof (H' CTransformer ltac:(done)) as H5. pose proof (H' CDecorator ltac:(done)) as H6. cbn [lname] in *. by rewrite H1, H2, H3, H4, H5, H6.
Qed.

(** So, a function with @resolve is the function with the decorators they stand for, written outermost. *)
Theorem C74_as_written ds f o c rs o' : Forall wf_deco ds -> decorate ds f = Ok o ->
  Forall2 (stands_for truthy c) (of CDynamic ds) rs -> Forall static rs -> decorate (rev rs ++ filter static ds) f = Ok o' ->
  resolve_nodes o c = resolve_nodes o' c.
Proof.
  intros Hw Hd Hrs Hst Hd'. rewrite (resolve_nodes_ran truthy vfalse from_fn add_origin ds f o c Hd), (resolve_nodes_ran truthy vfalse from_fn add_origin _ f o' c Hd').
  apply stands_resolve in Hrs; [|done]. rewrite Hrs. cbn [bindr].
  assert (Hm : mapr (X := xn E) (fun r : option deco => match r with Some d => Ok d | None => Err XAttr end) (map Some rs) = Ok rs).
  { apply mapr_ok, Forall2_fmap_l. clear. induction rs; by constructor. }
  rewrite Hm. cbn [bindr].
  assert (Hno : lof "dynamic" (rev rs ++ filter static ds) = []).
  { destruct (lof "dynamic" (rev rs ++ filter static ds)) as [|d l] eqn:Ed; [done|]. assert (Hin : d ∈ lof "dynamic" (rev rs ++ filter static ds)) by (rewrite Ed; by left).
    apply elem_of_list_filter in Hin as [Hl Hin]. apply elem_of_list_In, in_rev, elem_of_list_In in Hin. rewrite Forall_forall in Hst.
    assert (static d); [|by destruct d as [? ? ? ? []|]]. apply elem_of_app in Hin as [Hin | [? _]%elem_of_list_filter]; [|done].
    apply Hst. by apply elem_of_list_In, in_rev, elem_of_list_In. }
  rewrite Hno. cbn [mapr bindr rev app]. apply ran_same. intros k Hk. unfold of. rewrite !rev_app_distr, !filter_app. f_equal. clear -Hk.
  induction ds as [|d ds IH]; [done|]. cbn [rev]. rewrite filter_app, IH. rewrite (filter_cons static). destruct (decide (static d)) as [Hs | Hs]; cbn [rev].
  - by rewrite filter_app.
  - change (filter (fun d0 => class_of d0 = k) [d]) with (if decide (class_of d = k) then [d] else []). rewrite decide_False; [by rewrite app_nil_r|]. by destruct d.
Qed.

(** The order of decorators of different classes does not matter. *)
Theorem C74_order ds ds' f o o' c : (forall k, of k ds = of k ds') -> decorate ds f = Ok o -> decorate ds' f = Ok o' ->
  resolve_nodes o c = resolve_nodes o' c.
Proof.
  intros H Hd Hd'. rewrite (resolve_nodes_ran truthy vfalse from_fn add_origin ds f o c Hd), (resolve_nodes_ran truthy vfalse from_fn add_origin ds' f o' c Hd').
  pose proof (eq_trans (eq_trans (eq_sym (of_lof CDynamic ds)) (H CDynamic)) (of_lof CDynamic ds')) as HD. cbn [lname] in HD. rewrite HD.
  destruct (mapr _ (lof "dynamic" ds')) as [dyn|]; [|done]. cbn [bindr]. destruct (mapr _ dyn) as [rs|]; [|done]. cbn [bindr].
  apply ran_same. intros k _. unfold of. rewrite !rev_app_distr, !filter_app. f_equal. apply H.
Qed.

(** Only the configuration that the decorators ask for matters. *)
Theorem C74_config K ds f o c c' : Forall wf_deco ds -> Forall (asks K) ds -> K power_mode -> (forall k, K k -> c !! k = c' !! k) ->
  decorate ds f = Ok o -> resolve_nodes o c = resolve_nodes o c'.
Proof.
  intros Hw Ha Kp Hc Hd. rewrite !(resolve_nodes_ran truthy vfalse from_fn add_origin ds f o _ Hd).
  assert (Hof : forall d, d ∈ lof "dynamic" ds -> wf_deco d /\ asks K d).
  { intros d [_ Hin]%elem_of_list_filter. rewrite Forall_forall in Hw, Ha. apply elem_of_list_In, in_rev, elem_of_list_In in Hin. split; [by apply Hw|by apply Ha]. }
  rewrite (mapr_ext (fun d => resolve truthy d c) (fun d => resolve truthy d c')) by (intros d Hin; apply (resolve_agree truthy vfalse K c c' Kp Hc); by apply Hof).
  destruct (mapr (fun d => resolve truthy d c') (lof "dynamic" ds)) as [dyn|] eqn:Edyn; [|done]. cbn [bindr].
  destruct (mapr _ dyn) as [rs|] eqn:Ers; [|done]. cbn [bindr]. apply (ran_agree truthy vfalse from_fn add_origin K c c' Kp Hc).
  apply Forall_app. split; [|done]. apply Forall_rev. apply mapr_ok in Edyn, Ers. clear -Hof Edyn Ers. revert rs Ers. induction Edyn as [|d r l dyn Hr _ IH]; intros rs Ers; [inversion Ers; constructor|].
  inversion Ers as [|? r' ? rs' Hr' Hrs']; subst. constructor; [|apply IH; [intros; apply Hof; by right|done]]. destruct r as [r|]; [|done]. injection Hr' as <-.
  destruct (Hof d ltac:(by left)) as [Hw Ha]. destruct Ha as [|req opt ps fn _ Hfn]; [done|]. cbn [resolve] in Hr.
  destruct (c' !! power_mode) as [v|]; [|done]. destruct (truthy v); [|done]. destruct (filter _ req); [|done]. apply bindr_ok in Hr as (? & _ & Hr). apply bindr_ok in Hr as (args & _ & Hr).
  unfold lift in Hr. destruct (fn args) as [?|] eqn:Efn; [|done]. injection Hr as ->. by apply Hfn in Efn.
Qed.

(** @resolve takes functions whose parameters can all be given by name. *)
Theorem C74_signature (ps : list (param V)) (fn : config -> res E (option deco)) :
  (exists d, new_resolve ps fn = Ok d) <-> forall p, p ∈ ps -> p_kind p = POSITIONAL_OR_KEYWORD \/ p_kind p = KEYWORD_ONLY.
Proof.
  unfold new_resolve, extract_params. destruct (forallb keyword_friendly ps) eqn:Ek.
  - split; [|by eexists]. intros _ p Hp. rewrite forallb_forall in Ek. apply elem_of_list_In, Ek in Hp. unfold keyword_friendly in Hp. apply bool_decide_eq_true in Hp.
    apply elem_of_cons in Hp as [? | Hp%elem_of_list_singleton]; [by left|by right].
  - split; [by intros [? ?]|]. intros H. assert (forallb keyword_friendly ps = true); [|congruence]. apply forallb_forall. intros p Hp%elem_of_list_In. apply bool_decide_eq_true.
    destruct (H p Hp) as [-> | ->]; [by left|right; by left].
Qed.
End Props.
Print Assumptions C74_accepts.
Print Assumptions C74_value.
Print Assumptions C74_resolve.
Print Assumptions C74_as_written.
Print Assumptions C74_order.
Print Assumptions C74_config.
Print Assumptions C74_signature.

(** ** Examples *)
(** A function is its name, a node the list of what happened to it. *)
Notation xd := (deco string (list string) nat string).
Definition xtruthy (v : nat) : bool := negb (v =? 0).
Definition xfrom (f : string) : res string (list string) := Ok [f].
Definition xorigin (f : string) (n : list string) : list string := n ++ ["from " +:+ f].
Definition accept (_ : string) : res string unit := Ok ().
Definition xtag (s : string) : xd := Static (Some []) (Some []) accept true (BDecorator (fun ns _ _ => Ok (map (fun n => n ++ [s]) ns))).
Definition xschema : xd := Static (Some []) (Some []) accept false (BDecorator (fun ns _ _ => Ok (map (fun n => n ++ ["schema"]) ns))).
Definition xwhen (k : name) (v : nat) : xd :=
  Static (Some []) (Some [(k, 0)]) accept true (BResolver (fun f m => Ok (if decide (m !! k = Some v) then Some f else None))).
Definition xexpand : xd := Static (Some ["n"]) (Some []) accept false (BExpander (fun n m _ => Ok (repeat n (default 0 (m !! "n"))))).
Definition xpicky : xd := Static (Some []) (Some []) (fun f => if decide (f = "f") then Err "not f" else Ok ()) true (BDecorator (fun ns _ _ => Ok ns)).
(** [@resolve(decorate_with=lambda s, t=7: tag(...))] *)
Definition xparams : list (param nat) := [Param "s" POSITIONAL_OR_KEYWORD None; Param "t" POSITIONAL_OR_KEYWORD (Some 7)].
Definition xbody (args : gmap name nat) : res string (option xd) :=
  Ok (Some (if decide (args !! "s" = Some 1 /\ args !! "t" = Some 7) then xtag "one" else xtag "other")).
Definition xresolve : xd := Dynamic ["s"] [("t", 7)] xparams xbody.
Notation xnodes := (resolve_nodes xtruthy 0 xfrom xorigin).
Definition nodes_of (ds : list xd) (c : gmap name nat) : res (xn string) (list (list string)) := bindr (decorate ds "f") (fun o => xnodes o c).
Definition xconf : gmap name nat := {[power_mode := 1; "s" := 1; "n" := 2; "env" := 3; "other" := 9]}.

Lemma xwf : Forall wf_deco [xtag "b"; xexpand; xresolve; xwhen "env" 3; xtag "a"].
Proof.
  assert (Hd : forall l : list name, bool_decide (NoDup l) = true -> NoDup l) by (intros l; apply bool_decide_eq_true).
  repeat apply Forall_cons_2; [..|apply Forall_nil_2].
  - constructor. apply Hd. by vm_compute.
  - constructor. apply Hd. by vm_compute.
  - constructor; [apply Hd; by vm_compute|done|]. intros args d H. unfold xbody in H. injection H as <-. destruct (decide _); constructor; apply Hd; by vm_compute.
  - constructor. apply Hd. by vm_compute.
  - constructor. apply Hd. by vm_compute.
Qed.
Lemma xasks : Forall (asks (fun k => k ∈ [power_mode; "s"; "t"; "n"; "env"])) [xtag "b"; xexpand; xresolve; xwhen "env" 3; xtag "a"].
Proof.
  assert (Hn : forall (P : Prop) (k : name), k ∈ [] \/ k ∈ [] -> P) by (intros P k [?%elem_of_nil | ?%elem_of_nil]; done).
  assert (Hk : forall k, bool_decide (k ∈ [power_mode; "s"; "t"; "n"; "env"]) = true -> k ∈ [power_mode; "s"; "t"; "n"; "env"]) by (intros k; apply bool_decide_eq_true).
  repeat apply Forall_cons_2; [..|apply Forall_nil_2].
  - constructor. intros k. apply Hn.
  - constructor. intros k [->%elem_of_list_singleton | ?%elem_of_nil]; [|done]. apply Hk. by vm_compute.
  - constructor.
    + intros p Hp. apply Hk. unfold xparams in Hp. apply elem_of_cons in Hp as [-> | ->%elem_of_list_singleton]; by vm_compute.
    + intros args d H. unfold xbody in H. injection H as <-. destruct (decide _); constructor; intros k; apply Hn.
  - constructor. intros k [?%elem_of_nil | ->%elem_of_list_singleton]; [done|]. apply Hk. by vm_compute.
  - constructor. intros k. apply Hn.
Qed.
(** The hypotheses of the theorems hold, and these are the nodes. *)
Example ex_decor : is_Some (match decorate [xtag "b"; xexpand; xresolve; xwhen "env" 3; xtag "a"] "f" with Ok o => Some o | Err _ => None end) /\
  nodes_of [xtag "b"; xexpand; xresolve; xwhen "env" 3; xtag "a"] xconf = Ok [["f"; "a"; "b"; "one"; "from f"]; ["f"; "a"; "b"; "one"; "from f"]] /\
  nodes_of [xtag "b"; xexpand; xresolve; xwhen "env" 3; xtag "a"] (<["env" := 4]> xconf) = Ok [] /\
  nodes_of [xtag "b"; xexpand; xresolve; xwhen "env" 3; xtag "a"] (delete "n" xconf) = Err XMissing.
Proof. split_and!; [by eexists| | |]; vm_compute; reflexivity. Qed.
Example ex_as_written : Forall2 (stands_for xtruthy xconf) (of CDynamic [xtag "b"; xexpand; xresolve; xwhen "env" 3; xtag "a"]) [xtag "one"] /\ Forall static [xtag "one"] /\
  nodes_of (rev [xtag "one"] ++ filter static [xtag "b"; xexpand; xresolve; xwhen "env" 3; xtag "a"]) xconf = Ok [["f"; "a"; "b"; "one"; "from f"]; ["f"; "a"; "b"; "one"; "from f"]].
Proof.
  split_and!; [|by repeat constructor|vm_compute; reflexivity]. change (of CDynamic [xtag "b"; xexpand; xresolve; xwhen "env" 3; xtag "a"]) with [xresolve]. constructor; [|constructor].
  split; [by exists 1|]. exists {["s" := 1; "t" := 7]}. split_and!; [apply (bool_decide_unpack _); vm_compute; exact I| |vm_compute; reflexivity].
  intros p Hp. unfold xparams in Hp. apply elem_of_cons in Hp as [-> | ->%elem_of_list_singleton]; by vm_compute.
Qed.
Example ex_order : (forall k, of k [xtag "b"; xexpand; xresolve; xwhen "env" 3; xtag "a"] = of k [xwhen "env" 3; xtag "b"; xtag "a"; xexpand; xresolve]) /\
  nodes_of [xwhen "env" 3; xtag "b"; xtag "a"; xexpand; xresolve] xconf = Ok [["f"; "a"; "b"; "one"; "from f"]; ["f"; "a"; "b"; "one"; "from f"]].
Proof.
  split; [|vm_compute; reflexivity]. intros k. by destruct k.
Qed.

(** ** What is not so *)
(** A decorator given by @resolve does not act where it is written: here "y" is written beneath "x". *)
Theorem C74_in_place_refuted : exists (mk : gmap name nat -> res string (option xd)) r, new_resolve [] mk = Ok r /\ (forall args, mk args = Ok (Some (xtag "y"))) /\
  nodes_of [xtag "x"; xtag "y"] {[power_mode := 1]} = Ok [["f"; "y"; "x"; "from f"]] /\
  nodes_of [xtag "x"; r] {[power_mode := 1]} = Ok [["f"; "x"; "y"; "from f"]].
Proof. exists (fun _ => Ok (Some (xtag "y"))), (Dynamic [] [] [] (fun _ => Ok (Some (xtag "y")))). split_and!; [done|done|vm_compute; reflexivity|vm_compute; reflexivity]. Qed.
(** It is not validated: a decorator that refuses the function acts on it. *)
Theorem C74_not_validated_refuted : exists (mk : gmap name nat -> res string (option xd)) r, new_resolve [] mk = Ok r /\ (forall args, mk args = Ok (Some xpicky)) /\
  nodes_of [xpicky] {[power_mode := 1]} = Err (XUser "not f") /\ nodes_of [r] {[power_mode := 1]} = Ok [["f"; "from f"]].
Proof. exists (fun _ => Ok (Some xpicky)), (Dynamic [] [] [] (fun _ => Ok (Some xpicky))). split_and!; [done|done|vm_compute; reflexivity|vm_compute; reflexivity]. Qed.
(** A @resolve that returns a @resolve is silently ignored. *)
Theorem C74_nested_refuted : exists (mk : gmap name nat -> res string (option xd)) r, new_resolve [] mk = Ok r /\ (forall args, mk args = Ok (Some xresolve)) /\
  nodes_of [xresolve] xconf = Ok [["f"; "one"; "from f"]] /\ nodes_of [r] xconf = Ok [["f"; "from f"]].
Proof. exists (fun _ => Ok (Some xresolve)), (Dynamic [] [] [] (fun _ => Ok (Some xresolve))). split_and!; [done|done|vm_compute; reflexivity|vm_compute; reflexivity]. Qed.
(** Without the setting of power user mode, its explanation is not given, but KeyError. *)
Theorem C74_power_mode_refuted : nodes_of [xresolve] {["s" := 1; power_mode := 0]} = Err XInvalid /\ nodes_of [xresolve] {["s" := 1]} = Err XKey.
Proof. split; vm_compute; reflexivity. Qed.
(** A function that @config leaves out of the graph needs the configuration of its @resolve nevertheless. *)
Theorem C74_left_out_refuted : nodes_of [xwhen "env" 3] {["env" := 4]} = Ok [] /\ nodes_of [xresolve; xwhen "env" 3] {["env" := 4]} = Err XKey /\
  nodes_of [xresolve; xwhen "env" 3] {["env" := 4; power_mode := 1]} = Err XInvalid.
Proof. split_and!; vm_compute; reflexivity. Qed.
(** @schema.output is accepted beneath @tag, but not above it. *)
Theorem C74_schema_order_refuted : nodes_of [xtag "a"; xschema] ∅ = Ok [["f"; "schema"; "a"; "from f"]] /\ nodes_of [xschema; xtag "a"] ∅ = Err XValue.
Proof. split; vm_compute; reflexivity. Qed.
Print Assumptions C74_in_place_refuted.
Print Assumptions C74_not_validated_refuted.
Print Assumptions C74_nested_refuted.
Print Assumptions C74_power_mode_refuted.
Print Assumptions C74_left_out_refuted.
Print Assumptions C74_schema_order_refuted.
