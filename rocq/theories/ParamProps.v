(** C41: @parameterize substitutes arguments. *)
From Verif Require Import Base Dict NodeModel NodeSpec NodeProofs PipeModel PipeSpec PipeProofs ParamModel ParamSpec ParamProofs.

(** One node per declared output, in order, with its name. *)
Theorem C41_outputs {V E T} vlist vdict list_elem dict_elem captured (n : pnode V E T) outs nodes :
  expand vlist vdict list_elem dict_elem captured n outs = Some nodes ->
  Forall2 (fun (os : name * dict (spec V)) m =>
    pn_name m = (if decide (os.1 = placeholder) then pn_name n else os.1) /\
    param_node vlist vdict list_elem dict_elem captured n (pn_name m) os.2 = Some m) outs nodes.
Proof.
  revert nodes. induction outs as [|[out sp] outs IH]; intros nodes H; cbn in H; [injection H as <-; constructor|].
  destruct (param_node _ _ _ _ _ _ _ _) as [m|] eqn:Em; [|done]. destruct (expand _ _ _ _ _ n outs) as [ms|] eqn:Ex; [|done].
  injection H as <-. constructor; [|by apply IH]. cbn [fst snd].
  assert (Hn : pn_name m = if decide (out = placeholder) then pn_name n else out).
  { unfold param_node in Em. destruct (new_inputs _ _ _ _ _) as [i|]; [|done]. by injection Em as <-. }
  split; [done|]. by rewrite Hn.
Qed.

(** The dependencies are exactly the variables referenced. *)
Theorem C41_dependencies {V E T} vlist vdict list_elem dict_elem captured (n : pnode V E T) out sp n' x :
  param_node vlist vdict list_elem dict_elem captured n out sp = Some n' ->
  x ∈ dkeys (pn_inputs n') <-> exists p t, (p, t) ∈ pn_inputs n /\ refers (dget sp p) p x.
Proof.
  intros H. unfold param_node in H. destruct (new_inputs _ _ _ _ _) as [ins|] eqn:Ei; [|done]. injection H as <-. cbn.
  destruct (new_inputs_spec list_elem dict_elem sp (pn_inputs n) [] ins) as (N & I1 & I2); [apply NoDup_nil_2|done|].
  split.
  - intros ([t dt] & Hx)%dkeys_get. destruct (I1 x t dt Hx) as [? | (p & tp & Hp & Hr)]; [done|]. eauto.
  - intros H. apply I2. by right.
Qed.

(** Running the node is running the function with the arguments of the parameterization.
    [bound] says what each argument is (ParamSpec): the literal, the value of the source, the
    list or dict of values of the group, and for the other parameters the variable of their
    own name. Assumed: no variable has a name reserved by the implementation, and a
    source that has the name of a literal parameter exists in the dataflow or inputs. *)
Theorem C41_value_partial {V E T} vlist vdict list_elem dict_elem captured (ns : dict (pnode V E T)) env n out sp n' v :
  (forall y n, dget ns y = Some n -> NoDup (dkeys (pn_inputs n))) ->
  NoDup (dkeys (pn_inputs n)) -> NoDup (dkeys sp) -> keyword_fn (pn_call n) ->
  param_node vlist vdict list_elem dict_elem captured n out sp = Some n' -> dget ns out = Some n' ->
  (forall x, x ∈ dkeys (pn_inputs n') -> x ∉ reserved) ->
  (forall l u, (l, POne (DValue u)) ∈ sp -> l ∉ reserved) ->
  (forall l u, (l, POne (DValue u)) ∈ sp -> l ∈ dkeys (pn_inputs n') -> defined ns env l) ->
  value ns env out v <->
  exists kw, pn_call n kw = Ok v /\ NoDup (dkeys kw) /\ (forall k, k ∈ dkeys kw -> k ∈ dkeys (pn_inputs n)) /\
    forall p t dt, (p, (t, dt)) ∈ pn_inputs n -> bound vlist vdict ns env (dget sp p) p dt (dget kw p).
Proof. apply param_value. Qed.

(** ** The short forms *)
Lemma lookup_map_at {A B} (f : A -> B) (l : list A) i x : l !! i = Some x -> map f l !! i = Some (f x).
Proof. revert i. induction l as [|y l IH]; intros [|i]; [done|done|by intros [= ->]|apply IH]. Qed.
Lemma outputs_at {V E T} vlist vdict list_elem dict_elem captured (n : pnode V E T) outs nodes i o sp m :
  expand vlist vdict list_elem dict_elem captured n outs = Some nodes -> outs !! i = Some (o, sp) -> nodes !! i = Some m ->
  pn_name m = (if decide (o = placeholder) then pn_name n else o) /\
  param_node vlist vdict list_elem dict_elem captured n (pn_name m) sp = Some m.
Proof.
  intros H Ho Hm. apply C41_outputs in H. by destruct (Forall2_lookup_lr _ _ _ _ _ _ H Ho Hm).
Qed.

(** @inject makes one node, with the name of the function and the arguments as given. *)
Theorem C41_inject {V E T} vlist vdict list_elem dict_elem captured (n : pnode V E T) sp nodes :
  inject vlist vdict list_elem dict_elem captured n sp = Some nodes ->
  exists m, nodes = [m] /\ pn_name m = pn_name n /\ param_node vlist vdict list_elem dict_elem captured n (pn_name n) sp = Some m.
Proof.
  intros H. apply C41_outputs in H. apply Forall2_cons_inv_l in H as (m & l & [Hn Hp] & Hl & ->). apply Forall2_nil_inv_l in Hl as ->.
  cbn in Hn. exists m. split; [done|]. split; [done|]. by rewrite Hn in Hp.
Qed.

(** @parameterize_values(parameter=p, assigned_output={o: u, ..}): the node [o] takes the other parameters and its value is
    that of the function with [u] for [p]. *)
Theorem C41_parameterize_values {V E T} vlist vdict list_elem dict_elem captured (n : pnode V E T) p outs nodes :
  NoDup (dkeys (pn_inputs n)) -> keyword_fn (pn_call n) -> p ∉ reserved ->
  parameterize_values vlist vdict list_elem dict_elem captured n p outs = Some nodes ->
  length nodes = length outs /\
  forall i o u m, outs !! i = Some (o, u) -> nodes !! i = Some m ->
    pn_name m = (if decide (o = placeholder) then pn_name n else o) /\
    (forall x, x ∈ dkeys (pn_inputs m) <-> x ∈ dkeys (pn_inputs n) /\ x <> p) /\
    forall ns env v, (forall y n, dget ns y = Some n -> NoDup (dkeys (pn_inputs n))) -> dget ns (pn_name m) = Some m ->
      (forall x, x ∈ dkeys (pn_inputs m) -> x ∉ reserved) ->
      value ns env (pn_name m) v <->
      exists kw, pn_call n kw = Ok v /\ NoDup (dkeys kw) /\ (forall k, k ∈ dkeys kw -> k ∈ dkeys (pn_inputs n)) /\
        forall q t dt, (q, (t, dt)) ∈ pn_inputs n -> if decide (q = p) then dget kw q = Some u else given ns env q dt (dget kw q).
Proof.
  intros Hnd Hkw Hres H. unfold parameterize_values in H. split.
  { apply C41_outputs, Forall2_length in H. by rewrite map_length in H. }
  intros i o u m Ho Hm.
  destruct (outputs_at _ _ _ _ _ _ _ _ i o [(p, POne (DValue u))] m H) as [Hn Hp]; [|done|].
  { exact (lookup_map_at _ _ _ _ Ho). }
  assert (Hin : forall x, x ∈ dkeys (pn_inputs m) <-> x ∈ dkeys (pn_inputs n) /\ x <> p).
  { intros x. rewrite (C41_dependencies _ _ _ _ _ _ _ _ _ x Hp). split.
    - intros (q & t & Hq & Hr). cbn in Hr. destruct (decide (q = p)) as [->|Hne]; [done|]. cbn in Hr. subst x.
      split; [|done]. apply elem_of_list_fmap. by exists (q, t).
    - intros [Hx Hne]. apply elem_of_list_fmap in Hx as ([q t] & -> & Hq). exists q, t. split; [done|]. cbn. by rewrite decide_False. }
  split; [done|]. split; [done|]. intros ns env v Hns Hget Hr.
  rewrite (C41_value_partial vlist vdict list_elem dict_elem captured ns env n (pn_name m) [(p, POne (DValue u))] m v); try done.
  - apply exist_proper. intros kw. do 3 (apply and_iff_compat_l). split; intros HH q t dt Hq; specialize (HH q t dt Hq); cbn in *.
    + case_decide as Hqp; [|done]. by destruct HH as (w & -> & ->).
    + case_decide as Hqp; [|done]. by exists u.
  - cbn. apply NoDup_singleton.
  - intros l w Hl. by apply elem_of_list_singleton in Hl as [= -> ->].
  - intros l w Hl Hlm. apply elem_of_list_singleton in Hl as [= -> ->]. by apply Hin in Hlm as [_ ?].
Qed.

(** @parameterize_sources(o={p: s, ..}): the node [o] takes [s] for [p] and the variables of their own names for the
    other parameters. *)
Theorem C41_parameterize_sources {V E T} vlist vdict list_elem dict_elem captured (n : pnode V E T) outs nodes :
  NoDup (dkeys (pn_inputs n)) -> keyword_fn (pn_call n) -> (forall o r, (o, r) ∈ outs -> NoDup (dkeys r)) ->
  parameterize_sources vlist vdict list_elem dict_elem captured n outs = Some nodes ->
  length nodes = length outs /\
  forall i o r m, outs !! i = Some (o, r) -> nodes !! i = Some m ->
    pn_name m = (if decide (o = placeholder) then pn_name n else o) /\
    (forall x, x ∈ dkeys (pn_inputs m) <-> exists q, q ∈ dkeys (pn_inputs n) /\ x = default q (dget r q)) /\
    forall ns env v, (forall y n, dget ns y = Some n -> NoDup (dkeys (pn_inputs n))) -> dget ns (pn_name m) = Some m ->
      (forall x, x ∈ dkeys (pn_inputs m) -> x ∉ reserved) ->
      value ns env (pn_name m) v <->
      exists kw, pn_call n kw = Ok v /\ NoDup (dkeys kw) /\ (forall k, k ∈ dkeys kw -> k ∈ dkeys (pn_inputs n)) /\
        forall q t dt, (q, (t, dt)) ∈ pn_inputs n ->
          match dget r q with
          | Some s => exists u, dget kw q = Some u /\ value ns env s u
          | None => given ns env q dt (dget kw q)
          end.
Proof.
  intros Hnd Hkw Hr H. unfold parameterize_sources in H. split.
  { apply C41_outputs, Forall2_length in H. by rewrite map_length in H. }
  intros i o r m Ho Hm. set (sp := map (fun ps : name * name => (ps.1, POne (DSource ps.2))) r : dict (spec V)).
  destruct (outputs_at _ _ _ _ _ _ _ _ i o sp m H) as [Hn Hp]; [|done|].
  { exact (lookup_map_at _ _ _ _ Ho). }
  assert (Hsp : forall q, dget sp q = (fun s => POne (DSource s)) <$> dget r q).
  { intros q. unfold sp. clear. induction r as [|[k s] r IH]; [done|]. cbn. case_decide; [done|]. apply IH. }
  assert (Hks : dkeys sp = dkeys r). { unfold sp, dkeys. rewrite map_map. done. }
  assert (Hno : forall l u, (l, POne (DValue u)) ∉ sp).
  { intros l u Hin. unfold sp in Hin. by apply elem_of_list_fmap in Hin as (? & [=] & _). }
  split; [done|]. split.
  - intros x. rewrite (C41_dependencies _ _ _ _ _ _ _ _ _ x Hp). split.
    + intros (q & t & Hq & Hx). exists q. split; [apply elem_of_list_fmap; by exists (q, t)|]. rewrite Hsp in Hx. destruct (dget r q); cbn in *; [by injection Hx as ->|done].
    + intros (q & Hq & ->). apply elem_of_list_fmap in Hq as ([q' t] & -> & Hq). exists q', t. split; [done|]. rewrite Hsp. cbn [fst]. by destruct (dget r q').
  - intros ns env v Hns Hget Hres.
    rewrite (C41_value_partial vlist vdict list_elem dict_elem captured ns env n (pn_name m) sp m v); try done.
    + apply exist_proper. intros kw. do 3 (apply and_iff_compat_l). split; intros HH q t dt Hq; specialize (HH q t dt Hq); rewrite Hsp in *;
        by destruct (dget r q).
    + rewrite Hks. apply (Hr o). by eapply elem_of_list_lookup_2.
    + intros l u Hl. by destruct (Hno l u).
    + intros l u Hl. by destruct (Hno l u).
Qed.

(** ** Example: f(a, b, l, c=7) = a - b + sum(l) + c; values are numbers or lists *)
Inductive pv := PN (k : nat) | PL (l : list pv) | PD (d : dict pv).
Definition num (o : option pv) (d : nat) : nat := match o with Some (PN k) => k | _ => d end.
Definition sum (o : option pv) : nat :=
  match o with
  | Some (PL l) => foldr (fun v s => num (Some v) 0 + s) 0 l
  | Some (PD d) => foldr (fun kv s => num (Some kv.2) 0 + s) 0 d
  | _ => 0
  end.
Definition pf : pnode pv string unit :=
  from_fn "f" tt [("a", (tt, REQUIRED)); ("b", (tt, REQUIRED)); ("l", (tt, REQUIRED)); ("c", (tt, OPTIONAL))]
    (fun kw => Ok (PN (num (kw !! "a") 0 - num (kw !! "b") 0 + sum (kw !! "l") + num (kw !! "c") 7))).
Definition pcap (kw : dict pv) : res (nerr string) pv := Err (NKey "captured").
Notation pnode_of := (param_node PL PD (fun t => Some t) (fun t => Some t) pcap).
(** a and b exchanged, l a group, c untouched; and one with b literal and a from b. *)
Definition psp : dict (spec pv) := [("a", POne (DSource "b")); ("b", POne (DSource "a")); ("l", PList [DSource "x"; DValue (PN 10); DSource "a"])].
Definition psp2 : dict (spec pv) := [("b", POne (DValue (PN 1))); ("a", POne (DSource "b")); ("l", PDict [("k", DSource "x")])].
Definition pnodes : list (pnode pv string unit) := default [] (expand PL PD (fun t => Some t) (fun t => Some t) pcap pf [("g", psp); ("h", psp2)]).
Definition pns : dict (pnode pv string unit) := map (fun n => (pn_name n, n)) pnodes.
Definition penv : gmap name pv := {["a" := PN 3; "b" := PN 50; "x" := PN 4]}.
Example ex_expand : map pn_name pnodes = ["g"; "h"] /\ map (fun n => dkeys (pn_inputs n)) pnodes = [["b"; "a"; "x"; "c"]; ["b"; "x"; "c"]].
Proof. by vm_compute. Qed.
Example ex_param_hypotheses : forall out sp, In (out, sp) [("g", psp); ("h", psp2)] -> exists n',
  (forall y n, dget pns y = Some n -> NoDup (dkeys (pn_inputs n))) /\
  NoDup (dkeys (pn_inputs pf)) /\ NoDup (dkeys sp) /\ keyword_fn (pn_call pf) /\
  pnode_of pf out sp = Some n' /\ dget pns out = Some n' /\
  (forall x, x ∈ dkeys (pn_inputs n') -> x ∉ reserved) /\
  (forall l u, (l, POne (DValue u)) ∈ sp -> l ∉ reserved) /\
  (forall l u, (l, POne (DValue u)) ∈ sp -> l ∈ dkeys (pn_inputs n') -> defined pns penv l).
Proof.
  assert (D : forall y n, dget pns y = Some n -> NoDup (dkeys (pn_inputs n))).
  { intros y n Hy. unfold pns in Hy. apply dget_elem in Hy. apply elem_of_list_fmap in Hy as (m & [= -> ->] & Hm).
    repeat (apply elem_of_cons in Hm as [-> | Hm]; [apply (bool_decide_unpack _); by vm_compute|]). by apply elem_of_nil in Hm. }
  intros out sp Ho. destruct Ho as [[= <- <-] | [[= <- <-] | []]].
  - eexists. split_and!; [done|apply (bool_decide_unpack _); by vm_compute|apply (bool_decide_unpack _); by vm_compute|apply from_fn_keyword|reflexivity|reflexivity| | |].
    + intros x Hx. repeat (apply elem_of_cons in Hx as [-> | Hx]; [apply (bool_decide_unpack _); by vm_compute|]). by apply elem_of_nil in Hx.
    + intros l u Hl. repeat (apply elem_of_cons in Hl as [[=] | Hl]). by apply elem_of_nil in Hl.
    + intros l u Hl. repeat (apply elem_of_cons in Hl as [[=] | Hl]). by apply elem_of_nil in Hl.
  - eexists. split_and!; [done|apply (bool_decide_unpack _); by vm_compute|apply (bool_decide_unpack _); by vm_compute|apply from_fn_keyword|reflexivity|reflexivity| | |].
    + intros x Hx. repeat (apply elem_of_cons in Hx as [-> | Hx]; [apply (bool_decide_unpack _); by vm_compute|]). by apply elem_of_nil in Hx.
    + intros l u Hl. apply elem_of_cons in Hl as [[= -> ->] | Hl]; [apply (bool_decide_unpack _); by vm_compute|].
      repeat (apply elem_of_cons in Hl as [[=] | Hl]). by apply elem_of_nil in Hl.
    + intros l u Hl. apply elem_of_cons in Hl as [[= -> ->] | Hl]; [intros _; right; by vm_compute|].
      repeat (apply elem_of_cons in Hl as [[=] | Hl]). by apply elem_of_nil in Hl.
Qed.
(** g = 50 - 3 + (4 + 10 + 3) + 7 and h = 50 - 1 + 4 + 7 *)
Example ex_param_values : value pns penv "g" (PN 71) /\ value pns penv "h" (PN 60).
Proof.
  assert (I : forall x u, dget pns x = None -> penv !! x = Some u -> value pns penv x u) by (intros; by apply value_input).
  split.
  - destruct (ex_param_hypotheses "g" psp) as (n' & H1 & H2 & H3 & H4 & H5 & H6 & H7 & H8 & H9); [by left|].
    apply (C41_value_partial PL PD (fun t => Some t) (fun t => Some t) pcap pns penv pf "g" psp n' (PN 71)); try done.
    exists [("a", PN 50); ("b", PN 3); ("l", PL [PN 4; PN 10; PN 3])]. split_and!; [by vm_compute|apply (bool_decide_unpack _); by vm_compute| |].
    + intros k Hk. repeat (apply elem_of_cons in Hk as [-> | Hk]; [apply (bool_decide_unpack _); by vm_compute|]). by apply elem_of_nil in Hk.
    + intros p t dt Hp. repeat (apply elem_of_cons in Hp as [[= -> -> ->] | Hp]); [..|by apply elem_of_nil in Hp]; cbn.
      * exists (PN 50). split; [done|by apply I].
      * exists (PN 3). split; [done|by apply I].
      * exists [PN 4; PN 10; PN 3]. split; [done|]. repeat constructor; by apply I.
      * done.
  - destruct (ex_param_hypotheses "h" psp2) as (n' & H1 & H2 & H3 & H4 & H5 & H6 & H7 & H8 & H9); [by right; left|].
    apply (C41_value_partial PL PD (fun t => Some t) (fun t => Some t) pcap pns penv pf "h" psp2 n' (PN 60)); try done.
    exists [("a", PN 50); ("b", PN 1); ("l", PD [("k", PN 4)])]. split_and!; [by vm_compute|apply (bool_decide_unpack _); by vm_compute| |].
    + intros k Hk. repeat (apply elem_of_cons in Hk as [-> | Hk]; [apply (bool_decide_unpack _); by vm_compute|]). by apply elem_of_nil in Hk.
    + intros p t dt Hp. repeat (apply elem_of_cons in Hp as [[= -> -> ->] | Hp]); [..|by apply elem_of_nil in Hp]; cbn.
      * exists (PN 50). split; [done|by apply I].
      * exists (PN 1). by split.
      * exists [("k", PN 4)]. split; [done|]. repeat constructor.
      * done.
Qed.

(** The short forms on the same function: g = 3 - 1 + 4 + 7 and h = 3 - 2 + 4 + 7 with values for b, k = 4 - 3 + .. with
    a and b from x and a. *)
Example ex_values : exists m1 m2,
  parameterize_values PL PD (fun t => Some t) (fun t => Some t) pcap pf "b" [("g", PN 1); ("h", PN 2)] = Some [m1; m2] /\
  map pn_name [m1; m2] = ["g"; "h"] /\ map (fun m => dkeys (pn_inputs m)) [m1; m2] = [["a"; "l"; "c"]; ["a"; "l"; "c"]] /\
  pn_call m1 [("a", PN 3); ("l", PL [PN 4])] = Ok (PN 13) /\ pn_call m2 [("a", PN 3); ("l", PL [PN 4])] = Ok (PN 12) /\
  NoDup (dkeys (pn_inputs pf)) /\ keyword_fn (pn_call pf) /\ "b" ∉ reserved /\
  (forall x, x ∈ dkeys (pn_inputs m1) -> x ∉ reserved).
Proof.
  do 2 eexists. split_and!; [reflexivity|reflexivity|reflexivity|by vm_compute|by vm_compute|apply (bool_decide_unpack _); by vm_compute|apply from_fn_keyword|apply (bool_decide_unpack _); by vm_compute|].
  intros x Hx. repeat (apply elem_of_cons in Hx as [-> | Hx]; [apply (bool_decide_unpack _); by vm_compute|]). by apply elem_of_nil in Hx.
Qed.
Example ex_sources : exists m,
  parameterize_sources PL PD (fun t => Some t) (fun t => Some t) pcap pf [("k", [("a", "x"); ("b", "a")])] = Some [m] /\
  pn_name m = "k" /\ dkeys (pn_inputs m) = ["x"; "a"; "l"; "c"] /\
  pn_call m [("x", PN 9); ("a", PN 3); ("l", PL [PN 4])] = Ok (PN 17) /\ NoDup (dkeys [("a", "x"); ("b", "a")]) /\
  (forall x, x ∈ dkeys (pn_inputs m) -> x ∉ reserved).
Proof.
  eexists. split_and!; [reflexivity|reflexivity|reflexivity|by vm_compute|apply (bool_decide_unpack _); by vm_compute|].
  intros x Hx. repeat (apply elem_of_cons in Hx as [-> | Hx]; [apply (bool_decide_unpack _); by vm_compute|]). by apply elem_of_nil in Hx.
Qed.
Example ex_inject : exists m, inject PL PD (fun t => Some t) (fun t => Some t) pcap pf psp = Some [m] /\ pn_name m = "f" /\ dkeys (pn_inputs m) = ["b"; "a"; "x"; "c"].
Proof. eexists. split_and!; reflexivity. Qed.

(** ** Refutations *)
(** @parameterize(g={"c": source("b"), "b": value(1)}) with optional c and no variable b: c is
    not left to its default, it gets b's literal. *)
Definition psp3 : dict (spec pv) := [("c", POne (DSource "b")); ("b", POne (DValue (PN 1)))].
Definition n3 : pnode pv string unit := default pf (pnode_of pf "g" psp3).
Theorem C41_literal_name_refuted : exists (ns : dict (pnode pv string unit)) env,
  pnode_of pf "g" psp3 = Some n3 /\ dget ns "g" = Some n3 /\ ~ defined ns env "b" /\
  value ns env "g" (PN 10) /\
  pn_call pf [("a", PN 10); ("b", PN 1); ("l", PN 0); ("c", PN 1)] = Ok (PN 10) /\
  pn_call pf [("a", PN 10); ("b", PN 1); ("l", PN 0)] = Ok (PN 16).
Proof.
  exists [("g", n3)], {["a" := PN 10; "l" := PN 0]}. split_and!; [reflexivity|reflexivity|by intros [H | H]; apply H; vm_compute| |by vm_compute|by vm_compute].
  eapply (value_node _ _ "g" _ {["a" := PN 10; "l" := PN 0]}); [reflexivity| | | |by vm_compute].
  - intros k w Hk. apply lookup_insert_Some in Hk as [[<- _] | [_ Hk]]; [|apply lookup_singleton_Some in Hk as [<- _]]; apply (bool_decide_unpack _); by vm_compute.
  - intros k w Hk. apply lookup_insert_Some in Hk as [[<- <-] | [_ Hk]]; [|apply lookup_singleton_Some in Hk as [<- <-]]; by apply value_input.
  - intros k t dt Hk Hn. repeat (apply elem_of_cons in Hk as [[= -> -> ->] | Hk]; [first [by vm_compute in Hn|by split_and!]|]). by apply elem_of_nil in Hk.
Qed.

(** An optional parameter with a source that is not provided: the dependency is optional,
    so the build and the inputs are accepted, but the node raises KeyError instead of
    using the default. *)
Definition psp4 : dict (spec pv) := [("c", POne (DSource "z"))].
Definition n4 : pnode pv string unit := default pf (pnode_of pf "g" psp4).
Theorem C41_optional_source_refuted : exists m : gmap name pv,
  pnode_of pf "g" psp4 = Some n4 /\ dget (pn_inputs n4) "z" = Some (tt, OPTIONAL) /\
  (forall k t dt, (k, (t, dt)) ∈ pn_inputs n4 -> m !! k = None -> dt = OPTIONAL) /\
  pn_call n4 (kwargs (pn_inputs n4) m) = Err (NKey "z") /\ pn_call pf (kwargs (pn_inputs pf) m) = Ok (PN 8).
Proof.
  exists {["a" := PN 3; "b" := PN 2; "l" := PN 0]}. split_and!; [reflexivity|by vm_compute| |by vm_compute|by vm_compute].
  intros k t dt Hk Hn. repeat (apply elem_of_cons in Hk as [[= -> -> ->] | Hk]; [first [done|by vm_compute in Hn]|]). by apply elem_of_nil in Hk.
Qed.

(** A required and an optional parameter with the same source: the dependency is optional. *)
Theorem C41_required_refuted : exists sp n',
  pnode_of pf "g" sp = Some n' /\ dget sp "a" = Some (POne (DSource "z")) /\ dget (pn_inputs pf) "a" = Some (tt, REQUIRED) /\
  dget (pn_inputs n') "z" = Some (tt, OPTIONAL).
Proof. exists [("a", POne (DSource "z")); ("c", POne (DSource "z"))]. eexists. split_and!; [reflexivity|done|done|by vm_compute]. Qed.

Print Assumptions C41_outputs.
Print Assumptions C41_dependencies.
Print Assumptions C41_value_partial.
Print Assumptions C41_literal_name_refuted.
Print Assumptions C41_optional_source_refuted.
Print Assumptions C41_required_refuted.
Print Assumptions C41_inject.
Print Assumptions C41_parameterize_values.
Print Assumptions C41_parameterize_sources.
