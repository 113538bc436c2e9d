(** C55: the names of the nodes of piped steps. *)
From Coq Require Import Ascii.
From stdpp Require Import pretty.
From Verif Require Import Base Dict NodeModel NodeSpec PipeModel PipeSpec PipeProofs Strings CheckProofs PipeProps.

(** The name of a function without one leading underscore. *)
Definition bare (fn : name) : name := match fn with String "_" s => s | _ => fn end.
(** Steps that are applied, in order. *)
Definition applied {V E T} (aps : list (app V E T)) : list (app V E T) := filter (fun a => ap_resolves a = true) aps.
(** Documented name of a step: its own, or with_<function>, numbered if the function was used before. *)
Definition step_name {V E T} (before : list (app V E T)) (a : app V E T) : name :=
  match ap_name a with
  | Some x => x
  | None =>
      match length (filter (fun b => ap_fn b = ap_fn a) before) with
      | 0 => ("with_" ++ bare (ap_fn a))%string
      | S k => ("with_" ++ bare (ap_fn a) ++ "_" ++ pretty (S k))%string
      end
  end.
(** The namespace of a step: that of the pipe, else its own, else the decorated function. *)
Definition step_namespace {V E T} (nsp : nspec) (fn : name) (a : app V E T) : option name :=
  match nsp with
  | NsName s => Some s
  | NsNone => None
  | NsDefault => match ap_ns a with NsName s => Some s | NsNone => None | NsDefault => Some fn end
  end.
Definition qualified (ns : option name) (x : name) : name := match ns with Some s => (s ++ "." ++ x)%string | None => x end.

Section Names.
Context {V E T : Type}.
Implicit Types (a b : app V E T).

Lemma app_empty_s (s : string) : (s ++ "")%string = s.
Proof. induction s as [|c s IH]; [done|]. rewrite append_cons. by rewrite IH. Qed.
Lemma with_name_bare fn c : with_name fn c = ("with_" ++ bare fn ++ (if decide (c = 0) then "" else "_" ++ pretty c))%string.
Proof.
  unfold with_name. destruct fn as [|x s]; [reflexivity|]. unfold bare. cbn [String.prefix].
  destruct x as [[] [] [] [] [] [] [] []]; try reflexivity. destruct s; reflexivity.
Qed.
Lemma step_node_name a fn nsp c target n : step_node a fn nsp c target = Some n ->
  pn_name n = qualified (step_namespace nsp fn a) (default (with_name (ap_fn a) c) (ap_name a)).
Proof.
  unfold step_node. destruct (bind_function_args a target) as [[]|]; [|done]. intros [= <-]. cbn [reassign_inputs pn_name].
  unfold step_namespace, qualified, in_namespace. by destruct nsp, (ap_ns a).
Qed.

Lemma chain_names (aps : list (app V E T)) nsp fn : forall before cnt target nodes last,
  (forall f, default 0 (dget cnt f) = length (filter (fun b => ap_fn b = f) before)) ->
  chain cnt target aps nsp fn = Some (nodes, last) ->
  length nodes = length (applied aps) /\
  forall pre a post, applied aps = pre ++ a :: post ->
    exists n, nodes !! length pre = Some n /\ pn_name n = qualified (step_namespace nsp fn a) (step_name (before ++ pre) a).
Proof.
  unfold applied. induction aps as [|a aps IH]; intros before cnt target nodes last Hc H; cbn [chain] in H.
  - injection H as <- <-. split; [done|]. by intros [|].
  - rewrite filter_cons. destruct (ap_resolves a) eqn:R.
    + rewrite decide_True by done. destruct (step_node a fn nsp _ target) as [n|] eqn:En; [|done].
      destruct (chain _ _ aps nsp fn) as [[ns l]|] eqn:Ec; [|done]. injection H as <- <-.
      eapply (IH (before ++ [a])) in Ec as [IL IN].
      * split; [cbn; by rewrite IL|]. intros [|a0 pre] a' post Heq; cbn in Heq; injection Heq as -> Heq.
        -- exists n. split; [done|]. rewrite app_nil_r. apply step_node_name in En. rewrite En. f_equal. unfold step_name.
           destruct (ap_name a'); [done|]. cbn [default]. rewrite with_name_bare, Hc. generalize (length (filter (fun b => ap_fn b = ap_fn a') before)).
           intros [|k]; [by rewrite decide_True, app_empty_s|by rewrite decide_False].
        -- destruct (IN pre a' post Heq) as (m & Hm & Hname). exists m. split; [done|]. by rewrite Hname, <- (assoc_L (++)).
      * intros f. rewrite dget_dset, filter_app, app_length. cbn [filter list_filter]. destruct (decide (f = ap_fn a)) as [-> | Hne].
        -- rewrite decide_True by done. cbn. rewrite Hc. lia.
        -- rewrite decide_False by done. cbn. rewrite Hc. lia.
    + rewrite decide_False by done. by eapply IH.
Qed.

(** The nodes of the steps are those of the steps that are applied, in order, each with
    its documented name. *)
Theorem C55_step_names (aps : list (app V E T)) nsp fn target nodes last :
  chain_transforms target aps nsp fn = Some (nodes, last) ->
  length nodes = length (applied aps) /\
  forall pre a post, applied aps = pre ++ a :: post ->
    exists n, nodes !! length pre = Some n /\ pn_name n = qualified (step_namespace nsp fn a) (step_name pre a).
Proof. intros H. by apply (chain_names aps nsp fn [] [] target nodes last). Qed.

Lemma qualified_inj ns x y : qualified ns x = qualified ns y -> x = y.
Proof. destruct ns; cbn; [|done]. intros H. apply app_inj_l in H. cbn in H. by injection H. Qed.

Lemma step_name_inj (l : list (app V E T)) pre pre' a a' :
  (forall b, b ∈ l -> ap_name b = None) ->
  (forall b c, b ∈ l -> c ∈ l -> bare (ap_fn b) = bare (ap_fn c) -> ap_fn b = ap_fn c) ->
  (forall b c (k : nat), b ∈ l -> c ∈ l -> bare (ap_fn b) <> (bare (ap_fn c) ++ "_" ++ pretty k)%string) ->
  a ∈ l -> a' ∈ l -> step_name pre a = step_name pre' a' ->
  ap_fn a = ap_fn a' /\ length (filter (fun b => ap_fn b = ap_fn a) pre) = length (filter (fun b => ap_fn b = ap_fn a') pre').
Proof.
  intros Hn Hb Hk Ha Ha'. unfold step_name. rewrite (Hn a Ha), (Hn a' Ha').
  generalize (length (filter (fun b => ap_fn b = ap_fn a) pre)), (length (filter (fun b => ap_fn b = ap_fn a') pre')).
  intros [|i] [|j] H; (apply app_inj_l in H || (cbn in H; injection H as H)).
  - split; [by apply Hb|done].
  - exfalso. by apply (Hk a a' (S j)).
  - exfalso. by apply (Hk a' a (S i)).
  - apply split_last_unique in H as [H1 H2]; [|apply pretty_no_underscore|apply pretty_no_underscore].
    split; [by apply Hb|]. by apply (inj pretty) in H2.
Qed.

(** Steps in one namespace have different names, also when a function is used several times,
    if no two functions differ only in a leading underscore or a number at the end. *)
Theorem C55_step_names_distinct (aps : list (app V E T)) nsp fn target nodes last ns :
  chain_transforms target aps nsp fn = Some (nodes, last) ->
  (forall b, b ∈ aps -> ap_name b = None /\ step_namespace nsp fn b = ns) ->
  (forall b c, b ∈ aps -> c ∈ aps -> bare (ap_fn b) = bare (ap_fn c) -> ap_fn b = ap_fn c) ->
  (forall b c (k : nat), b ∈ aps -> c ∈ aps -> bare (ap_fn b) <> (bare (ap_fn c) ++ "_" ++ pretty k)%string) ->
  NoDup (map pn_name nodes).
Proof.
  intros H Hn Hb Hk. apply C55_step_names in H as [Hl Hname].
  assert (Hat : forall i x, map pn_name nodes !! i = Some x -> exists pre a post, applied aps = pre ++ a :: post /\ length pre = i /\ x = qualified ns (step_name pre a) /\ a ∈ aps).
  { intros i x Hx. rewrite list_lookup_fmap in Hx. destruct (nodes !! i) as [n|] eqn:En; [|done]. injection Hx as <-.
    assert (Hi : i < length (applied aps)) by (rewrite <- Hl; by eapply lookup_lt_Some).
    destruct (lookup_lt_is_Some_2 _ _ Hi) as [a Ha]. exists (take i (applied aps)), a, (drop (S i) (applied aps)).
    assert (Hs : applied aps = take i (applied aps) ++ a :: drop (S i) (applied aps)) by by rewrite take_drop_middle.
    assert (Hlen : length (take i (applied aps)) = i) by (rewrite take_length; lia).
    assert (Hin : a ∈ aps) by (apply elem_of_list_lookup_2, elem_of_list_filter in Ha; tauto).
    split_and!; [done|done| |done]. destruct (Hname _ _ _ Hs) as (n' & Hn' & Heq). rewrite Hlen in Hn'. rewrite En in Hn'. injection Hn' as <-.
    rewrite Heq. f_equal. by apply Hn. }
  apply NoDup_alt. intros i j x Hi Hj. apply Hat in Hi as (pre & a & post & E1 & L1 & X1 & I1), Hj as (pre' & a' & post' & E2 & L2 & X2 & I2).
  assert (Hq : step_name pre a = step_name pre' a') by (apply (qualified_inj ns); congruence).
  apply (step_name_inj aps) in Hq as [Hf Hc]; [|intros; by apply Hn|done|done|done|done].
  (* equal counts of the same function before positions that both hold it: the positions are the same *)
  assert (W : forall p q b b' r r', applied aps = p ++ b :: r -> applied aps = q ++ b' :: r' -> ap_fn b = ap_fn b' -> length p < length q ->
    length (filter (fun c => ap_fn c = ap_fn b) p) < length (filter (fun c => ap_fn c = ap_fn b') q)).
  { intros p q b b' r r' H1 H2 Hbb Hlt. assert (Hp : (p ++ [b]) `prefix_of` q).
    { assert (P1 : (p ++ [b]) `prefix_of` applied aps) by (exists r; rewrite H1, <- (assoc_L (++)); done).
      assert (P2 : q `prefix_of` applied aps) by (by exists (b' :: r')).
      destruct (prefix_weak_total _ _ _ P1 P2) as [P|P]; [done|]. apply prefix_length in P as P'. rewrite app_length in P'. cbn in P'.
      assert (length (p ++ [b]) = length q) by (rewrite app_length; cbn; lia). destruct P as [k Hk2].
      assert (k = []) as -> by (destruct k; [done|]; apply (f_equal length) in Hk2; rewrite !app_length in Hk2; cbn in Hk2; rewrite app_length in *; cbn in *; lia).
      exists []. by rewrite Hk2, !app_nil_r. }
    destruct Hp as [k ->]. rewrite !filter_app, !app_length, Hbb. cbn [filter list_filter]. rewrite decide_True by done. cbn. lia. }
  destruct (Nat.lt_trichotomy i j) as [Hlt|[He|Hlt]]; [|done|].
  - exfalso. assert (Hw := W pre pre' a a' post post' E1 E2 Hf ltac:(lia)). lia.
  - exfalso. assert (Hw := W pre' pre a' a post' post E2 E1 (eq_sym Hf) ltac:(lia)). lia.
Qed.
End Names.

Print Assumptions C55_step_names.
Print Assumptions C55_step_names_distinct.

(** The same function three times, with a step that does not resolve in between. *)
Example C55_step_names_example : exists nodes last,
  chain_transforms "x" [plus_step [] []; plus_step [] []; times_step [] [("k", DSource "z")] false; times_step [] [("k", DSource "z")] true; plus_step [] []] NsDefault "f" = Some (nodes, last) /\
  map pn_name nodes = ["f.with_plus"; "f.with_plus_1"; "f.with_times"; "f.with_plus_2"].
Proof. do 2 eexists. split; reflexivity. Qed.

(** Two functions that differ in a leading underscore only, and a function whose name ends
    like the number of a repeated one: two steps of one pipe have the same name. *)
Definition renamed_step (fn : name) : app nat string unit :=
  let a := plus_step [] [] in App fn (ap_params a) (ap_type a) (ap_call a) (ap_args a) (ap_kwargs a) true None NsDefault.
Theorem C55_step_names_refuted :
  (exists nodes last, chain_transforms "x" [renamed_step "_plus"; renamed_step "plus"] NsDefault "f" = Some (nodes, last) /\
    map pn_name nodes = ["f.with_plus"; "f.with_plus"]) /\
  (exists nodes last, chain_transforms "x" [renamed_step "plus"; renamed_step "plus"; renamed_step "plus_1"] NsDefault "f" = Some (nodes, last) /\
    map pn_name nodes = ["f.with_plus"; "f.with_plus_1"; "f.with_plus_1"]).
Proof. split; do 2 eexists; split; reflexivity. Qed.
Print Assumptions C55_step_names_refuted.
