(** C44: @check_output returns the unmodified value iff no failing check. *)
From stdpp Require Import pretty.
From Verif Require Import Base Dict NodeModel NodeSpec NodeProofs PipeSpec PipeProofs CheckModel CheckProofs.

(** The decorated node has a value iff the function has it, every validator returns, and the
    validators of importance FAIL pass; the value is the function's. The nodes generated
    have different names, which the construction of a dataflow requires. *)
Theorem C44_value {V E T} (result_type : T) (passes : V -> bool) (ns : dict (pnode V E T)) env n vs v :
  (forall y n, dget ns y = Some n -> NoDup (dkeys (pn_inputs n))) ->
  (forall m, m ∈ check_output result_type passes vs n -> dget ns (pn_name m) = Some m) ->
  NoDup (map pn_name (check_output result_type passes vs n)) ->
  value ns env (pn_name n) v <->
  exists m rs, args ns env (pn_inputs n) m /\ pn_call n (kwargs (pn_inputs n) m) = Ok v /\
    Forall2 (fun vd r => vd_validate vd v = Ok r /\ (vd_fail vd = true -> passes r = true)) vs rs.
Proof. intros W Hn Hd. by apply (check_value result_type passes ns env n vs Hn Hd). Qed.

(** When the function returns [w] and every validator returns, the node raises
    DataValidationError with all the validators of importance FAIL that do not pass, if there
    are some, and returns [w] otherwise. *)
Theorem C44_error {V E T} (result_type : T) (passes : V -> bool) (ns : dict (pnode V E T)) env n vs m0 w rs :
  (forall y n, dget ns y = Some n -> NoDup (dkeys (pn_inputs n))) ->
  (forall m, m ∈ check_output result_type passes vs n -> dget ns (pn_name m) = Some m) ->
  NoDup (map pn_name (check_output result_type passes vs n)) ->
  args ns env (pn_inputs n) m0 -> pn_call n (kwargs (pn_inputs n) m0) = Ok w ->
  Forall2 (fun vd r => vd_validate vd w = Ok r) vs rs ->
  exists fin, dget ns (pn_name n) = Some fin /\
    (exists m, args ns env (pn_inputs fin) m) /\
    forall m, args ns env (pn_inputs fin) m ->
    pn_call fin (kwargs (pn_inputs fin) m) =
      let bad := filter (fun vr => vd_fail vr.1 = true /\ passes vr.2 = false) (zip vs rs) in
      if decide (bad = []) then Ok w else Err (NValidation (map (fun vr => vd_name vr.1) bad)).
Proof.
  intros W Hn Hd A C HF. eexists. split; [by apply (final_dget result_type passes ns n vs Hn)|].
  assert (Hw : value ns env (raw_name n) w) by (apply (raw_value result_type passes ns env n vs Hn); eauto). split.
  - by apply (check_args result_type passes ns env n vs Hn Hd w rs).
  - intros m Hm. destruct (final_args result_type passes ns env n vs Hn Hd m W Hm) as (v' & rs' & Hv & HF' & ->).
    assert (v' = w) as -> by (by eapply (value_fun ns env)).
    assert (rs' = rs) as ->.
    { clear -HF HF'. revert rs' HF'. induction HF as [|vd r vs rs H1 HF IH]; intros rs' H'; inversion H'; subst; [done|]. f_equal; [congruence|by apply IH]. }
    cbn zeta. unfold failing. destruct (filter _ _) as [|b bad]; [by rewrite decide_True|by rewrite decide_False].
Qed.

(** The names are different when no validator is called "raw" or like another validator with
    a number; validators may share a name. *)
Theorem C44_names {V E T} (result_type : T) (passes : V -> bool) (n : pnode V E T) vs :
  (forall v w (k : nat), v ∈ vs -> w ∈ vs -> vd_name v <> (vd_name w ++ "_" ++ pretty k)%string) ->
  (forall v, v ∈ vs -> vd_name v <> "raw") ->
  NoDup (map pn_name (check_output result_type passes vs n)).
Proof. apply check_nodup. Qed.

(** ** Example: f(x) = x, checked with two validators of the same name; results are 0 or 1 *)
Definition cf : pnode nat string unit := from_fn "f" tt [("x", (tt, REQUIRED))] (fun kw => Ok (default 0 (kw !! "x"))).
Definition small (k : nat) (fail : bool) : validator nat string :=
  Validator "small" fail (fun v => Ok (if decide (v < k) then 1 else 0)).
Definition cpasses (r : nat) : bool := bool_decide (r = 1).
Definition cvs := [small 5 false; small 10 true].
Definition cns : dict (pnode nat string unit) := map (fun n => (pn_name n, n)) (check_output tt cpasses cvs cf).
Example check_example_names : dkeys cns = ["f_small"; "f_small_1"; "f"; "f_raw"].
Proof. by vm_compute. Qed.
Example check_hypotheses :
  (forall y n, dget cns y = Some n -> NoDup (dkeys (pn_inputs n))) /\
  (forall m, m ∈ check_output tt cpasses cvs cf -> dget cns (pn_name m) = Some m) /\
  NoDup (map pn_name (check_output tt cpasses cvs cf)).
Proof.
  split_and!.
  - intros y n Hy. unfold cns in Hy. apply dget_elem in Hy. apply elem_of_list_fmap in Hy as (m & [= -> ->] & Hm).
    repeat (apply elem_of_cons in Hm as [-> | Hm]; [apply (bool_decide_unpack _); by vm_compute|]). by apply elem_of_nil in Hm.
  - intros m Hm. repeat (apply elem_of_cons in Hm as [-> | Hm]; [reflexivity|]). by apply elem_of_nil in Hm.
  - apply (bool_decide_unpack _). by vm_compute.
Qed.
(** 7 passes the check of importance FAIL only; 12 passes none. *)
Example check_runs : value cns {["x" := 7]} "f" 7 /\ ~ (exists v, value cns {["x" := 12]} "f" v).
Proof.
  destruct check_hypotheses as (W & Hn & Hd). split.
  - apply (C44_value tt cpasses cns {["x" := 7]} cf cvs 7 W Hn Hd). exists {["x" := 7]}, [0; 1]. split_and!.
    + split.
      * intros k w Hk. apply lookup_singleton_Some in Hk as [<- <-]. split; [by left|by apply value_input].
      * intros k t dt Hk Hm. apply elem_of_list_singleton in Hk as [= -> -> ->]. by vm_compute in Hm.
    + by vm_compute.
    + repeat constructor; done.
  - intros [v Hv]. apply (C44_value tt cpasses cns {["x" := 12]} cf cvs v W Hn Hd) in Hv as (m & rs & [A1 A2] & Hc & HF).
    assert (Hx : m !! "x" = Some 12).
    { destruct (m !! "x") as [w|] eqn:Em.
      - destruct (A1 _ _ Em) as [_ Hw]. apply value_input_iff in Hw; [|by vm_compute]. rewrite lookup_singleton in Hw. congruence.
      - destruct (A2 "x" tt REQUIRED) as [? _]; [by left|done|done]. }
    assert (Hk : kwargs (pn_inputs cf) m = [("x", 12)]) by (unfold kwargs; cbn; by rewrite Hx). rewrite Hk in Hc.
    assert (v = 12) as -> by (vm_compute in Hc; congruence).
    inversion HF as [|? ? ? ? _ HF']; subst. inversion HF' as [|? r ? ? [H1 H2] _]; subst. vm_compute in H1. injection H1 as <-. by specialize (H2 eq_refl).
Qed.

(** ** Refutations *)
(** Validators a, a and a_1: two nodes are called f_a_1, so the dataflow is refused. *)
Definition vd (nm : name) : validator nat string := Validator nm true (fun v => Ok 1).
Theorem C44_numbered_name_refuted : ~ NoDup (map pn_name (check_output tt cpasses [vd "a"; vd "a"; vd "a_1"] cf)).
Proof. apply (bool_decide_unpack _). by vm_compute. Qed.
(** A validator called "raw". *)
Theorem C44_raw_name_refuted : ~ NoDup (map pn_name (check_output tt cpasses [vd "raw"] cf)).
Proof. apply (bool_decide_unpack _). by vm_compute. Qed.
(** Two check decorators on one function (base.py 500-520: the second one transforms the
    final node): two nodes are called f_raw. *)
Theorem C44_stacked_refuted : exists m rest,
  check_output tt cpasses [vd "a"] cf = rest ++ [m; raw_node cf] /\ pn_name m = "f" /\
  ~ NoDup (map pn_name (rest ++ [raw_node cf] ++ check_output tt cpasses [vd "b"] m)).
Proof. eexists _, [_]. split_and!; [reflexivity|reflexivity|]. apply (bool_decide_unpack _). by vm_compute. Qed.

Print Assumptions C44_value.
Print Assumptions C44_error.
Print Assumptions C44_names.
Print Assumptions C44_numbered_name_refuted.
Print Assumptions C44_raw_name_refuted.
Print Assumptions C44_stacked_refuted.
