(** Theorems about deprecation (C87). *)
From Coq Require Import ZArith.
From Verif Require Import Base DeprecateModel DeprecateSpec DeprecateProofs.

(** ** Which deprecations are accepted *)
Theorem C87_accepted g d : post_init g = Ok d <->
  (g_use g <> None \/ g_guide g <> None) /\ ensure_version_type (g_warn g) = Ok (d_warn d) /\ ensure_version_type (g_fail g) = Ok (d_fail d) /\ ensure_version_type (g_current g) = Ok (d_current d) /\
  ((0 < major (d_fail d))%Z -> minor (d_fail d) = 0%Z /\ patch (d_fail d) = 0%Z) /\ ~ before (d_fail d) (d_warn d) /\
  d_use d = g_use g /\ d_explanation d = g_explanation g /\ d_guide d = g_guide g.
Proof.
  destruct d as [w f u x gd c], g as [gw gf gu gx gg gc]. unfold post_init. cbn [g_warn g_fail g_use g_explanation g_guide g_current d_warn d_fail d_use d_explanation d_guide d_current].
  destruct (bool_decide (gu = None) && bool_decide (gg = None)) eqn:E0.
  { apply andb_true_iff in E0 as [H1%bool_decide_eq_true H2%bool_decide_eq_true]. split; [done|]. intros ([?|?] & _); done. }
  assert (H0 : gu <> None \/ gg <> None).
  { apply andb_false_iff in E0 as [H1%bool_decide_eq_false|H1%bool_decide_eq_false]; tauto. }
  destruct (ensure_version_type gw) as [w'|] eqn:Ew; [|split; [done|]; by intros (_ & ? & _)].
  destruct (ensure_version_type gf) as [f'|] eqn:Ef; [|split; [done|]; by intros (_ & _ & ? & _)].
  destruct (ensure_version_type gc) as [c'|] eqn:Ec; [|split; [done|]; by intros (_ & _ & _ & ? & _)].
  unfold validate_fail_starting.
  destruct (bool_decide (0 < major f')%Z && _) eqn:E1.
  { split; [done|]. intros (_ & _ & [= ->] & _ & Hm & _). apply andb_true_iff in E1 as [H1%bool_decide_eq_true H2]. destruct (Hm H1) as [H3 H4].
    rewrite !bool_decide_true in H2 by done. done. }
  destruct (version_gt w' f') eqn:E2.
  { split; [done|]. intros (_ & [= ->] & [= ->] & _ & _ & Hb & _). by apply version_gt_before in E2. }
  split.
  - intros [= -> -> -> -> -> ->]. split_and!; try done.
    + intros Hp. rewrite bool_decide_true in E1 by done. cbn in E1.
      by apply orb_false_iff in E1 as [H1%negb_false_iff%bool_decide_eq_true H2%negb_false_iff%bool_decide_eq_true].
    + intros Hb%version_gt_before. congruence.
  - by intros (_ & [= ->] & [= ->] & [= ->] & _ & _ & -> & -> & ->).
Qed.
Theorem C87_parts l v : (ensure_version_type (STuple l) = Ok v <-> l = [major v; minor v; patch v]) /\
  (from_version_tuple l = Ok v <-> exists more, l = major v :: minor v :: patch v :: more).
Proof.
  destruct v as [a b c]. split.
  - cbn. destruct l as [|? [|? [|? [|? ?]]]]; cbn; split; intros H; try done; by injection H as -> -> ->.
  - unfold from_version_tuple. split.
    + destruct l as [|x [|y [|z l]]]; cbn; [done..|]. destruct l as [|? l].
      * cbn. intros [= -> -> ->]. by exists [].
      * rewrite decide_True by (cbn; lia). cbn. intros [= -> -> ->]. by eexists.
    + intros (more & ->). cbn [major minor patch]. destruct more as [|? more]; [done|]. by rewrite decide_True by (cbn; lia).
Qed.

(** ** When something is said *)
(** That it is from the version given on is refuted: it is after it. *)
Theorem C87_when_partial d : (should_fail d = true <-> before (d_fail d) (d_current d)) /\ (should_warn d = true <-> before (d_warn d) (d_current d)).
Proof. split; apply version_gt_before. Qed.
(** Later versions of Hamilton never take anything back. *)
Theorem C87_later d d' : d_warn d' = d_warn d -> d_fail d' = d_fail d -> ~ before (d_current d') (d_current d) ->
  (should_fail d = true -> should_fail d' = true) /\ (should_warn d = true -> should_warn d' = true).
Proof.
  intros Hw Hf Hc. unfold should_fail, should_warn. rewrite !version_gt_before, Hw, Hf.
  destruct (before_total (d_current d) (d_current d')) as [H|[<-|H]]; [|done|done]. split; intros; by eapply before_trans.
Qed.
(** What fails has been accepted to warn before, unless both versions are the same. *)
Theorem C87_warns_first g d : post_init g = Ok d -> should_fail d = true -> should_warn d = true.
Proof.
  intros (_ & _ & _ & _ & _ & Hb & _)%C87_accepted. unfold should_fail, should_warn. rewrite !version_gt_before. intros Hf.
  destruct (before_total (d_warn d) (d_fail d)) as [H|[->|H]]; [by eapply before_trans|done|done].
Qed.

(** ** What is said: what is deprecated, why, from when, what to use and where to read on *)
Theorem C87_message d q : let told m := within q m /\ within (shown (d_fail d)) m /\ within (d_explanation d) m /\
    (forall u, d_use d = Some u -> within u m) /\ (forall u, d_guide d = Some u -> within u m) in
  told (failure_message d q) /\ told (warn_message d q).
Proof.
  assert (Hadv : forall x y, (forall u, d_use d = Some u -> within u (spaced (x :: y :: advice d))) /\ (forall u, d_guide d = Some u -> within u (spaced (x :: y :: advice d)))).
  { intros x y. split; intros u Hu.
    - apply within_trans with ("Instead, you should be using: " ++ u ++ ".")%string; [by eexists _, _|]. apply within_spaced. do 2 right.
      unfold advice. rewrite Hu. left.
    - apply within_trans with ("For migration, see: " ++ u ++ ".")%string; [by eexists _, _|]. apply within_spaced. do 2 right.
      unfold advice. rewrite Hu. apply elem_of_app. right. left. }
  intros told. split; (split; [|split; [|split; [|apply Hadv]]]).
  - eapply within_trans; [|apply within_spaced; left]. by exists "", (" has been deprecated, as of hamilton version: " ++ shown (d_fail d) ++ ".")%string.
  - eapply within_trans; [|apply within_spaced; left]. exists (q ++ " has been deprecated, as of hamilton version: ")%string, "."%string. by rewrite sapp_assoc.
  - apply within_spaced. right. left.
  - eapply within_trans; [|apply within_spaced; left]. by exists "", (" will be deprecated by hamilton version: " ++ shown (d_fail d) ++ ".")%string.
  - eapply within_trans; [|apply within_spaced; left]. exists (q ++ " will be deprecated by hamilton version: ")%string, "."%string. by rewrite sapp_assoc.
  - apply within_spaced. right. left.
Qed.

Section Props.
Context {S A R : Type}.
Variables warn_action fail_action : string -> S -> res derr unit * S.
Notation action := (action warn_action fail_action).

(** ** Functions *)
(** Each call does what is to be done for each of the decorators, the first first, and then is a call
    of the function. *)
Theorem C87_function ds (f : fn (S := S) (A := A) (R := R)) a s :
  f_run (decorated warn_action fail_action ds f) a s = then_ action (map (fun d => (d, f_qual f)) ds) (f_run f) a s /\ f_qual (decorated warn_action fail_action ds f) = f_qual f.
Proof.
  assert (Hq : forall ds, f_qual (decorated warn_action fail_action ds f) = f_qual f) by (intros es; induction es as [|e es IH]; [done|exact IH]).
  split; [|apply Hq]. revert s. induction ds as [|d ds IH]; intros s; [done|]. cbn. fold (decorated warn_action fail_action ds f). rewrite Hq.
  destruct (action d (f_qual f) s) as [[[]|x] s']; [apply IH|done].
Qed.
(** With the actions that are the default: one warning a call, result and effects as without; or an
    error, and the function is not called. *)
Theorem C87_default (d : deprecated) (f : fn (S := S) (A := A) (R := R)) a s : (forall m s, fail_action m s = (Err (DDeprecation m), s)) ->
  f_run (decorated warn_action fail_action [d] f) a s =
    if should_fail d then (Err (DDeprecation (failure_message d (f_qual f))), s)
    else if should_warn d then match warn_action (warn_message d (f_qual f)) s with (Ok _, s') => f_run f a s' | (Err x, s') => (Err x, s') end
    else f_run f a s.
Proof.
  intros Hf. cbn [decorated foldr decorate f_run f_qual]. unfold DeprecateModel.action. destruct (should_fail d); [by rewrite Hf|]. by destruct (should_warn d).
Qed.

(** ** Classes *)
(** Calling an instance of a class does the same for each deprecated class from its own to the one
    that defines the method. Classes with two such decorators are left out: see [C87_twice_refuted]. *)
Theorem C87_class_partial (l : list (stmt (S := S) (A := A) (R := R))) m acts body limit a s : (forall c, c ∈ l -> length (s_decs c) <= 1) ->
  resolves l acts body -> define l = Ok m -> length acts < limit -> call warn_action fail_action limit m a s = then_ action acts body a s.
Proof. apply call_define. Qed.
Lemma defined_call (l : list (stmt (S := S) (A := A) (R := R))) m acts body : resolves l acts body -> define l = Ok m -> is_Some (get_call m).
Proof.
  intros Hr. revert m. assert (Hd : forall ds m m', is_Some (get_call m) -> decorate_classes (S := S) (A := A) (R := R) ds m = Ok m' -> is_Some (get_call m')).
  { induction ds as [|d ds IH]; intros m m' Hm; cbn [decorate_classes]; [by intros [= <-]|]. destruct (decorate_classes ds m) as [m1|]; [|done]. unfold decorate_class.
    destruct m1 as [|c m1]; [done|]. destruct (get_call (c :: m1)); [|done]. intros [= <-]. by eexists. }
  induction Hr as [q body ds bases|q ds bases acts body Hr IH]; intros m; cbn [define]; (destruct (define bases) as [m0|] eqn:E; [|done]).
  - intros Hx. refine (Hd _ _ _ _ Hx). by eexists.
  - intros Hx. refine (Hd _ _ _ _ Hx). exact (IH _ eq_refl).
Qed.
Lemma decorate_defined ds (m : list (cls (S := S) (A := A) (R := R))) : is_Some (get_call m) -> exists m', decorate_classes ds m = Ok m' /\ is_Some (get_call m').
Proof.
  intros Hm. induction ds as [|d ds (m' & E & i & Hi)]; [by exists m|]. cbn [decorate_classes]. rewrite E. unfold decorate_class.
  destruct m' as [|c m']; [done|]. rewrite Hi. eexists. split; [done|by eexists].
Qed.
(** Such classes can be defined if those that are decorated have such a method. *)
Theorem C87_defined (l : list (stmt (S := S) (A := A) (R := R))) :
  (forall l1 c l2, l = l1 ++ c :: l2 -> s_decs c <> [] -> exists acts body, resolves (c :: l2) acts body) -> exists m, define l = Ok m.
Proof.
  induction l as [|[q b ds] l IH]; intros Hl; [by exists []|]. destruct IH as (m & E).
  { intros l1 c l2 -> Hc. by apply (Hl (Stmt q b ds :: l1) c l2). }
  cbn [define]. rewrite E. cbn [s_decs s_qual s_call]. destruct ds as [|d ds]; [by eexists|].
  destruct (Hl [] (Stmt q b (d :: ds)) l eq_refl) as (acts & body & Hr); [done|].
  destruct (decorate_defined (d :: ds) (Cls q (Orig <$> b) None :: m)) as (m' & E' & _); [|by exists m'].
  inversion Hr; subst; [by eexists|]. cbn. by eapply defined_call.
Qed.
End Props.

(** ** Non-vacuity: a log of warnings *)
Definition logs (m : string) (s : list string) : res derr unit * list string := (Ok tt, s ++ [m]).
Definition raises (m : string) (s : list string) : res derr unit * list string := (Err (DDeprecation m), s).
Definition old : given := Given (STuple [1; 10; 0]%Z) (STuple [2; 0; 0]%Z) (Some "new") "It moved." None (STuple [1; 84; 0]%Z).
Definition oldD : deprecated := Deprecated (Version 1 10 0) (Version 2 0 0) (Some "new") "It moved." None (Version 1 84 0).
Definition twice (a : nat) (s : list string) : res derr nat * list string := (Ok (2 * a), s ++ ["called"]).
Example C87_old : post_init old = Ok oldD /\ should_warn oldD = true /\ should_fail oldD = false /\
  f_run (decorated logs raises [oldD] (Fn "f" twice)) 4 [] = (Ok 8, ["f will be deprecated by hamilton version: 2.0.0. It moved. Instead, you should be using: new. This is a drop-in replacement."; "called"])%string.
Proof. by vm_compute. Qed.
Definition laterD : deprecated := Deprecated (Version 1 10 0) (Version 2 0 0) (Some "new") "It moved." None (Version 2 0 1).
Example C87_past : should_fail laterD = true /\ (f_run (decorated logs raises [laterD] (Fn "f" twice)) 4 []).2 = [] /\ ~ before (d_current laterD) (d_current oldD).
Proof. split_and!; [by vm_compute..|]. intros H. inversion H; lia. Qed.
Definition classes : list (stmt (S := list string) (A := nat) (R := nat)) := [Stmt "derived" None [oldD]; Stmt "middle" None []; Stmt "base" (Some twice) [oldD]].
Example C87_classes : resolves classes [(oldD, "derived"); (oldD, "base")] twice /\ exists m, define classes = Ok m /\
  (call logs raises 3 m 4 []).1 = Ok 8 /\ length (call logs raises 3 m 4 []).2 = 3.
Proof.
  split.
  - exact (resolves_base "derived" [oldD] _ _ _ (resolves_base "middle" [] _ _ _ (resolves_own "base" twice [oldD] []))).
  - eexists. split; [reflexivity|]. by vm_compute.
Qed.

(** ** Refutations *)
(** In the very version from which on it warns, or fails, nothing is said, or no more than a warning. *)
Theorem C87_starting_refuted : exists g d, post_init g = Ok d /\ d_current d = d_warn d /\ should_warn d = false /\
  exists g' d', post_init g' = Ok d' /\ d_current d' = d_fail d' /\ should_fail d' = false.
Proof.
  exists (Given (STuple [1; 84; 0]) (STuple [2; 0; 0]) (Some "new") "" None (STuple [1; 84; 0]))%Z. eexists. split; [reflexivity|]. split_and!; [done..|].
  exists (Given (STuple [1; 10; 0]) (STuple [2; 0; 0]) (Some "new") "" None (STuple [2; 0; 0]))%Z. eexists. by split; [reflexivity|].
Qed.
(** Users need not be warned by any version: both may be the same although one "must come before". *)
Theorem C87_unwarned_refuted : exists g d, post_init g = Ok d /\ forall c, let d' := Deprecated (d_warn d) (d_fail d) (d_use d) (d_explanation d) (d_guide d) c in
  should_warn d' = true -> should_fail d' = true.
Proof.
  exists (Given (STuple [2; 0; 0]) (STuple [2; 0; 0]) (Some "new") "" None (STuple [2; 0; 0]))%Z. eexists. split; [reflexivity|]. done.
Qed.
(** A class deprecated twice cannot be called: it recurses until Python stops it, with a warning each
    time. *)
Theorem C87_twice_refuted : exists (l : list (stmt (S := list string) (A := nat) (R := nat))) m acts body, resolves l acts body /\ define l = Ok m /\
  (then_ (action logs raises) acts body 4 []).1 = Ok 8 /\ forall limit s, (call logs raises limit m 4 s).1 = Err DRecursion.
Proof.
  exists [Stmt "c" (Some twice) [oldD; oldD]]. eexists _, _, _. split; [apply resolves_own|]. split; [reflexivity|]. split; [by vm_compute|].
  assert (Hact : forall q s, action logs raises oldD q s = (Ok tt, s ++ [warn_message oldD q])).
  { intros q s. unfold action. assert (should_fail oldD = false) as -> by reflexivity. assert (should_warn oldD = true) as -> by reflexivity. done. }
  intros limit s. unfold call. cbn [get_call c_call length]. revert s.
  induction limit as [|limit IH]; intros s; [done|]. cbn [invoke]. rewrite Hact. cbn [class_at length Nat.sub drop get_old c_old]. exact (IH _).
Qed.

Print Assumptions C87_accepted.
Print Assumptions C87_parts.
Print Assumptions C87_when_partial.
Print Assumptions C87_later.
Print Assumptions C87_warns_first.
Print Assumptions C87_message.
Print Assumptions C87_function.
Print Assumptions C87_default.
Print Assumptions C87_class_partial.
Print Assumptions C87_defined.
Print Assumptions C87_starting_refuted.
Print Assumptions C87_unwarned_refuted.
Print Assumptions C87_twice_refuted.
