From Coq Require Import ZArith.
From Verif Require Import Base DeprecateModel DeprecateSpec.

Lemma version_gt_before v w : version_gt v w = true <-> before w v.
Proof.
  destruct v as [a b c], w as [a' b' c']. unfold version_gt. cbn [major minor patch tuple_gt]. split.
  - repeat case_decide; subst; rewrite ?bool_decide_eq_true; intros; [done|by constructor..].
  - intros H. inversion H; subst; repeat case_decide; rewrite ?bool_decide_eq_true; lia.
Qed.
Lemma before_irrefl v : ~ before v v.
Proof. intros H. inversion H; lia. Qed.
Lemma before_trans u v w : before u v -> before v w -> before u w.
Proof. intros H1 H2. inversion H1; subst; inversion H2; subst; try (constructor; lia). Qed.
Lemma before_total u v : before u v \/ u = v \/ before v u.
Proof.
  destruct u as [a b c], v as [a' b' c']. destruct (Z.lt_trichotomy a a') as [?|[->|?]]; [left; by constructor| |right; right; by constructor].
  destruct (Z.lt_trichotomy b b') as [?|[->|?]]; [left; by constructor| |right; right; by constructor].
  destruct (Z.lt_trichotomy c c') as [?|[->|?]]; [left; by constructor|by right; left|right; right; by constructor].
Qed.

Lemma sapp_assoc (a b c : string) : ((a ++ b) ++ c = a ++ b ++ c)%string.
Proof. induction a as [|x a IH]; [done|]. exact (f_equal (String x) IH). Qed.
Lemma sapp_nil (a : string) : (a ++ "" = a)%string.
Proof. induction a as [|x a IH]; [done|]. exact (f_equal (String x) IH). Qed.
Lemma within_trans x y z : within x y -> within y z -> within x z.
Proof. intros (a & b & ->) (c & d & ->). exists (c ++ a)%string, (b ++ d)%string. by rewrite !sapp_assoc. Qed.
Lemma within_spaced x l : x ∈ l -> within x (spaced l).
Proof.
  induction 1 as [x l|x y l H IH].
  - destruct l as [|y l]; [exists "", ""; cbn; by rewrite sapp_nil|]. by exists "", (" " ++ spaced (y :: l))%string.
  - destruct l as [|z l]; [by inversion H|]. destruct IH as (a & b & E). exists (y ++ " " ++ a)%string, b.
    transitivity (y ++ " " ++ spaced (z :: l))%string; [done|]. rewrite E. by rewrite !sapp_assoc.
Qed.

Section Proofs.
Context {S A R : Type}.
Variables warn_action fail_action : string -> S -> res derr unit * S.
Notation action := (action warn_action fail_action).
Notation invoke := (invoke (A := A) (R := R) warn_action fail_action).
Notation call := (call (A := A) (R := R) warn_action fail_action).
Notation impl := (impl (S := S) (A := A) (R := R)).
Notation cls := (cls (S := S) (A := A) (R := R)).
Notation stmt := (stmt (S := S) (A := A) (R := R)).

Definition bounded (n : nat) (i : impl) : Prop := match i with Orig _ => True | New k _ => k <= n end.
Fixpoint wf (m : list cls) : Prop :=
  match m with
  | [] => True
  | c :: m' => (forall i, c_call c = Some i -> bounded (length m) i) /\ (forall i, c_old c = Some i -> bounded (length m) i) /\ wf m'
  end.
Lemma bounded_le n n' i : bounded n i -> n <= n' -> bounded n' i.
Proof. destruct i; cbn; lia. Qed.
Lemma wf_call m i : wf m -> get_call m = Some i -> bounded (length m) i.
Proof.
  induction m as [|c m IH]; [done|]. intros (H1 & H2 & H3). cbn [get_call]. destruct (c_call c) as [j|] eqn:E.
  - intros [= <-]. by apply H1.
  - intros H. apply (bounded_le (length m)); [by apply IH|cbn; lia].
Qed.
Lemma wf_old m i : wf m -> get_old m = Some i -> bounded (length m) i.
Proof.
  induction m as [|c m IH]; [done|]. intros (H1 & H2 & H3). cbn [get_old]. destruct (c_old c) as [j|] eqn:E.
  - intros [= <-]. by apply H2.
  - intros H. apply (bounded_le (length m)); [by apply IH|cbn; lia].
Qed.
Lemma wf_drop n m : wf m -> wf (drop n m).
Proof. revert m. induction n as [|n IH]; intros m H; [done|]. destruct m as [|c m]; [done|]. apply IH. by destruct H as (_ & _ & ?). Qed.
Lemma class_at_cons k c (m : list cls) : k <= length m -> class_at k (c :: m) = class_at k m.
Proof. intros H. unfold class_at. cbn [length]. rewrite Nat.sub_succ_l by done. done. Qed.
Lemma class_at_length k (m : list cls) : k <= length m -> length (class_at k m) = k.
Proof. intros H. unfold class_at. rewrite drop_length. lia. Qed.
Lemma class_at_all (m : list cls) : class_at (length m) m = m.
Proof. unfold class_at. by rewrite Nat.sub_diag. Qed.

Lemma invoke_cons limit c m i a s : wf m -> bounded (length m) i -> invoke limit (c :: m) i a s = invoke limit m i a s.
Proof.
  intros Hm. revert i s. induction limit as [|limit IH]; intros i s Hi; [done|]. destruct i as [body|k d]; [done|].
  cbn [DeprecateModel.invoke]. cbn in Hi. rewrite class_at_cons by done. destruct (action d _ s) as [[[]|x] s']; [|done].
  destruct (get_old (class_at k m)) as [i'|] eqn:E; [|done]. apply IH.
  apply (bounded_le k); [|done]. rewrite <- (class_at_length k m Hi). apply wf_old; [|done]. by apply wf_drop.
Qed.

Lemma define_wf (l : list stmt) m : (forall c, c ∈ l -> length (s_decs c) <= 1) -> define l = Ok m -> wf m /\ length m = length l.
Proof.
  revert m. induction l as [|[q b ds] l IH]; intros m Hl; cbn [define]; [by intros [= <-]|].
  destruct (define l) as [m0|] eqn:E; [|done]. destruct (IH m0) as [Hw Hn]; [intros; apply Hl; by right|done|].
  assert (Hd : length ds <= 1) by (apply (Hl (Stmt q b ds)); left).
  assert (Hw' : wf (Cls q (Orig <$> b) None :: m0)).
  { cbn. split; [|by split]. intros i. by destruct b; intros [= <-]. }
  cbn [s_decs s_qual s_call]. destruct ds as [|d [|d' ds]]; [| |cbn in Hd; lia]; cbn [decorate_classes].
  - intros [= <-]. split; [done|cbn; by rewrite Hn].
  - unfold decorate_class. destruct (get_call _) as [i|] eqn:Ei; [|done]. intros [= <-]. split; [|cbn; by rewrite Hn].
    cbn [wf]. split; [|split; [|done]].
    + intros j [= <-]. cbn. lia.
    + intros j [= <-]. exact (wf_call _ _ Hw' Ei).
Qed.

Lemma call_define l m acts body limit a s : (forall c, c ∈ l -> length (s_decs c) <= 1) -> resolves l acts body -> define l = Ok m ->
  length acts < limit -> call limit m a s = then_ action acts body a s.
Proof.
  intros Hl Hr. revert m limit s. induction Hr as [q body ds bases|q ds bases acts body Hr IH]; intros m limit s; cbn [define];
    (destruct (define bases) as [m0|] eqn:E; [|done]);
    (destruct (define_wf bases m0) as [Hw Hn]; [intros; apply Hl; by right|done|]);
    (assert (Hd : length ds <= 1) by (exact (Hl _ (elem_of_list_here _ _)))); cbn [s_decs s_qual s_call];
    (destruct ds as [|d [|d' ds]]; [| |cbn in Hd; lia]); cbn [decorate_classes map app length fmap option_fmap option_map]; unfold decorate_class; cbn [get_call c_call c_qual].
  - intros [= <-] Hlim. destruct limit as [|limit]; [lia|]. done.
  - intros [= <-] Hlim. destruct limit as [|[|limit]]; [lia..|]. unfold DeprecateModel.call. cbn [get_call c_call DeprecateModel.invoke then_].
    match goal with |- context [class_at ?k ?m] => assert (class_at k m = m) as Hc by exact (class_at_all m); rewrite Hc; clear Hc end. cbn [head from_option c_qual get_old c_old].
    by destruct (action d q s) as [[[]|x] s'].
  - intros [= <-] Hlim. unfold DeprecateModel.call. cbn [get_call c_call].
    specialize (IH (fun c Hc => Hl c (elem_of_list_further _ _ _ Hc)) m0 limit s eq_refl Hlim). unfold DeprecateModel.call in IH.
    destruct (get_call m0) as [i|] eqn:Ei; [|done]. rewrite invoke_cons; [done..|by apply wf_call].
  - destruct (get_call m0) as [i|] eqn:Ei; [|done]. intros [= <-] Hlim. destruct limit as [|limit]; [lia|].
    unfold DeprecateModel.call. cbn [get_call c_call DeprecateModel.invoke then_].
    match goal with |- context [class_at ?k ?m] => assert (class_at k m = m) as Hc by exact (class_at_all m); rewrite Hc; clear Hc end. cbn [head from_option c_qual get_old c_old].
    destruct (action d q s) as [[[]|x] s']; [|done].
    rewrite invoke_cons; [|done|by apply wf_call].
    specialize (IH (fun c Hc => Hl c (elem_of_list_further _ _ _ Hc)) m0 limit s' eq_refl ltac:(lia)). unfold DeprecateModel.call in IH. by rewrite Ei in IH.
Qed.
End Proofs.
