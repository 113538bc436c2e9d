(** Facts about strings: absence of a character, unique splitting at a separator. *)
From stdpp Require Import pretty.
From Verif Require Import Base.
From Coq Require Import Ascii.

Fixpoint lacks (c : ascii) (s : string) : Prop :=
  match s with
  | EmptyString => True
  | String a s' => a <> c /\ lacks c s'
  end.
Global Instance lacks_dec c s : Decision (lacks c s).
Proof. induction s as [|a s IH]; cbn; apply _. Defined.

Lemma lacks_app c s1 s2 : lacks c (s1 +:+ s2) <-> lacks c s1 /\ lacks c s2.
Proof.
  induction s1 as [|a s1 IH]; [cbn; tauto|].
  change (lacks c (String a s1 +:+ s2)) with (a <> c /\ lacks c (s1 +:+ s2)). cbn [lacks]. rewrite IH. tauto.
Qed.

Lemma append_cons x a b : String x a +:+ b = String x (a +:+ b).
Proof. done. Qed.

Lemma split_unique c a b a' b' : lacks c a -> lacks c a' ->
  a +:+ String c b = a' +:+ String c b' -> a = a' /\ b = b'.
Proof.
  revert a'. induction a as [|x a IH]; intros [|x' a'] H1 H2 Heq; rewrite ?append_cons in Heq.
  - by injection Heq.
  - injection Heq as -> _. by destruct H2.
  - injection Heq as -> _. by destruct H1.
  - injection Heq as -> Heq. destruct H1 as [_ H1], H2 as [_ H2]. by destruct (IH a' H1 H2 Heq) as [-> ->].
Qed.

Lemma app_assoc_s (a b c : string) : (a +:+ b) +:+ c = a +:+ (b +:+ c).
Proof. induction a as [|x a IH]; [done|]. rewrite !append_cons. by rewrite IH. Qed.

Lemma app_inj_l (a b b' : string) : a +:+ b = a +:+ b' -> b = b'.
Proof. induction a as [|x a IH]; [done|]. rewrite !append_cons. intros [= H]. by apply IH. Qed.

Lemma pretty_N_lacks c (x : N) s : (forall y, c <> pretty_N_char y) -> lacks c s -> lacks c (pretty_N_go x s).
Proof.
  intros Hc. revert s. induction (N.lt_wf_0 x) as [x _ IH]; intros s Hs.
  assert (x = 0 ∨ 0 < x)%N as [->|?] by lia.
  - by rewrite pretty_N_go_0.
  - rewrite pretty_N_go_step by done. apply IH; [by apply N.div_lt|]. cbn. split; [|done]. intros He. by eapply Hc.
Qed.
Lemma pretty_lacks c (i : nat) : (forall y, c <> pretty_N_char y) -> lacks c (pretty i).
Proof.
  intros Hc. unfold pretty, pretty_nat, pretty, pretty_N. case_decide.
  - cbn. split; [|done]. intros He. by apply (Hc 0%N).
  - by apply pretty_N_lacks.
Qed.
Lemma pretty_no_dash (i : nat) : lacks "-"%char (pretty i).
Proof. apply pretty_lacks. intros y. unfold pretty_N_char. by repeat case_match. Qed.
Lemma pretty_no_dot (i : nat) : lacks "."%char (pretty i).
Proof. apply pretty_lacks. intros y. unfold pretty_N_char. by repeat case_match. Qed.
Lemma pretty_no_colon (i : nat) : lacks ":"%char (pretty i).
Proof. apply pretty_lacks. intros y. unfold pretty_N_char. by repeat case_match. Qed.
