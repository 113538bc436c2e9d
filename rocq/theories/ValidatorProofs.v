(** Lemmas about the default validators. *)
From Coq Require Import QArith Lia Lqa Field.
From Verif Require Import Base Dict NodeModel CheckModel GraphModel ValidatorModel ValidatorSpec.
Local Open Scope Q_scope.

Lemma num_le_iff a b : num_le a b = true <-> le a b.
Proof. destruct a, b; cbn; try done; apply Qle_bool_iff. Qed.
Lemma num_le_false a b : num_le a b = false <-> ~ le a b.
Proof. rewrite <- num_le_iff. by destruct (num_le a b). Qed.
Lemma num_eq_iff a b : num_eq a b = true <-> le a b /\ le b a.
Proof.
  destruct a, b; cbn; try (split; [done|intros [? ?]; done]).
  - rewrite Qeq_bool_iff. split; [intros H; rewrite H; split; apply Qle_refl|intros [? ?]; by apply Qle_antisym].
Qed.
Lemma atom_eq_iff a b : atom_eq a b = true <-> equal a b.
Proof. destruct a, b; cbn; try done; [apply num_eq_iff|apply bool_decide_eq_true]. Qed.
Lemma atom_same_iff a b : (forall k x, b = ANum k x -> ~ nan x) -> atom_same a b = true <-> equal a b.
Proof.
  intros Hb. rewrite <- atom_eq_iff. destruct a as [k [q| | |i]|s], b as [k' [q'| | |j]|s']; try done. exfalso. apply (Hb k' (NaN j)); [done|by exists j].
Qed.
Lemma isna_iff c : isna c = true <-> missing c.
Proof. destruct c as [[k [q| | |i]|s]| |]; cbn; split; try done; try (by intros [i Hi]). intros _. by exists i. Qed.
Lemma isna_filter (cs : list cell) : filter (fun c => isna c = true) cs = filter missing cs.
Proof.
  induction cs as [|c cs IH]; [done|]. rewrite !filter_cons, IH. pose proof (isna_iff c). destruct (decide (isna c = true)), (decide (missing c)); tauto.
Qed.

Lemma prefix_iff p s : String.prefix p s = true <-> exists b, s = (p ++ b)%string.
Proof.
  revert s. induction p as [|c p IH]; intros s; simpl.
  - split; [intros _; by exists s|by destruct s].
  - destruct s as [|c' s]; [split; [done|by intros [b Hb]]|]. simpl. destruct (decide (c = c')) as [->|Hc].
    + destruct (Ascii.ascii_dec c' c'); [|done]. rewrite IH. split; intros [b Hb]; exists b; [by rewrite Hb|by injection Hb].
    + destruct (Ascii.ascii_dec c c'); [done|]. split; [done|]. intros [b Hb]. by injection Hb.
Qed.
Lemma contains_iff p s : str_contains p s = true <-> infix p s.
Proof.
  induction s as [|c s IH].
  - change (String.prefix p "" || false = true <-> infix p ""). rewrite orb_false_r, prefix_iff. split.
    + intros [b Hb]. by exists "", b.
    + intros (a & b & H). destruct a; [by exists b|done].
  - change (String.prefix p (String c s) || str_contains p s = true <-> infix p (String c s)). rewrite orb_true_iff, prefix_iff, IH. split.
    + intros [[b Hb]|(a & b & ->)]; [by exists "", b|by exists (String c a), b].
    + intros (a & b & H). destruct a as [|c' a]; [left; by exists b|]. injection H as -> H. right. by exists a, b.
Qed.

Lemma emap_strings s l : emap (in_string s) (map AStr l) = Ok (map (fun p => str_contains p s) l).
Proof. induction l as [|p l IH]; [done|]. cbn [map emap in_string]. by rewrite IH. Qed.

Lemma count_false l : count false (map Some l) = 0%nat <-> Forall (fun b : bool => b = true) l.
Proof.
  unfold count. induction l as [|b l IH]; [done|]. cbn [map]. rewrite filter_cons, Forall_cons. destruct b.
  - rewrite decide_False by done. rewrite IH. tauto.
  - rewrite decide_True by done. cbn. split; [lia|]. by intros [? _].
Qed.

Lemma numbers_finite cs qs : finite_cells cs qs -> numbers cs = Ok (map Fin qs).
Proof.
  induction 1 as [|c cs qs Hc H IH|k q cs qs H IH]; [done| |].
  - apply isna_iff in Hc. cbn [numbers]. destruct c as [[k x|s]| |]; [by rewrite Hc|done|done|done].
  - cbn [numbers isna]. by rewrite IH.
Qed.
Lemma finite_map qs : finite (map Fin qs) = qs.
Proof. unfold finite. induction qs as [|q qs IH]; [done|]. cbn. by rewrite IH. Qed.
Lemma no_inf qs : existsb is_pinf (map Fin qs) = false /\ existsb is_ninf (map Fin qs) = false.
Proof. induction qs as [|q qs [IH1 IH2]]; [done|]. cbn. done. Qed.
Lemma finite_cells_fun cs qs qs' : finite_cells cs qs -> finite_cells cs qs' -> qs = qs'.
Proof. intros H1%numbers_finite H2%numbers_finite. rewrite H1 in H2. injection H2 as H2. apply (f_equal finite) in H2. by rewrite !finite_map in H2. Qed.

Lemma nat_q_pos n : (0 < n)%nat -> 0 < nat_q n.
Proof. intros H. unfold nat_q. rewrite <- (Zlt_Qlt 0). lia. Qed.
Lemma average_mean qs m : qs <> [] -> is_mean qs m <-> m == average qs.
Proof.
  intros H. unfold is_mean, average. fold (nat_q (length qs)). change (qlen qs) with (nat_q (length qs)). change (qsum qs) with (sum qs).
  assert (Hp : 0 < nat_q (length qs)) by (apply nat_q_pos; destruct qs; cbn; [done|lia]). split.
  - intros [_ Hm]. rewrite <- Hm. field. intros Hz. rewrite Hz in Hp. by apply Qlt_irrefl in Hp.
  - intros ->. split; [done|]. field. intros Hz. rewrite Hz in Hp. by apply Qlt_irrefl in Hp.
Qed.
Lemma average_is qs : qs <> [] -> is_mean qs (average qs).
Proof. intros H. by apply average_mean. Qed.
Lemma mean_finite qs : qs <> [] -> mean (map Fin qs) = Fin (average qs).
Proof. intros H. destruct (no_inf qs) as [H1 H2]. unfold mean. rewrite H1, H2, finite_map. by destruct qs. Qed.
Lemma sum_ext (f g : Q -> Q) qs : (forall q, f q == g q) -> sum (map f qs) == sum (map g qs).
Proof. intros H. induction qs as [|q qs IH]; [done|]. cbn. by rewrite H, IH. Qed.
Lemma variance_finite qs : (2 <= length qs)%nat -> exists v, variance (map Fin qs) = Some v /\ is_variance qs v /\ forall v', is_variance qs v' -> v' == v.
Proof.
  intros H. destruct (no_inf qs) as [H1 H2]. unfold variance. rewrite H1, H2, finite_map. cbn [orb].
  assert (Hne : qs <> []) by (intros ->; cbn in H; lia).
  set (m := average qs). set (w := qsum _).
  assert (Hl : qlen qs - 1 == nat_q (length qs - 1)).
  { unfold qlen, nat_q. rewrite Nat2Z.inj_sub by lia. unfold Zminus. rewrite inject_Z_plus, inject_Z_opp. reflexivity. }
  assert (Hp : 0 < nat_q (length qs - 1)) by (apply nat_q_pos; lia).
  assert (Hz : ~ nat_q (length qs - 1) == 0) by (intros Hz; rewrite Hz in Hp; by apply Qlt_irrefl in Hp).
  exists (w / (qlen qs - 1)). split; [destruct qs as [|? [|? ?]]; cbn in H; [lia|lia|done]|]. split.
  - split; [done|]. exists m. split; [by apply average_is|]. rewrite Hl. change w with (sum (map (fun q => (q - m) * (q - m)) qs)). by field.
  - intros v' (_ & m' & Hm & Hv). apply average_mean in Hm; [|done]. rewrite Hl.
    assert (Hw : v' * nat_q (length qs - 1) == w).
    { rewrite Hv. unfold w. change qsum with sum. apply sum_ext. intros q. by rewrite Hm. }
    rewrite <- Hw. by field.
Qed.
