From Coq Require Import Ascii.
From stdpp Require Import pretty.
From Verif Require Import Base Dict TelemModel TelemSpec.

(** * The flag *)
Lemma lower_ascii_spec a : (65 <= nat_of_ascii a <= 90 /\ nat_of_ascii (lower_ascii a) = nat_of_ascii a + 32) \/ ((nat_of_ascii a < 65 \/ 90 < nat_of_ascii a) /\ lower_ascii a = a).
Proof.
  unfold lower_ascii. cbv zeta. destruct (Nat.leb 65 (nat_of_ascii a) && Nat.leb (nat_of_ascii a) 90)%bool eqn:E.
  - apply andb_prop in E as [H1 H2]. apply Nat.leb_le in H1, H2. left. split; [lia|]. apply nat_ascii_embedding. lia.
  - right. split; [|done]. apply andb_false_iff in E as [H|H]; apply Nat.leb_gt in H; lia.
Qed.
Lemma spells_lower s : spells s (lower s).
Proof.
  induction s as [|a s IH]; cbn; [constructor|].
  destruct (lower_ascii_spec a) as [[H1 H2]|[H1 H2]].
  - by apply sp_capital.
  - rewrite H2. by apply sp_same.
Qed.
Lemma spells_fn s w : spells s w -> w = lower s.
Proof.
  induction 1 as [|a s w H IH Ha|a b s w H IH Ha Hb]; cbn; [done|..]; subst w; f_equal; destruct (lower_ascii_spec a) as [[H1 H2]|[H1 H2]]; try lia; try done.
  rewrite <-(ascii_nat_embedding b), <-(ascii_nat_embedding (lower_ascii a)). congruence.
Qed.
Lemma says_iff s b : says s b <-> getboolean s = Some b.
Proof.
  unfold says. split.
  - intros (w & Hw & Hin). apply spells_fn in Hw as ->. unfold getboolean. destruct b.
    + by rewrite decide_True.
    + rewrite decide_False; [by rewrite decide_True|].
      intros Hin'. repeat (apply elem_of_cons in Hin as [Hin|Hin]); try (rewrite Hin in Hin'; revert Hin'; refine (bool_decide_eq_false_1 _ _); vm_compute; reflexivity).
      by apply elem_of_nil in Hin.
  - unfold getboolean. intros H. exists (lower s). split; [apply spells_lower|].
    case_decide; [by simplify_eq|]. case_decide; [|done]. by simplify_eq.
Qed.
Lemma says_nothing_iff v : says_nothing v <-> (forall s, v = Some s -> getboolean s = None).
Proof.
  unfold says_nothing. split.
  - intros H s Hs. destruct (getboolean s) as [b|] eqn:E; [|done]. exfalso. apply (H s b Hs). by apply says_iff.
  - intros H s b Hs Hb. apply says_iff in Hb. rewrite (H s Hs) in Hb. done.
Qed.

(** * Schedules *)
Lemma tsteps_trans atomic c1 c2 c3 : tsteps atomic c1 c2 -> tsteps atomic c2 c3 -> tsteps atomic c1 c3.
Proof. induction 1; [done|]. intros. econstructor; eauto. Qed.
(** [play] is one. *)
Lemma play_tsteps atomic sched st ts : tsteps atomic (st, ts) (play atomic sched st ts).
Proof.
  revert st ts. induction sched as [|i sched IH]; intros st ts; cbn; [constructor|].
  destruct (ts !! i) as [t|] eqn:Hi; [|apply IH].
  destruct (tstep atomic st t) as [[[st' t'] raised]|] eqn:Ht; [|apply IH].
  econstructor; [done..|]. apply IH.
Qed.
Lemma tsteps_invariant atomic (I : tstate -> list thread -> Prop) :
  (forall st ts i t st' t' r, I st ts -> ts !! i = Some t -> tstep atomic st t = Some (st', t', r) -> I st' (<[i := t']> ts)) ->
  forall c c', tsteps atomic c c' -> I c.1 c.2 -> I c'.1 c'.2.
Proof.
  intros Hstep c c' H. induction H as [c|st ts i t st' t' r c Hi Ht _ IH]; [done|]. cbn. intros HI. apply IH. cbn. by eapply Hstep.
Qed.

Lemma off_invariant atomic st ts c : tsteps atomic (st, ts) c -> t_on st = false -> t_on c.1 = false /\ t_sent c.1 = t_sent st.
Proof.
  intros H Hoff. refine (tsteps_invariant atomic (fun st' _ => t_on st' = false /\ t_sent st' = t_sent st) _ _ _ H _); [|done].
  clear. intros st' ts i t st2 t' r [Hon Hsent] _ Ht. unfold tstep in Ht.
  destruct (th_pc t) as [[n e|n e|n e k|n e|e]|]; cbn in Ht.
  - by simplify_eq.
  - destruct atomic; by simplify_eq.
  - by simplify_eq.
  - by simplify_eq.
  - rewrite Hon in Ht. destruct e; by simplify_eq.
  - destruct (th_ops t) as [|[a e|e|] ops]; [done|..].
    + by simplify_eq.
    + rewrite Hon in Ht. by simplify_eq.
    + by simplify_eq.
Qed.

(** ** At most ten *)
Definition pc_comparing (p : option pc) : nat := match p with Some (PCompare _ _) => 1 | _ => 0 end.
Definition pc_passed (p : option pc) : nat := match p with Some (PSend _) => 1 | _ => 0 end.
Definition pc_storing (p : option pc) : nat := match p with Some (PStore _ _ _) => 1 | _ => 0 end.
Definition comparing (t : thread) : nat := pc_comparing (th_pc t).
Definition passed (t : thread) : nat := pc_passed (th_pc t).
Definition storing (t : thread) : nat := pc_storing (th_pc t).
Definition total (f : thread -> nat) (ts : list thread) : nat := sum_list_with f ts.
Lemma total_insert f ts i t t' : ts !! i = Some t -> total f (<[i := t']> ts) + f t = total f ts + f t'.
Proof.
  revert i. induction ts as [|u ts IH]; intros i Hi; [done|]. destruct i as [|i]; cbn in Hi.
  - simplify_eq. change (<[0 := t']> (t :: ts)) with (t' :: ts). unfold total. cbn. lia.
  - specialize (IH i Hi). change (<[S i := t']> (u :: ts)) with (u :: <[i := t']> ts). unfold total in *. cbn [sum_list_with]. lia.
Qed.
Definition inv_ten (st : tstate) (ts : list thread) : Prop :=
  total storing ts = 0 /\ length (asked st) + total passed ts + total comparing ts <= t_count st /\ length (asked st) + total passed ts <= 10.
Lemma comparing_pc t : comparing t = pc_comparing (th_pc t). Proof. done. Qed.
Lemma passed_pc t : passed t = pc_passed (th_pc t). Proof. done. Qed.
Lemma storing_pc t : storing t = pc_storing (th_pc t). Proof. done. Qed.
Lemma asked_app on c l x : asked (TState on c (l ++ [x])) = asked (TState on c l) ++ (if x.1 then [x] else []).
Proof. unfold asked. cbn. rewrite filter_app. f_equal. by destruct x as [[] e]. Qed.
Lemma asked_eq st st' : t_sent st = t_sent st' -> asked st = asked st'.
Proof. unfold asked. by intros ->. Qed.
Local Opaque total asked.
Lemma inv_ten_step st ts i t st' t' r : inv_ten st ts -> ts !! i = Some t -> tstep true st t = Some (st', t', r) -> inv_ten st' (<[i := t']> ts).
Proof.
  intros (H0 & H1 & H2) Hi Ht.
  pose proof (total_insert passed ts i t t' Hi) as Hp. rewrite (passed_pc t), (passed_pc t') in Hp.
  pose proof (total_insert comparing ts i t t' Hi) as Hc. rewrite (comparing_pc t), (comparing_pc t') in Hc.
  pose proof (total_insert storing ts i t t' Hi) as Hs. rewrite (storing_pc t), (storing_pc t') in Hs.
  unfold tstep in Ht.
  destruct (th_pc t) as [[n e|n e|n e k|n e|e]|]; cbn in Ht.
  - simplify_eq. cbn in Hp, Hc, Hs. unfold inv_ten. destruct (t_on st'); cbn in *; lia.
  - simplify_eq. cbn in Hp, Hc, Hs. unfold inv_ten. cbn. rewrite (asked_eq _ st) by done. lia.
  - simplify_eq. cbn in Hs. lia.
  - simplify_eq. cbn in Hp, Hc, Hs. unfold inv_ten. unfold MAX_COUNT_SESSION in *. case_decide; cbn in *; [lia|].
    destruct n; cbn in *; lia.
  - simplify_eq. cbn in Hp, Hc, Hs. unfold inv_ten. destruct e as [e|]; [destruct (t_on st) eqn:Hon|]; cbn; [|lia..].
    rewrite asked_app. cbn. rewrite app_length. cbn. rewrite (asked_eq _ st) by done. lia.
  - destruct (th_ops t) as [|[a e|e|] ops]; [done|..].
    + simplify_eq. cbn in Hp, Hc, Hs. unfold inv_ten. lia.
    + destruct (t_on st); simplify_eq; cbn in Hp, Hc, Hs; unfold inv_ten; [|lia]. cbn. rewrite asked_app. cbn. rewrite app_nil_r, (asked_eq _ st) by done. lia.
    + simplify_eq. cbn in Hp, Hc, Hs. unfold inv_ten. cbn. rewrite (asked_eq _ st) by done. lia.
Qed.
Local Transparent total asked.
Lemma total_starts f progs : (forall ops, f (Thread None ops) = 0) -> total f (starts progs) = 0.
Proof. intros H. unfold total, starts. induction progs as [|p progs IH]; cbn; [done|]. by rewrite H. Qed.
Lemma at_most_ten on progs st ts : tsteps true (fresh on, starts progs) (st, ts) -> length (asked st) <= 10.
Proof.
  intros H. assert (inv_ten st ts) as (_ & _ & ?); [|lia].
  refine (tsteps_invariant true inv_ten _ _ _ H _).
  - intros. by eapply inv_ten_step.
  - cbn. unfold inv_ten. rewrite !total_starts by done. cbn. lia.
Qed.

(** ** Nothing but what programs ask for *)
Definition pc_event (p : option pc) : list (bool * event) :=
  match p with
  | Some (PRead _ e) | Some (PInc _ e) | Some (PStore _ e _) | Some (PCompare _ e) | Some (PSend e) => match e with Some e => [(true, e)] | None => [] end
  | None => []
  end.
Definition todo (t : thread) : list (bool * event) := pc_event (th_pc t) ++ (th_ops t ≫= op_event).
Lemma todo_step atomic st t st' t' r : tstep atomic st t = Some (st', t', r) -> exists l, t_sent st' = t_sent st ++ l /\ l ++ todo t' ⊆+ todo t.
Proof.
  intros Ht. unfold tstep in Ht. unfold todo at 2.
  destruct (th_pc t) as [[n e|n e|n e k|n e|e]|]; cbn in Ht.
  - simplify_eq. exists []. rewrite app_nil_r. split; [done|]. cbn. unfold todo. destruct (t_on st'); cbn; [done|]. apply submseteq_inserts_l. done.
  - destruct atomic; simplify_eq; exists []; rewrite app_nil_r; done.
  - simplify_eq. exists []. by rewrite app_nil_r.
  - simplify_eq. exists []. rewrite app_nil_r. split; [done|]. cbn. unfold todo. case_decide; cbn; [by apply submseteq_inserts_l|]. destruct n; cbn; done.
  - simplify_eq. destruct e as [e|]; [destruct (t_on st) eqn:Hon|].
    + exists [(true, e)]. done.
    + exists []. rewrite app_nil_r. split; [done|]. cbn. unfold todo. cbn. by apply submseteq_cons.
    + exists []. by rewrite app_nil_r.
  - destruct (th_ops t) as [|[a e|e|] ops]; [done|..].
    + simplify_eq. exists []. rewrite app_nil_r. done.
    + destruct (t_on st); simplify_eq.
      * exists [(false, e)]. done.
      * exists []. rewrite app_nil_r. split; [done|]. cbn. unfold todo. cbn. by apply submseteq_cons.
    + simplify_eq. exists []. rewrite app_nil_r. done.
Qed.
Lemma concat_insert {A} (f : thread -> list A) ts i t t' l : ts !! i = Some t -> l ++ f t' ⊆+ f t -> l ++ concat (map f (<[i := t']> ts)) ⊆+ concat (map f ts).
Proof.
  intros Hi Hl. rewrite <-(take_drop_middle ts i t Hi) at 2.
  rewrite insert_take_drop by (by eapply lookup_lt_Some).
  rewrite !map_app, !concat_app. cbn.
  rewrite (Permutation_app_comm l). rewrite <-app_assoc. apply submseteq_app; [done|].
  rewrite (Permutation_app_comm _ l), app_assoc. by apply submseteq_app.
Qed.
Lemma only_asked_for atomic on progs st ts : tsteps atomic (fresh on, starts progs) (st, ts) -> t_sent st ⊆+ all_events progs.
Proof.
  intros H.
  assert (t_sent st ++ concat (map todo ts) ⊆+ all_events progs) as Hsub.
  { refine (tsteps_invariant atomic (fun st ts => t_sent st ++ concat (map todo ts) ⊆+ all_events progs) _ _ _ H _).
    - clear. intros st ts i t st' t' r HI Hi Ht. destruct (todo_step _ _ _ _ _ _ Ht) as (l & -> & Hl).
      etrans; [|exact HI]. rewrite <-app_assoc. apply submseteq_app; [done|]. by apply concat_insert with t.
    - cbn. unfold all_events, starts. clear. induction progs as [|p progs IH]; cbn; [done|].
      rewrite bind_app. apply submseteq_app; [done|]. exact IH. }
  etrans; [|exact Hsub]. by apply submseteq_inserts_r.
Qed.

(** ** One thread *)
Fixpoint chk (n c : nat) : bool * nat :=
  if decide (10 < S c) then (false, S c) else match n with 0 => (true, S c) | S n => chk n (S c) end.
Definition ev (ok : bool) (e : option event) : list (bool * event) := if ok then match e with Some e => [(true, e)] | None => [] end else [].
Fixpoint future (c : nat) (ops : list op) : list (bool * event) :=
  match ops with
  | [] => []
  | OGated a e :: ops => ev (chk a c).1 e ++ future (chk a c).2 ops
  | OFree e :: ops => (false, e) :: future c ops
  | ODisable :: ops => []
  end.
Definition after_check (c n : nat) : bool * nat := if decide (10 < c) then (false, c) else match n with 0 => (true, c) | S n => chk n c end.
Definition pc_future (c : nat) (p : option pc) (ops : list op) : list (bool * event) :=
  match p with
  | None => future c ops
  | Some (PRead n e) | Some (PInc n e) => ev (chk n c).1 e ++ future (chk n c).2 ops
  | Some (PStore n e k) => ev (chk n k).1 e ++ future (chk n k).2 ops
  | Some (PCompare n e) => ev (after_check c n).1 e ++ future (after_check c n).2 ops
  | Some (PSend e) => ev true e ++ future c ops
  end.
Lemma chk_after n c : chk n c = after_check (S c) n.
Proof. by destruct n. Qed.
Definition no_disable (ops : list op) : Prop := ODisable ∉ ops.
Lemma future_step atomic st t st' t' r all : tstep atomic st t = Some (st', t', r) ->
  t_on st = true /\ no_disable (th_ops t) /\ t_sent st ++ pc_future (t_count st) (th_pc t) (th_ops t) = all ->
  t_on st' = true /\ no_disable (th_ops t') /\ t_sent st' ++ pc_future (t_count st') (th_pc t') (th_ops t') = all.
Proof.
  intros Ht (Hon & Hno & <-). unfold tstep in Ht.
  destruct (th_pc t) as [[n e|n e|n e k|n e|e]|]; cbn in Ht.
  - simplify_eq. rewrite Hon. done.
  - destruct atomic; simplify_eq; [|done]. cbn [t_on t_sent t_count th_pc th_ops pc_future]. by rewrite chk_after.
  - simplify_eq. cbn [t_on t_sent t_count th_pc th_ops pc_future]. by rewrite chk_after.
  - simplify_eq. cbn [t_on t_sent t_count th_pc th_ops]. split_and!; [done..|]. f_equal. unfold MAX_COUNT_SESSION. cbn [pc_future]. unfold after_check.
    case_decide; [done|]. destruct n; done.
  - simplify_eq. cbn [th_pc th_ops]. rewrite Hon. destruct e as [e|]; cbn; [|done]. rewrite <-app_assoc. done.
  - destruct (th_ops t) as [|[a e|e|] ops]; [done|..].
    + simplify_eq. cbn. unfold no_disable in *. set_solver.
    + rewrite Hon in Ht. simplify_eq. cbn. rewrite <-app_assoc. unfold no_disable in *. set_solver.
    + exfalso. apply Hno. left.
Qed.
Lemma alone_future atomic ops st t : no_disable ops -> tsteps atomic (fresh true, starts [ops]) (st, [t]) ->
  t_on st = true /\ no_disable (th_ops t) /\ t_sent st ++ pc_future (t_count st) (th_pc t) (th_ops t) = future 0 ops.
Proof.
  intros Hno H.
  assert (exists t', [t] = [t'] /\ t_on st = true /\ no_disable (th_ops t') /\ t_sent st ++ pc_future (t_count st) (th_pc t') (th_ops t') = future 0 ops) as (t' & [= <-] & ?); [|done].
  refine (tsteps_invariant atomic (fun st ts => exists t', ts = [t'] /\ t_on st = true /\ no_disable (th_ops t') /\ t_sent st ++ pc_future (t_count st) (th_pc t') (th_ops t') = future 0 ops) _ _ _ H _).
  - clear. intros st ts i t st' t' r (t0 & -> & HI) Hi Ht. destruct i as [|i]; [|done]. cbn in Hi. simplify_eq. exists t'. split; [done|]. by eapply future_step.
  - exists (Thread None ops). done.
Qed.
Lemma chk_ok n c : c + S n <= 10 -> chk n c = (true, c + S n).
Proof.
  revert c. induction n as [|n IH]; intros c H; cbn; rewrite decide_False by lia; [f_equal; lia|]. rewrite IH by lia. f_equal. lia.
Qed.
Lemma chk_not_ok n c : 10 < c + S n -> exists c', chk n c = (false, c') /\ 10 < c'.
Proof.
  revert c. induction n as [|n IH]; intros c H; cbn.
  - rewrite decide_True by lia. eexists. split; [done|]. lia.
  - case_decide; [eexists; split; [done|]; lia|]. apply IH. lia.
Qed.
Lemma future_over a es c : 10 < c -> future c (map (OGated a) es) = [].
Proof.
  revert c. induction es as [|e es IH]; intros c H; [done|]. cbn. destruct (chk_not_ok a c) as (c' & -> & Hc'); [lia|]. cbn. by apply IH.
Qed.
Lemma future_gated a es j : j * S a <= 10 -> future (j * S a) (map (OGated a) es) = map (pair true) (omap id (take (10 / S a - j) es)).
Proof.
  revert j. induction es as [|e es IH]; intros j Hj; cbn [map future]; [by rewrite take_nil|].
  assert (10 = S a * (10 / S a) + 10 mod S a) as Hdiv by (apply Nat.div_mod; lia).
  assert (10 mod S a < S a) as Hmod by (apply Nat.mod_upper_bound; lia).
  destruct (decide (S j * S a <= 10)) as [Hok|Hok].
  - rewrite chk_ok by lia. cbn [fst snd].
    replace (j * S a + S a) with (S j * S a) by lia. rewrite IH by done.
    assert (S j <= 10 / S a) by (apply Nat.div_le_lower_bound; lia).
    replace (10 / S a - j) with (S (10 / S a - S j)) by lia. cbn. by destruct e.
  - destruct (chk_not_ok a (j * S a)) as (c' & -> & Hc'); [lia|]. cbn [fst snd ev app]. rewrite future_over by done.
    assert (10 / S a <= j) by (apply Nat.lt_succ_r, Nat.div_lt_upper_bound; lia).
    by replace (10 / S a - j) with 0 by lia.
Qed.
Lemma the_first_ten atomic a es st : tsteps atomic (fresh true, starts [map (OGated a) es]) (st, [Thread None []]) ->
  t_sent st = map (pair true) (omap id (take (10 / S a) es)).
Proof.
  intros H. apply alone_future in H as (_ & _ & H).
  - cbn in H. rewrite app_nil_r in H. rewrite H. pose proof (future_gated a es 0) as Hf. cbn [Nat.mul] in Hf. rewrite Hf by lia. by rewrite Nat.sub_0_r.
  - unfold no_disable. intros Hin. apply elem_of_list_In, in_map_iff in Hin as (? & ? & _). done.
Qed.

(** * What is sent *)
Lemma from_hamilton_none p : "hamilton" ∉ p -> from_hamilton p = None.
Proof. induction p as [|c p IH]; cbn; [done|]. intros H. rewrite decide_False by set_solver. apply IH. set_solver. Qed.
Lemma from_hamilton_some p q : "hamilton" ∉ p -> from_hamilton (p ++ "hamilton" :: q) = Some ("hamilton" :: q).
Proof. induction p as [|c p IH]; cbn; [by rewrite decide_True|]. intros H. rewrite decide_False by set_solver. apply IH. set_solver. Qed.
Lemma last_n_nearby f : "hamilton" ∈ last_n 4 (f_path f) -> nearby "hamilton" f.
Proof.
  unfold last_n. intros H. apply elem_of_list_split in H as (l1 & l2 & H).
  exists (take (length (f_path f) - 4) (f_path f) ++ l1), l2. split.
  - rewrite <-app_assoc, <-H. by rewrite take_drop.
  - assert (length (drop (length (f_path f) - 4) (f_path f)) = length (l1 ++ "hamilton" :: l2)) as Hl by (by rewrite H).
    rewrite drop_length, app_length in Hl. cbn in Hl. lia.
Qed.
Lemma users_frame root f : users root f -> ~ nearby "hamilton" f -> sanitize_frame f = ("...<USER_CODE>..." ++ newline)%string.
Proof. intros _ H. unfold sanitize_frame. rewrite from_hamilton_none; [done|]. intros Hin. by apply H, last_n_nearby. Qed.
Lemma last_n_elem {A} n (l : list A) x : x ∈ last_n n l -> x ∈ l.
Proof. unfold last_n. intros H. apply elem_of_list_lookup in H as [i H]. rewrite lookup_drop in H. by eapply elem_of_list_lookup_2. Qed.
Lemma Forall2_last_n {A B} (R : A -> B -> Prop) n l k : Forall2 R l k -> Forall2 R (last_n n l) (last_n n k).
Proof. intros H. unfold last_n. rewrite (Forall2_length _ _ _ H). by apply Forall2_drop. Qed.
Lemma foldl_frames (l k : list frame) s : Forall2 (fun f g => sanitize_frame f = sanitize_frame g) l k ->
  foldl (fun s f => (s ++ sanitize_frame f)%string) s l = foldl (fun s f => (s ++ sanitize_frame f)%string) s k.
Proof. intros H. revert s. induction H as [|f g l k H _ IH]; intros s; [done|]. cbn. rewrite H. apply IH. Qed.
Lemma sanitize_alike root tb tb' : Forall2 (frame_alike root) tb tb' -> apart root (Some tb) -> apart root (Some tb') -> sanitize_error tb = sanitize_error tb'.
Proof.
  intros H Ha Ha'. unfold sanitize_error. apply foldl_frames.
  assert (Forall2 (fun f g => sanitize_frame f = sanitize_frame g) tb tb') as Hall; [|by apply Forall2_last_n].
  apply Forall2_same_length_lookup_2; [by eapply Forall2_length|].
  intros i f g Hf Hg. destruct (Forall2_lookup_lr _ _ _ _ _ _ H Hf Hg) as [->|[Hu Hu']]; [done|].
  rewrite (users_frame root f Hu), (users_frame root g Hu'); [done|..].
  - apply (Ha' _ _ eq_refl); [by eapply elem_of_list_lookup_2|done].
  - apply (Ha _ _ eq_refl); [by eapply elem_of_list_lookup_2|done].
Qed.
Lemma error_alike_ok root e e' : error_alike root e e' -> apart root e -> apart root e' -> sanitize_error <$> e = sanitize_error <$> e'.
Proof. intros H. destruct H; [|done]. intros. cbn. f_equal. by eapply sanitize_alike. Qed.

Lemma count_name_alike d d' : obj_alike "hamilton.function_modifiers" d d' -> count_name d = count_name d'.
Proof. intros [->|[H H']]; [done|]. unfold count_name. by rewrite H, H'. Qed.
Lemma count_alike ds ds' : Forall2 (obj_alike "hamilton.function_modifiers") ds ds' -> count_decorators ds = count_decorators ds'.
Proof.
  unfold count_decorators. intros H. generalize ([] : dict nat). induction H as [|d d' ds ds' H _ IH]; intros c; [done|]. cbn. rewrite (count_name_alike _ _ H). apply IH.
Qed.
Lemma adapter_names_alike l l' : Forall2 adapter_alike l l' -> map (fun a => get_adapter_name (a_obj a)) l = map (fun a => get_adapter_name (a_obj a)) l'.
Proof.
  induction 1 as [|a a' l l' [H _] _ IH]; [done|]. cbn. f_equal; [|exact IH]. destruct H as [->|[H H']]; [done|]. unfold get_adapter_name. by rewrite H, H'.
Qed.
Lemma builder_alike l l' : Forall2 adapter_alike l l' -> get_result_builder_name l = get_result_builder_name l'.
Proof.
  intros H. unfold get_result_builder_name. assert (omap a_builds l = omap a_builds l') as ->; [|done].
  induction H as [|a a' l l' [_ H] _ IH]; [done|]. cbn. rewrite H, IH. done.
Qed.

(** ** Counting *)
Lemma uses_cons d ds n : uses (d :: ds) n = (if decide (count_name d = n) then 1 else 0) + uses ds n.
Proof.
  unfold uses, count_name. rewrite filter_cons. destruct (String.prefix "hamilton.function_modifiers" (o_module d)) eqn:E.
  - repeat case_decide; cbn; naive_solver.
  - repeat case_decide; cbn; naive_solver.
Qed.
Lemma count_gen ds c n : dget (foldl (fun c d => dset c (count_name d) (S (default 0 (dget c (count_name d))))) c ds) n
  = match uses ds n with 0 => dget c n | S k => Some (default 0 (dget c n) + S k) end.
Proof.
  revert c. induction ds as [|d ds IH]; intros c; [done|]. cbn [foldl]. rewrite IH, uses_cons.
  destruct (decide (count_name d = n)) as [->|Hne].
  - rewrite dget_dset_eq. cbn. destruct (uses ds n); f_equal; lia.
  - rewrite dget_dset_ne by done. done.
Qed.
