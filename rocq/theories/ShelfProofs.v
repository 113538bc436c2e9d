(** Proofs about CacheAdapter. *)
From Verif Require Import Base Strings ExecModel ExecSpec ExecProofs ExecResults ExecCong ShelfModel ShelfSpec.

Section P.
Context {V E : Type}.
Variable pickle : V -> option string.
Variable unpickle : string -> res E V.
Variable digest : string -> string.
Variable none : V.
Variable is_none : V -> bool.
Variable pickle_error source_error : E.
Hypothesis Hpk : pickles_ok pickle unpickle none is_none.
Hypothesis Hdg : digest_ok digest.

Notation key := (create_key pickle digest).
Notation shelf_ok := (shelf_ok pickle unpickle digest none).

Lemma pickles_inj l : forall l' s, pickles pickle l = Some s -> pickles pickle l' = Some s -> l = l'.
Proof.
  induction l as [|v l IH]; intros [|w l'] s H1 H2; cbn in *; [done| | |].
  - injection H1 as <-. destruct (pickle w) as [q|] eqn:Hq; [|done]. destruct (pickles pickle l') as [r|]; [|done].
    exfalso. injection H2 as H2. destruct q as [|a q]; [by apply (pk_nonempty _ _ _ _ Hpk w)|]. by rewrite append_cons in H2.
  - injection H2 as <-. destruct (pickle v) as [q|] eqn:Hq; [|done]. destruct (pickles pickle l) as [r|]; [|done].
    exfalso. injection H1 as H1. destruct q as [|a q]; [by apply (pk_nonempty _ _ _ _ Hpk v)|]. by rewrite append_cons in H1.
  - destruct (pickle v) as [p|] eqn:Hp; [|done]. destruct (pickles pickle l) as [a|] eqn:Ha; [|done].
    destruct (pickle w) as [q|] eqn:Hq; [|done]. destruct (pickles pickle l') as [b|] eqn:Hb; [|done].
    injection H1 as H1. injection H2 as H2. rewrite <-H2 in H1.
    destruct (pk_prefix _ _ _ _ Hpk _ _ _ _ _ _ Hp Hq H1) as [-> ->]. f_equal. by eapply IH.
Qed.
Lemma key_inj s s' l l' k : key (digest s) l = Some k -> key (digest s') l' = Some k -> s = s' /\ l = l'.
Proof.
  unfold create_key. destruct (pickles pickle l) as [p|] eqn:Hp; [|done]. destruct (pickles pickle l') as [q|] eqn:Hq; [|done].
  intros [= H1] [= H2]. rewrite <-H2 in H1. apply (dg_inj _ Hdg) in H1.
  apply (dg_prefix _ Hdg) in H1 as [H1 ->].
  split; [by apply (dg_inj _ Hdg)|]. by eapply pickles_inj.
Qed.

Section Life.
(** All requests that ever share the file, and those of the adapter. *)
Variable U L : list (request V E).
Hypothesis HU : graphs_ok U.
Hypothesis HLU : forall rq, rq ∈ L -> rq ∈ U.
Hypothesis Hid : sources_identify U.
Hypothesis Hone : one_source L.

Record sinv (st : sstate) : Prop := {
  si_shelf : shelf_ok U (ss_shelf st);
  si_used : forall x h, ss_used st !! x = Some h ->
     exists s, h = digest s /\ forall rq, rq ∈ L -> source_of (rq_fns rq x) = Some s;
}.

Notation exec_node := (execute_node pickle unpickle digest none is_none pickle_error source_error).
Notation to_exec := (run_to_execute_node pickle unpickle digest is_none pickle_error source_error).
Notation after := (run_after_node_execution pickle digest pickle_error).
Notation step := (step pickle unpickle digest none is_none pickle_error source_error).

(** Storing under a key. *)
Lemma shelf_insert shelf s vals k v b : shelf_ok U shelf -> key (digest s) vals = Some k -> pickle v = Some b ->
  (v = none \/ forall rq x nd kw, rq ∈ U -> rq_graph rq !! x = Some nd -> source_of (rq_fns rq x) = Some s ->
         arguments nd kw -> values nd kw = vals -> call (rq_fns rq x) kw = Ok v) ->
  shelf_ok U (<[k := b]> shelf).
Proof.
  intros Hs Hk Hp Hv s' vals' k' b' Hk' Hb'. destruct (decide (k' = k)) as [->|Hne].
  - rewrite lookup_insert in Hb'. injection Hb' as <-. destruct (key_inj _ _ _ _ _ Hk Hk') as [<- <-].
    exists v. split; [by apply (pk_load _ _ _ _ Hpk)|done].
  - rewrite lookup_insert_ne in Hb' by done. by eapply Hs.
Qed.

(** What a step adds to the file: nothing, or the result under the key of the call. *)
Lemma step_ok st rq x nd kw st' r : sinv st -> rq ∈ L -> rq_graph rq !! x = Some nd -> arguments nd kw ->
  exec_node st x (rq_fns rq x) nd kw = (st', r) ->
  sinv st' /\ ss_vars st' = ss_vars st /\
  (forall v, r = Ok v -> call (rq_fns rq x) kw = Ok v) /\
  (nothing_unpicklable pickle -> is_Some (source_of (rq_fns rq x)) -> r = call (rq_fns rq x) kw) /\
  (* the file afterwards *)
  (ss_shelf st' = ss_shelf st \/
   exists s k b w, source_of (rq_fns rq x) = Some s /\ key (digest s) (values nd kw) = Some k /\ pickle w = Some b /\
     ss_shelf st' = <[k := b]> (ss_shelf st) /\ (forall v, r = Ok v -> w = v) /\
     forall b0 v, ss_shelf st !! k = Some b0 -> unpickle b0 = Ok v -> v = none \/ w = v) /\
  (forall v s, r = Ok v -> x ∈ ss_vars st -> source_of (rq_fns rq x) = Some s -> exists k b, key (digest s) (values nd kw) = Some k /\
     ss_shelf st' !! k = Some b /\ unpickle b = Ok v) /\
  (* the functions invoked *)
  (ss_log st' = ss_log st \/
   (ss_log st' = ss_log st ++ [x] /\ (x ∉ ss_vars st \/
      exists s k, source_of (rq_fns rq x) = Some s /\ key (digest s) (values nd kw) = Some k /\
        forall b v, ss_shelf st !! k = Some b -> unpickle b = Ok v -> v = none))).
Proof.
  intros [Hsh Hus] Hrq Hg Hargs. unfold execute_node, run_to_execute_node, run_after_node_execution.
  destruct (bool_decide (x ∈ ss_vars st)) eqn:Hv.
  2: { intros Heq. cbn [ss_vars] in Heq. rewrite Hv in Heq. apply bool_decide_eq_false in Hv.
       injection Heq as <- <-. cbn. split_and!; try done; [by left|right; split; [done|by left]]. }
  apply bool_decide_eq_true in Hv as Hv'.
  destruct (source_of (rq_fns rq x)) as [s|] eqn:Hs.
  2: { intros Heq. rewrite Hv in Heq. destruct (ss_used st !! x) as [h|] eqn:Hu.
       { exfalso. destruct (Hus x h Hu) as (s & _ & Hall). specialize (Hall rq Hrq). congruence. }
       injection Heq as <- <-. split_and!; try done; [intros _ [? [=]]|by left|by left]. }
  destruct (key (digest s) (values nd kw)) as [k|] eqn:Hk.
  2: { intros Heq. rewrite Hv in Heq.
       assert (Htot : nothing_unpicklable pickle -> False).
       { intros Ht. unfold create_key in Hk. assert (Hps : forall l, is_Some (pickles pickle l)).
         { induction l as [|v l IH]; [by eexists|]. cbn. destruct (Ht v) as [p ->]. destruct IH as [q ->]. by eexists. }
         destruct (Hps (values nd kw)) as [p Hp]. by rewrite Hp in Hk. }
       assert (Hgoal : st' = st /\ exists e, r = Err e).
       { destruct (ss_used st !! x) as [h|] eqn:Hu.
         - destruct (Hus x h Hu) as (s' & -> & Hall). specialize (Hall rq Hrq). assert (s' = s) as -> by congruence.
           rewrite Hk in Heq. injection Heq as <- <-. eauto.
         - injection Heq as <- <-. eauto. }
       destruct Hgoal as (-> & e & ->). split_and!; try done; [by left|by left]. }
  assert (Hused : forall y h, <[x := digest s]> (ss_used st) !! y = Some h ->
    exists s, h = digest s /\ forall rq, rq ∈ L -> source_of (rq_fns rq y) = Some s).
  { intros y h Hy. destruct (decide (y = x)) as [->|Hne].
    - rewrite lookup_insert in Hy. injection Hy as <-. exists s. split; [done|]. intros rq' Hrq'.
      rewrite <-Hs. by apply Hone.
    - rewrite lookup_insert_ne in Hy by done. by apply Hus. }
  assert (Hall : forall v, call (rq_fns rq x) kw = Ok v ->
    forall rq' x' nd' kw', rq' ∈ U -> rq_graph rq' !! x' = Some nd' -> source_of (rq_fns rq' x') = Some s ->
         arguments nd' kw' -> values nd' kw' = values nd kw -> call (rq_fns rq' x') kw' = Ok v).
  { intros v Hc rq' x' nd' kw' H1 H2 H3 H4 H5. rewrite <-Hc. eapply (Hid rq' rq); eauto. }
  assert (Hmiss : (forall b v, ss_shelf st !! k = Some b -> unpickle b = Ok v -> v = none) ->
    (let '(st2, err) := (if bool_decide (x ∈ ss_vars st) then
        match <[x := digest s]> (ss_used st) !! x with
        | Some node_hash =>
            match key node_hash (values nd kw), pickle (match call (rq_fns rq x) kw with Ok v => v | Err _ => none end) with
            | Some key, Some b => (SState (<[key := b]> (ss_shelf st)) (<[x := digest s]> (ss_used st)) (ss_vars st) (ss_log st ++ [x]), None)
            | _, _ => (SState (ss_shelf st) (<[x := digest s]> (ss_used st)) (ss_vars st) (ss_log st ++ [x]), Some pickle_error)
            end
        | None => (SState (ss_shelf st) (<[x := digest s]> (ss_used st)) (ss_vars st) (ss_log st ++ [x]), None)
        end else (SState (ss_shelf st) (<[x := digest s]> (ss_used st)) (ss_vars st) (ss_log st ++ [x]), None)) in
     (st2, match err with Some e => Err e | None => call (rq_fns rq x) kw end)) = (st', r) ->
    sinv st' /\ ss_vars st' = ss_vars st /\
    (forall v, r = Ok v -> call (rq_fns rq x) kw = Ok v) /\
    (nothing_unpicklable pickle -> is_Some (Some s) -> r = call (rq_fns rq x) kw) /\
    (ss_shelf st' = ss_shelf st \/
     exists s0 k0 b w, Some s = Some s0 /\ key (digest s0) (values nd kw) = Some k0 /\ pickle w = Some b /\
       ss_shelf st' = <[k0 := b]> (ss_shelf st) /\ (forall v, r = Ok v -> w = v) /\
       forall b0 v, ss_shelf st !! k0 = Some b0 -> unpickle b0 = Ok v -> v = none \/ w = v) /\
    (forall v s0, r = Ok v -> x ∈ ss_vars st -> Some s = Some s0 -> exists k0 b, key (digest s0) (values nd kw) = Some k0 /\
       ss_shelf st' !! k0 = Some b /\ unpickle b = Ok v) /\
    (ss_log st' = ss_log st \/
     (ss_log st' = ss_log st ++ [x] /\ (x ∉ ss_vars st \/
        exists s0 k0, Some s = Some s0 /\ key (digest s0) (values nd kw) = Some k0 /\
          forall b v, ss_shelf st !! k0 = Some b -> unpickle b = Ok v -> v = none)))).
  { intros Hno Heq. rewrite Hv, lookup_insert, Hk in Heq.
    destruct (call (rq_fns rq x) kw) as [v|e] eqn:Hc.
    - destruct (pickle v) as [b|] eqn:Hb; injection Heq as <- <-; cbn [ss_shelf ss_used ss_vars ss_log].
      + split_and!; try done.
        * constructor; cbn [ss_shelf ss_used]; [|done]. eapply shelf_insert; eauto.
        * right. exists s, k, b, v. split_and!; try done; [by intros v' [= ->]|]. intros b0 v0 H1 H2. left. by eapply Hno.
        * intros v' s0 [= <-] _ [= <-]. exists k, b. split_and!; [done|by rewrite lookup_insert|by apply (pk_load _ _ _ _ Hpk)].
        * right. split; [done|]. right. exists s, k. done.
      + split_and!; try done.
        * intros Ht. destruct (Ht v). congruence.
        * by left.
        * right. split; [done|]. right. exists s, k. done.
    - destruct (pickle none) as [b|] eqn:Hb; injection Heq as <- <-; cbn [ss_shelf ss_used ss_vars ss_log].
      + split_and!; try done.
        * constructor; cbn [ss_shelf ss_used]; [|done]. eapply shelf_insert; eauto.
        * right. exists s, k, b, none. split_and!; try done. intros b0 v0 H1 H2. left. by eapply Hno.
        * right. split; [done|]. right. exists s, k. done.
      + split_and!; try done.
        * intros Ht. destruct (Ht none). congruence.
        * by left.
        * right. split; [done|]. right. exists s, k. done. }
  destruct (ss_shelf st !! k) as [b|] eqn:Hb.
  2: { intros Heq. apply Hmiss; [done|]. exact Heq. }
  destruct (Hsh s (values nd kw) k b Hk Hb) as (v & Hl & Hor). rewrite Hl.
  destruct (is_none v) eqn:Hn.
  { intros Heq. apply (pk_none _ _ _ _ Hpk) in Hn. apply Hmiss; [|exact Heq]. intros b' v' [= <-] Hl'. congruence. }
  destruct Hor as [Hnone|Hval].
  { exfalso. apply (pk_none _ _ _ _ Hpk) in Hnone. congruence. }
  assert (Hc : call (rq_fns rq x) kw = Ok v) by (by eapply Hval; eauto).
  rewrite Hv. intros Heq. destruct (ss_used st !! x) as [h|] eqn:Hu.
  - destruct (Hus x h Hu) as (s' & -> & Hs'). specialize (Hs' rq Hrq). assert (s' = s) as -> by congruence.
    rewrite Hk in Heq. destruct (pickle v) as [b'|] eqn:Hb'; injection Heq as <- <-; cbn [ss_shelf ss_used ss_vars ss_log].
    + split_and!; try done.
      * constructor; cbn [ss_shelf ss_used]; [|done]. eapply shelf_insert; eauto.
      * by intros v' [= ->].
      * right. exists s, k, b', v. split_and!; try done; [by intros v' [= ->]|]. intros b0 v0 H1 H2. right. congruence.
      * intros v' s0 [= <-] _ [= <-]. exists k, b'. split_and!; [done|by rewrite lookup_insert|by apply (pk_load _ _ _ _ Hpk)].
      * by left.
    + split_and!; try done; [|by left|by left]. intros Ht. destruct (Ht v). congruence.
  - injection Heq as <- <-. split_and!; try done; [by intros v' [= ->]|by left| |by left].
    intros v' s0 [= <-] _ [= <-]. by exists k, b.
Qed.

Lemma before_sinv (rq : request V E) st : sinv st -> sinv (before_graph rq st).
Proof. intros [H1 H2]. unfold before_graph. by destruct (ss_vars st). Qed.

Section OneRun.
Variable rq : request V E.
Hypothesis Hrq : rq ∈ L.
Variable st0 : sstate.
Hypothesis Hst0 : sinv st0.
Notation rep := (replay pickle unpickle digest none is_none pickle_error source_error rq).
Notation F := (fun tr x kw => (step rq (rep st0 tr) x kw).2).
Notation run := (default_execute F (rq_graph rq) (rq_config rq) (rq_inputs rq) (rq_overrides rq) (rq_final rq)).
Let Hwf : wf_graph (rq_graph rq) := proj1 (HU rq (HLU rq Hrq)).
Let Hac : acyclic (rq_graph rq) := proj2 (HU rq (HLU rq Hrq)).

Lemma rep_snoc tr ev : rep st0 (tr ++ [ev]) = match ev with Call x kw _ => (step rq (rep st0 tr) x kw).1 | _ => rep st0 tr end.
Proof. unfold replay. rewrite foldl_app. cbn. by destruct ev. Qed.

Lemma call_arguments t1 x kw r t2 : trace_of run = t1 ++ Call x kw r :: t2 ->
  exists nd, rq_graph rq !! x = Some nd /\ nd_ext nd = false /\ arguments nd kw /\ r = (step rq (rep st0 t1) x kw).2.
Proof.
  intros Htr. destruct (run_call_args (rq_graph rq) Hwf Hac _ _ _ _ _ _ _ _ _ _ Htr) as (Hr & nd & Hg & He & Hkw & Habs).
  exists nd. split_and!; try done. split.
  - intros d w Hd. by apply (Hkw d w).
  - intros d Hin. destruct (kw !! d) as [w|] eqn:Hd; [by eexists|]. by destruct (Habs d REQUIRED Hin Hd).
Qed.

Lemma run_sinv t1 t2 : trace_of run = t1 ++ t2 -> sinv (rep st0 t1) /\ ss_vars (rep st0 t1) = ss_vars st0.
Proof.
  revert t2. induction t1 as [|ev t1 IH] using rev_ind; intros t2 Htr; [done|].
  rewrite <-app_assoc in Htr. cbn [app] in Htr. destruct (IH _ Htr) as [IH1 IH2]. rewrite rep_snoc.
  destruct ev as [x kw r|x v|x]; [|done..].
  destruct (call_arguments _ _ _ _ _ Htr) as (nd & Hg & He & Ha & _).
  unfold ShelfModel.step. rewrite Hg. destruct (exec_node _ _ _ _ _) as [st' r'] eqn:Hn. cbn [fst].
  destruct (step_ok _ _ _ _ _ _ _ IH1 Hrq Hg Ha Hn) as (? & ? & _). split; [done|congruence].
Qed.

Lemma run_call t1 x kw r t2 : trace_of run = t1 ++ Call x kw r :: t2 ->
  (forall v, r = Ok v -> call (rq_fns rq x) kw = Ok v) /\
  (nothing_unpicklable pickle -> all_sourced U -> r = call (rq_fns rq x) kw).
Proof.
  intros Htr. destruct (run_sinv _ _ Htr) as [Hs _].
  destruct (call_arguments _ _ _ _ _ Htr) as (nd & Hg & He & Ha & Hr).
  unfold ShelfModel.step in Hr. rewrite Hg in Hr. destruct (exec_node _ _ _ _ _) as [st' r'] eqn:Hn. cbn [snd] in Hr. subst r'.
  destruct (step_ok _ _ _ _ _ _ _ Hs Hrq Hg Ha Hn) as (_ & _ & H1 & H2 & _). split; [done|].
  intros Hp Hsrc. apply H2; [done|]. by eapply Hsrc; eauto.
Qed.

Lemma run_answer out tr : run = Answer out tr -> plain rq = Answer out tr.
Proof.
  intros Hrun. unfold plain. rewrite <-Hrun.
  apply default_cong; [by rewrite Hrun|].
  intros t1 x kw r t2 Htr. destruct r as [v|e]; [by apply (run_call _ _ _ _ _ Htr)|].
  exfalso. destruct (run_error (rq_graph rq) Hwf Hac F (rq_config rq) (rq_inputs rq) (rq_overrides rq) (rq_final rq) x kw e) as (t & Hf & _).
  { rewrite Htr. apply elem_of_app. right. by left. }
  congruence.
Qed.
Lemma run_plain : nothing_unpicklable pickle -> all_sourced U -> run = plain rq.
Proof.
  intros Hp Hsrc. symmetry. unfold plain. apply default_cong; [by apply run_not_diverged|].
  intros t1 x kw r t2 Htr. symmetry. by apply (run_call _ _ _ _ _ Htr).
Qed.

(** The values in the file after a run without failures. *)
Definition kept (st : sstate) (x : name) (kw : gmap name V) (v : V) : Prop :=
  exists nd s k b, rq_graph rq !! x = Some nd /\ source_of (rq_fns rq x) = Some s /\ key (digest s) (values nd kw) = Some k /\
    ss_shelf st !! k = Some b /\ unpickle b = Ok v.
Lemma run_kept t1 t2 : trace_of run = t1 ++ t2 -> (forall y kw e, Call y kw (Err e) ∉ t1) ->
  forall x kw v s, Call x kw (Ok v) ∈ t1 -> x ∈ ss_vars st0 -> source_of (rq_fns rq x) = Some s -> kept (rep st0 t1) x kw v.
Proof.
  revert t2. induction t1 as [|ev t1 IH] using rev_ind; intros t2 Htr Hne x kw v s Hin Hx Hs.
  { by apply elem_of_nil in Hin. }
  rewrite <-app_assoc in Htr. cbn [app] in Htr.
  assert (Hne' : forall y kw e, Call y kw (Err e) ∉ t1) by (intros y kw' e H; apply (Hne y kw' e), elem_of_app; by left).
  specialize (IH _ Htr Hne'). rewrite rep_snoc.
  destruct (run_sinv _ _ Htr) as [Hsi Hsv].
  apply elem_of_app in Hin as [Hin|Hin].
  - specialize (IH _ _ _ _ Hin Hx Hs). destruct ev as [y kw' r|y w|y]; [|done..].
    destruct (call_arguments _ _ _ _ _ Htr) as (nd & Hg & He & Ha & Hr).
    unfold ShelfModel.step in Hr |- *. rewrite Hg in Hr |- *. destruct (exec_node _ _ _ _ _) as [st' r'] eqn:Hn. cbn [fst snd] in *. subst r'.
    destruct (step_ok _ _ _ _ _ _ _ Hsi Hrq Hg Ha Hn) as (_ & _ & Hrv & _ & Hsh & _).
    destruct IH as (nd' & s' & k' & b' & Hg' & Hs' & Hk' & Hb' & Hl').
    unfold kept. destruct Hsh as [->|(s2 & k2 & b2 & w & Hs2 & Hk2 & Hb2 & -> & Hw & _)]; [by exists nd', s', k', b'|].
    destruct (decide (k2 = k')) as [->|Hnk]; [|exists nd', s', k', b'; rewrite lookup_insert_ne by done; done].
    exists nd', s', k', b2. rewrite lookup_insert. split_and!; try done.
    destruct (key_inj _ _ _ _ _ Hk2 Hk') as [<- Hvals].
    assert (w = v) as ->; [|by apply (pk_load _ _ _ _ Hpk)].
    destruct r as [v2|e]; [|by destruct (Hne y kw' e); apply elem_of_app; right; left].
    rewrite (Hw v2 eq_refl). specialize (Hrv v2 eq_refl).
    apply elem_of_list_split in Hin as (u1 & u2 & ->).
    rewrite <-app_assoc in Htr. cbn [app] in Htr.
    destruct (call_arguments _ _ _ _ _ Htr) as (nd3 & Hg3 & _ & Ha3 & _).
    destruct (run_call _ _ _ _ _ Htr) as [Hcv _]. specialize (Hcv v eq_refl).
    assert (nd3 = nd') as -> by congruence.
    assert (Hc := Hid rq rq y x nd nd' kw' kw s2 (HLU _ Hrq) (HLU _ Hrq) Hg Hg' Hs2 Hs' Ha Ha3 Hvals). congruence.
  - apply elem_of_list_singleton in Hin. subst ev.
    destruct (call_arguments _ _ _ _ _ Htr) as (nd & Hg & He & Ha & Hr).
    unfold ShelfModel.step in Hr |- *. rewrite Hg in Hr |- *. destruct (exec_node _ _ _ _ _) as [st' r'] eqn:Hn. cbn [fst snd] in *. subst r'.
    destruct (step_ok _ _ _ _ _ _ _ Hsi Hrq Hg Ha Hn) as (_ & _ & _ & _ & _ & Hk & _).
    destruct (Hk v s eq_refl) as (k & b & ? & ? & ?); [by rewrite Hsv|done|]. by exists nd, s, k, b.
Qed.

(** A file that has the values already is not recomputed. *)
Lemma run_loads t1 t2 : trace_of run = t1 ++ t2 -> (forall y kw e, Call y kw (Err e) ∉ t1) ->
  (forall x kw v, Call x kw (Ok v) ∈ t1 -> x ∈ ss_vars st0 -> v = none \/ kept st0 x kw v) ->
  exists new, ss_log (rep st0 t1) = ss_log st0 ++ new /\
    forall x, x ∈ new -> is_Some (rq_graph rq !! x) /\ (x ∉ ss_vars st0 \/ exists kw, Call x kw (Ok none) ∈ t1).
Proof.
  intros Htr Hne Hkept.
  assert (Hmain : forall t t', t1 = t ++ t' ->
    (exists new, ss_log (rep st0 t) = ss_log st0 ++ new /\ forall x, x ∈ new -> is_Some (rq_graph rq !! x) /\ (x ∉ ss_vars st0 \/ exists kw, Call x kw (Ok none) ∈ t1)) /\
    (forall x kw v, Call x kw (Ok v) ∈ t1 -> x ∈ ss_vars st0 -> v = none \/ kept (rep st0 t) x kw v)).
  { induction t as [|ev t IH] using rev_ind; intros t' Heq.
    { split; [exists []; split; [by rewrite app_nil_r|set_solver]|done]. }
    rewrite <-app_assoc in Heq. cbn [app] in Heq. destruct (IH _ Heq) as [(new & Hl & Hnew) Hk]. rewrite !rep_snoc.
    destruct ev as [y kw' r|y w|y]; [|split; [by exists new|done]..].
    assert (Htr' : trace_of run = t ++ Call y kw' r :: t' ++ t2).
    { rewrite Htr, Heq, <-app_assoc. done. }
    assert (Hin : Call y kw' r ∈ t1) by (rewrite Heq; apply elem_of_app; right; by left).
    destruct r as [v2|e]; [|by destruct (Hne y kw' e)].
    destruct (run_sinv _ _ Htr') as [Hsi Hsv].
    destruct (call_arguments _ _ _ _ _ Htr') as (nd & Hg & He & Ha & Hr).
    unfold ShelfModel.step in Hr |- *. rewrite Hg in Hr |- *. destruct (exec_node _ _ _ _ _) as [st' r'] eqn:Hn. cbn [fst snd] in *. subst r'.
    destruct (step_ok _ _ _ _ _ _ _ Hsi Hrq Hg Ha Hn) as (_ & _ & Hrv & _ & Hsh & _ & Hlog). specialize (Hrv v2 eq_refl).
    split.
    - destruct Hlog as [->|[-> Hor]]; [by exists new|]. exists (new ++ [y]). rewrite Hl, app_assoc. split; [done|].
      intros x [Hx|Hx]%elem_of_app; [by apply Hnew|]. apply elem_of_list_singleton in Hx as ->. split; [by eexists|].
      destruct Hor as [Hv|(s & k & Hs & Hkk & Hno)]; [left; by rewrite <-Hsv|].
      destruct (decide (y ∈ ss_vars st0)) as [Hy|Hy]; [|by left]. right.
      destruct (Hk y kw' v2 Hin Hy) as [->|(nd' & s' & k' & b & Hg' & Hs' & Hk' & Hb & Hlb)]; [by eexists|].
      assert (nd' = nd) as -> by congruence. assert (s' = s) as -> by congruence. assert (k' = k) as -> by congruence.
      rewrite (Hno b v2 Hb Hlb) in Hin. by eexists.
    - intros x kw v Hxin Hx. destruct (Hk x kw v Hxin Hx) as [->|(nd' & s' & k' & b' & Hg' & Hs' & Hk' & Hb' & Hl')]; [by left|].
      right. unfold kept. destruct Hsh as [->|(s2 & k2 & b2 & w & Hs2 & Hk2 & Hb2 & -> & Hw & _)]; [by exists nd', s', k', b'|].
      destruct (decide (k2 = k')) as [->|Hnk]; [|exists nd', s', k', b'; rewrite lookup_insert_ne by done; done].
      exists nd', s', k', b2. rewrite lookup_insert. split_and!; try done.
      destruct (key_inj _ _ _ _ _ Hk2 Hk') as [<- Hvals].
      assert (w = v) as ->; [|by apply (pk_load _ _ _ _ Hpk)].
      rewrite (Hw v2 eq_refl).
      apply elem_of_list_split in Hxin as (u1 & u2 & Hu). assert (Hux := Htr). rewrite Hu, <-app_assoc in Hux. cbn [app] in Hux.
      destruct (call_arguments _ _ _ _ _ Hux) as (nd3 & Hg3 & _ & Ha3 & _).
      destruct (run_call _ _ _ _ _ Hux) as [Hcv _]. specialize (Hcv v eq_refl).
      assert (nd3 = nd') as -> by congruence.
      assert (Hc := Hid rq rq y x nd nd' kw' kw s2 (HLU _ Hrq) (HLU _ Hrq) Hg Hg' Hs2 Hs' Ha Ha3 Hvals). congruence. }
  by destruct (Hmain t1 [] ltac:(by rewrite app_nil_r)).
Qed.
End OneRun.

(** Values stay in the file. *)
Definition grows (sh sh' : gmap string string) : Prop :=
  forall k b v, sh !! k = Some b -> unpickle b = Ok v -> v <> none -> exists b', sh' !! k = Some b' /\ unpickle b' = Ok v.
Lemma grows_refl sh : grows sh sh.
Proof. intros k b v Hb Hv _. by exists b. Qed.
Lemma grows_trans a b c : grows a b -> grows b c -> grows a c.
Proof. intros H1 H2 k x v Hx Hv Hn. destruct (H1 k x v Hx Hv Hn) as (y & Hy & Hv'). by apply (H2 k y v). Qed.
Lemma run_grows (rq : request V E) (Hrq : rq ∈ L) st0 (Hst0 : sinv st0) t1 t2 :
  trace_of (default_execute (fun tr x kw => (step rq (replay pickle unpickle digest none is_none pickle_error source_error rq st0 tr) x kw).2)
    (rq_graph rq) (rq_config rq) (rq_inputs rq) (rq_overrides rq) (rq_final rq)) = t1 ++ t2 ->
  grows (ss_shelf st0) (ss_shelf (replay pickle unpickle digest none is_none pickle_error source_error rq st0 t1)).
Proof.
  revert t2. induction t1 as [|ev t1 IH] using rev_ind; intros t2 Htr; [apply grows_refl|].
  rewrite <-app_assoc in Htr. cbn [app] in Htr. specialize (IH _ Htr). rewrite rep_snoc.
  destruct ev as [x kw r|x v|x]; [|done..].
  destruct (run_sinv _ Hrq _ Hst0 _ _ Htr) as [Hsi _].
  destruct (call_arguments _ Hrq _ _ _ _ _ _ Htr) as (nd & Hg & He & Ha & Hr).
  unfold ShelfModel.step. rewrite Hg. destruct (exec_node _ _ _ _ _) as [st' r'] eqn:Hn. cbn [fst].
  destruct (step_ok _ _ _ _ _ _ _ Hsi Hrq Hg Ha Hn) as (_ & _ & _ & _ & Hsh & _).
  eapply grows_trans; [exact IH|]. destruct Hsh as [->|(s & k & b & w & Hs & Hk & Hb & -> & _ & Hw)]; [apply grows_refl|].
  intros k' b' v Hk' Hv Hnone. destruct (decide (k = k')) as [->|Hne].
  - exists b. rewrite lookup_insert. split; [done|]. destruct (Hw b' v Hk' Hv) as [->| ->]; [done|]. by apply (pk_load _ _ _ _ Hpk).
  - exists b'. by rewrite lookup_insert_ne.
Qed.

Notation exec := (shelf_execute pickle unpickle digest none is_none pickle_error source_error).
Lemma exec_ok (rq : request V E) st : rq ∈ L -> sinv st ->
  sinv (exec rq st).1 /\ grows (ss_shelf st) (ss_shelf (exec rq st).1) /\
  (forall out tr, (exec rq st).2 = Answer out tr -> plain rq = Answer out tr) /\
  (nothing_unpicklable pickle -> all_sourced U -> (exec rq st).2 = plain rq).
Proof.
  intros Hrq Hs. assert (Hsh : ss_shelf (before_graph rq st) = ss_shelf st) by (unfold before_graph; by destruct (ss_vars st)).
  apply (before_sinv rq) in Hs. unfold shelf_execute. cbn [fst snd]. rewrite <-Hsh. split_and!.
  - by apply (run_sinv rq Hrq _ Hs _ []); rewrite app_nil_r.
  - by apply (run_grows rq Hrq _ Hs _ []); rewrite app_nil_r.
  - intros out tr. by apply run_answer.
  - by apply run_plain.
Qed.

Lemma serve_ok (rqs : list (request V E)) : forall st, (forall rq, rq ∈ rqs -> rq ∈ L) -> sinv st ->
  sinv (serve pickle unpickle digest none is_none pickle_error source_error st rqs).1 /\
  grows (ss_shelf st) (ss_shelf (serve pickle unpickle digest none is_none pickle_error source_error st rqs).1) /\
  Forall2 (fun rq a => (forall out tr, a = Answer out tr -> plain rq = Answer out tr) /\
                       (nothing_unpicklable pickle -> all_sourced U -> a = plain rq))
    rqs (serve pickle unpickle digest none is_none pickle_error source_error st rqs).2.
Proof.
  induction rqs as [|rq rqs IH]; intros st Hin Hs; cbn [serve]; [split_and!; [done|apply grows_refl|constructor]|].
  destruct (exec_ok rq st) as (H1 & Hgr & H2 & H3); [apply Hin; by left|done|].
  destruct (exec rq st) as [st1 a]. cbn [fst snd] in *.
  destruct (IH st1) as (H4 & Hgr' & H5); [intros rq' H; apply Hin; by right|done|].
  destruct (serve _ _ _ _ _ _ _ st1 rqs) as [st2 l]. cbn [fst snd] in *. split_and!; [done|by eapply grows_trans|by constructor].
Qed.

(** Executing a request again. *)
Lemma second_execution (rq : request V E) st out tr st2 : rq ∈ L -> sinv st -> (exec rq st).2 = Answer out tr -> all_sourced U -> nothing_unpicklable pickle ->
  sinv st2 -> grows (ss_shelf (exec rq st).1) (ss_shelf st2) ->
  (forall x, x ∈ ss_vars (before_graph rq st2) -> x ∈ ss_vars (before_graph rq st)) ->
  exists new, ss_log (exec rq st2).1 = ss_log st2 ++ new /\
    forall x, x ∈ new -> is_Some (rq_graph rq !! x) /\ (x ∉ ss_vars (before_graph rq st2) \/ exists kw, Call x kw (Ok none) ∈ tr).
Proof.
  intros Hrq Hs Ha Hsrc Hpick Hs2 Hsh Hvars.
  assert (Ha2 : (exec rq st2).2 = Answer out tr).
  { destruct (exec_ok rq st2 Hrq Hs2) as (_ & _ & _ & Hp2). rewrite (Hp2 Hpick Hsrc).
    destruct (exec_ok rq st Hrq Hs) as (_ & _ & H & _). by apply H. }
  assert (Hb1 := before_sinv rq _ Hs). assert (Hb2 := before_sinv rq _ Hs2).
  assert (Hlog0 : ss_log (before_graph rq st2) = ss_log st2) by (unfold before_graph; by destruct (ss_vars st2)).
  assert (Hsh0 : ss_shelf (before_graph rq st2) = ss_shelf st2) by (unfold before_graph; by destruct (ss_vars st2)).
  unfold shelf_execute in Ha, Ha2, Hsh |- *. cbn [fst snd] in *. rewrite Ha in Hsh. rewrite Ha2. cbn [trace_of] in *.
  assert (Hwf := HU rq (HLU rq Hrq)). destruct Hwf as [Hwf Hac].
  assert (Hne : forall y kw e, Call y kw (Err e) ∉ tr).
  { intros y kw e Hin. assert (Hin' : Call y kw (Err e) ∈ trace_of (Answer out tr)) by exact Hin. rewrite <-Ha in Hin'.
    destruct (run_error (rq_graph rq) Hwf Hac _ _ _ _ _ y kw e Hin') as (t & Hf & _). congruence. }
  rewrite <-Hlog0.
  destruct (run_loads rq Hrq (before_graph rq st2) Hb2 tr []) as (new & Hl & Hnew); try done.
  { by rewrite Ha2, app_nil_r. }
  2: by exists new.
  intros x kw v Hin Hx.
  destruct (run_calls_needed (rq_graph rq) Hwf Hac (fun tr x kw => (step rq (replay pickle unpickle digest none is_none pickle_error source_error rq (before_graph rq st) tr) x kw).2)
    (rq_config rq) (rq_inputs rq) (rq_overrides rq) (rq_final rq) x) as [_ (nd & Hg & He)].
  { rewrite Ha. by eapply elem_calls_of. }
  destruct (Hsrc rq x nd (HLU rq Hrq) Hg He) as [s Hsx].
  destruct (run_kept rq Hrq (before_graph rq st) Hb1 tr [] ) with (x := x) (kw := kw) (v := v) (s := s)
    as (nd' & s' & k & b & ? & ? & ? & Hb & ?); try done.
  { by rewrite Ha, app_nil_r. }
  { by apply Hvars. }
  destruct (is_none v) eqn:Hnn; [left; by apply (pk_none _ _ _ _ Hpk)|]. right.
  destruct (Hsh k b v) as (b' & Hb' & Hl'); [done|done| |].
  { intros Hn. apply (pk_none _ _ _ _ Hpk) in Hn. congruence. }
  exists nd', s', k, b'. split_and!; try done. by rewrite Hsh0.
Qed.
End Life.

Lemma lifetimes_ok (U : list (request V E)) : graphs_ok U -> sources_identify U ->
  forall ls shelf log, (forall l, l ∈ ls -> one_source l.2 /\ forall rq, rq ∈ l.2 -> rq ∈ U) -> shelf_ok U shelf ->
  shelf_ok U (lifetimes pickle unpickle digest none is_none pickle_error source_error shelf log ls).1.1 /\
  grows shelf (lifetimes pickle unpickle digest none is_none pickle_error source_error shelf log ls).1.1 /\
  Forall2 (fun l answers => Forall2 (fun rq a => (forall out tr, a = Answer out tr -> plain rq = Answer out tr) /\
                       (nothing_unpicklable pickle -> all_sourced U -> a = plain rq)) l.2 answers)
    ls (lifetimes pickle unpickle digest none is_none pickle_error source_error shelf log ls).2.
Proof.
  intros HU Hid. induction ls as [|[vars rqs] ls IH]; intros shelf log Hls Hs; cbn [lifetimes]; [split_and!; [done|apply grows_refl|constructor]|].
  destruct (Hls (vars, rqs)) as [Hone Hin]; [by left|]. cbn [snd] in *.
  assert (Hinit : sinv U rqs (SState shelf ∅ vars log)).
  { constructor; [done|]. intros x h Hx. cbn in Hx. by rewrite lookup_empty in Hx. }
  destruct (serve_ok U rqs HU Hin Hid Hone rqs _ ltac:(done) Hinit) as ([H1 _] & Hgr & H2).
  destruct (serve _ _ _ _ _ _ _ _ rqs) as [st l]. cbn [fst snd] in *.
  destruct (IH (ss_shelf st) (ss_log st)) as (H3 & Hgr' & H4); [intros l' Hl'; apply Hls; by right|done|].
  destruct (lifetimes _ _ _ _ _ _ _ (ss_shelf st) (ss_log st) ls) as [r rest]. cbn [fst snd] in *. split_and!; [done|by eapply grows_trans|by constructor].
Qed.
End P.
