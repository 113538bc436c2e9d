(** Proofs about the metadata and result stores. *)
From Verif Require Import Base Dict StoreModel StoreSpec.

Section Stores.
Variable decodable : ckey -> bool.
Notation mem_step := (mem_step decodable).
Notation sq_step := (sq_step decodable).

Lemma exec_app {S} (step : S -> op -> S * out) s ops ops' :
  exec step s (ops ++ ops') =
  ((exec step (exec step s ops).1 ops').1, (exec step s ops).2 ++ (exec step (exec step s ops).1 ops').2).
Proof.
  revert s; induction ops as [|o ops IH]; intros s; cbn [app exec fst snd].
  - by destruct (exec step s ops').
  - destruct (step s o) as [s1 r]; rewrite IH. by destruct (exec step s1 ops) as [s2 l].
Qed.
Lemma exec_snoc {S} (step : S -> op -> S * out) s ops o :
  (exec step s (ops ++ [o])).1 = (step (exec step s ops).1 o).1 /\
  (exec step s (ops ++ [o])).2 = (exec step s ops).2 ++ [(step (exec step s ops).1 o).2].
Proof.
  rewrite exec_app; cbn [exec fst snd]. by destruct (step _ o).
Qed.

Lemma latest_snoc ops o k :
  latest (ops ++ [o]) k = match o with
    | OpSet k' d _ _ => if decide (k' = k) then Some d else latest ops k
    | OpDelete k' => if decide (k' = k) then None else latest ops k
    | OpDeleteAll => None
    | _ => latest ops k end.
Proof. unfold latest; by rewrite foldl_app. Qed.
Lemma first_set_snoc ops o k :
  first_set (ops ++ [o]) k = match o with
    | OpSet k' d _ _ => if decide (k' = k) then Some (default d (first_set ops k)) else first_set ops k
    | OpDelete k' => if decide (k' = k) then None else first_set ops k
    | OpDeleteAll => None
    | _ => first_set ops k end.
Proof. unfold first_set; by rewrite foldl_app. Qed.
Lemma started_app a b : started (a ++ b) = started a ++ started b.
Proof. apply omap_app. Qed.
Lemma set_in_app a b r : set_in (a ++ b) r = set_in a r ++ set_in b r.
Proof. apply omap_app. Qed.

(** ** The in-memory store *)
Lemma mem_dv ops : forall k, ms_dv (exec mem_step mem_empty ops).1 !! k = latest ops k.
Proof.
  induction ops as [|o ops IH] using rev_ind; intros k; [done|].
  rewrite (proj1 (exec_snoc _ _ _ _)), latest_snoc.
  set (s := (exec mem_step mem_empty ops).1) in *.
  destruct o as [r|k' d r b|k'|k'|k'| | | |r]; cbn [StoreModel.mem_step fst]; try done.
  - assert (G : <[k' := d]> (ms_dv s) !! k = if decide (k' = k) then Some d else latest ops k).
    { case_decide as Hk; [subst; by rewrite lookup_insert|by rewrite lookup_insert_ne, IH]. }
    by destruct (dget (ms_runs s) r).
  - destruct (ms_dv s !! k') as [d|] eqn:E; cbn [fst ms_dv].
    + case_decide as Hk; [subst; by rewrite lookup_delete|by rewrite lookup_delete_ne].
    + case_decide as Hk; [subst; by rewrite E|done].
Qed.
Lemma mem_ids ops : ms_ids (exec mem_step mem_empty ops).1 = started ops.
Proof.
  induction ops as [|o ops IH] using rev_ind; [done|].
  rewrite (proj1 (exec_snoc _ _ _ _)), started_app.
  set (s := (exec mem_step mem_empty ops).1) in *.
  destruct o as [r|k' d r b|k'|k'|k'| | | |r]; cbn [StoreModel.mem_step fst]; rewrite ?app_nil_r; try done.
  - cbn [ms_ids]. by rewrite IH.
  - destruct (dget (ms_runs s) r); cbn [fst ms_ids]; by rewrite IH, ?app_nil_r.
  - rewrite <- IH; destruct (ms_dv s !! k'); cbn [fst ms_ids]; by rewrite ?app_nil_r.
Qed.

Lemma orderly_prefix a b : orderly decodable (a ++ b) -> orderly decodable a.
Proof. intros H pre o post E. apply (H pre o (post ++ b)). by rewrite E, <- app_assoc. Qed.
Lemma orderly_last a o : orderly decodable (a ++ [o]) ->
  match o with
  | OpInit r => r ∉ started a
  | OpSet k _ r _ => r ∈ started a /\ decodable k = true
  | OpDeleteAll => False
  | _ => True
  end.
Proof. intros H. exact (H a o [] eq_refl). Qed.
Lemma set_in_started ops r : orderly decodable ops -> r ∉ started ops -> set_in ops r = [].
Proof.
  induction ops as [|o ops IH] using rev_ind; intros H N; [done|].
  pose proof (orderly_last _ _ H) as L; apply orderly_prefix in H.
  rewrite started_app in N. rewrite set_in_app, IH; [|done|set_solver]. cbn [app].
  destruct o; cbn; try done. case_decide; [|done]. subst. destruct L. set_solver.
Qed.
Lemma started_nodup ops : orderly decodable ops -> NoDup (started ops).
Proof.
  induction ops as [|o ops IH] using rev_ind; intros H; [constructor|].
  pose proof (orderly_last _ _ H) as L; apply orderly_prefix in H.
  rewrite started_app; apply NoDup_app; split_and!; [by apply IH| |].
  - destruct o; cbn; set_solver.
  - destruct o; cbn; first [apply NoDup_nil_2|apply NoDup_singleton].
Qed.
Lemma set_in_decodable ops r k : orderly decodable ops -> k ∈ set_in ops r -> decodable k = true.
Proof.
  induction ops as [|o ops IH] using rev_ind; intros H; [by intros ?%elem_of_nil|].
  pose proof (orderly_last _ _ H) as L; apply orderly_prefix in H.
  rewrite set_in_app; intros [Hk|Hk]%elem_of_app; [by apply IH|].
  destruct o; cbn in Hk; try by apply elem_of_nil in Hk.
  case_decide; [|by apply elem_of_nil in Hk]. apply elem_of_list_singleton in Hk; subst. by destruct L.
Qed.

Lemma mem_runs ops : orderly decodable ops ->
  dkeys (ms_runs (exec mem_step mem_empty ops).1) = started ops /\
  forall r, dget (ms_runs (exec mem_step mem_empty ops).1) r =
            if decide (r ∈ started ops) then Some (set_in ops r) else None.
Proof.
  induction ops as [|o ops IH] using rev_ind; intros H.
  { split; [done|]. intros r. by rewrite decide_False by (cbn; set_solver). }
  pose proof (orderly_last _ _ H) as L; apply orderly_prefix in H.
  destruct (IH H) as [K G]; clear IH.
  rewrite (proj1 (exec_snoc _ _ _ _)), started_app.
  set (s := (exec mem_step mem_empty ops).1) in *.
  assert (X : forall o', started [o'] = [] -> set_in [o'] = (fun _ => []) -> ms_runs (mem_step s o').1 = ms_runs s ->
    dkeys (ms_runs (mem_step s o').1) = started ops ++ started [o'] /\
    forall r, dget (ms_runs (mem_step s o').1) r =
      if decide (r ∈ started ops ++ started [o']) then Some (set_in (ops ++ [o']) r) else None).
  { intros o' E1 E2 E3. rewrite E1, E3, app_nil_r. split; [done|]. intros r. rewrite G, set_in_app, E2, app_nil_r. done. }
  destruct o as [r|k' d r b|k'|k'|k'| | | |r]; try by apply X.
  - cbn [StoreModel.mem_step fst ms_runs started]. cbn [omap list_omap].
    split.
    + rewrite dkeys_dset_notin; [by rewrite K|]. by rewrite K.
    + intros r'. destruct (decide (r' = r)) as [->|Hr].
      * rewrite dget_dset_eq, decide_True by set_solver. rewrite set_in_app; cbn.
        by rewrite app_nil_r, set_in_started.
      * rewrite dget_dset_ne by done. rewrite G, set_in_app; cbn. rewrite app_nil_r.
        destruct (decide (r' ∈ started ops)); [by rewrite decide_True by set_solver|by rewrite decide_False by set_solver].
  - destruct L as [L D]. cbn [StoreModel.mem_step]. rewrite (G r), decide_True by done. cbn [fst ms_runs].
    cbn [started omap list_omap]. rewrite app_nil_r. split.
    + rewrite dkeys_dset_in; [done|by rewrite K].
    + intros r'. rewrite set_in_app; cbn. destruct (decide (r' = r)) as [->|Hr].
      * rewrite dget_dset_eq, decide_True by done. by rewrite decide_True.
      * rewrite dget_dset_ne by done. rewrite G, (decide_False (P:=r = r')) by done. by rewrite app_nil_r.
  - apply X; [done|done|]. cbn [StoreModel.mem_step]. by destruct (ms_dv s !! k').
Qed.

(** ** The SQLite store *)
Definition keyed (ops : list op) : Prop :=
  forall o, o ∈ ops ->
  match o with OpSet k _ _ b => b || decodable k = true | OpDeleteAll => False | _ => True end.
Definition rows (ops : list op) : list (ckey * runid) :=
  omap (fun o => match o with OpSet k _ r _ => Some (k, r) | _ => None end) ops.

Lemma orderly_keyed ops : orderly decodable ops -> keyed ops.
Proof.
  intros H o Ho. apply elem_of_list_split in Ho as (a & b & ->). specialize (H a o b eq_refl).
  destruct o; try done. destruct H as [_ ->]. by rewrite orb_true_r.
Qed.
Lemma sq_state ops : keyed ops ->
  let s := (exec sq_step sq_empty ops).1 in
  sq_ok s = true /\ (forall k, sq_meta s !! k = first_set ops k) /\ sq_ids s = started ops /\ sq_hist s = rows ops.
Proof.
  induction ops as [|o ops IH] using rev_ind; intros H; [done|].
  assert (H' : keyed ops) by (intros x Hx; apply H, elem_of_app; by left).
  specialize (H o). destruct (IH H') as (O & M & I & R); clear IH H'.
  assert (L := H ltac:(apply elem_of_app; right; by apply elem_of_list_singleton)); clear H.
  cbn zeta. rewrite (proj1 (exec_snoc _ _ _ _)).
  set (s := (exec sq_step sq_empty ops).1) in *.
  unfold rows; rewrite started_app, omap_app; fold (rows ops).
  assert (X : forall o', (sq_step s o').1 = s -> (forall k, first_set (ops ++ [o']) k = first_set ops k) ->
     started [o'] = [] -> omap (fun o => match o with OpSet k _ r _ => Some (k, r) | _ => None end) [o'] = [] ->
     sq_ok (sq_step s o').1 = true /\ (forall k, sq_meta (sq_step s o').1 !! k = first_set (ops ++ [o']) k) /\
     sq_ids (sq_step s o').1 = started ops ++ started [o'] /\
     sq_hist (sq_step s o').1 = rows ops ++ omap (fun o => match o with OpSet k _ r _ => Some (k, r) | _ => None end) [o']).
  { intros o' -> E2 -> ->. rewrite !app_nil_r. split_and!; try done. intros k. by rewrite E2. }
  destruct o as [r|k' d r b|k'|k'|k'| | | |r].
  - cbn [StoreModel.sq_step]. rewrite O. cbn. rewrite app_nil_r, I, R. split_and!; try done.
    intros k. by rewrite M, first_set_snoc.
  - cbn [StoreModel.sq_step]. rewrite L, O. cbn. rewrite app_nil_r, I, R. split_and!; try done.
    intros k. rewrite first_set_snoc.
    destruct (sq_meta s !! k') as [d'|] eqn:E.
    + case_decide as Hk; [|done]. subst. rewrite M in E. by rewrite M, E.
    + case_decide as Hk; [|by rewrite lookup_insert_ne, M]. subst. rewrite lookup_insert, <- M, E. done.
  - apply X; [cbn; by rewrite O| |done|done]. intros k. apply first_set_snoc.
  - apply X; [cbn; by rewrite O| |done|done]. intros k. apply first_set_snoc.
  - cbn [StoreModel.sq_step]. rewrite O. cbn. rewrite !app_nil_r. split_and!; try done.
    intros k. rewrite first_set_snoc. case_decide as Hk; [subst; by rewrite lookup_delete|by rewrite lookup_delete_ne, M].
  - done.
  - apply X; [cbn; by rewrite O| |done|done]. intros k. apply first_set_snoc.
  - apply X; [cbn; by rewrite O| |done|done]. intros k. apply first_set_snoc.
  - apply X; [cbn; by rewrite O| |done|done]. intros k. apply first_set_snoc.
Qed.

Lemma set_in_rows ops r : set_in ops r = omap (fun p : ckey * runid => if decide (p.2 = r) then Some p.1 else None) (rows ops).
Proof.
  induction ops as [|o ops IH]; [done|]. unfold set_in, rows in *. cbn. destruct o; cbn; rewrite <- ?IH; try done.
Qed.
Lemma sq_rows_eq ops r : keyed ops ->
  sq_rows (exec sq_step sq_empty ops).1 r = omap (fun k => option_map (pair k) (first_set ops k)) (set_in ops r).
Proof.
  intros H. destruct (sq_state ops H) as (O & M & I & R). unfold sq_rows. rewrite R, set_in_rows. clear R.
  induction (rows ops) as [|[k r'] l IH]; [done|]. cbn. rewrite M.
  case_decide; cbn; [|exact IH]. destruct (first_set ops k); cbn; by rewrite IH.
Qed.

(** ** Answers *)
Lemma omap_present (m : ckey -> option dver) ks :
  (forall k, k ∈ ks -> m k <> None) ->
  exists ds, Forall2 (fun k d => m k = Some d) ks ds /\ omap (fun k => option_map (pair k) (m k)) ks = zip ks ds.
Proof.
  induction ks as [|k ks IH]; intros H; [by exists []|].
  destruct IH as (ds & A & B); [intros; apply H; by right|].
  destruct (m k) as [d|] eqn:E; [|exfalso; apply (H k); [left|done]].
  exists (d :: ds). split; [by constructor|]. cbn. rewrite E. cbn. by rewrite B.
Qed.
Lemma mem_rows_present (dv : gmap ckey dver) ks :
  (forall k, k ∈ ks -> dv !! k <> None) -> (forall k, k ∈ ks -> decodable k = true) ->
  mem_rows decodable dv ks = inr (omap (fun k => option_map (pair k) (dv !! k)) ks).
Proof.
  induction ks as [|k ks IH]; intros H D; [done|]. cbn.
  rewrite (D k) by left. destruct (dv !! k) as [d|] eqn:E; [|exfalso; apply (H k); [left|done]].
  rewrite IH; [done| |]; intros; [apply H|apply D]; by right.
Qed.
Lemma size_answers (g : gmap ckey dver) (m : ckey -> option dver) :
  (forall k, g !! k = m k) ->
  exists ks, NoDup ks /\ (forall k, k ∈ ks <-> m k <> None) /\ ONat (size g) = ONat (length ks).
Proof.
  intros M. exists (map_to_list g).*1. split_and!.
  - apply NoDup_fst_map_to_list.
  - intros k. rewrite <- M. rewrite elem_of_list_fmap. split.
    + intros ([k' d] & -> & Hd). apply elem_of_map_to_list in Hd. cbn. by rewrite Hd.
    + destruct (g !! k) as [d|] eqn:E; [|done]. intros _. exists (k, d). split; [done|]. by apply elem_of_map_to_list.
  - f_equal. rewrite fmap_length. done.
Qed.

Lemma mem_answers ops o : asks o = true ->
  (forall r, o = OpRun r -> orderly decodable ops /\ forall k, k ∈ set_in ops r -> latest ops k <> None) ->
  answers (latest ops) ops o (mem_step (exec mem_step mem_empty ops).1 o).2.
Proof.
  intros A H. destruct o; try done; cbn [StoreModel.mem_step snd answers].
  - by rewrite mem_dv.
  - rewrite mem_dv. destruct (latest ops k); done.
  - apply size_answers, mem_dv.
  - by rewrite mem_ids.
  - destruct (H r eq_refl) as [O P]. destruct (mem_runs ops O) as [_ G]. rewrite G.
    case_decide; [|done].
    rewrite mem_rows_present.
    + destruct (omap_present (latest ops) (set_in ops r) P) as (ds & F & E). exists ds. split; [done|].
      rewrite <- E. f_equal. apply list_omap_ext. apply Forall_Forall2_diag, Forall_forall. intros k _. by rewrite mem_dv.
    + intros k Hk. rewrite mem_dv. by apply P.
    + intros k Hk. by eapply set_in_decodable.
Qed.
Lemma sq_answers ops o : keyed ops -> asks o = true ->
  (forall r, o = OpRun r -> forall k, k ∈ set_in ops r -> first_set ops k <> None) ->
  answers (first_set ops) ops o (sq_step (exec sq_step sq_empty ops).1 o).2.
Proof.
  intros K A H. destruct (sq_state ops K) as (O & M & I & R).
  destruct o; try done; cbn [StoreModel.sq_step]; rewrite O; cbn [snd answers].
  - by rewrite M.
  - rewrite M. destruct (first_set ops k); done.
  - by apply size_answers.
  - by rewrite I.
  - rewrite I. case_decide; [|done]. rewrite sq_rows_eq by done.
    destruct (omap_present (first_set ops) (set_in ops r)) as (ds & F & E); [by apply H|].
    exists ds. by rewrite <- E.
Qed.
Lemma answers_unique m ops o a b : answers m ops o a -> answers m ops o b -> a = b.
Proof.
  destruct o; cbn; try congruence.
  - intros (ks & N & E & ->) (ks' & N' & E' & ->). f_equal. apply Permutation_length, NoDup_Permutation; [done..|].
    intros k. by rewrite E, E'.
  - case_decide; [|congruence]. intros (ds & F & ->) (ds' & F' & ->). f_equal. f_equal.
    revert ds' F'. induction F; intros ds' F'; inversion F'; subst; [done|]. f_equal; [congruence|]. by apply IHF.
Qed.
Lemma answers_ext m m' ops o a : (forall k, m k = m' k) -> answers m ops o a -> answers m' ops o a.
Proof.
  intros E. destruct o; cbn; rewrite <- ?E; try done.
  - intros (ks & N & P & ->). exists ks. split_and!; [done| |done]. intros k. by rewrite <- E.
  - case_decide; [|done]. intros (ds & F & ->). exists ds. split; [|done]. eapply Forall2_impl; [exact F|].
    intros k d; cbn. by rewrite E.
Qed.

Lemma consistent_prefix a b : consistent (a ++ b) -> consistent a.
Proof. intros H pre o post E. apply (H pre o (post ++ b)). by rewrite E, <- app_assoc. Qed.
Lemma consistent_first ops : consistent ops -> forall k, first_set ops k = latest ops k.
Proof.
  induction ops as [|o ops IH] using rev_ind; intros H k; [done|].
  assert (L := H ops o [] eq_refl). apply consistent_prefix in H. specialize (IH H).
  rewrite latest_snoc, first_set_snoc. destruct o; rewrite ?IH; try done.
  case_decide; [|done]. subst. by destruct L as [-> | ->].
Qed.

Lemma stores_agree ops : orderly decodable ops -> consistent ops ->
  (exec mem_step mem_empty ops).2 = (exec sq_step sq_empty ops).2.
Proof.
  induction ops as [|o ops IH] using rev_ind; intros O C; [done|].
  rewrite !(proj2 (exec_snoc _ _ _ _)).
  assert (LC := C ops o [] eq_refl). assert (LO := orderly_last _ _ O).
  apply orderly_prefix in O. apply consistent_prefix in C. rewrite IH by done. f_equal. f_equal.
  assert (K := orderly_keyed _ O). destruct (sq_state ops K) as (S1 & S2 & S3 & S4).
  destruct (mem_runs ops O) as [_ G].
  destruct (asks o) eqn:A.
  - apply (answers_unique (latest ops) ops o).
    + apply mem_answers; [done|]. intros r ->. split; [done|]. done.
    + apply (answers_ext (first_set ops)); [by apply consistent_first|]. apply sq_answers; [done..|].
      intros r ->. intros k Hk. rewrite consistent_first by done. by apply LC.
  - destruct o; try done; cbn [StoreModel.mem_step StoreModel.sq_step].
    + by rewrite S1.
    + destruct LO as [L1 L2]. rewrite L2, orb_true_r, S1, G, decide_True; done.
    + rewrite S1. rewrite mem_dv. by destruct (latest ops k).
Qed.

(** ** Copying a store *)
Lemma elem_concat {A} (x : A) ls : x ∈ concat ls <-> exists l, x ∈ l /\ l ∈ ls.
Proof.
  induction ls as [|l ls IH]; cbn; [set_solver|]. rewrite elem_of_app, IH. set_solver.
Qed.
Definition keys_of (ops : list op) : list ckey :=
  omap (fun o => match o with OpSet k _ _ _ => Some k | _ => None end) ops.
Definition copies (dv : ckey -> option dver) (L : list op) : Prop :=
  forall o, o ∈ L -> match o with OpInit _ => True | OpSet k d _ _ => dv k = Some d | _ => False end.

Lemma copies_latest dv L : copies dv L ->
  consistent L /\ forall k, latest L k = if decide (k ∈ keys_of L) then dv k else None.
Proof.
  induction L as [|o L IH] using rev_ind; intros H.
  { split; [intros pre o post E; by destruct pre|]. intros k. by rewrite decide_False by (cbn; set_solver). }
  assert (H' : copies dv L) by (intros x Hx; apply H, elem_of_app; by left).
  destruct (IH H') as [C G]; clear IH.
  specialize (H o ltac:(apply elem_of_app; right; by apply elem_of_list_singleton)).
  split.
  - intros pre o' post E. destruct post as [|z post _] using rev_ind.
    + apply app_inj_tail in E as [<- <-]. destruct o; try done. rewrite G, H. case_decide; auto.
    + rewrite app_comm_cons, app_assoc in E. apply app_inj_tail in E as [E _]. by apply (C pre o' post).
  - intros k. rewrite latest_snoc. unfold keys_of; rewrite omap_app; fold (keys_of L).
    destruct o; try done; cbn [omap list_omap].
    + rewrite app_nil_r. apply G.
    + case_decide as Hk; [subst; rewrite decide_True by set_solver; done|].
      rewrite G. destruct (decide (k ∈ keys_of L)); [by rewrite decide_True by set_solver|by rewrite decide_False by set_solver].
Qed.

Lemma orderly_snoc a o : orderly decodable a ->
  match o with
  | OpInit r => r ∉ started a
  | OpSet k _ r _ => r ∈ started a /\ decodable k = true
  | OpDeleteAll => False
  | _ => True
  end -> orderly decodable (a ++ [o]).
Proof.
  intros H Ho pre o' post E. destruct post as [|z post _] using rev_ind.
  - by apply app_inj_tail in E as [<- <-].
  - rewrite app_comm_cons, app_assoc in E. apply app_inj_tail in E as [E _]. by apply (H pre o' post).
Qed.
Lemma orderly_inits a rs : orderly decodable a -> NoDup rs -> (forall r, r ∈ rs -> r ∉ started a) ->
  orderly decodable (a ++ map OpInit rs).
Proof.
  revert a. induction rs as [|r rs IH]; intros a O N D; cbn [map]; [by rewrite app_nil_r|].
  rewrite NoDup_cons in N. destruct N as [N1 N2].
  change (OpInit r :: map OpInit rs) with ([OpInit r] ++ map OpInit rs). rewrite app_assoc. apply IH; [|done|].
  - apply orderly_snoc; [done|]. apply D; left.
  - intros r' Hr'. rewrite started_app, elem_of_app. intros [X|X]; [by apply (D r'); [right|]|].
    cbn in X. apply elem_of_list_singleton in X. by subst.
Qed.
Lemma orderly_sets a l : orderly decodable a ->
  (forall o, o ∈ l -> match o with OpSet k _ r _ => r ∈ started a /\ decodable k = true | _ => False end) ->
  orderly decodable (a ++ l).
Proof.
  revert a. induction l as [|o l IH]; intros a O D; [by rewrite app_nil_r|].
  change (o :: l) with ([o] ++ l). rewrite app_assoc. apply IH.
  - apply orderly_snoc; [done|]. specialize (D o ltac:(left)). by destruct o.
  - intros o' Ho'. specialize (D o' ltac:(by right)). destruct o'; try done. destruct D. split; [|done].
    rewrite started_app. apply elem_of_app; by left.
Qed.
Lemma orderly_nil : orderly decodable [].
Proof. intros pre o post E. by destruct pre. Qed.

Lemma started_inits rs : started (map OpInit rs) = rs.
Proof. unfold started. induction rs as [|r rs IH]; [done|]. cbn. by rewrite IH. Qed.
Lemma set_in_inits rs r : set_in (map OpInit rs) r = [].
Proof. unfold set_in. induction rs as [|r' rs IH]; [done|]. cbn. done. Qed.

Definition run_sets (dv : gmap ckey dver) (r : runid) (ks : list ckey) : list op :=
  omap (fun k => option_map (fun d => OpSet k d r false) (dv !! k)) ks.
Lemma persist_keys_eq dv r ks : (forall k, k ∈ ks -> dv !! k <> None) ->
  persist_keys dv r ks = (run_sets dv r ks, true).
Proof.
  induction ks as [|k ks IH]; intros H; [done|]. cbn.
  destruct (dv !! k) as [d|] eqn:E; [|exfalso; apply (H k); [left|done]].
  rewrite IH; [done|]. intros; apply H; by right.
Qed.
Lemma persist_runs_eq dv runs : (forall r ks, (r, ks) ∈ runs -> forall k, k ∈ ks -> dv !! k <> None) ->
  persist_runs dv runs = (concat (map (fun p => run_sets dv p.1 p.2) runs), true).
Proof.
  induction runs as [|[r ks] runs IH]; intros H; [done|]. cbn.
  rewrite persist_keys_eq by (apply (H r ks); left). rewrite IH; [done|]. intros; eapply H; [|done]. by right.
Qed.
Lemma run_sets_elem dv r ks o : o ∈ run_sets dv r ks <-> exists k d, k ∈ ks /\ dv !! k = Some d /\ o = OpSet k d r false.
Proof.
  unfold run_sets. rewrite elem_of_list_omap. split.
  - intros (k & Hk & E). destruct (dv !! k) as [d|] eqn:Ed; [|done]. injection E as <-. by exists k, d.
  - intros (k & d & Hk & E & ->). exists k. by rewrite E.
Qed.
Lemma set_in_run_sets dv r r' ks : (forall k, k ∈ ks -> dv !! k <> None) ->
  set_in (run_sets dv r ks) r' = if decide (r = r') then ks else [].
Proof.
  unfold set_in, run_sets. induction ks as [|k ks IH]; intros H; cbn; [by destruct (decide _)|].
  destruct (dv !! k) as [d|] eqn:E; [|exfalso; apply (H k); [left|done]]. cbn.
  assert (H' : forall k, k ∈ ks -> dv !! k <> None) by (intros; apply H; by right).
  specialize (IH H'). destruct (decide (r = r')); by rewrite IH.
Qed.
Lemma set_in_runs dv runs r : NoDup (dkeys runs) ->
  (forall r ks, (r, ks) ∈ runs -> forall k, k ∈ ks -> dv !! k <> None) ->
  set_in (concat (map (fun p => run_sets dv p.1 p.2) runs)) r = default [] (dget runs r).
Proof.
  induction runs as [|[r' ks] runs IH]; intros N H; [done|].
  cbn [dkeys map fst] in N. apply NoDup_cons in N as [N1 N2].
  cbn [map concat fst snd]. rewrite set_in_app, set_in_run_sets by (apply (H r' ks); left).
  rewrite IH; [|done|intros; eapply H; [|done]; by right].
  cbn [dget]. destruct (decide (r' = r)) as [->|Hne].
  - rewrite decide_True by done. apply dget_None_key in N1. cbn [fst] in N1. rewrite N1. cbn. by rewrite app_nil_r.
  - rewrite decide_False by done. done.
Qed.

(** Every key with a data version is recorded for some run. *)
Lemma recorded ops k : orderly decodable ops -> latest ops k <> None -> exists r, r ∈ started ops /\ k ∈ set_in ops r.
Proof.
  induction ops as [|o ops IH] using rev_ind; intros O H; [done|].
  assert (L := orderly_last _ _ O). apply orderly_prefix in O. specialize (IH O).
  rewrite latest_snoc in H.
  assert (W : latest ops k <> None -> exists r, r ∈ started (ops ++ [o]) /\ k ∈ set_in (ops ++ [o]) r).
  { intros X. destruct (IH X) as (r & A & B). exists r. rewrite started_app, set_in_app. set_solver. }
  destruct o; try (by apply W).
  - case_decide; [|by apply W]. subst. destruct L as [L _]. exists r. rewrite started_app, set_in_app.
    split; [set_solver|]. apply elem_of_app; right. cbn. rewrite decide_True by done. by left.
  - case_decide; [done|]. by apply W.
Qed.

Lemma persist_facts ops : orderly decodable ops ->
  (forall r k, k ∈ set_in ops r -> latest ops k <> None) ->
  exists L, persist_ops (exec mem_step mem_empty ops).1 = (L, true) /\ orderly decodable L /\ consistent L /\
    started L = started ops /\ (forall r, set_in L r = set_in ops r) /\ (forall k, latest L k = latest ops k).
Proof.
  intros O P. destruct (mem_runs ops O) as [K G]. set (s := (exec mem_step mem_empty ops).1) in *.
  assert (M : forall k, ms_dv s !! k = latest ops k) by apply mem_dv.
  assert (I : ms_ids s = started ops) by apply mem_ids.
  assert (N : NoDup (dkeys (ms_runs s))) by (rewrite K; by apply started_nodup).
  assert (E : forall r ks, (r, ks) ∈ ms_runs s -> r ∈ started ops /\ ks = set_in ops r).
  { intros r ks Hr. apply elem_dget in Hr; [|done]. rewrite G in Hr. case_decide; [|done]. split; [done|]. congruence. }
  assert (Q : forall r ks, (r, ks) ∈ ms_runs s -> forall k, k ∈ ks -> ms_dv s !! k <> None).
  { intros r ks Hr k Hk. destruct (E r ks Hr) as [_ ->]. rewrite M. by eapply P. }
  set (l := concat (map (fun p => run_sets (ms_dv s) p.1 p.2) (ms_runs s))).
  exists (map OpInit (ms_ids s) ++ l).
  assert (El : forall o, o ∈ l -> exists k d r, o = OpSet k d r false /\ r ∈ started ops /\ k ∈ set_in ops r /\ latest ops k = Some d).
  { intros o Ho. unfold l in Ho. apply elem_concat in Ho as (x & Hx & Hp).
    apply elem_of_list_fmap in Hp as ([r ks] & -> & Hp). cbn [fst snd] in Hx.
    apply run_sets_elem in Hx as (k & d & Hk & Hd & ->). destruct (E r ks Hp) as [Hr ->].
    rewrite M in Hd. by exists k, d, r. }
  assert (Sl : started l = []).
  { destruct (started l) as [|r rs] eqn:X; [done|]. exfalso.
    assert (Y : r ∈ started l) by (rewrite X; left). apply elem_of_list_omap in Y as (o & Ho & Y).
    by destruct (El o Ho) as (? & ? & ? & -> & _). }
  assert (Se : forall r, set_in (map OpInit (ms_ids s) ++ l) r = set_in ops r).
  { intros r. rewrite set_in_app, set_in_inits. cbn [app]. unfold l. rewrite set_in_runs by done. rewrite G.
    case_decide; [done|]. cbn. by rewrite set_in_started. }
  assert (C : copies (latest ops) (map OpInit (ms_ids s) ++ l)).
  { intros o [Ho|Ho]%elem_of_app.
    - apply elem_of_list_fmap in Ho as (r & -> & _). done.
    - destruct (El o Ho) as (k & d & r & -> & _ & _ & ?). done. }
  destruct (copies_latest _ _ C) as [C1 C2].
  split_and!.
  - unfold persist_ops. rewrite persist_runs_eq by done. done.
  - apply orderly_sets.
    + rewrite <- (app_nil_l (map _ _)). apply orderly_inits; [apply orderly_nil|rewrite I; by apply started_nodup|cbn; set_solver].
    + intros o Ho. destruct (El o Ho) as (k & d & r & -> & Hr & Hk & _). rewrite started_inits, I. split; [done|].
      by eapply set_in_decodable.
  - done.
  - rewrite started_app, started_inits, Sl, app_nil_r. done.
  - done.
  - intros k. rewrite C2. case_decide as D; [done|]. destruct (latest ops k) as [d|] eqn:X; [|done]. exfalso; apply D.
    destruct (recorded ops k O) as (r & Hr & Hk); [by rewrite X|].
    rewrite <- Se in Hk. unfold set_in in Hk. apply elem_of_list_omap in Hk as (o & Ho & Y).
    apply elem_of_list_omap. exists o. split; [done|]. destruct o; try done. case_decide; [|done]. congruence.
Qed.

Lemma answers_cong m m' ops ops' o a : (forall k, m k = m' k) -> started ops = started ops' ->
  (forall r, set_in ops r = set_in ops' r) -> answers m ops o a -> answers m' ops' o a.
Proof.
  intros E S I H. apply (answers_ext m); [done|]. destruct o; cbn in *; rewrite <- ?S; try done.
  rewrite <- I. done.
Qed.

Lemma persist_ok ops : orderly decodable ops ->
  (forall r k, k ∈ set_in ops r -> latest ops k <> None) ->
  exists L, persist_ops (exec mem_step mem_empty ops).1 = (L, true) /\
    forall o, asks o = true ->
      (mem_step (exec mem_step mem_empty L).1 o).2 = (mem_step (exec mem_step mem_empty ops).1 o).2 /\
      (sq_step (exec sq_step sq_empty L).1 o).2 = (mem_step (exec mem_step mem_empty ops).1 o).2.
Proof.
  intros O P. destruct (persist_facts ops O P) as (L & E & OL & CL & S & I & M).
  exists L. split; [done|]. intros o A.
  assert (B : answers (latest ops) ops o (mem_step (exec mem_step mem_empty ops).1 o).2).
  { apply mem_answers; [done|]. intros r ->. split; [done|]. by apply P. }
  assert (P' : forall r k, k ∈ set_in L r -> latest L k <> None).
  { intros r k Hk. rewrite M. rewrite I in Hk. by eapply P. }
  split.
  - apply (answers_unique (latest ops) ops o); [|done]. apply (answers_cong (latest L) _ L); [done..|].
    apply mem_answers; [done|]. intros r ->. split; [done|]. by apply P'.
  - apply (answers_unique (latest ops) ops o); [|done]. apply (answers_cong (first_set L) _ L); [|done..|].
    { intros k. by rewrite consistent_first. }
    apply sq_answers; [by apply orderly_keyed|done|]. intros r -> k Hk. rewrite consistent_first by done. by eapply P'.
Qed.

(** ** Loading from SQLite *)
Definition sets_of (r : runid) (l : list (ckey * dver)) : list op := map (fun p => OpSet p.1 p.2 r false) l.
Lemma set_in_sets_of r l r' : set_in (sets_of r l) r' = if decide (r = r') then l.*1 else [].
Proof.
  unfold set_in, sets_of. induction l as [|[k d] l IH]; cbn; [by destruct (decide _)|].
  destruct (decide (r = r')); by rewrite IH.
Qed.
Lemma started_sets_of r l : started (sets_of r l) = [].
Proof. unfold started, sets_of. induction l as [|[k d] l IH]; [done|]. done. Qed.
Lemma load_shape (f : runid -> list (ckey * dver)) rs a :
  (forall r k d, (k, d) ∈ f r -> decodable k = true) ->
  orderly decodable a -> NoDup rs -> (forall r, r ∈ rs -> r ∉ started a) ->
  let L := a ++ concat (map (fun r => OpInit r :: sets_of r (f r)) rs) in
  orderly decodable L /\ started L = started a ++ rs /\
  forall r, set_in L r = set_in a r ++ if decide (r ∈ rs) then (f r).*1 else [].
Proof.
  intros D. revert a. induction rs as [|r rs IH]; intros a O N X.
  { cbn. rewrite !app_nil_r. split_and!; [done..|]. intros r. by rewrite decide_False, app_nil_r by set_solver. }
  apply NoDup_cons in N as [N1 N2]. cbn [map concat].
  assert (E : a ++ (OpInit r :: sets_of r (f r)) ++ concat (map (fun r => OpInit r :: sets_of r (f r)) rs) =
              ((a ++ [OpInit r]) ++ sets_of r (f r)) ++ concat (map (fun r => OpInit r :: sets_of r (f r)) rs)).
  { rewrite <- !app_assoc. done. }
  rewrite E. clear E.
  assert (S : started ((a ++ [OpInit r]) ++ sets_of r (f r)) = started a ++ [r]).
  { rewrite !started_app, started_sets_of, app_nil_r. done. }
  destruct (IH ((a ++ [OpInit r]) ++ sets_of r (f r))) as (A & B & C).
  - apply orderly_sets; [apply orderly_snoc; [done|]; apply X; left|].
    intros o Ho. apply elem_of_list_fmap in Ho as ([k d] & -> & Hk). rewrite started_app. cbn. split; [set_solver|]. by eapply D.
  - done.
  - intros r' Hr'. rewrite S, elem_of_app. intros [Y|Y]; [by apply (X r'); [right|]|].
    apply elem_of_list_singleton in Y. by subst.
  - split_and!; [done| |].
    + rewrite B, S. by rewrite <- app_assoc.
    + intros r'. rewrite C, !set_in_app, set_in_sets_of.
      assert (Z : set_in [OpInit r] r' = []) by done. rewrite Z, app_nil_r.
      destruct (decide (r = r')) as [<-|Hne].
      * rewrite (decide_False (P := r ∈ rs)), (decide_True (P := r ∈ r :: rs)) by (done || left). by rewrite app_nil_r.
      * rewrite app_nil_r. destruct (decide (r' ∈ rs)); [rewrite decide_True by set_solver|rewrite decide_False by set_solver]; done.
Qed.

Lemma first_latest_dom ops k : first_set ops k = None <-> latest ops k = None.
Proof.
  induction ops as [|o ops IH] using rev_ind; [done|]. rewrite first_set_snoc, latest_snoc.
  destruct o; try done; case_decide; done.
Qed.

Lemma load_ok ops o : orderly decodable ops -> asks o = true ->
  (mem_step (exec mem_step mem_empty (load_ops (exec sq_step sq_empty ops).1)).1 o).2 =
  (sq_step (exec sq_step sq_empty ops).1 o).2.
Proof.
  intros O A. assert (K := orderly_keyed _ O). destruct (sq_state ops K) as (S1 & S2 & S3 & S4).
  set (s := (exec sq_step sq_empty ops).1) in *. unfold load_ops. rewrite S3.
  assert (R : forall r, sq_rows s r = omap (fun k => option_map (pair k) (first_set ops k)) (set_in ops r)).
  { intros r. by apply sq_rows_eq. }
  assert (RE : forall r k d, (k, d) ∈ sq_rows s r <-> k ∈ set_in ops r /\ first_set ops k = Some d).
  { intros r k d. rewrite R, elem_of_list_omap. split.
    - intros (k' & Hk & X). destruct (first_set ops k') as [d'|] eqn:Y; [|done]. injection X as -> ->. done.
    - intros [Hk X]. exists k. by rewrite X. }
  set (L := concat (map (fun r => OpInit r :: sets_of r (sq_rows s r)) (started ops))).
  change (concat _) with L.
  destruct (load_shape (sq_rows s) (started ops) []) as (OL & SL & IL).
  { intros r k d [Hk _]%RE. by eapply set_in_decodable. }
  { apply orderly_nil. } { by apply started_nodup. } { cbn; set_solver. }
  rewrite app_nil_l in OL, SL, IL. fold L in OL, SL, IL.
  assert (C : copies (first_set ops) L).
  { intros x Hx. apply elem_concat in Hx as (y & Hy & Hp). apply elem_of_list_fmap in Hp as (r & -> & Hr).
    apply elem_of_cons in Hy as [-> | Hy]; [done|].
    apply elem_of_list_fmap in Hy as ([k d] & -> & Hk). cbn. by apply RE in Hk as [_ ?]. }
  destruct (copies_latest _ _ C) as [CL ML].
  assert (M : forall k, latest L k = first_set ops k).
  { intros k. rewrite ML. case_decide as D; [done|]. destruct (first_set ops k) as [d|] eqn:X; [|done]. exfalso; apply D.
    destruct (recorded ops k O) as (r & Hr & Hk).
    { intros Y. apply first_latest_dom in Y. congruence. }
    assert (Z : k ∈ set_in L r).
    { rewrite IL, decide_True by done. apply elem_of_list_fmap. exists (k, d). split; [done|]. by apply RE. }
    unfold set_in in Z. apply elem_of_list_omap in Z as (x & Hx & Y).
    apply elem_of_list_omap. exists x. split; [done|]. destruct x; try done. case_decide; [|done]. congruence. }
  destruct o; try done.
  - cbn [StoreModel.mem_step StoreModel.sq_step]. rewrite S1. cbn. by rewrite mem_dv, M, S2.
  - cbn [StoreModel.mem_step StoreModel.sq_step]. rewrite S1. cbn. by rewrite mem_dv, M, S2.
  - apply (answers_unique (first_set ops) ops OpLen).
    + cbn [StoreModel.mem_step snd answers]. apply size_answers. intros k. by rewrite mem_dv, M.
    + apply sq_answers; done.
  - cbn [StoreModel.mem_step StoreModel.sq_step]. rewrite S1. cbn [snd]. by rewrite mem_ids, SL, S3.
  - cbn [StoreModel.mem_step StoreModel.sq_step]. rewrite S1. cbn [snd].
    destruct (mem_runs L OL) as [_ G]. rewrite G, SL, S3. cbn [started omap list_omap app].
    case_decide as Hr; [|done].
    assert (T : set_in L r = (sq_rows s r).*1) by (rewrite IL, decide_True by done; done).
    rewrite mem_rows_present.
    + f_equal. rewrite T.
      assert (W : forall l, (forall k d, (k, d) ∈ l -> first_set ops k = Some d) ->
        omap (fun k => option_map (pair k) (ms_dv (exec mem_step mem_empty L).1 !! k)) l.*1 = l).
      { induction l as [|[k d] l IHl]; intros H; [done|]. cbn. rewrite mem_dv, M, (H k d) by left. cbn. f_equal.
        apply IHl. intros; apply H; by right. }
      apply W. intros k d Hk. by apply RE in Hk as [_ ?].
    + intros k Hk. rewrite T in Hk. apply elem_of_list_fmap in Hk as ([k' d] & -> & Hk). rewrite mem_dv, M. cbn.
      apply RE in Hk as [_ ->]. done.
    + intros k Hk. by eapply set_in_decodable.
Qed.
End Stores.

(** ** Result stores *)
Section Results.
Context {V : Type} (none : V).
Lemma r_persist_ok (s : gmap dver V) d : r_persist s ∅ !! d = s !! d.
Proof.
  unfold r_persist, r_set.
  assert (H : forall l (t : gmap dver V), NoDup l.*1 ->
    foldl (fun t p => <[p.1 := p.2]> t) t l !! d = match (list_to_map l : gmap dver V) !! d with Some v => Some v | None => t !! d end).
  { induction l as [|[k v] l IH]; intros t N; [done|]. cbn in N. apply NoDup_cons in N as [N1 N2]. cbn [foldl fst snd].
    rewrite IH by done. cbn [list_to_map foldr]. destruct (decide (k = d)) as [->|Hk].
    - change (list_to_map ((d, v) :: l)) with (<[d := v]> (list_to_map l : gmap dver V)). rewrite lookup_insert.
      rewrite (not_elem_of_list_to_map_1 (M := gmap dver)) by done. by rewrite lookup_insert.
    - change (list_to_map ((k, v) :: l)) with (<[k := v]> (list_to_map l : gmap dver V)). rewrite lookup_insert_ne by done.
      by rewrite lookup_insert_ne. }
  rewrite H by apply NoDup_fst_map_to_list. rewrite list_to_map_to_list. by destruct (s !! d).
Qed.
Lemma r_load_ok (s : gmap dver V) vs d :
  r_load none s vs !! d = if decide (d ∈ vs) then Some (r_get none s d) else None.
Proof.
  unfold r_load, r_set. induction vs as [|x vs IH] using rev_ind; [by rewrite decide_False by set_solver|].
  rewrite foldl_app. cbn [foldl]. destruct (decide (x = d)) as [->|Hx].
  - rewrite lookup_insert, decide_True by set_solver. done.
  - rewrite lookup_insert_ne, IH by done.
    destruct (decide (d ∈ vs)); [by rewrite decide_True by set_solver|by rewrite decide_False by set_solver].
Qed.
End Results.
