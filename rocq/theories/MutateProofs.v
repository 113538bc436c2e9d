(** Proofs about @mutate. *)
From Verif Require Import Base Dict NodeModel PipeModel AdapterModel MutateModel MutateSpec.

Section Proofs.
Context {V E T : Type}.
Notation fobj := (fobj V E T).
Notation papp := (papp V E T).
Notation tdec := (tdec V E T).
Notation rdec := (rdec V E T).

Definition ids_of (d : tdec) : list nat := match d with TPipe ids _ _ => ids | TOther _ => [] end.
Definition below (k : nat) (fns : dict fobj) : Prop :=
  forall x fo d id, dget fns x = Some fo -> d ∈ fo_decs fo -> id ∈ ids_of d -> id < k.

Lemma below_mono k k' fns : k <= k' -> below k fns -> below k' fns.
Proof. intros Hle H x fo d id H1 H2 H3. specialize (H x fo d id H1 H2 H3). lia. Qed.
Lemma below_dset k fns x fo : below k fns -> (forall d id, d ∈ fo_decs fo -> id ∈ ids_of d -> id < k) -> below k (dset fns x fo).
Proof.
  intros H Hfo y fo' d id Hy. rewrite dget_dset in Hy. case_decide; [injection Hy as <-; apply Hfo|by apply (H y)].
Qed.

Lemma current_ext (h h' : list papp) (d : tdec) : (forall id, id ∈ ids_of d -> h !! id = h' !! id) -> current h d = current h' d.
Proof.
  destruct d as [ids nsp t|f]; cbn; [|done]. intros H. f_equal. induction ids as [|id ids IH]; [done|]. cbn.
  rewrite (H id) by by left. rewrite IH by (intros; apply H; by right). done.
Qed.
Lemma currents_ext (h h' : list papp) (ds : list tdec) : (forall d id, d ∈ ds -> id ∈ ids_of d -> h !! id = h' !! id) ->
  map (current h) ds = map (current h') ds.
Proof.
  induction ds as [|d ds IH]; intros H; [done|]. cbn. f_equal; [apply current_ext; intros; eapply H; [by left|done]|].
  apply IH. intros. eapply H; [by right|done].
Qed.

(** One step more. *)
Definition extend1 (x : app V E T * option (list name)) (ds : list rdec) : list rdec := extended [x] ds.
Lemma has_pipe_map (ms : list (app V E T * option (list name))) (ds : list rdec) :
  existsb is_rpipe (map (fun d => match d with RPipe aps nsp t => RPipe (aps ++ ms) nsp t | ROther f => ROther f end) ds) = existsb is_rpipe ds.
Proof. induction ds as [|[] ds IH]; cbn; [done|done|done]. Qed.
Lemma extended_nil (ds : list rdec) : extended [] ds = ds.
Proof.
  unfold extended. destruct (existsb is_rpipe ds); [|done]. rewrite <- (map_id ds) at 2. apply map_ext. intros []; [|done]. by rewrite app_nil_r.
Qed.
Lemma extended_app ms ms' (ds : list rdec) : extended ms' (extended ms ds) = extended (ms ++ ms') ds.
Proof.
  destruct ms as [|m ms]; [by rewrite extended_nil|]. unfold extended at 2 3. destruct (existsb is_rpipe ds) eqn:Hp.
  - unfold extended. rewrite has_pipe_map, Hp, map_map. apply map_ext. intros []; [|done]. by rewrite <- app_assoc.
  - unfold extended. rewrite existsb_app. cbn. rewrite orb_true_r. rewrite map_app. cbn. f_equal.
    clear -Hp. induction ds as [|[] ds IH]; cbn in *; [done|done|]. by rewrite IH.
Qed.

Lemma current_is_pipe (h : list papp) (ds : list tdec) : existsb is_rpipe (map (current h) ds) = existsb is_pipe ds.
Proof. induction ds as [|[] ds IH]; cbn; [done|done|done]. Qed.

Definition view (fns : dict fobj) (h : list papp) (x : name) : option (pyfn V E T * list (pnode V E T) * bool * list rdec) :=
  match dget fns x with
  | Some fo => Some (fo_fn fo, fo_nodes fo, fo_hidden fo, map (current h) (fo_decs fo))
  | None => None
  end.
Definition extend_view (ms : list (app V E T * option (list name))) (v : option (pyfn V E T * list (pnode V E T) * bool * list rdec)) :=
  match v with
  | Some (f, ns, b, ds) => Some (f, ns, b, extended ms ds)
  | None => None
  end.
Lemma extend_view_nil v : extend_view [] v = v.
Proof. destruct v as [[[[f ns] b] ds]|]; cbn; [by rewrite extended_nil|done]. Qed.
Lemma extend_view_app ms ms' v : extend_view ms' (extend_view ms v) = extend_view (ms ++ ms') v.
Proof. destruct v as [[[[f ns] b] ds]|]; cbn; [by rewrite extended_app|done]. Qed.

(** The object of an argument. *)
Definition object (a : marg V E T) : papp := match a with MNew p => p | MFn x => apply_to x [] | MVar _ => apply_to "" [] end.

Lemma alloc_inline fns vars args : (forall v, MVar v ∉ args) -> forall heap heap' ids,
  alloc fns vars heap args = Ok (heap', ids) -> heap' = heap ++ map object args /\ ids = seq (length heap) (length args).
Proof.
  induction args as [|a args IH]; intros Hin heap heap' ids H; cbn in H.
  - injection H as <- <-. by rewrite app_nil_r.
  - assert (Ha : (match a with
        | MFn x => if dget fns x then Ok (heap ++ [apply_to x []], length heap) else Err MName
        | MNew p => match pa_target p with
                    | Some x => if dget fns x then Ok (heap ++ [p], length heap) else Err MName
                    | None => Ok (heap ++ [p], length heap)
                    end
        | MVar v => match dget vars v with Some id => Ok (heap, id) | None => Err MName end
        end) = Ok (heap ++ [object a], length heap) \/ exists e, (match a with
        | MFn x => if dget fns x then Ok (heap ++ [apply_to x []], length heap) else Err MName
        | MNew p => match pa_target p with
                    | Some x => if dget fns x then Ok (heap ++ [p], length heap) else Err MName
                    | None => Ok (heap ++ [p], length heap)
                    end
        | MVar v => match dget vars v with Some id => Ok (heap, id) | None => Err MName end
        end) = Err (A := list papp * nat) (E := merr) e).
    { destruct a as [x|p|v].
      - destruct (dget fns x); [by left|right; by eexists].
      - destruct (pa_target p) as [x|]; [destruct (dget fns x); [by left|right; by eexists]|by left].
      - exfalso. apply (Hin v). by left. }
    destruct Ha as [Ha|[e Ha]]; rewrite Ha in H; [|done]. cbn in H.
    destruct (alloc fns vars (heap ++ [object a]) args) as [[h2 ids2]|e] eqn:Ea; [|done]. cbn in H. injection H as <- <-.
    apply IH in Ea as [-> ->]; [|intros v Hv; apply (Hin v); by right]. split; [by rewrite <- app_assoc|].
    rewrite app_length. cbn. by rewrite Nat.add_1_r.
Qed.

Lemma current_add_step (h : list papp) id p d : h !! id ≫= app_of = Some p ->
  current h (add_step id d) = match current h d with RPipe aps nsp t => RPipe (aps ++ [p]) nsp t | ROther f => ROther f end.
Proof.
  intros Hp. destruct d as [ids nsp t|f]; [|done]. cbn [add_step current]. f_equal. rewrite omap_app. cbn. by rewrite Hp.
Qed.

Lemma mutate_one_view t kws fns heap k p fns' heap' x :
  below k fns -> heap !! k = Some p -> mutate_one t kws fns heap k = Ok (fns', heap') ->
  below (S k) fns' /\ heap' = <[k := create_step t kws p]> heap /\
  view fns' heap' x = extend_view (if decide (pa_target p = Some x) then [step_of t kws p] else []) (view fns heap x).
Proof.
  intros Hb Hk H. unfold mutate_one in H. rewrite Hk in H. cbn zeta in H.
  destruct (pa_target (create_step t kws p)) as [y|] eqn:Hy; [|done]. cbn in Hy.
  destruct (dget fns y) as [fo|] eqn:Hfo; [|done].
  assert (Hstep : <[k:=create_step t kws p]> heap !! k ≫= app_of = Some (step_of t kws p)).
  { rewrite list_lookup_insert by (by eapply lookup_lt_Some). done. }
  assert (Hold : forall z fz, dget fns z = Some fz -> map (current (<[k:=create_step t kws p]> heap)) (fo_decs fz) = map (current heap) (fo_decs fz)).
  { intros z fz Hz. apply currents_ext. intros d id Hd Hid. apply list_lookup_insert_ne. pose proof (Hb z fz d id Hz Hd Hid). lia. }
  assert (Hnew : exists ds, fns' = dset fns y (FObj (fo_fn fo) (fo_nodes fo) ds (fo_hidden fo)) /\ heap' = <[k:=create_step t kws p]> heap /\
     (forall d id, d ∈ ds -> id ∈ ids_of d -> id < S k) /\
     map (current (<[k:=create_step t kws p]> heap)) ds = extended [step_of t kws p] (map (current heap) (fo_decs fo))).
  { destruct (existsb is_pipe (fo_decs fo)) eqn:Hp.
    - injection H as <- <-. eexists. split_and!; [done|done| |].
      + intros d id (d0 & -> & Hd0)%elem_of_list_fmap Hid. destruct d0 as [ids nsp tt|f]; cbn in Hid; [|by apply elem_of_nil in Hid].
        apply elem_of_app in Hid as [Hid| ->%elem_of_list_singleton]; [|lia]. pose proof (Hb y fo _ id Hfo Hd0 Hid). lia.
      + unfold extended. rewrite current_is_pipe, Hp, map_map, <- (Hold y fo Hfo), map_map. apply map_ext. intros d. by apply current_add_step.
    - destruct (valid_step _); [|done]. injection H as <- <-. eexists. split_and!; [done|done| |].
      + intros d id [Hd| ->%elem_of_list_singleton]%elem_of_app Hid; [pose proof (Hb y fo _ id Hfo Hd Hid); lia|].
        cbn in Hid. apply elem_of_list_singleton in Hid as ->. lia.
      + unfold extended. rewrite current_is_pipe, Hp, map_app, (Hold y fo Hfo). f_equal. cbn [map current omap list_omap]. by rewrite Hstep. }
  destruct Hnew as (ds & -> & -> & Hlt & Hds). split_and!; [|done|].
  - apply below_dset; [eapply below_mono; [|done]; lia|done].
  - unfold view. rewrite dget_dset. rewrite Hy. case_decide as Hx.
    + subst x. rewrite decide_True by done. rewrite Hfo. cbn. by rewrite Hds.
    + rewrite decide_False by congruence. rewrite extend_view_nil. destruct (dget fns x) as [fx|] eqn:Hfx; [|done]. by rewrite (Hold x fx Hfx).
Qed.

Lemma object_mutation x t kws (a : marg V E T) : (forall v, a <> MVar v) ->
  (if decide (pa_target (object a) = Some x) then [step_of t kws (object a)] else []) = match mutation x t kws a with Some s => [s] | None => [] end.
Proof.
  intros Ha. destruct a as [y|p|v]; cbn.
  - destruct (decide (y = x)) as [->|Hn]; [by rewrite decide_True by done|by rewrite decide_False by congruence].
  - by destruct (decide _).
  - by destruct (Ha v).
Qed.

Lemma mutate_all_view t kws x args : (forall v, MVar v ∉ args) -> forall fns heap k fns' heap',
  below k fns -> (forall i a, args !! i = Some a -> heap !! (k + i) = Some (object a)) ->
  mutate_all t kws fns heap (seq k (length args)) = Ok (fns', heap') ->
  below (k + length args) fns' /\ length heap' = length heap /\
  view fns' heap' x = extend_view (omap (mutation x t kws) args) (view fns heap x).
Proof.
  induction args as [|a args IH]; intros Hin fns heap k fns' heap' Hb Hobj H.
  - cbn in H. injection H as <- <-. cbn. rewrite Nat.add_0_r, extend_view_nil. done.
  - cbn [length seq mutate_all] in H. destruct (mutate_one t kws fns heap k) as [[f1 h1]|] eqn:H1; [|done]. cbn [bindr] in H.
    assert (Hk : heap !! k = Some (object a)) by (rewrite <- (Nat.add_0_r k); by apply Hobj).
    destruct (mutate_one_view t kws fns heap k (object a) f1 h1 x Hb Hk H1) as (Hb1 & -> & Hv).
    assert (Ha : forall v, a <> MVar v) by (intros v ->; apply (Hin v); by left).
    cbn [fst snd] in H. apply IH in H as (Hb' & Hl & Hv'); [|by intros v Hv0; apply (Hin v); right|done|].
    + split_and!; [cbn; by rewrite <- Nat.add_succ_comm|rewrite Hl; apply insert_length|].
      rewrite Hv', Hv, extend_view_app, (object_mutation x t kws a Ha). f_equal. cbn. by destruct (mutation x t kws a).
    + intros i b Hb0. rewrite list_lookup_insert_ne by lia. replace (S k + i) with (k + S i) by lia. by apply Hobj.
Qed.

Lemma load_decs_spec ds : forall heap heap' ts, load_decs heap ds = Ok (heap', ts) ->
  (exists more, heap' = heap ++ more) /\ (forall d id, d ∈ ts -> id ∈ ids_of d -> id < length heap') /\ map (current heap') ts = map written ds.
Proof.
  induction ds as [|d ds IH]; intros heap heap' ts H; cbn in H.
  - injection H as <- <-. split_and!; [exists []; by rewrite app_nil_r|by intros ? ? []%elem_of_nil|done].
  - destruct d as [ps nsp t|f].
    + destruct (valid_pipe ps nsp t) eqn:Hval; [|done]. destruct (load_decs (heap ++ ps) ds) as [[h2 t2]|] eqn:Hl; [|done]. cbn in H. injection H as <- <-.
      apply IH in Hl as ([more ->] & Hlt & Hc). rewrite <- app_assoc. split_and!; [by eexists| |].
      * intros d id [-> | Hd]%elem_of_cons Hid; [|rewrite app_assoc; by eapply Hlt]. cbn in Hid. apply elem_of_seq in Hid. rewrite !app_length. lia.
      * cbn [map]. f_equal; [|by rewrite app_assoc]. cbn [current written]. f_equal.
        clear. assert (G : forall pre, omap (fun id => (heap ++ (pre ++ ps) ++ more) !! id ≫= app_of) (seq (length (heap ++ pre)) (length ps)) = omap app_of ps); [|by specialize (G []); rewrite app_nil_r in G].
        induction ps as [|p ps IH]; intros pre; [done|]. cbn [length seq omap list_omap].
        replace ((heap ++ (pre ++ p :: ps) ++ more) !! length (heap ++ pre)) with (Some p).
        2: { rewrite <- app_assoc, app_assoc. rewrite lookup_app_r by lia. by rewrite Nat.sub_diag. }
        cbn [mbind option_bind]. specialize (IH (pre ++ [p])). rewrite <- (app_assoc pre [p] ps) in IH. cbn [List.app] in IH.
        replace (S (length (heap ++ pre))) with (length (heap ++ pre ++ [p])) by (rewrite !app_length; cbn; lia). 
        destruct (app_of p); [f_equal|]; exact IH.
    + destruct (load_decs heap ds) as [[h2 t2]|] eqn:Hl; [|done]. cbn in H. injection H as <- <-.
      apply IH in Hl as (Hmore & Hlt & Hc). split_and!; [done| |cbn; by rewrite Hc].
      intros d id [-> | Hd]%elem_of_cons Hid; [by apply elem_of_nil in Hid|by eapply Hlt].
Qed.

Definition sound (st : mstate V E T) : Prop := below (length (ms_heap st)) (ms_fns st).

Lemma view_app fns h more x : below (length h) fns -> view fns (h ++ more) x = view fns h x.
Proof.
  intros Hb. unfold view. destruct (dget fns x) as [fo|] eqn:Hf; [|done]. do 2 f_equal. apply currents_ext.
  intros d id Hd Hid. apply lookup_app_l. by eapply Hb.
Qed.
Lemma view_dset_ne fns h y fo x : x <> y -> view (dset fns y fo) h x = view fns h x.
Proof. intros Hn. unfold view. by rewrite dget_dset_ne by done. Qed.

Lemma exec_view st s st' x : sound st -> inline s -> exec st s = Ok st' ->
  sound st' /\ (binds s <> Some x -> view (ms_fns st') (ms_heap st') x = extend_view (mutations x s) (view (ms_fns st) (ms_heap st) x)).
Proof.
  intros Hs Hin H. destruct s as [f nodes decs hidden|v p|t args kws]; cbn in H.
  - destruct (load_decs (ms_heap st) decs) as [[h ts]|] eqn:Hl; [|done]. cbn in H. injection H as <-.
    apply load_decs_spec in Hl as ([more ->] & Hlt & _). unfold sound. cbn. split.
    + apply below_dset; [eapply below_mono; [|exact Hs]; rewrite app_length; lia|done].
    + intros Hn. rewrite extend_view_nil, view_dset_ne by (intros ->; by apply Hn). by apply view_app.
  - assert (st' = MState (ms_fns st) (dset (ms_vars st) v (length (ms_heap st))) (ms_heap st ++ [p])) as ->.
    { destruct (pa_target p) as [y|]; [destruct (dget (ms_fns st) y)|]; congruence. }
    unfold sound. cbn. split; [eapply below_mono; [|exact Hs]; rewrite app_length; lia|]. intros _. rewrite extend_view_nil. by apply view_app.
  - destruct (alloc (ms_fns st) (ms_vars st) (ms_heap st) args) as [[h ids]|] eqn:Ha; [|done]. cbn in H.
    destruct (same_module _ _ _ _) as [[]|]; [|done]. cbn in H.
    apply alloc_inline in Ha as [-> ->]; [|done].
    destruct (mutate_all t kws (ms_fns st) (ms_heap st ++ map object args) (seq (length (ms_heap st)) (length args))) as [[f1 h1]|] eqn:Hm; [|done].
    cbn in H. injection H as <-.
    eapply (mutate_all_view t kws x args) in Hm as (Hb & Hl & Hv); [|done|exact Hs|].
    + unfold sound. cbn. rewrite Hl, app_length, map_length. split.
      * apply below_dset; [done|]. cbn. by intros ? ? []%elem_of_nil.
      * intros Hn. rewrite view_dset_ne by (intros ->; by apply Hn). rewrite Hv. f_equal. by apply view_app.
    + intros i a Hi. rewrite lookup_app_r by lia. rewrite Nat.add_comm, Nat.add_sub, list_lookup_fmap, Hi. done.
Qed.

Lemma load_view prog x : Forall inline prog -> forall st st', sound st -> load st prog = Ok st' ->
  sound st' /\ (Forall (fun s => binds s <> Some x) prog ->
    view (ms_fns st') (ms_heap st') x = extend_view (concat (map (mutations x) prog)) (view (ms_fns st) (ms_heap st) x)).
Proof.
  induction prog as [|s prog IH]; intros Hin st st' Hs H; cbn in H.
  - injection H as <-. split; [done|]. intros _. by rewrite extend_view_nil.
  - apply Forall_cons in Hin as [Hi Hin]. destruct (exec st s) as [st1|] eqn:He; [|done]. cbn in H.
    destruct (exec_view st s st1 x Hs Hi He) as [Hs1 Hv1]. destruct (IH Hin st1 st' Hs1 H) as [Hs' Hv']. split; [done|].
    intros [Hb Hbs]%Forall_cons. rewrite (Hv' Hbs), (Hv1 Hb), extend_view_app. done.
Qed.

Lemma load_app p1 p2 : forall st : mstate V E T, load st (p1 ++ p2) = bindr (load st p1) (fun st' => load st' p2).
Proof. induction p1 as [|s p1 IH]; intros st; cbn; [done|]. destruct (exec st s); cbn; [apply IH|done]. Qed.

Lemma import_sound prog st : Forall inline prog -> import prog = Ok st -> sound st.
Proof. intros Hin H. eapply (load_view prog ""); [done| |exact H]. intros x fo d id Hx. by cbn in Hx. Qed.

(** The transformers of a function after importing the module. *)
Lemma import_view p1 f nodes decs hidden p2 st : let x := pf_name f in
  Forall inline (p1 ++ SDef f nodes decs hidden :: p2) -> Forall (fun s => binds s <> Some x) p2 ->
  import (p1 ++ SDef f nodes decs hidden :: p2) = Ok st ->
  view (ms_fns st) (ms_heap st) x = Some (f, nodes, hidden, extended (concat (map (mutations x) p2)) (map written decs)).
Proof.
  intros x Hin Hb H. apply Forall_app in Hin as [Hin1 [_ Hin2]%Forall_cons]. unfold import in H. rewrite load_app in H.
  destruct (load _ p1) as [st1|] eqn:H1; [|done]. cbn in H.
  destruct (load_decs (ms_heap st1) decs) as [[h ts]|] eqn:Hl; [|done]. cbn in H.
  assert (Hs1 : sound st1) by exact (import_sound p1 st1 Hin1 H1).
  pose proof (load_decs_spec _ _ _ _ Hl) as ([more ->] & Hlt & Hc).
  eapply (load_view p2 x) in H as [_ Hv]; [|done|].
  - rewrite (Hv Hb). cbn. unfold view. rewrite dget_dset_eq. cbn. by rewrite Hc.
  - unfold sound. cbn. apply below_dset; [eapply below_mono; [|exact Hs1]; rewrite app_length; lia|done].
Qed.

Lemma nodes_of_view (any_type : T) non_final st x f nodes hidden ds :
  view (ms_fns st) (ms_heap st) x = Some (f, nodes, hidden, ds) ->
  nodes_of any_type non_final st x = Some (if hidden then Ok [] else run_decs any_type non_final (pf_name f) ds nodes).
Proof.
  unfold view, nodes_of. destruct (dget (ms_fns st) x) as [fo|]; [|done]. by intros [= <- <- <- <-].
Qed.
End Proofs.
