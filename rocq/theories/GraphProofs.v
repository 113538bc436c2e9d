(** Correctness of graph construction. *)
From Verif Require Import Base Dict GraphModel.

Section Proofs.
Context {T : Type}.
Variable types_match adapter_match : T -> T -> bool.
Variable any_type : T.
Implicit Types (nodes base : dict (gnode T)) (done : list (name * name)).

(** Edges added so far, as (function, parameter) pairs. *)
Definition deps_of done (k : name) : list name := (filter (fun e => e.1 = k) done).*2.
Definition rdeps_of done (k : name) : list name := (filter (fun e => e.2 = k) done).*1.

Lemma deps_of_snoc done f p k :
  deps_of (done ++ [(f, p)]) k = if decide (f = k) then deps_of done k ++ [p] else deps_of done k.
Proof.
  unfold deps_of. rewrite filter_app. rewrite filter_cons, filter_nil. cbn.
  destruct (decide (f = k)); rewrite fmap_app; cbn; [done|by rewrite app_nil_r].
Qed.
Lemma rdeps_of_snoc done f p k :
  rdeps_of (done ++ [(f, p)]) k = if decide (p = k) then rdeps_of done k ++ [f] else rdeps_of done k.
Proof.
  unfold rdeps_of. rewrite filter_app. rewrite filter_cons, filter_nil. cbn.
  destruct (decide (p = k)); rewrite fmap_app; cbn; [done|by rewrite app_nil_r].
Qed.
Lemma elem_deps_of done k p : p ∈ deps_of done k <-> (k, p) ∈ done.
Proof.
  unfold deps_of. rewrite elem_of_list_fmap. setoid_rewrite elem_of_list_filter. split.
  - intros ([a b] & -> & Ha & Hin). cbn in *. by subst.
  - intros Hin. by exists (k, p).
Qed.
Lemma elem_rdeps_of done k f : f ∈ rdeps_of done k <-> (f, k) ∈ done.
Proof.
  unfold rdeps_of. rewrite elem_of_list_fmap. setoid_rewrite elem_of_list_filter. split.
  - intros ([a b] & -> & Ha & Hin). cbn in *. by subst.
  - intros Hin. by exists (f, k).
Qed.
Lemma NoDup_rdeps_of done k : NoDup done -> NoDup (rdeps_of done k).
Proof.
  intros Hnd. unfold rdeps_of. induction done as [|[f p] done IH]; [constructor|].
  apply NoDup_cons in Hnd as [Hn Hnd]. rewrite filter_cons. cbn.
  destruct (decide (p = k)) as [->|]; [|by apply IH]. cbn. constructor; [|by apply IH].
  intros Hin. apply Hn. change (f ∈ rdeps_of done k) in Hin. by apply elem_rdeps_of in Hin.
Qed.

Record building base done nodes : Prop := {
  b_nodup : NoDup (dkeys nodes);
  b_keys : forall k, k ∈ dkeys nodes <-> k ∈ dkeys base \/ exists f, (f, k) ∈ done;
  b_base : forall k n0, dget base k = Some n0 ->
     exists n, dget nodes k = Some n /\ gn_ext n = gn_ext n0 /\ gn_params n = gn_params n0 /\
               gn_deps n = deps_of done k /\ gn_rdeps n = rdeps_of done k;
  b_new : forall k n, dget base k = None -> dget nodes k = Some n ->
     gn_ext n = true /\ gn_params n = [] /\ gn_deps n = [] /\ gn_rdeps n = rdeps_of done k;
}.

Lemma dget_dmod nodes k f x :
  dget (dmod nodes k f) x = if decide (x = k) then f <$> dget nodes k else dget nodes x.
Proof.
  unfold dmod. destruct (dget nodes k) as [n|] eqn:Hk; cbn.
  - apply dget_dset.
  - destruct (decide (x = k)) as [->|]; [done|done].
Qed.
Lemma dkeys_dmod nodes k f : dkeys (dmod nodes k f) = dkeys nodes.
Proof.
  unfold dmod. destruct (dget nodes k) as [n|] eqn:Hk; [|done].
  apply dkeys_dset_in. apply dget_Some_key. by eexists.
Qed.

(** The node dictionary just before the two appends of [add_dependency]. *)
Lemma building_edge base done nodes nodes' func p :
  building base done nodes -> func ∈ dkeys base ->
  NoDup (dkeys nodes') ->
  (forall k, k ∈ dkeys nodes' <-> k = p \/ k ∈ dkeys nodes) ->
  (forall k n, dget nodes k = Some n -> exists n', dget nodes' k = Some n' /\ gn_ext n' = gn_ext n /\
      gn_params n' = gn_params n /\ gn_deps n' = gn_deps n /\ gn_rdeps n' = gn_rdeps n) ->
  (dget nodes p = None -> exists n', dget nodes' p = Some n' /\ gn_ext n' = true /\
      gn_params n' = [] /\ gn_deps n' = [] /\ gn_rdeps n' = []) ->
  building base (done ++ [(func, p)])
    (dmod (dmod nodes' func (fun n => add_dep n p)) p (fun n => add_rdep n func)).
Proof.
  intros Hb Hfunc Hnd Hkeys Hold Hnew.
  set (m1 := dmod nodes' func (fun n => add_dep n p)).
  assert (Hout : forall k n', dget nodes' k = Some n' ->
     dget (dmod m1 p (fun n => add_rdep n func)) k =
     Some (GNode (gn_ext n') (gn_type n') (gn_params n')
             (gn_deps n' ++ (if decide (func = k) then [p] else []))
             (gn_rdeps n' ++ (if decide (p = k) then [func] else [])))).
  { intros k n' Hk. unfold m1. rewrite !dget_dmod.
    destruct (decide (k = p)) as [->|Hkp].
    - destruct (decide (p = func)) as [->|Hpf].
      + rewrite Hk. cbn. by rewrite !decide_True by done.
      + rewrite Hk. cbn. rewrite (decide_False (P:=func = p)) by congruence.
        rewrite decide_True by done. by rewrite app_nil_r.
    - rewrite (decide_False (P:=p = k)) by congruence.
      destruct (decide (k = func)) as [->|Hkf].
      + rewrite Hk. cbn. rewrite decide_True by done. by rewrite app_nil_r.
      + rewrite Hk. rewrite decide_False by congruence. rewrite !app_nil_r.
        by destruct n'. }
  constructor.
  - unfold m1. by rewrite !dkeys_dmod.
  - intros k. unfold m1. rewrite !dkeys_dmod. rewrite Hkeys. rewrite (b_keys _ _ _ Hb k).
    setoid_rewrite elem_of_app. setoid_rewrite elem_of_list_singleton. split.
    + intros [->|[?|[f ?]]]; [right; exists func; by right|by left|right; exists f; by left].
    + intros [?|[f [?|[= -> ->]]]]; [right; by left|right; right; by exists f|by left].
  - intros k n0 Hk0. destruct (b_base _ _ _ Hb k n0 Hk0) as (n & Hn & He & Hp & Hd & Hr).
    destruct (Hold k n Hn) as (n' & Hn' & He' & Hp' & Hd' & Hr').
    eexists. split; [by apply Hout|]. cbn. split_and!; [congruence|congruence| |].
    + rewrite deps_of_snoc. destruct (decide (func = k)); rewrite ?app_nil_r; congruence.
    + rewrite rdeps_of_snoc. destruct (decide (p = k)); rewrite ?app_nil_r; congruence.
  - intros k n Hk0 Hk.
    assert (Hkf : func <> k).
    { intros ->. apply dget_None_key in Hk0. done. }
    assert (Hex : exists n', dget nodes' k = Some n' /\ gn_ext n' = true /\ gn_params n' = [] /\
                  gn_deps n' = [] /\ gn_rdeps n' = rdeps_of done k).
    { destruct (dget nodes k) as [n1|] eqn:Hn1.
      - destruct (b_new _ _ _ Hb k n1 Hk0 Hn1) as (? & ? & ? & ?).
        destruct (Hold k n1 Hn1) as (n' & Hn' & ? & ? & ? & ?). exists n'. split_and!; congruence.
      - assert (Hkk : k ∈ dkeys nodes').
        { unfold m1 in Hk. apply mk_is_Some, dget_Some_key in Hk. by rewrite !dkeys_dmod in Hk. }
        apply Hkeys in Hkk as [->|Hkk]; [|by apply dget_None_key in Hn1].
        destruct (Hnew Hn1) as (n' & ? & ? & ? & ? & Hr0). exists n'. split_and!; try done.
        rewrite Hr0. symmetry. assert (Hnone : forall f, f ∉ rdeps_of done p).
        { intros f Hf. apply elem_rdeps_of in Hf. apply dget_None_key in Hn1. apply Hn1.
          apply (b_keys _ _ _ Hb). right. by exists f. }
        destruct (rdeps_of done p) as [|f l]; [done|]. exfalso. apply (Hnone f). by left. }
    destruct Hex as (n' & Hn' & ? & ? & ? & ?).
    rewrite (Hout _ _ Hn') in Hk. injection Hk as <-. cbn.
    rewrite (decide_False (P:=func = k)) by done. rewrite app_nil_r.
    split_and!; try done. rewrite rdeps_of_snoc.
    destruct (decide (p = k)); rewrite ?app_nil_r; congruence.
Qed.

Lemma building_add_dependency base done nodes func p pt nodes' :
  building base done nodes -> func ∈ dkeys base ->
  add_dependency types_match adapter_match nodes func p pt = Ok nodes' ->
  building base (done ++ [(func, p)]) nodes'.
Proof.
  intros Hb Hf. unfold add_dependency.
  destruct (dget nodes p) as [rn|] eqn:Hp.
  - assert (Hpk : p ∈ dkeys nodes) by (apply dget_Some_key; by eexists).
    destruct (_ || _).
    + intros [= <-]. eapply building_edge; [done|done|by eapply b_nodup| |..].
      * intros k. split; [by right|]. by intros [->|?].
      * intros k n Hk. exists n. by split_and!.
      * congruence.
    + destruct (gn_ext rn) eqn:Hext; [|done]. destruct (_ || _); [|done].
      intros [= <-]. eapply building_edge; [done|done| | | |].
      * apply NoDup_dkeys_dset. by eapply b_nodup.
      * intros k. apply dkeys_dset_elem.
      * intros k n Hk. rewrite dget_dset. destruct (decide (k = p)) as [->|]; [|exists n; by split_and!].
        rewrite Hp in Hk. injection Hk as <-. eexists. split; [done|]. by split_and!.
      * congruence.
  - intros [= <-]. eapply building_edge; [done|done| | | |].
    + apply NoDup_dkeys_dset. by eapply b_nodup.
    + intros k. apply dkeys_dset_elem.
    + intros k n Hk. rewrite dget_dset. destruct (decide (k = p)) as [->|]; [congruence|].
      exists n. by split_and!.
    + intros _. rewrite dget_dset_eq. eexists. split; [done|]. by split_and!.
Qed.

Lemma building_add_params base func ps : forall done nodes nodes',
  building base done nodes -> func ∈ dkeys base ->
  add_params types_match adapter_match nodes func ps = Ok nodes' ->
  building base (done ++ map (fun p => (func, p.1)) ps) nodes'.
Proof.
  induction ps as [|[p [pt dt]] ps IH]; intros done nodes nodes' Hb Hf; cbn.
  - intros [= <-]. by rewrite app_nil_r.
  - destruct (add_dependency _ _ nodes func p pt) as [n1|] eqn:H1; [|done].
    intros H2. rewrite cons_middle, app_assoc. eapply IH; [|done|done].
    by eapply building_add_dependency.
Qed.

Definition all_edges (snapshot : dict (gnode T)) : list (name * name) :=
  concat (map (fun kn => map (fun p => (kn.1, p.1)) (gn_params kn.2)) snapshot).

Lemma all_edges_cons k n rest :
  all_edges ((k, n) :: rest) = map (fun p => (k, p.1)) (gn_params n) ++ all_edges rest.
Proof. reflexivity. Qed.

Lemma building_add_all base snapshot : forall done nodes nodes',
  building base done nodes -> (forall k, k ∈ dkeys snapshot -> k ∈ dkeys base) ->
  add_all types_match adapter_match nodes snapshot = Ok nodes' ->
  building base (done ++ all_edges snapshot) nodes'.
Proof.
  induction snapshot as [|[x n] rest IH]; intros done nodes nodes' Hb Hsub; cbn [add_all].
  - intros [= <-]. change (all_edges []) with (@nil (name * name)). by rewrite app_nil_r.
  - destruct (add_params _ _ nodes x (gn_params n)) as [n1|] eqn:H1; [|done].
    intros H2. rewrite all_edges_cons, app_assoc.
    eapply IH; [|intros; apply Hsub; by right|done].
    eapply building_add_params; [done| |done]. apply Hsub. by left.
Qed.

Lemma elem_all_edges snapshot x p : NoDup (dkeys snapshot) ->
  (x, p) ∈ all_edges snapshot <-> exists n, dget snapshot x = Some n /\ p ∈ (gn_params n).*1.
Proof.
  intros Hnd. unfold all_edges. rewrite elem_of_concat. split.
  - intros (l & Hin & Hl). apply elem_of_list_fmap in Hl as ([k n] & -> & Hkn).
    apply elem_of_list_fmap in Hin as ([q tq] & [= -> ->] & Hq). cbn in *.
    exists n. split; [by apply elem_dget|]. apply elem_of_list_fmap. by exists (q, tq).
  - intros (n & Hn & Hp). apply elem_of_list_fmap in Hp as ([q tq] & -> & Hq).
    exists (map (fun p => (x, p.1)) (gn_params n)). split.
    + apply elem_of_list_fmap. by exists (q, tq).
    + apply elem_of_list_fmap. exists (x, n). split; [done|]. by apply dget_elem.
Qed.

Lemma deps_of_app a b k : deps_of (a ++ b) k = deps_of a k ++ deps_of b k.
Proof. unfold deps_of. by rewrite filter_app, fmap_app. Qed.

Lemma deps_of_all_edges snapshot x n : NoDup (dkeys snapshot) -> dget snapshot x = Some n ->
  deps_of (all_edges snapshot) x = (gn_params n).*1.
Proof.
  induction snapshot as [|[k m] rest IH]; intros Hnd; [done|].
  apply NoDup_cons in Hnd as [Hk Hnd]. rewrite all_edges_cons, deps_of_app. cbn [dget].
  assert (Hself : forall ps : list (name * (T * deptype)), deps_of (map (fun p => (k, p.1)) ps) x =
            if decide (x = k) then ps.*1 else []).
  { induction ps as [|[q tq] ps IHp]; [by destruct (decide (x = k))|]. cbn [map fst].
    change ((k, q) :: map (λ p : name * (T * deptype), (k, p.1)) ps) with
      ([(k, q)] ++ map (λ p : name * (T * deptype), (k, p.1)) ps).
    rewrite deps_of_app, IHp. change [(k, q)] with ([] ++ [(k, q)]).
    rewrite deps_of_snoc. destruct (decide (x = k)) as [->|].
    - by rewrite decide_True.
    - rewrite decide_False by congruence. done. }
  rewrite Hself.
  destruct (decide (x = k)) as [->|Hne].
  - intros [= ->]. assert (Hnil : deps_of (all_edges rest) k = []).
    { destruct (deps_of (all_edges rest) k) as [|p l] eqn:Hl; [done|].
      assert (Hp : p ∈ deps_of (all_edges rest) k) by (rewrite Hl; by left).
      apply elem_deps_of, elem_all_edges in Hp as (n' & Hn' & _); [|done].
      exfalso. apply Hk. apply dget_Some_key. by eexists. }
    rewrite Hnil. by rewrite app_nil_r.
  - intros Hx. cbn. by apply IH.
Qed.

Lemma NoDup_all_edges snapshot : NoDup (dkeys snapshot) ->
  (forall x n, dget snapshot x = Some n -> NoDup (gn_params n).*1) -> NoDup (all_edges snapshot).
Proof.
  induction snapshot as [|[k m] rest IH]; intros Hnd Hps; [constructor|].
  apply NoDup_cons in Hnd as [Hk Hnd]. rewrite all_edges_cons. apply NoDup_app. split_and!.
  - assert (Hm : NoDup (gn_params m).*1) by (apply (Hps k); cbn [dget]; by rewrite decide_True).
    revert Hm. generalize (gn_params m). induction l as [|[q tq] l IHl]; cbn; intros Hm; [constructor|].
    apply NoDup_cons in Hm as [Hq Hm]. constructor; [|by apply IHl].
    intros Hin. apply elem_of_list_fmap in Hin as ([q' tq'] & [= ->] & Hin). apply Hq.
    apply elem_of_list_fmap. by exists (q', tq').
  - intros [a b] Hin Hin'. apply elem_of_list_fmap in Hin as ([q tq] & [= -> ->] & _).
    apply elem_all_edges in Hin' as (n' & Hn' & _); [|done].
    apply Hk. apply dget_Some_key. by eexists.
  - apply IH; [done|]. intros x n Hx. apply (Hps x). cbn [dget]. rewrite decide_False; [done|].
    intros ->. apply Hk. apply dget_Some_key. by eexists.
Qed.

(** Result of [update_dependencies] on nodes without references. *)
Lemma update_dependencies_ok base nodes' :
  NoDup (dkeys base) ->
  (forall k n, dget base k = Some n -> gn_deps n = [] /\ gn_rdeps n = []) ->
  update_dependencies types_match adapter_match base false = Ok nodes' ->
  building base (all_edges base) nodes'.
Proof.
  intros Hnd Hrefs. unfold update_dependencies. intros H.
  eapply (building_add_all base base [] base) in H; [done| |done].
  constructor; [done| | |].
  - intros k. split; [by left|]. intros [?|[f Hf]]; [done|by apply elem_of_nil in Hf].
  - intros k n0 Hk. destruct (Hrefs k n0 Hk) as [-> ->] || destruct (Hrefs k n0 Hk) as [Hd Hr].
    exists n0. split_and!; try done.
  - congruence.
Qed.

(** ** Collecting definitions *)

Definition gnode_of (d : fdef T) : gnode T := GNode false (fd_type d) (fd_params d) [] [].

(** Fold-free description of [collect] when it succeeds. *)
Fixpoint last_def (defs : list (fdef T)) (x : name) : option (fdef T) :=
  match defs with
  | [] => None
  | d :: defs' =>
      match last_def defs' x with
      | Some d' => Some d'
      | None => if decide (fd_name d = x) then Some d else None
      end
  end.

Lemma last_def_some defs x d : last_def defs x = Some d -> fd_name d = x /\ d ∈ defs.
Proof.
  induction defs as [|d0 defs IH]; cbn; [done|].
  destruct (last_def defs x) as [d'|].
  - intros [= ->]. destruct IH; [done|]. split; [done|by right].
  - case_decide; [|done]. intros [= ->]. split; [done|by left].
Qed.
Lemma last_def_none defs x : last_def defs x = None <-> forall d, d ∈ defs -> fd_name d <> x.
Proof.
  induction defs as [|d0 defs IH]; cbn.
  - split; [|done]. intros _ d Hd. by apply elem_of_nil in Hd.
  - destruct (last_def defs x) as [d'|].
    + split; [done|]. intros H. assert (Hn : Some d' = None) by (apply IH; intros; apply H; by right). done.
    + case_decide as Hc; split; try done.
      * intros H. exfalso. by apply (H d0); [left|].
      * intros _ d Hd. apply elem_of_cons in Hd as [->|Hd]; [done|]. by apply IH.
Qed.

Lemma collect_ok config allow defs : forall nodes nodes',
  NoDup (dkeys nodes) -> collect config allow nodes defs = Ok nodes' ->
  NoDup (dkeys nodes') /\
  forall x, dget nodes' x =
    if decide (x ∈ config) then dget nodes x
    else match last_def defs x with Some d => Some (gnode_of d) | None => dget nodes x end.
Proof.
  induction defs as [|d defs IH]; intros nodes nodes' Hnd; cbn.
  - intros [= <-]. split; [done|]. intros x. by case_decide.
  - destruct (decide (fd_name d ∈ config)) as [Hc|Hc].
    + intros H. destruct (IH _ _ Hnd H) as [Hnd' Hget]. split; [done|].
      intros x. rewrite Hget. case_decide as Hx; [done|].
      destruct (last_def defs x); [done|]. rewrite decide_False; [done|]. by intros <-.
    + assert (Hcont : collect config allow (dset nodes (fd_name d) (gnode_of d)) defs = Ok nodes' ->
        NoDup (dkeys nodes') /\
        forall x, dget nodes' x =
          if decide (x ∈ config) then dget nodes x
          else match (match last_def defs x with
                      | Some d' => Some d'
                      | None => if decide (fd_name d = x) then Some d else None
                      end) with Some d => Some (gnode_of d) | None => dget nodes x end).
      { intros H. destruct (IH _ _ ltac:(by apply NoDup_dkeys_dset) H) as [Hnd' Hget].
        split; [done|]. intros x. rewrite Hget. case_decide as Hx.
        - rewrite dget_dset_ne; [done|]. by intros ->.
        - destruct (last_def defs x); [done|]. rewrite dget_dset.
          destruct (decide (x = fd_name d)) as [->|].
          + by rewrite decide_True.
          + by rewrite decide_False by congruence. }
      case_decide; [|done]. destruct allow; [done|done].
Qed.

Lemma collect_err config defs : forall nodes e allow,
  collect config allow nodes defs = Err e ->
  allow = false /\ exists x a d b, e = Duplicate x /\ x ∉ config /\ defs = a ++ d :: b /\ fd_name d = x /\
    (is_Some (dget nodes x) \/ exists d', d' ∈ a /\ fd_name d' = x).
Proof.
  induction defs as [|d defs IH]; intros nodes e allow; cbn; [done|].
  destruct (decide (fd_name d ∈ config)) as [Hc|Hc].
  - intros H. apply IH in H as (-> & x & a & d' & b & -> & Hx & -> & Hd & Hor). split; [done|].
    exists x, (d :: a), d', b. split_and!; try done. destruct Hor as [?|(d'' & ? & ?)]; [by left|right].
    exists d''. split; [by right|done].
  - assert (Hcont : collect config allow (dset nodes (fd_name d) (gnode_of d)) defs = Err e ->
        allow = false /\ exists x a d0 b, e = Duplicate x /\ x ∉ config /\ d :: defs = a ++ d0 :: b /\
        fd_name d0 = x /\ (is_Some (dget nodes x) \/ exists d', d' ∈ a /\ fd_name d' = x)).
    { intros H. apply IH in H as (-> & x & a & d' & b & -> & Hx & -> & Hd & Hor). split; [done|].
      exists x, (d :: a), d', b. split_and!; try done. destruct Hor as [Hs|(d'' & ? & ?)].
      - rewrite dget_dset in Hs. destruct (decide (x = fd_name d)) as [->|]; [|by left].
        right. exists d. split; [by left|done].
      - right. exists d''. split; [by right|done]. }
    case_decide as Hs; [|done]. destruct allow; [done|]. intros [= <-]. split; [done|].
    exists (fd_name d), [], d, defs. split_and!; try done. by left.
Qed.

Lemma collect_dup config a d b : forall nodes,
  fd_name d ∉ config ->
  (is_Some (dget nodes (fd_name d)) \/ exists d', d' ∈ a /\ fd_name d' = fd_name d) ->
  exists e, collect config false nodes (a ++ d :: b) = Err e.
Proof.
  induction a as [|d0 a IH]; intros nodes Hc Hor; cbn.
  - rewrite decide_False by done. destruct Hor as [Hs|(d' & Hd' & _)]; [|by apply elem_of_nil in Hd'].
    rewrite decide_True by done. by eexists.
  - destruct (decide (fd_name d0 ∈ config)) as [Hc0|Hc0].
    + apply IH; [done|]. destruct Hor as [?|(d' & Hd' & Heq)]; [by left|].
      apply elem_of_cons in Hd' as [->|Hd']; [congruence|]. right. by exists d'.
    + case_decide as Hs; [by eexists|]. apply IH; [done|].
      rewrite dget_dset. destruct (decide (fd_name d = fd_name d0)) as [Heq|Hne]; [left; by eexists|].
      destruct Hor as [?|(d' & Hd' & Heq)]; [by left|].
      apply elem_of_cons in Hd' as [->|Hd']; [congruence|]. right. by exists d'.
Qed.

(** ** Config-only nodes *)
Lemma add_config_ok config : forall nodes,
  NoDup (dkeys nodes) ->
  NoDup (dkeys (add_config any_type nodes config)) /\
  forall x, dget (add_config any_type nodes config) x =
    match dget nodes x with
    | Some n => Some n
    | None => if decide (x ∈ config) then Some (GNode true any_type [] [] []) else None
    end.
Proof.
  induction config as [|k config IH]; intros nodes Hnd; cbn.
  - split; [done|]. intros x. destruct (dget nodes x); [done|].
    rewrite decide_False; [done|]. apply not_elem_of_nil.
  - destruct (dget nodes k) as [n|] eqn:Hk.
    + destruct (IH nodes Hnd) as [H1 H2]. split; [done|]. intros x. rewrite H2.
      destruct (dget nodes x) eqn:Hx; [done|].
      destruct (decide (x ∈ config)) as [Hin|Hin].
      * by rewrite decide_True by (by right).
      * rewrite decide_False; [done|]. apply not_elem_of_cons. split; [congruence|done].
    + destruct (IH (dset nodes k (GNode true any_type [] [] []))) as [H1 H2].
      { by apply NoDup_dkeys_dset. }
      split; [done|]. intros x. rewrite H2, dget_dset.
      destruct (decide (x = k)) as [->|Hne].
      * rewrite Hk. by rewrite decide_True by (by left).
      * destruct (dget nodes x) eqn:Hx; [done|].
        destruct (decide (x ∈ config)) as [Hin|Hin].
        -- by rewrite decide_True by (by right).
        -- rewrite decide_False; [done|]. by apply not_elem_of_cons.
Qed.

(** ** The whole construction *)

(** The definition in force for [x]. *)
Definition in_force (config : list name) (defs : list (fdef T)) (x : name) : option (fdef T) :=
  if decide (x ∈ config) then None else last_def defs x.

Record built (config : list name) (defs : list (fdef T)) (nodes : dict (gnode T)) : Prop := {
  bt_nodup : NoDup (dkeys nodes);
  bt_keys : forall x, x ∈ dkeys nodes <->
     is_Some (in_force config defs x) \/ x ∈ config \/
     exists P d, in_force config defs P = Some d /\ x ∈ (fd_params d).*1;
  bt_fn : forall x d, in_force config defs x = Some d ->
     exists n, dget nodes x = Some n /\ gn_ext n = false /\ gn_params n = fd_params d /\
               gn_deps n = (fd_params d).*1;
  bt_ext : forall x n, in_force config defs x = None -> dget nodes x = Some n ->
     gn_ext n = true /\ gn_params n = [] /\ gn_deps n = [];
  bt_rdeps : forall x n P, dget nodes x = Some n ->
     (P ∈ gn_rdeps n <-> exists d, in_force config defs P = Some d /\ x ∈ (fd_params d).*1);
  bt_rdeps_nodup : (forall d, d ∈ defs -> NoDup (fd_params d).*1) ->
     forall x n, dget nodes x = Some n -> NoDup (gn_rdeps n);
}.

Lemma create_function_graph_ok config defs allow nodes :
  create_function_graph types_match adapter_match any_type defs config allow = Ok nodes ->
  built config defs nodes.
Proof.
  unfold create_function_graph.
  destruct (collect config allow [] defs) as [base|] eqn:Hcol; [|done].
  destruct (update_dependencies types_match adapter_match base false) as [n1|] eqn:Hupd; [|done].
  intros [= <-].
  destruct (collect_ok _ _ _ _ _ (NoDup_nil_2 : NoDup (dkeys ([] : dict (gnode T)))) Hcol) as [Hndb Hgetb].
  assert (Hbase : forall x, dget base x = gnode_of <$> in_force config defs x).
  { intros x. rewrite Hgetb. unfold in_force. case_decide; [done|]. by destruct (last_def defs x). }
  assert (Hb : building base (all_edges base) n1).
  { apply update_dependencies_ok; [done| |done]. intros k n. rewrite Hbase.
    destruct (in_force config defs k); cbn; [|done]. by intros [= <-]. }
  destruct (add_config_ok config n1 (b_nodup _ _ _ Hb)) as [Hnd Hget].
  assert (Hedges : forall P x, (P, x) ∈ all_edges base <->
     exists d, in_force config defs P = Some d /\ x ∈ (fd_params d).*1).
  { intros P x. rewrite elem_all_edges by done. split.
    - intros (n & Hn & Hx). rewrite Hbase in Hn. destruct (in_force config defs P) as [d|]; [|done].
      injection Hn as <-. by exists d.
    - intros (d & Hd & Hx). exists (gnode_of d). split; [by rewrite Hbase, Hd|done]. }
  constructor.
  - done.
  - intros x. rewrite <-dget_Some_key, Hget.
    destruct (dget n1 x) as [n|] eqn:Hx.
    + assert (Hk : x ∈ dkeys n1) by (apply dget_Some_key; by eexists).
      apply (b_keys _ _ _ Hb) in Hk. split; [|by eexists]. intros _.
      destruct Hk as [Hk|[P HP]].
      * left. apply dget_Some_key in Hk. rewrite Hbase in Hk. by apply fmap_is_Some in Hk.
      * right. right. by apply Hedges in HP as (d & ? & ?); exists P, d.
    + apply dget_None_key in Hx. rewrite (b_keys _ _ _ Hb) in Hx. case_decide as Hc.
      * split; [|by eexists]. intros _. right. by left.
      * split; [by intros [? ?]|]. intros [Hf|[?|(P & d & Hd & Hin)]]; [|done|].
        -- exfalso. apply Hx. left. apply dget_Some_key. rewrite Hbase. by apply fmap_is_Some.
        -- exfalso. apply Hx. right. exists P. apply Hedges. by exists d.
  - intros x d Hd. rewrite Hget.
    destruct (b_base _ _ _ Hb x (gnode_of d)) as (n & Hn & He & Hp & Hdp & _).
    { by rewrite Hbase, Hd. }
    rewrite Hn. exists n. split_and!; try done. rewrite Hdp.
    apply (deps_of_all_edges base x (gnode_of d)); [done|]. by rewrite Hbase, Hd.
  - intros x n Hf. rewrite Hget.
    destruct (dget n1 x) as [n'|] eqn:Hx.
    + intros [= <-]. destruct (b_new _ _ _ Hb x n') as (? & ? & ? & ?); [by rewrite Hbase, Hf|done|done].
    + case_decide; [|done]. by intros [= <-].
  - intros x n P. rewrite Hget. destruct (dget n1 x) as [n'|] eqn:Hx.
    + intros [= <-]. assert (Hr : gn_rdeps n' = rdeps_of (all_edges base) x).
      { destruct (dget base x) as [n0|] eqn:H0.
        - destruct (b_base _ _ _ Hb x n0 H0) as (n2 & Hn2 & _ & _ & _ & ?). congruence.
        - by destruct (b_new _ _ _ Hb x n' H0 Hx) as (_ & _ & _ & ?). }
      rewrite Hr, elem_rdeps_of. apply Hedges.
    + case_decide; [|done]. intros [= <-]. cbn. rewrite elem_of_nil. split; [done|].
      intros (d & Hd & Hin). apply dget_None_key in Hx. apply Hx. apply (b_keys _ _ _ Hb).
      right. exists P. apply Hedges. by exists d.
  - intros Hps x n. rewrite Hget. destruct (dget n1 x) as [n'|] eqn:Hx.
    + intros [= <-]. assert (Hr : gn_rdeps n' = rdeps_of (all_edges base) x).
      { destruct (dget base x) as [n0|] eqn:H0.
        - destruct (b_base _ _ _ Hb x n0 H0) as (n2 & Hn2 & _ & _ & _ & ?). congruence.
        - by destruct (b_new _ _ _ Hb x n' H0 Hx) as (_ & _ & _ & ?). }
      rewrite Hr. apply NoDup_rdeps_of. apply NoDup_all_edges; [done|].
      intros y ny. rewrite Hbase. destruct (in_force config defs y) as [d|] eqn:Hf; cbn; [|done].
      intros [= <-]. cbn. apply Hps. unfold in_force in Hf. case_decide; [done|].
      by apply last_def_some in Hf as [_ ?].
    + case_decide; [|done]. intros [= <-]. constructor.
Qed.

Lemma map_dkeys {A B} (f : A -> B) (d : dict A) :
  dkeys (map (fun kn => (kn.1, f kn.2)) d) = dkeys d.
Proof. induction d as [|[k a] d IH]; cbn; [done|]. f_equal. apply IH. Qed.
Lemma dget_map {A B} (f : A -> B) (d : dict A) k :
  dget (map (fun kn => (kn.1, f kn.2)) d) k = f <$> dget d k.
Proof. induction d as [|[k' a] d IH]; cbn; [done|]. by case_decide. Qed.

Lemma to_graph_lookup nodes x : NoDup (dkeys nodes) ->
  to_graph nodes !! x = to_node <$> dget nodes x.
Proof.
  intros Hnd. unfold to_graph. etransitivity; [apply list_to_map_dget|apply dget_map].
  by rewrite map_dkeys.
Qed.

Lemma dep_names_to_node (n : gnode T) : dep_names (to_node n) = gn_deps n.
Proof.
  unfold dep_names, to_node. cbn. induction (gn_deps n) as [|p l IH]; cbn; [done|]. by f_equal.
Qed.

Lemma built_edge config defs nodes x p : built config defs nodes ->
  edge (to_graph nodes) x p <-> exists d, in_force config defs x = Some d /\ p ∈ (fd_params d).*1.
Proof.
  intros Hb. unfold edge. split.
  - intros (nd & Hnd & Hp). rewrite to_graph_lookup in Hnd by (by eapply bt_nodup).
    destruct (dget nodes x) as [n|] eqn:Hx; [|done]. injection Hnd as <-.
    rewrite dep_names_to_node in Hp.
    destruct (in_force config defs x) as [d|] eqn:Hf.
    + destruct (bt_fn _ _ _ Hb x d Hf) as (n' & Hn' & _ & _ & Hd).
      exists d. split; [done|]. congruence.
    + destruct (bt_ext _ _ _ Hb x n Hf Hx) as (_ & _ & Hd). rewrite Hd in Hp. by apply elem_of_nil in Hp.
  - intros (d & Hf & Hp). destruct (bt_fn _ _ _ Hb x d Hf) as (n & Hn & _ & _ & Hd).
    exists (to_node n). split; [by rewrite to_graph_lookup, Hn by (by eapply bt_nodup)|].
    rewrite dep_names_to_node. congruence.
Qed.

(** Every built graph is well formed in the sense used by the executor theorems. *)
Lemma built_wf config defs nodes :
  built config defs nodes -> (forall d, d ∈ defs -> NoDup (fd_params d).*1) ->
  wf_graph (to_graph nodes).
Proof.
  intros Hb Hps.
  assert (Hnd := bt_nodup _ _ _ Hb).
  constructor.
  - intros x p Hp. apply (built_edge _ _ _ _ _ Hb) in Hp as (d & Hd & Hin).
    rewrite to_graph_lookup by done. apply fmap_is_Some. apply dget_Some_key.
    apply (bt_keys _ _ _ Hb). right. right. by exists x, d.
  - intros x p nd He Hg. apply (built_edge _ _ _ _ _ Hb) in He as (d & Hd & Hin).
    rewrite to_graph_lookup in Hg by done. destruct (dget nodes p) as [n|] eqn:Hp; [|done].
    injection Hg as <-. cbn. apply (bt_rdeps _ _ _ Hb p n x Hp). by exists d.
  - intros x p nd Hg Hin. rewrite to_graph_lookup in Hg by done.
    destruct (dget nodes p) as [n|] eqn:Hp; [|done]. injection Hg as <-. cbn in Hin.
    apply (built_edge _ _ _ _ _ Hb). by apply (bt_rdeps _ _ _ Hb p n x Hp).
  - intros x nd Hg Hext. rewrite to_graph_lookup in Hg by done.
    destruct (dget nodes x) as [n|] eqn:Hx; [|done]. injection Hg as <-. cbn in *.
    destruct (in_force config defs x) as [d|] eqn:Hf.
    + destruct (bt_fn _ _ _ Hb x d Hf) as (n' & Hn' & He & _). congruence.
    + destruct (bt_ext _ _ _ Hb x n Hf Hx) as (_ & _ & ->). done.
  - intros x nd Hg. rewrite to_graph_lookup in Hg by done.
    destruct (dget nodes x) as [n|] eqn:Hx; [|done]. injection Hg as <-. rewrite dep_names_to_node.
    destruct (in_force config defs x) as [d|] eqn:Hf.
    + destruct (bt_fn _ _ _ Hb x d Hf) as (n' & Hn' & _ & _ & Hd).
      assert (n' = n) as -> by congruence. rewrite Hd. apply Hps.
      unfold in_force in Hf. case_decide; [done|]. by apply last_def_some in Hf as [_ ?].
    + destruct (bt_ext _ _ _ Hb x n Hf Hx) as (_ & _ & ->). constructor.
Qed.

End Proofs.
