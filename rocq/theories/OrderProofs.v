(** The order of the functions of a program: proofs for C50. *)
From Verif Require Import Base Dict GraphModel GraphSpec GraphProofs GraphResults.

Section Order.
Context {T : Type}.
Variable types_match adapter_match : T -> T -> bool.
Variable any_type : T.
Notation accepted defs config := (exists g, create_function_graph types_match adapter_match any_type defs config false = Ok g).
Implicit Types (config : list name) (defs : list (fdef T)).

Lemma effect_elem config defs x d : (forall y, y ∉ config -> ~ defined_twice defs y) ->
  in_effect config defs x d <-> x ∉ config /\ d ∈ defs /\ fd_name d = x.
Proof.
  intros Hone. split.
  - intros (Hx & a & b & -> & Hn & _). split_and!; [done| |done]. apply elem_of_app. right. by left.
  - intros (Hx & Hd & Hn). apply elem_of_list_split in Hd as (a & b & ->). split; [done|].
    exists a, b. split_and!; [done..|]. intros d' Hd' Hn'. apply elem_of_list_split in Hd' as (b1 & b2 & ->).
    apply (Hone x Hx). exists a, d, b1, d', b2. done.
Qed.

Lemma twice_perm defs defs' x : Permutation defs defs' -> defined_twice defs x -> defined_twice defs' x.
Proof.
  intros Hp (a & d & b & d' & c & -> & Hd & Hd').
  assert (Hf : Permutation (filter (fun e => fd_name e = x) (a ++ d :: b ++ d' :: c)) (filter (fun e => fd_name e = x) defs')).
  { by rewrite Hp. }
  assert (Hlen : 2 <= length (filter (fun e => fd_name e = x) defs')).
  { rewrite <-(Permutation_length Hf). rewrite filter_app, filter_cons_True, filter_app, filter_cons_True by done.
    rewrite !app_length. cbn. rewrite app_length. cbn. lia. }
  clear -Hlen. induction defs' as [|e l IH]; [cbn in Hlen; lia|].
  destruct (decide (fd_name e = x)) as [He|He].
  - rewrite filter_cons_True in Hlen by done. cbn in Hlen.
    assert (Hex : exists e', e' ∈ filter (fun e => fd_name e = x) l).
    { destruct (filter (fun e => fd_name e = x) l) as [|e' r]; [cbn in Hlen; lia|]. exists e'. by left. }
    destruct Hex as (e' & He'). apply elem_of_list_filter in He' as [Hn He'].
    apply elem_of_list_split in He' as (l1 & l2 & ->). by exists [], e, l1, e', l2.
  - rewrite filter_cons_False in Hlen by done. destruct (IH Hlen) as (a & d & b & d' & c & -> & ? & ?).
    by exists (e :: a), d, b, d', c.
Qed.
Lemma effect_perm config defs defs' x d : Permutation defs defs' -> (forall y, y ∉ config -> ~ defined_twice defs y) ->
  in_effect config defs x d <-> in_effect config defs' x d.
Proof.
  intros Hp H1. rewrite effect_elem by done. rewrite effect_elem.
  - by rewrite Hp.
  - intros y Hy H2. apply (H1 y Hy). by eapply twice_perm.
Qed.
Lemma takes_perm config defs defs' P x t : Permutation defs defs' -> (forall y, y ∉ config -> ~ defined_twice defs y) ->
  takes_typed config defs P x t <-> takes_typed config defs' P x t.
Proof.
  intros Hp H1. split; intros (d & dt & Hd & Hin); exists d, dt; (split; [|done]); by apply (effect_perm config defs defs').
Qed.

(** Accepting [u] after [t] was recorded for an input. *)
Definition fits (u t : T) : bool := types_match u t || adapter_match u t || types_match t u.

Lemma add_dependency_fits nodes func p pt rn nodes' : dget nodes p = Some rn -> gn_ext rn = true ->
  add_dependency types_match adapter_match nodes func p pt = Ok nodes' -> fits pt (gn_type rn) = true.
Proof.
  intros Hp He. unfold add_dependency, fits. rewrite Hp, He.
  destruct (types_match pt (gn_type rn)), (adapter_match pt (gn_type rn)); cbn; try done.
  by destruct (types_match (gn_type rn) pt).
Qed.

Lemma add_params_app func a b : forall nodes, add_params types_match adapter_match nodes func (a ++ b) =
  match add_params types_match adapter_match nodes func a with Ok n => add_params types_match adapter_match n func b | Err e => Err e end.
Proof.
  induction a as [|[p [pt dt]] a IH]; intros nodes; cbn [add_params app]; [done|].
  destruct (add_dependency _ _ nodes func p pt); [apply IH|done].
Qed.

Lemma dget_after func ps p : forall nodes nodes', add_params types_match adapter_match nodes func ps = Ok nodes' ->
  p ∈ ps.*1 \/ is_Some (dget nodes p) -> is_Some (dget nodes' p).
Proof.
  induction ps as [|[q [pt dt]] ps IH]; intros nodes nodes'; cbn [add_params].
  - intros [= <-] [H|H]; [by apply elem_of_nil in H|done].
  - destruct (add_dependency _ _ nodes func q pt) as [n1|e] eqn:Ha; [|done]. intros Hok Hp. apply (IH n1 nodes' Hok).
    assert (Hd : forall nodes1, (p = q \/ is_Some (dget nodes p) -> is_Some (dget nodes1 p)) ->
      (p = q \/ is_Some (dget nodes p)) -> is_Some (dget (dmod (dmod nodes1 func (fun n : gnode T => add_dep n q)) q (fun n : gnode T => add_rdep n func)) p)).
    { intros nodes1 H1 H2. specialize (H1 H2). destruct H1 as [n Hn]. rewrite dget_dmod.
      assert (Hin : is_Some (dget (dmod nodes1 func (fun n : gnode T => add_dep n q)) p)) by (rewrite dget_dmod; case_decide; [subst; rewrite Hn; by eexists|by rewrite Hn; eexists]).
      destruct Hin as [m Hm]. case_decide; [subst; rewrite Hm; by eexists|by eexists]. }
    destruct (decide (p ∈ ps.*1)) as [|Hnp]; [by left|right].
    assert (Hpq : p = q \/ is_Some (dget nodes p)).
    { destruct Hp as [Hp|]; [|by right]. cbn in Hp. apply elem_of_cons in Hp as [->|Hp]; [by left|done]. }
    unfold add_dependency in Ha. destruct (dget nodes q) as [rn|] eqn:Hq.
    + destruct (types_match pt (gn_type rn) || adapter_match pt (gn_type rn)) eqn:H1.
      { injection Ha as <-. apply Hd; [|done]. intros [Heq|?]; [|done]. rewrite Heq, Hq. by eexists. }
      destruct (gn_ext rn); [|done]. destruct (types_match (gn_type rn) pt || adapter_match pt (gn_type rn)); [|done]. injection Ha as <-. apply Hd; [|done].
      intros H. rewrite dget_dset. case_decide; [by eexists|]. by destruct H as [->|].
    + injection Ha as <-. apply Hd; [|done]. intros H. rewrite dget_dset. case_decide; [by eexists|]. by destruct H as [->|].
Qed.

(** The first two functions of a program accept each other's annotations of an input they share. *)
Lemma first_two config dP dQ defs g x t u dt du :
  create_function_graph types_match adapter_match any_type (dP :: dQ :: defs) config false = Ok g ->
  fd_name dP ∉ config -> fd_name dQ ∉ config -> NoDup (fd_params dP).*1 -> NoDup (fd_params dQ).*1 ->
  (x, (t, dt)) ∈ fd_params dP -> (x, (u, du)) ∈ fd_params dQ -> (forall d, ~ in_effect config (dP :: dQ :: defs) x d) ->
  fits u t = true.
Proof.
  intros Hc HcP HcQ HnP HnQ HP HQ Hno. unfold create_function_graph in Hc.
  destruct (collect config false [] (dP :: dQ :: defs)) as [base|e] eqn:Hcol; [|done].
  destruct (collect_ok _ _ _ _ _ (NoDup_nil_2 : NoDup (dkeys ([] : dict (gnode T)))) Hcol) as [Hndb Hgetb].
  assert (Hbase : forall y, dget base y = gnode_of <$> in_force config (dP :: dQ :: defs) y).
  { intros y. rewrite Hgetb. unfold in_force. case_decide; [done|]. by destruct (last_def (dP :: dQ :: defs) y). }
  assert (Hx : dget base x = None).
  { rewrite Hbase. apply (in_force_none types_match adapter_match any_type) in Hno. by rewrite Hno. }
  assert (Hpre : exists rest, base = (fd_name dP, gnode_of dP) :: (fd_name dQ, gnode_of dQ) :: rest).
  { cbn [collect] in Hcol. rewrite decide_False in Hcol by done. rewrite decide_False in Hcol by (by intros [? ?]).
    destruct (decide (fd_name dQ ∈ config)) as [?|_]; [done|]. case_decide as Hs; [done|].
    change (dset [] (fd_name dP) (GNode false (fd_type dP) (fd_params dP) [] [])) with [(fd_name dP, gnode_of dP)] in *.
    assert (Hne : fd_name dQ <> fd_name dP). { intros Heq. apply Hs. rewrite Heq. cbn. rewrite decide_True by done. by eexists. }
    assert (Hd2 : dset [(fd_name dP, gnode_of dP)] (fd_name dQ) (GNode false (fd_type dQ) (fd_params dQ) [] []) = [(fd_name dP, gnode_of dP); (fd_name dQ, gnode_of dQ)]).
    { cbn. by rewrite decide_False by congruence. }
    rewrite Hd2 in Hcol. revert Hcol.
    assert (Hgen : forall defs nodes nodes', collect config false nodes defs = Ok nodes' -> exists rest, nodes' = nodes ++ rest).
    { clear. induction defs as [|d defs IH]; intros nodes nodes'; cbn [collect].
      - intros [= <-]. exists []. by rewrite app_nil_r.
      - case_decide; [apply IH|]. case_decide as Hs; [done|]. intros H1. apply IH in H1 as (rest & ->).
        assert (Hd : dset nodes (fd_name d) (GNode false (fd_type d) (fd_params d) [] []) = nodes ++ [(fd_name d, gnode_of d)]).
        { clear -Hs. induction nodes as [|[k n] nodes IH]; cbn in *; [done|]. destruct (decide (fd_name d = k)) as [Heq|Hne].
          - exfalso. apply Hs. by eexists.
          - by rewrite IH. }
        rewrite Hd. exists ([(fd_name d, gnode_of d)] ++ rest). by rewrite app_assoc. }
    intros H1. apply Hgen in H1 as (rest & ->). by exists rest. }
  destruct Hpre as (rest & Hpre). rename Hpre into Hb.
  unfold update_dependencies in Hc.
  assert (Hall : exists n3, add_all types_match adapter_match base base = Ok n3).
  { destruct (add_all types_match adapter_match base base) as [n3|]; [by exists n3|done]. }
  destruct Hall as (n3 & Hall). rewrite Hb in Hall at 2. cbn [add_all] in Hall. change (gn_params (gnode_of dP)) with (fd_params dP) in Hall. change (gn_params (gnode_of dQ)) with (fd_params dQ) in Hall.
  assert (Hty0 : typed base [] base).
  { constructor; [intros k n0 Hk; exists n0; split_and!; try done|congruence].
    rewrite Hbase in Hk. destruct (in_force config (dP :: dQ :: defs) k); [|done]. by injection Hk as <-. }
  pose proof (typed_add_params types_match adapter_match base (fd_name dP) (fd_params dP) [] base Hty0) as H1.
  destruct (add_params _ _ base (fd_name dP) (fd_params dP)) as [n1|e] eqn:Ha1; [|done].
  destruct H1 as [Ht1 _]. cbn [app] in Ht1.
  destruct (add_params _ _ n1 (fd_name dQ) (fd_params dQ)) as [n2|e] eqn:Ha2; [|done]. clear Hall.
  assert (Hu : forall (l : list (name * (T * deptype))) t', NoDup l.*1 -> (x, t') ∈ map (fun p => (p.1, p.2.1)) l -> forall t0 dt0, (x, (t0, dt0)) ∈ l -> t' = t0).
  { intros l t' Hnd Hin t0 dt0 H0. apply elem_of_list_fmap in Hin as ([y [t1 d1]] & [= <- ->] & Hy). cbn.
    assert (Heq : (t1, d1) = (t0, dt0)); [|congruence]. clear -Hnd H0 Hy. induction l as [|[z w] l IH]; [by apply elem_of_nil in Hy|].
    cbn in Hnd. apply NoDup_cons in Hnd as [Hz Hnd]. apply elem_of_cons in H0 as [[= -> <-]|H0]; apply elem_of_cons in Hy as [[= -> <-]|Hy]; try done.
    - exfalso. apply Hz. apply elem_of_list_fmap. by exists (z, (t1, d1)).
    - exfalso. apply Hz. apply elem_of_list_fmap. by exists (z, (t0, dt0)).
    - by apply IH. }
  apply elem_of_list_split in HQ as (q1 & q2 & Hq). rewrite Hq in Ha2. rewrite add_params_app in Ha2.
  pose proof (typed_add_params types_match adapter_match base (fd_name dQ) q1 _ n1 Ht1) as H2.
  destruct (add_params _ _ n1 (fd_name dQ) q1) as [m|e] eqn:Ham; [|done]. destruct H2 as [Htm _].
  cbn [add_params] in Ha2. destruct (add_dependency _ _ m (fd_name dQ) x u) as [m'|e] eqn:Had; [|done].
  assert (Hin : is_Some (dget m x)).
  { eapply dget_after; [exact Ham|]. right. eapply dget_after; [exact Ha1|]. left. apply elem_of_list_fmap. by exists (x, (t, dt)). }
  destruct Hin as [rn Hrn]. destruct (ty_ext _ _ _ Htm x rn Hx Hrn) as [Hask Hext].
  assert (gn_type rn = t) as <-.
  { apply elem_of_app in Hask as [Hask|Hask]; [exact (Hu (fd_params dP) (gn_type rn) HnP Hask t dt HP)|]. exfalso.
    rewrite Hq, fmap_app in HnQ. apply NoDup_app in HnQ as (_ & Hd & _). apply (Hd x); [|cbn; by left].
    apply elem_of_list_fmap in Hask as ([y w] & [= -> _] & Hy). apply elem_of_list_fmap. by exists (y, w). }
  by eapply add_dependency_fits.
Qed.

Definition orderly config defs : Prop :=
  (forall x, x ∉ config -> ~ defined_twice defs x) /\
  (forall P x t d, takes_typed config defs P x t -> in_effect config defs x d ->
     types_match t (fd_type d) = true \/ adapter_match t (fd_type d) = true) /\
  (forall P Q x t u, P <> Q -> takes_typed config defs P x t -> takes_typed config defs Q x u ->
     (forall d, ~ in_effect config defs x d) ->
     types_match u t = true \/ adapter_match u t = true \/ types_match t u = true).

Hypothesis Hrefl : forall t, types_match t t = true.
Lemma takes_once config defs P x t u : (forall d, d ∈ defs -> NoDup (fd_params d).*1) -> (forall y, y ∉ config -> ~ defined_twice defs y) ->
  takes_typed config defs P x t -> takes_typed config defs P x u -> t = u.
Proof.
  intros Hnd H1 (d & dt & Hd & Ht) (d' & dt' & Hd' & Hu).
  assert (Hdd := Hd). apply (effect_elem config defs P d H1) in Hdd as (_ & Hin & _).
  apply (in_force_iff types_match adapter_match any_type) in Hd, Hd'. assert (d' = d) as -> by (rewrite Hd in Hd'; by injection Hd').
  specialize (Hnd d Hin). revert Ht Hu Hnd. generalize (fd_params d) as l. clear. induction l as [|[z w] l IH]; intros Ht Hu Hnd; [by apply elem_of_nil in Ht|].
  cbn in Hnd. apply NoDup_cons in Hnd as [Hz Hnd]. apply elem_of_cons in Ht as [H1|Ht]; apply elem_of_cons in Hu as [H2|Hu].
  - congruence.
  - exfalso. apply Hz. apply elem_of_list_fmap. exists (x, (u, dt')). injection H1 as <- <-. by split.
  - exfalso. apply Hz. apply elem_of_list_fmap. exists (x, (t, dt)). injection H2 as <- <-. by split.
  - by apply IH.
Qed.
Lemma orderly_accepted config defs : (forall d, d ∈ defs -> NoDup (fd_params d).*1) -> orderly config defs -> accepted defs config.
Proof.
  intros Hnd (H1 & H2 & H3). pose proof (graph_types types_match adapter_match any_type config defs false) as Hg.
  destruct (create_function_graph _ _ _ defs config false) as [g|[x|x|x]]; [by exists g| | |]; exfalso.
  - destruct Hg as [Hx Htw]. by apply (H1 x).
  - destruct Hg as (Hno & P & t & Q & u & HP & HQ & Hm1 & Hm2 & Hm3). destruct (decide (P = Q)) as [->|Hne].
    + assert (t = u) as -> by (by eapply takes_once). by rewrite Hrefl in Hm1.
    + destruct (H3 Q P x u t) as [?|[?|?]]; try done; congruence.
  - destruct Hg as (P & t & d & HP & Hd & Hm1 & Hm2). destruct (H2 P x t d HP Hd); congruence.
Qed.
Lemma orderly_perm config defs defs' : Permutation defs defs' -> orderly config defs -> orderly config defs'.
Proof.
  intros Hp (H1 & H2 & H3). split_and!.
  - intros x Hx Htw. apply (H1 x Hx). symmetry in Hp. by eapply twice_perm.
  - intros P x t d HP Hd. apply (H2 P x t d); [by apply (takes_perm config defs defs')|by apply (effect_perm config defs defs')].
  - intros P Q x t u Hne HP HQ Hno. apply (H3 P Q x t u Hne); [by apply (takes_perm config defs defs')..|].
    intros d Hd. apply (Hno d). by apply (effect_perm config defs defs').
Qed.
Lemma in_front (dP dQ : fdef T) defs : dP ∈ defs -> dQ ∈ defs -> dP <> dQ -> exists rest, Permutation defs (dP :: dQ :: rest).
Proof.
  intros HP HQ Hne. apply elem_of_list_split in HP as (a & b & ->).
  assert (Hin : dQ ∈ a ++ b). { apply elem_of_app in HQ as [H|H]; apply elem_of_app; [by left|]. apply elem_of_cons in H as [?|?]; [congruence|by right]. }
  apply elem_of_list_split in Hin as (a' & b' & Hab). exists (a' ++ b').
  transitivity (dP :: (a ++ b)); [symmetry; apply Permutation_middle|]. constructor. rewrite Hab. symmetry. apply Permutation_middle.
Qed.
Lemma every_order config defs : (forall d, d ∈ defs -> NoDup (fd_params d).*1) ->
  (forall defs', Permutation defs defs' -> accepted defs' config) <-> orderly config defs.
Proof.
  intros Hnd. split.
  - intros Hall. assert (H1 : forall x, x ∉ config -> ~ defined_twice defs x).
    { intros x Hx Htw. destruct (Hall defs) as [g Hg]; [done|].
      destruct (graph_duplicate types_match adapter_match any_type config defs x Hx Htw) as (y & Hd & _). congruence. }
    split_and!; [done| |].
    + intros P x t d HP Hd. destruct (Hall defs) as [g Hg]; [done|].
      pose proof (graph_types types_match adapter_match any_type config defs false) as Ht. rewrite Hg in Ht. by eapply Ht.
    + intros P Q x t u Hne (dP & dt & HdP & HtP) (dQ & du & HdQ & HtQ) Hno.
      assert (HP := HdP). apply (effect_elem config defs P dP H1) in HP as (HcP & HiP & HnP).
      assert (HQ := HdQ). apply (effect_elem config defs Q dQ H1) in HQ as (HcQ & HiQ & HnQ).
      destruct (in_front dP dQ defs HiP HiQ) as (rest & Hp); [congruence|].
      destruct (Hall _ Hp) as [g Hg].
      assert (Hf : fits u t = true).
      { eapply (first_two config dP dQ rest g x t u); try done; [by rewrite HnP|by rewrite HnQ|by apply Hnd|by apply Hnd|].
        intros d Hd. apply (Hno d). by apply (effect_perm config defs (dP :: dQ :: rest)). }
      unfold fits in Hf. apply orb_true_iff in Hf as [Hf|Hf]; [apply orb_true_iff in Hf as [Hf|Hf]|]; [by left|by right; left|by right; right].
  - intros Ho defs' Hp. apply orderly_accepted; [intros d Hd; apply Hnd; by rewrite Hp|]. by eapply orderly_perm.
Qed.
End Order.
