From Verif Require Import Base Dict NodeModel NodeProofs DecorModel DecorSpec.

Section Proofs.
Context {F N V E : Type}.
Variable truthy : V -> bool.
Variable vfalse : V.
Variable from_fn : F -> res E N.
Variable add_origin : F -> N -> N.
Notation deco := (deco F N V E).
Notation config := (gmap name V).
Implicit Types (c : config) (d : deco) (ds : list deco).

(** ** The attributes that decorators leave *)
Definition lof (k : name) (ds : list deco) : list deco := filter (fun d => lifecycle d = k) (rev ds).
Definition lname (k : class) : name :=
  match k with CResolver => "resolve" | CCreator => "generate" | CInjector => "inject" | CExpander => "expand" | CTransformer => "transform"
  | CDecorator => "decorate_nodes" | CDynamic => "dynamic" end.
Lemma lname_inj k k' : lname k = lname k' -> k = k'.
Proof. by destruct k, k'. Qed.
Lemma lifecycle_class d : lifecycle d = lname (class_of d).
Proof. by destruct d as [? ? ? ? []|]. Qed.
Lemma lifecycle_same d d' : lifecycle d = lifecycle d' <-> class_of d = class_of d'.
Proof. rewrite !lifecycle_class. split; [apply lname_inj|by intros ->]. Qed.
Lemma of_lof k ds : of k ds = lof (lname k) ds.
Proof.
  unfold of, lof. induction (rev ds) as [|d l IH]; [done|]. rewrite !filter_cons, IH. destruct (decide (class_of d = k)) as [<- | Hne].
  - by rewrite decide_True by apply lifecycle_class.
  - rewrite decide_False; [done|]. intros H. apply Hne, lname_inj. by rewrite <- lifecycle_class.
Qed.
Lemma decorate_attr ds f o : decorate ds f = Ok o -> fo_fn o = f /\
  (forall k, dget (fo_attrs o) k = match lof k ds with [] => None | l => Some l end).
Proof.
  revert o. induction ds as [|d ds IH]; intros o; cbn [decorate].
  { intros [= <-]. done. }
  destruct (decorate ds f) as [o1|e] eqn:Hd; [|done]. cbn [bindr]. destruct (IH o1 eq_refl) as [Hf Ha]. unfold call.
  destruct (validates d (fo_fn o1)); [|done]. cbn [bindr].
  assert (Hof : forall k, lof k (d :: ds) = lof k ds ++ (if decide (lifecycle d = k) then [d] else [])).
  { intros k. unfold lof. cbn [rev]. by rewrite filter_app. }
  assert (Hs : forall k l, dget (fo_attrs o1) (lifecycle d) = l ->
    dget (dset (fo_attrs o1) (lifecycle d) (default [] l ++ [d])) k = match lof k (d :: ds) with [] => None | l => Some l end).
  { intros k l Hl. rewrite Hof, dget_dset. rewrite Ha in Hl. destruct (decide (k = lifecycle d)) as [-> | Hne].
    - rewrite decide_True by done. subst l. by destruct (lof (lifecycle d) ds).
    - rewrite decide_False by done. by rewrite app_nil_r, Ha. }
  destruct (dget (fo_attrs o1) (lifecycle d)) as [cur|] eqn:Hc.
  - destruct (allows_multiple d); [|done]. intros [= <-]. cbn [fo_fn fo_attrs]. split; [done|]. intros k. by apply (Hs k (Some cur)).
  - intros [= <-]. cbn [fo_fn fo_attrs]. split; [done|]. intros k. by apply (Hs k None).
Qed.
Lemma decorate_getattr ds f o k : decorate ds f = Ok o -> getattr o k = lof k ds.
Proof. intros H. unfold getattr. destruct (decorate_attr _ _ _ H) as [_ ->]. by destruct (lof k ds). Qed.

Lemma decorate_accepts ds f : (exists o, decorate ds f = Ok o) <->
  (forall d, d ∈ ds -> validates d f = Ok ()) /\
  (forall ds1 d ds2, ds = ds1 ++ d :: ds2 -> allows_multiple d = false -> forall d', d' ∈ ds2 -> class_of d' <> class_of d).
Proof.
  induction ds as [|d ds IH].
  { split; [|by eexists]. intros _. split; [by intros d ?%elem_of_nil|]. intros [|] ? ? [=]. }
  cbn [decorate]. split.
  - intros [o Ho]. destruct (decorate ds f) as [o1|] eqn:Hd; [|done]. cbn [bindr] in Ho. destruct (proj1 IH (ex_intro _ _ eq_refl)) as [H1 H2].
    destruct (decorate_attr _ _ _ Hd) as [Hf Ha]. unfold call in Ho. rewrite Hf in Ho. destruct (validates d f) as [[]|] eqn:Hv; [|done]. cbn [bindr] in Ho. split.
    + intros d' [-> | Hd']%elem_of_cons; [done|by apply H1].
    + intros [|d1 ds1] d' ds2 [= -> Hds] Hm d'' Hin.
      * subst ds2. rewrite Hm, Ha in Ho. intros Hl%lifecycle_same. destruct (lof (lifecycle d') ds) as [|x l] eqn:Hof; [|done].
        assert (Hx : d'' ∈ lof (lifecycle d') ds) by (apply elem_of_list_filter; split; [done|by apply elem_of_reverse in Hin; rewrite <- rev_alt in Hin || (rewrite elem_of_list_In, <- in_rev, <- elem_of_list_In; by apply elem_of_reverse)]).
        rewrite Hof in Hx. by apply elem_of_nil in Hx.
      * by apply (H2 ds1 d' ds2).
  - intros [H1 H2]. destruct (proj2 IH) as [o1 Ho1].
    { split; [intros d' Hd'; apply H1; by right|]. intros ds1 d' ds2 -> Hm. by apply (H2 (d :: ds1) d' ds2). }
    rewrite Ho1. cbn [bindr]. destruct (decorate_attr _ _ _ Ho1) as [Hf Ha]. unfold call. rewrite Hf, (H1 d) by by left. cbn [bindr].
    rewrite Ha. destruct (lof (lifecycle d) ds) as [|x l] eqn:Hof; [by eexists|]. destruct (allows_multiple d) eqn:Hm; [by eexists|]. exfalso.
    assert (Hx : x ∈ lof (lifecycle d) ds) by (rewrite Hof; by left). apply elem_of_list_filter in Hx as [Hl%lifecycle_same Hx].
    apply (H2 [] d ds eq_refl Hm x); [|done]. by apply elem_of_list_In, in_rev, elem_of_list_In.
Qed.

(** ** Grouping *)
Lemma dget_group ds k : dget (group ds) k = match filter (fun d => lifecycle d = k) ds with [] => None | l => Some l end.
Proof.
  induction ds as [|d ds IH] using rev_ind; [done|]. unfold group in *. rewrite foldl_app. cbn [foldl]. rewrite dget_dset, filter_app.
  destruct (decide (k = lifecycle d)) as [-> | Hne].
  - rewrite IH. change (filter (fun d0 => lifecycle d0 = lifecycle d) [d]) with (if decide (lifecycle d = lifecycle d) then [d] else []). rewrite decide_True by done.
    by destruct (filter _ ds).
  - change (filter (fun d0 => lifecycle d0 = k) [d]) with (if decide (lifecycle d = k) then [d] else []). rewrite decide_False by done. by rewrite app_nil_r.
Qed.
Lemma NoDup_group ds : NoDup (dkeys (group ds)).
Proof.
  induction ds as [|d ds IH] using rev_ind; [apply NoDup_nil_2|]. unfold group in *. rewrite foldl_app. cbn [foldl]. by apply NoDup_dkeys_dset.
Qed.
Lemma filter_concat (h : name -> list deco) ks k : NoDup ks -> (forall k d, d ∈ h k -> lifecycle d = k) ->
  filter (fun d => lifecycle d = k) (concat (map h ks)) = if decide (k ∈ ks) then h k else [].
Proof.
  intros Nk Hh. assert (Hsame : filter (fun d => lifecycle d = k) (h k) = h k).
  { specialize (Hh k). induction (h k) as [|d l IH]; [done|]. rewrite filter_cons, decide_True by (apply Hh; by left). by rewrite IH by (intros; apply Hh; by right). }
  assert (Hother : forall k', k' <> k -> filter (fun d => lifecycle d = k) (h k') = []).
  { intros k' Hne. specialize (Hh k'). induction (h k') as [|d l IH]; [done|]. rewrite filter_cons, decide_False by (rewrite (Hh d) by (by left); done). apply IH. intros; apply Hh; by right. }
  induction Nk as [|k' ks Hk' Nk IH]; [done|]. cbn [map concat]. rewrite filter_app, IH.
  destruct (decide (k' = k)) as [-> | Hne].
  - rewrite Hsame, (decide_False (P := k ∈ ks)), (decide_True (P := k ∈ k :: ks)) by (done || by left). by rewrite app_nil_r.
  - rewrite Hother by done. cbn [app]. destruct (decide (k ∈ ks)); [rewrite decide_True by (by right); done|]. rewrite decide_False; [done|]. by intros [? | ?]%elem_of_cons.
Qed.
Definition dflt (k : name) : list deco := default [] (dget (defaults from_fn) k).
Lemma step_eq ds f o (dyn : list deco) k : decorate ds f = Ok o -> k ∈ dkeys (defaults (V := V) from_fn) ->
  default [] (dget (dupd (defaults from_fn) (group (concat (map (getattr o) (dkeys (defaults (V := V) from_fn))) ++ dyn))) k) =
  match lof k (rev dyn ++ ds) with [] => dflt k | l => l end.
Proof.
  intros Hd Hk. rewrite dget_dupd by apply NoDup_group. rewrite dget_group, filter_app, filter_concat.
  - rewrite decide_True by done. rewrite (decorate_getattr ds f o k Hd).
    assert (Hof : lof k (rev dyn ++ ds) = lof k ds ++ filter (fun d => lifecycle d = k) dyn) by (unfold lof; by rewrite rev_app_distr, rev_involutive, filter_app).
    rewrite Hof. by destruct (lof k ds ++ _).
  - apply (bool_decide_unpack _). by vm_compute.
  - intros k' d Hin. rewrite (decorate_getattr ds f o k' Hd) in Hin. by apply elem_of_list_filter in Hin as [? _].
Qed.
(** ** The configuration that a decorator sees *)
Lemma mapr_ok {X A B} (h : A -> res X B) l bs : mapr h l = Ok bs <-> Forall2 (fun a b => h a = Ok b) l bs.
Proof.
  revert bs. induction l as [|a l IH]; intros bs; cbn [mapr].
  - split; [intros [= <-]; constructor|]. by inversion 1.
  - split.
    + destruct (h a) as [b|] eqn:Hb; [|done]. cbn [bindr]. destruct (mapr h l) as [bs'|]; [|done]. cbn [bindr]. intros [= <-]. constructor; [done|]. by apply IH.
    + inversion 1 as [|? b ? bs' Hb Hl]; subst. rewrite Hb. cbn [bindr]. apply IH in Hl. by rewrite Hl.
Qed.
Notation look c := (fun k => match c !! k with Some v => Ok (k, v) | None => Err XKey end).
Lemma mapr_look c req : (forall k, k ∈ req -> is_Some (c !! k)) ->
  exists l, mapr (X := xn E) (look c) req = Ok l /\ forall k, (list_to_map l : config) !! k = if decide (k ∈ req) then c !! k else None.
Proof.
  induction req as [|k0 req IH]; intros H.
  { exists []. split; [done|]. intros k. rewrite decide_False by by intros ?%elem_of_nil. apply lookup_empty. }
  destruct (H k0) as [v Hv]; [by left|]. destruct IH as (l & Hl & Hm); [intros; apply H; by right|]. exists ((k0, v) :: l). split.
  { cbn [mapr]. rewrite Hv. cbn [bindr]. by rewrite Hl. }
  intros k. cbn [list_to_map foldr]. change (foldr (fun p : name * V => <[p.1:=p.2]>) ∅ l) with (list_to_map l : config). cbn [fst snd]. destruct (decide (k = k0)) as [-> | Hne].
  - rewrite decide_True by by left. by rewrite lookup_insert, Hv.
  - rewrite lookup_insert_ne by done. rewrite Hm. destruct (decide (k ∈ req)); [rewrite decide_True by (by right); done|]. rewrite decide_False; [done|]. by intros [? | ?]%elem_of_cons.
Qed.
Lemma mapr_look_in c req l : mapr (X := xn E) (look c) req = Ok l -> forall k, k ∈ req -> is_Some (c !! k).
Proof.
  intros Hl%mapr_ok. induction Hl as [|k0 b req bs Hb _ IH]; intros k Hk; [by apply elem_of_nil in Hk|]. apply elem_of_cons in Hk as [-> | Hk]; [|by apply IH].
  by destruct (c !! k0).
Qed.
Lemma foldl_optional c (opt : dict V) : NoDup (dkeys opt) -> forall m0 k,
  (foldl (fun out kv => <[kv.1 := default kv.2 (c !! kv.1)]> out) (m0 : config) opt) !! k = match dget opt k with Some v => Some (default v (c !! k)) | None => m0 !! k end.
Proof.
  induction opt as [|[k0 v0] opt IH]; intros Nk m0 k; [done|]. change (dkeys ((k0, v0) :: opt)) with (k0 :: dkeys opt) in Nk. apply NoDup_cons in Nk as [H0 Nk].
  cbn [foldl fst snd]. rewrite IH by done. cbn [dget]. destruct (decide (k = k0)) as [-> | Hne].
  - apply dget_None_key in H0. rewrite H0. by rewrite lookup_insert.
  - destruct (dget opt k); [done|]. by rewrite lookup_insert_ne.
Qed.
Lemma sees_functional c req (opt : option (dict V)) m m' : sees vfalse c req opt m -> sees vfalse c req opt m' -> m = m'.
Proof.
  destruct req as [req|]; cbn [sees]; [|congruence]. intros (H1 & H2 & H3) (_ & H2' & H3'). apply map_eq. intros k.
  destruct (decide (k ∈ req)) as [Hk | Hk]; [rewrite H2, H2' by (by left); done|].
  destruct (decide (k ∈ dkeys (default [] opt))) as [Hk' | Hk']; [rewrite H2, H2' by (by right); done|]. by rewrite H3, H3'.
Qed.
Lemma resolve_config_sees c req opt m : NoDup (dkeys (default [] opt)) -> resolve_config (E := E) vfalse c req opt = Ok m <-> sees vfalse c req opt m.
Proof.
  intros No. destruct req as [req|]; [|cbn; split; congruence]. unfold resolve_config. cbn zeta.
  set (o := default [] opt) in *. set (opt' := dset o power_mode (default vfalse (dget o power_mode))).
  assert (No' : NoDup (dkeys opt')) by by apply NoDup_dkeys_dset.
  assert (Hok : (forall k, k ∈ req -> is_Some (c !! k)) -> exists m', sees vfalse c (Some req) opt m' /\
    match filter (fun k => c !! k = None /\ k ∉ dkeys opt') req with
    | _ :: _ => Err XMissing
    | [] => bindr (mapr (X := xn E) (look c) req) (fun l => Ok (foldl (fun out kv => <[kv.1 := default kv.2 (c !! kv.1)]> out) (list_to_map l : config) opt'))
    end = Ok m').
  { intros Hreq. destruct (mapr_look c req Hreq) as (l & Hl & Hm). destruct (filter _ req) as [|k l'] eqn:Ef.
    - rewrite Hl. cbn [bindr]. eexists. split; [|done]. cbn [sees]. change (default [] opt) with o. split_and!; [done| |].
      + intros k Hk. rewrite foldl_optional by done. unfold opt' at 1. rewrite dget_dset. destruct (decide (k = power_mode)) as [-> | Hne].
        * destruct (c !! power_mode) eqn:Ec; [done|]. cbn. destruct Hk as [Hk | Hk]; [by destruct (Hreq _ Hk) as [? ?]; simplify_eq|]. apply dget_Some_key in Hk as [v ->]. done.
        * destruct (dget o k) eqn:Eo; [by destruct (c !! k)|]. rewrite Hm. destruct Hk as [Hk | Hk]; [|by apply dget_Some_key in Hk as [? ?]; simplify_eq].
          rewrite decide_True by done. by destruct (c !! k).
      + intros k Hk Hk'. rewrite foldl_optional by done. unfold opt' at 1. rewrite dget_dset. apply dget_None_key in Hk'. destruct (decide (k = power_mode)) as [-> | Hne]; [by rewrite Hk'|].
        rewrite Hk', Hm. by rewrite decide_False.
    - exfalso. assert (Hk : k ∈ filter (fun k => c !! k = None /\ k ∉ dkeys opt') req) by (rewrite Ef; by left).
      apply elem_of_list_filter in Hk as [[Hk _] Hin]. destruct (Hreq _ Hin). congruence. }
  split.
  - intros H. destruct (filter _ req) as [|k l'] eqn:Ef; [|done]. destruct (mapr (look c) req) as [l|] eqn:El; [|done].
    destruct (Hok (mapr_look_in _ _ _ El)) as (m' & Hs & Hm'). rewrite H in Hm'. by injection Hm' as <-.
  - intros Hs. destruct (Hok (proj1 Hs)) as (m' & Hs' & Hm'). rewrite Hm'. f_equal. by eapply sees_functional.
Qed.
(** ** [@resolve] *)
Lemma foldl_given c (ks : list name) : forall (m0 : config) k,
  (foldl (fun kw k => match c !! k with Some v => <[k := v]> kw | None => kw end) m0 ks) !! k =
  if decide (k ∈ ks) then match c !! k with Some v => Some v | None => m0 !! k end else m0 !! k.
Proof.
  induction ks as [|k0 ks IH]; intros m0 k; cbn [foldl].
  { by rewrite decide_False by by intros ?%elem_of_nil. }
  rewrite IH. destruct (decide (k = k0)) as [-> | Hne].
  - rewrite (decide_True (P := k0 ∈ k0 :: ks)) by by left. destruct (c !! k0) as [v|]; [rewrite lookup_insert|]; by destruct (decide (k0 ∈ ks)).
  - assert (Hm : match c !! k0 with Some v => <[k0:=v]> m0 | None => m0 end !! k = m0 !! k) by (destruct (c !! k0); [by rewrite lookup_insert_ne|done]). rewrite Hm.
    destruct (decide (k ∈ ks)); [rewrite decide_True by (by right); done|]. rewrite decide_False; [done|]. by intros [? | ?]%elem_of_cons.
Qed.
Notation bindf kw := (fun p : param V => match kw !! p_name p with
  | Some v => Ok (p_name p, v)
  | None => match p_default p with Some v => Ok (p_name p, v) | None => Err XType end end).
Lemma mapr_bind (kw : config) (ps : list (param V)) : NoDup (map p_name ps) -> (forall p, p ∈ ps -> p_default p = None -> is_Some (kw !! p_name p)) ->
  exists l, mapr (X := xn E) (bindf kw) ps = Ok l /\ dom (list_to_map l : config) = list_to_set (map p_name ps) /\
    (forall p, p ∈ ps -> (list_to_map l : config) !! p_name p = match kw !! p_name p with Some v => Some v | None => p_default p end).
Proof.
  induction ps as [|p ps IH]; intros Np H.
  { exists []. split_and!; [done|apply dom_empty_L|by intros p ?%elem_of_nil]. }
  cbn [map] in Np. apply NoDup_cons in Np as [Hp Np]. destruct IH as (l & Hl & Hd & Hm); [done|intros; apply H; [by right|done]|].
  assert (exists v, bindf kw p = (Ok (p_name p, v) : res (xn E) (name * V)) /\ Some v = match kw !! p_name p with Some v => Some v | None => p_default p end) as (v & Hv & Hv').
  { destruct (kw !! p_name p) as [v|] eqn:Ek; [by exists v|]. destruct (p_default p) as [v|] eqn:Ed; [by exists v|]. destruct (H p) as [? ?]; [by left|done|congruence]. }
  exists ((p_name p, v) :: l). split_and!.
  - cbn [mapr]. rewrite Hv. cbn [bindr]. by rewrite Hl.
  - rewrite list_to_map_cons, dom_insert_L. cbn [map]. rewrite list_to_set_cons. by rewrite Hd.
  - intros p' Hp'. rewrite list_to_map_cons. apply elem_of_cons in Hp' as [-> | Hp'].
    + by rewrite lookup_insert, Hv'.
    + rewrite lookup_insert_ne; [by apply Hm|]. intros Heq. apply Hp. rewrite Heq. by apply elem_of_list_fmap_1.
Qed.
Lemma resolve_stands c req opt (ps : list (param V)) fn r : NoDup (map p_name ps) -> new_resolve ps fn = Ok (Dynamic req opt ps fn) ->
  resolve (N := N) (F := F) (E := E) truthy (Dynamic req opt ps fn) c = Ok (Some r) <-> stands_for truthy c (Dynamic req opt ps fn) r.
Proof.
  intros Np Hnew. unfold new_resolve, extract_params in Hnew. destruct (forallb keyword_friendly ps); [|done]. cbn [bindr fst snd] in Hnew. injection Hnew as Hreq Hopt.
  cbn [resolve stands_for]. destruct (c !! power_mode) as [v|]; [|split; [done|by intros [(? & ? & ?) _]]].
  destruct (truthy v) eqn:Ht; [|split; [done|intros [(? & [= <-] & ?) _]; congruence]].
  assert (Hr : forall k, k ∈ req <-> exists p, p ∈ ps /\ p_name p = k /\ p_default p = None).
  { intros k. rewrite <- Hreq. split.
    - intros (p & -> & [Hd Hp]%elem_of_list_filter)%elem_of_list_fmap. by exists p.
    - intros (p & Hp & <- & Hd). apply elem_of_list_fmap_1, elem_of_list_filter. done. }
  assert (Ho : forall k, k ∈ dkeys opt <-> exists p, p ∈ ps /\ p_name p = k /\ is_Some (p_default p)).
  { intros k. rewrite <- Hopt. unfold dkeys. split.
    - intros ([k' v'] & -> & (p & Hp & Hpv)%elem_of_list_omap)%elem_of_list_fmap. exists p. destruct (p_default p); [|done]. cbn in Hpv. by simplify_eq.
    - intros (p & Hp & <- & [v' Hd]). apply elem_of_list_fmap. exists (p_name p, v'). split; [done|]. apply elem_of_list_omap. exists p. by rewrite Hd. }
  destruct (filter (fun k => c !! k = None) req) as [|k l'] eqn:Ef.
  - assert (Hin : forall k, k ∈ req -> is_Some (c !! k)).
    { intros k Hk. destruct (c !! k) eqn:Ec; [by eexists|]. assert (Hx : k ∈ filter (fun k => c !! k = None) req) by by apply elem_of_list_filter. rewrite Ef in Hx. by apply elem_of_nil in Hx. }
    destruct (mapr_look c req Hin) as (l & Hl & Hm). rewrite Hl. cbn [bindr]. set (kw := foldl _ _ _).
    assert (Hkw : forall k, kw !! k = if decide (k ∈ map p_name ps) then c !! k else None).
    { intros k. unfold kw. rewrite foldl_given, Hm. destruct (decide (k ∈ map p_name ps)) as [Hk | Hk].
      - apply elem_of_list_fmap in Hk as (p & -> & Hp). destruct (p_default p) as [v'|] eqn:Ed.
        + rewrite decide_True by (apply Ho; exists p; rewrite Ed; split_and!; [done|done|by eexists]). destruct (c !! p_name p); [done|]. by destruct (decide _).
        + destruct (decide _); rewrite decide_True by (apply Hr; by exists p); [by destruct (c !! p_name p)|done].
      - rewrite decide_False by (intros (p & Hp & <- & _)%Ho; apply Hk; by apply elem_of_list_fmap_1). rewrite decide_False; [done|]. intros (p & Hp & <- & _)%Hr. apply Hk. by apply elem_of_list_fmap_1. }
    unfold bind_params. rewrite bool_decide_eq_true_2.
    2:{ intros k v' Hk. rewrite Hkw in Hk. by destruct (decide (k ∈ map p_name ps)). }
    destruct (mapr_bind kw ps Np) as (al & Hal & Hd & Ha).
    { intros p Hp Hdef. rewrite Hkw, decide_True by by apply elem_of_list_fmap_1. apply Hin, Hr. by exists p. }
    rewrite Hal. cbn [bindr].
    assert (Ha' : forall p, p ∈ ps -> (list_to_map al : config) !! p_name p = match c !! p_name p with Some v => Some v | None => p_default p end).
    { intros p Hp. rewrite Ha by done. by rewrite Hkw, decide_True by by apply elem_of_list_fmap_1. }
    split.
    + intros Hfn. split; [by exists v|]. exists (list_to_map al). split_and!; [done|done|]. unfold lift in Hfn. destruct (fn (list_to_map al)); congruence.
    + intros (_ & args & Hda & Haa & Hfn). assert (args = list_to_map al) as ->; [|by rewrite Hfn].
      apply map_eq. intros k. destruct (decide (k ∈ map p_name ps)) as [Hk | Hk].
      * apply elem_of_list_fmap in Hk as (p & -> & Hp). by rewrite Haa, Ha'.
      * transitivity (None : option V); [|symmetry]; apply not_elem_of_dom; [rewrite Hda|rewrite Hd]; by rewrite elem_of_list_to_set.
  - split; [done|]. intros (_ & args & Hda & Haa & _). exfalso. assert (Hk : k ∈ filter (fun k => c !! k = None) req) by (rewrite Ef; by left).
    apply elem_of_list_filter in Hk as [Hk (p & Hp & <- & Hdef)%Hr]. specialize (Haa p Hp). rewrite Hk, Hdef in Haa. apply not_elem_of_dom in Haa. rewrite Hda in Haa.
    apply Haa, elem_of_list_to_set. by apply elem_of_list_fmap_1.
Qed.
(** ** The steps *)
Lemma bindr_ok {X A B} (r : res X A) (h : A -> res X B) b : bindr r h = Ok b <-> exists a, r = Ok a /\ h a = Ok b.
Proof. destruct r as [a|e]; cbn [bindr]; [split; [by exists a|by intros (? & [= <-] & ?)]|split; [done|by intros (? & ? & ?)]]. Qed.
Lemma lift_ok {A} (r : res E A) a : lift r = Ok a <-> r = Ok a.
Proof. destruct r; cbn; split; congruence. Qed.
Lemma filter_sees c req opt v mu (b : body F N V E) m : NoDup (dkeys (default [] opt)) ->
  filter_config vfalse c (Static req opt v mu b) = Ok m <-> sees vfalse c req opt m.
Proof. apply resolve_config_sees. Qed.
Lemma wf_static_inv req opt v mu (b : body F N V E) : wf_deco (Static req opt v mu b) -> NoDup (dkeys (default [] opt)).
Proof. by inversion 1. Qed.
Lemma run_resolvers_ok c ds : Forall wf_deco ds -> forall f o, run_resolvers vfalse ds c f = Ok o <-> resolved vfalse c ds f o.
Proof.
  induction 1 as [|d ds Hw _ IH]; intros f o.
  { cbn. split; [intros [= <-]; constructor|by inversion 1]. }
  cbn [run_resolvers]. rewrite bindr_ok. split.
  - intros (m & Hm & H). destruct d as [req opt v mu b|]; [|done]. destruct b as [r| | | | |]; try done. apply filter_sees in Hm; [|by apply wf_static_inv in Hw].
    destruct (r f m) as [[f'|]|] eqn:Er; [|injection H as <-|done]; [|by eapply resolved_out]. apply IH in H. by eapply resolved_in.
  - inversion 1 as [|req opt v mu r ds' f0 m Hs Hr|req opt v mu r ds' f0 m f' o' Hs Hr Hres]; subst; exists m.
    + split; [apply filter_sees; [by apply wf_static_inv in Hw|done]|by rewrite Hr].
    + split; [apply filter_sees; [by apply wf_static_inv in Hw|done]|rewrite Hr; by apply IH].
Qed.
Lemma transform_acts c f d ns ns' : wf_deco d -> transform_dag vfalse c f d ns = Ok ns' <-> acts vfalse c f d ns ns'.
Proof.
  intros Hw. unfold transform_dag. rewrite bindr_ok. destruct d as [req opt v mu b|]; cbn [acts]; [|by split; [intros (? & ? & ?)|]].
  apply wf_static_inv in Hw. split; intros (m & Hm & H); exists m; (split; [by apply (filter_sees c req opt v mu b m Hw)|]).
  - destruct b; try done; try by apply lift_ok. destruct ns as [|n [|]]; try done. exists n. split; [done|]. by apply lift_ok.
  - destruct b; try done; try by apply lift_ok. destruct H as (n & -> & H). by apply lift_ok.
Qed.
Lemma chain_ok c f ds : Forall wf_deco ds -> forall ns ns', foldr_ (transform_dag vfalse c f) ds ns = Ok ns' <-> chain vfalse c f ds ns ns'.
Proof.
  induction 1 as [|d ds Hw _ IH]; intros ns ns'.
  { cbn. split; [intros [= <-]; constructor|by inversion 1]. }
  cbn [foldr_]. rewrite bindr_ok. split.
  - intros (n1 & H1 & H2). econstructor; [by apply transform_acts|by apply IH].
  - inversion 1; subst. eexists. split; [by apply transform_acts|by apply IH].
Qed.
Lemma chain_nil_inv c (f : F) ns ns' : chain (N := N) (E := E) vfalse c f [] ns ns' <-> ns = ns'.
Proof. split; [by inversion 1|intros ->; constructor]. Qed.
Lemma default_sees c : exists m, resolve_config (E := E) vfalse c (Some []) (Some []) = Ok m.
Proof. by eexists. Qed.

Definition ran c ds f : res (xn E) (list N) :=
  let step k := match lof k ds with [] => dflt k | l => l end in
  bindr (run_resolvers vfalse (step "resolve") c f) (fun r =>
  match r with
  | None => Ok []
  | Some f =>
      bindr (match step "generate" with
             | [d] => bindr (filter_config vfalse c d) (fun c' => match d with Static _ _ _ _ (BCreator t) => lift (t f c') | _ => Err XAttr end)
             | _ => Err XValue
             end) (fun ns =>
      bindr (foldr_ (transform_dag vfalse c f) (step "inject") ns) (fun ns =>
      bindr (match step "expand" with [] => Ok ns | [d] => transform_dag vfalse c f d ns | _ => Err XValue end) (fun ns =>
      bindr (foldr_ (transform_dag vfalse c f) (step "transform") ns) (fun ns =>
      bindr (foldr_ (transform_dag vfalse c f) (step "decorate_nodes") ns) (fun ns =>
      Ok (map (add_origin f) ns))))))
  end).
Lemma resolve_nodes_ran ds f o c : decorate ds f = Ok o ->
  resolve_nodes truthy vfalse from_fn add_origin o c =
  bindr (mapr (fun d => resolve truthy d c) (lof "dynamic" ds)) (fun dyn =>
  bindr (mapr (fun r : option deco => match r with Some d => Ok d | None => Err XAttr end) dyn) (fun rs => ran c (rev rs ++ ds) f)).
Proof.
  intros Hd. unfold resolve_nodes, node_decorators. rewrite (decorate_getattr ds f o "dynamic" Hd).
  destruct (mapr (fun d => resolve truthy d c) (lof "dynamic" ds)) as [dyn|]; [|done]. cbn [bindr].
  destruct (mapr _ dyn) as [rs|]; [|done]. cbn [bindr]. cbn zeta. unfold ran.
  assert (Hs : forall k, k ∈ dkeys (defaults (V := V) from_fn) -> _) by exact (fun k => step_eq ds f o rs k Hd).
  rewrite !Hs by (apply (bool_decide_unpack _); by vm_compute). cbn zeta. by rewrite (proj1 (decorate_attr ds f o Hd)).
Qed.
Lemma lof_wf k ds : Forall wf_deco ds -> Forall wf_deco (lof k ds).
Proof. rewrite !Forall_forall. intros H d [_ Hd]%elem_of_list_filter. apply H. by apply elem_of_list_In, in_rev, elem_of_list_In. Qed.
Lemma lof_lifecycle k ds d : d ∈ lof k ds -> lifecycle d = k.
Proof. by intros [? _]%elem_of_list_filter. Qed.
Lemma ran_made c ds f ns : Forall wf_deco ds -> ran c ds f = Ok ns <-> made vfalse from_fn add_origin c ds f ns.
Proof.
  intros Hw. unfold ran, made. cbn zeta. rewrite !of_lof. cbn [lname]. destruct (default_sees c) as [m0 Hm0].
  assert (D : forall k l, dget (defaults from_fn) k = Some l -> dflt k = l) by (intros k l Hk; unfold dflt; by rewrite Hk).
  assert (Hr : forall o, run_resolvers vfalse (match lof "resolve" ds with [] => dflt "resolve" | l => l end) c f = Ok o <-> resolved vfalse c (lof "resolve" ds) f o).
  { intros o. destruct (lof "resolve" ds) as [|d l] eqn:Hof; [|rewrite <- Hof; apply run_resolvers_ok; by apply lof_wf].
    rewrite (D "resolve" [default_resolver]) by reflexivity. cbn [run_resolvers]. change (filter_config vfalse c default_resolver) with (resolve_config (E := E) vfalse c (Some []) (Some [])). rewrite Hm0. cbn. split; [intros [= <-]; constructor|by inversion 1]. }
  assert (Hg : forall f' n0, match (match lof "generate" ds with [] => dflt "generate" | l => l end) with
             | [d] => bindr (filter_config vfalse c d) (fun c' => match d with Static _ _ _ _ (BCreator t) => lift (t f' c') | _ => Err XAttr end)
             | _ => Err XValue
             end = Ok n0 <-> created vfalse from_fn c (lof "generate" ds) f' n0).
  { intros f' n0. pose proof (lof_wf "generate" ds Hw) as Hwg. pose proof (lof_lifecycle "generate" ds) as Hl.
    destruct (lof "generate" ds) as [|d [|d' l]] eqn:Hof; cbn [created].
    - rewrite (D "generate" [default_creator from_fn]) by reflexivity. change (filter_config vfalse c (default_creator from_fn)) with (resolve_config (E := E) vfalse c (Some []) (Some [])). rewrite Hm0. cbn [bindr default_creator]. destruct (from_fn f') as [n|]; cbn; split; [by intros [= <-]; exists n|by intros (? & [= <-] & ->)|done|by intros (? & ? & _)].
    - rewrite bindr_ok. apply Forall_cons_1 in Hwg as [Hwg _]. specialize (Hl d ltac:(by left)). destruct d as [req opt v mu [| t| | | |]|]; try done. apply wf_static_inv in Hwg.
      split; intros (m & Hm & Ht); exists m; (split; [by apply (filter_sees c req opt v mu (BCreator t) m Hwg)|by apply lift_ok]).
    - split; [done|]. by destruct d as [? ? ? ? []|]. }
  assert (Hc : forall k f' n n', k ∈ ["inject"; "transform"; "decorate_nodes"] ->
    foldr_ (transform_dag vfalse c f') (match lof k ds with [] => dflt k | l => l end) n = Ok n' <-> chain vfalse c f' (lof k ds) n n').
  { intros k f' n n' Hk. destruct (lof k ds) as [|d l] eqn:Hof; [|rewrite <- Hof; apply chain_ok; by apply lof_wf]. rewrite chain_nil_inv.
    apply elem_of_cons in Hk as [-> | Hk]; [rewrite (D "inject" []) by reflexivity; cbn; split; congruence|].
    apply elem_of_cons in Hk as [-> | Hk]; [rewrite (D "transform" []) by reflexivity; cbn; split; congruence|].
    apply elem_of_list_singleton in Hk as ->. rewrite (D "decorate_nodes" [default_decorator]) by reflexivity. cbn [foldr_]. unfold transform_dag.
    change (filter_config vfalse c default_decorator) with (resolve_config (E := E) vfalse c (Some []) (Some [])). rewrite Hm0. cbn. split; congruence. }
  assert (He : forall f' n n', match (match lof "expand" ds with [] => dflt "expand" | l => l end) with [] => Ok n | [d] => transform_dag vfalse c f' d n | _ => Err XValue end = Ok n' <->
    length (lof "expand" ds) <= 1 /\ chain vfalse c f' (lof "expand" ds) n n').
  { intros f' n n'. pose proof (lof_wf "expand" ds Hw) as Hwe. destruct (lof "expand" ds) as [|d [|d' l]]; cbn [length].
    - rewrite chain_nil_inv. rewrite (D "expand" []) by reflexivity. split; [intros [= ->]; split; [lia|done]|intros [_ ->]; done].
    - apply Forall_cons_1 in Hwe as [Hwe _]. rewrite transform_acts by done. split.
      + intros Ha. split; [lia|]. econstructor; [done|constructor].
      + intros [_ Hch]. inversion Hch as [|? ? ? ? ? Ha Hn]; subst. apply chain_nil_inv in Hn. by subst.
    - split; [done|]. intros [? _]. lia. }
  rewrite bindr_ok. split.
  - intros (r & Hr' & H). destruct r as [f'|]; [|left; split; [by apply Hr|congruence]]. right.
    apply bindr_ok in H as (n0 & H0 & H). apply bindr_ok in H as (n1 & H1 & H). apply bindr_ok in H as (n2 & H2 & H). apply bindr_ok in H as (n3 & H3 & H). apply bindr_ok in H as (n4 & H4 & H).
    exists f', n0, n1, n2, n3, n4. apply He in H2 as [? ?]. split_and!; [by apply Hr|by apply Hg|apply Hc; [by left|done]|done|done|apply Hc; [right; by left|done]|apply Hc; [right; right; by left|done]|congruence].
  - intros [[Hr' ->] | (f' & n0 & n1 & n2 & n3 & n4 & H1 & H2 & H3 & H4 & H5 & H6 & H7 & ->)].
    + exists None. split; [by apply Hr|done].
    + exists (Some f'). split; [by apply Hr|]. apply bindr_ok. exists n0. split; [by apply Hg|]. apply bindr_ok. exists n1. split; [apply Hc; [by left|done]|].
      apply bindr_ok. exists n2. split; [by apply He|]. apply bindr_ok. exists n3. split; [apply Hc; [right; by left|done]|]. apply bindr_ok. exists n4. split; [apply Hc; [right; right; by left|done]|done].
Qed.
(** ** Only what is asked for matters *)
Lemma mapr_ext {X A B} (h h' : A -> res X B) l : (forall a, a ∈ l -> h a = h' a) -> mapr h l = mapr h' l.
Proof.
  induction l as [|a l IH]; intros H; [done|]. cbn [mapr]. rewrite (H a) by by left. by rewrite IH by (intros; apply H; by right).
Qed.
Lemma filter_ext' {A} (P Q : A -> Prop) `{forall x, Decision (P x), forall x, Decision (Q x)} (l : list A) : (forall a, a ∈ l -> P a <-> Q a) -> filter P l = filter Q l.
Proof.
  induction l as [|a l IH]; intros Hl; [done|]. rewrite !filter_cons. rewrite IH by (intros; apply Hl; by right). specialize (Hl a ltac:(by left)).
  destruct (decide (P a)), (decide (Q a)); tauto.
Qed.
Section Agree.
Variable K : name -> Prop.
Variable c c' : config.
Hypothesis Kp : K power_mode.
Hypothesis Hc : forall k, K k -> c !! k = c' !! k.
Lemma resolve_config_agree req opt : (forall k, k ∈ req \/ k ∈ dkeys (default [] opt) -> K k) ->
  resolve_config (E := E) vfalse c (Some req) opt = resolve_config vfalse c' (Some req) opt.
Proof.
  intros H. unfold resolve_config. cbn zeta. set (o := default [] opt) in *. set (opt' := dset o power_mode _).
  assert (Ho : forall k, k ∈ dkeys opt' -> K k) by (intros k [-> | Hk]%dkeys_dset_elem; [done|apply H; by right]). clearbody opt'.
  rewrite (filter_ext' (fun k => c !! k = None /\ k ∉ dkeys opt') (fun k => c' !! k = None /\ k ∉ dkeys opt')) by (intros k Hk; rewrite (Hc k) by (apply H; by left); done).
  rewrite (mapr_ext (look c) (look c')) by (intros k Hk; by rewrite (Hc k) by (apply H; by left)).
  destruct (filter _ req); [|done]. destruct (mapr (look c') req) as [l|]; [|done]. cbn [bindr]. f_equal. generalize (list_to_map l : config). 
  induction opt' as [|[k v] opt' IH]; intros m; [done|]. cbn [foldl fst snd]. rewrite (Hc k) by (apply Ho; by left). apply IH. intros k' Hk'. apply Ho. by right.
Qed.
Lemma filter_config_agree d : asks K d -> static d -> filter_config vfalse c d = filter_config vfalse c' d.
Proof. intros [req opt v mu b H|] Hs; [|done]. by apply resolve_config_agree. Qed.
Lemma resolve_agree d : asks K d -> wf_deco d -> resolve truthy d c = resolve truthy d c'.
Proof.
  intros Ha Hw. destruct Hw as [|req opt ps fn Np Hnew _]; [done|]. inversion Ha as [|? ? ? ? Hps _]; subst.
  unfold new_resolve, extract_params in Hnew. destruct (forallb keyword_friendly ps); [|done]. cbn [bindr fst snd] in Hnew. injection Hnew as Hreq Hopt.
  assert (Hr : forall k, k ∈ req -> K k).
  { intros k. rewrite <- Hreq. intros (p & -> & [Hd Hp]%elem_of_list_filter)%elem_of_list_fmap. by apply Hps. }
  assert (Ho : forall k, k ∈ dkeys opt -> K k).
  { intros k. rewrite <- Hopt. unfold dkeys. intros ([k' v'] & -> & (p & Hp & Hpv)%elem_of_list_omap)%elem_of_list_fmap. destruct (p_default p); [|done]. cbn in Hpv. simplify_eq. by apply Hps. }
  cbn [resolve]. rewrite <- (Hc power_mode Kp). destruct (c !! power_mode) as [v|]; [|done]. destruct (truthy v); [|done].
  rewrite (filter_ext' (fun k => c !! k = None) (fun k => c' !! k = None)) by (intros k Hk; by rewrite (Hc k) by by apply Hr).
  rewrite (mapr_ext (look c) (look c')) by (intros k Hk; by rewrite (Hc k) by by apply Hr).
  destruct (filter _ req); [|done]. destruct (mapr (look c') req) as [l|]; [|done]. cbn [bindr]. f_equal. f_equal. generalize (list_to_map l : config). clear Hopt.
  induction (dkeys opt) as [|k ks IH]; intros m; [done|]. cbn [foldl]. rewrite (Hc k) by (apply Ho; by left). apply IH. intros k' Hk'. apply Ho. by right.
Qed.
Lemma run_resolvers_agree ds : Forall (asks K) ds -> Forall static ds -> forall f, run_resolvers vfalse ds c f = run_resolvers vfalse ds c' f.
Proof.
  induction 1 as [|d ds Ha _ IH]; intros Hs f; [done|]. apply Forall_cons_1 in Hs as [Hs Hss]. cbn [run_resolvers]. rewrite filter_config_agree by done.
  destruct (filter_config vfalse c' d); [|done]. cbn [bindr]. destruct d as [? ? ? ? []|]; try done. destruct (f0 f a) as [[]|]; try done. by apply IH.
Qed.
Lemma transform_agree d f ns : asks K d -> transform_dag vfalse c f d ns = transform_dag vfalse c' f d ns \/ ~ static d.
Proof. destruct d as [req opt v mu b|]; intros Ha; [|right; by intros []]. left. unfold transform_dag. by rewrite filter_config_agree. Qed.
Lemma chain_agree ds f : Forall (asks K) ds -> Forall static ds -> forall ns, foldr_ (transform_dag vfalse c f) ds ns = foldr_ (transform_dag vfalse c' f) ds ns.
Proof.
  induction 1 as [|d ds Ha _ IH]; intros Hs ns; [done|]. apply Forall_cons_1 in Hs as [Hs Hss]. cbn [foldr_]. destruct (transform_agree d f ns Ha) as [-> | ?]; [|done].
  destruct (transform_dag vfalse c' f d ns); [|done]. cbn [bindr]. by apply IH.
Qed.
Lemma ran_agree ds f : Forall (asks K) ds -> ran c ds f = ran c' ds f.
Proof.
  intros Ha. assert (Hof : forall k, k <> "dynamic" -> Forall (asks K) (match lof k ds with [] => dflt k | l => l end) /\ Forall static (match lof k ds with [] => dflt k | l => l end)).
  { intros k Hk. destruct (lof k ds) as [|d l] eqn:E1.
    - assert (Hd : forall d, d ∈ dflt k -> asks K d /\ static d).
      { unfold dflt. intros d Hd. destruct (dget (defaults from_fn) k) as [l|] eqn:Eg; [|by apply elem_of_nil in Hd]. cbn in Hd. apply dget_elem in Eg. unfold defaults in Eg.
        repeat (apply elem_of_cons in Eg as [[= -> ->] | Eg]; [repeat (apply elem_of_cons in Hd as [-> | Hd]; [by split; [constructor; intros k' [?%elem_of_nil | ?%elem_of_nil]|]|]); by apply elem_of_nil in Hd|]). by apply elem_of_nil in Eg. }
      rewrite !Forall_forall. split; intros d Hin; by apply Hd.
    - rewrite <- E1. rewrite !Forall_forall. rewrite Forall_forall in Ha. split; intros d' [Hl Hd']%elem_of_list_filter.
      + apply Ha. by apply elem_of_list_In, in_rev, elem_of_list_In.
      + by destruct d'. }
  unfold ran. cbn zeta. rewrite run_resolvers_agree by (apply Hof; discriminate). destruct (run_resolvers _ _ c' f) as [[f'|]|]; try done. cbn [bindr].
  destruct (Hof "generate" ltac:(discriminate)) as [Hg1 Hg2]. destruct (match lof "generate" ds with [] => _ | _ => _ end) as [|d [|]]; try done.
  apply Forall_cons_1 in Hg1 as [Hg1 _]. apply Forall_cons_1 in Hg2 as [Hg2 _]. rewrite (filter_config_agree d) by done. destruct (bindr (filter_config vfalse c' d) _) as [n0|]; [|done]. cbn [bindr].
  rewrite chain_agree by (apply Hof; discriminate). destruct (foldr_ _ _ n0) as [n1|]; [|done]. cbn [bindr].
  destruct (Hof "expand" ltac:(discriminate)) as [He1 He2].
  assert (He : match (match lof "expand" ds with [] => dflt "expand" | l => l end) with [] => Ok n1 | [d] => transform_dag vfalse c f' d n1 | _ => Err XValue end =
    match (match lof "expand" ds with [] => dflt "expand" | l => l end) with [] => Ok n1 | [d] => transform_dag vfalse c' f' d n1 | _ => Err XValue end).
  { destruct (match lof "expand" ds with [] => _ | _ => _ end) as [|d' [|]]; try done. apply Forall_cons_1 in He1 as [He1 _]. apply Forall_cons_1 in He2 as [He2 _].
    by destruct (transform_agree d' f' n1 He1). }
  rewrite He. match goal with |- bindr ?x _ = _ => destruct x as [n2|]; [|done] end. cbn [bindr].
  rewrite chain_agree by (apply Hof; discriminate). destruct (foldr_ _ _ n2) as [n3|]; [|done]. cbn [bindr].
  by rewrite chain_agree by (apply Hof; discriminate).
Qed.
End Agree.
End Proofs.
