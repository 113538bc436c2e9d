(** Proofs about [@does]. *)
From Verif Require Import Base Dict NodeModel DecorModel DecorProofs ResultProofs DoesModel DoesSpec.

Section Proofs.
Context {V E : Type}.
Variable ellipsis : V.
Notation param := (param V).
Notation xq := (xq (E := E)).
Implicit Types (ps : list param) (mapping : dict src) (kw : dict V).

Definition same_keys {A B} (d : dict A) (d' : dict B) : Prop := forall k, k ∈ dkeys d <-> k ∈ dkeys d'.
Lemma same_keys_get {A B} (d : dict A) (d' : dict B) k : same_keys d d' -> (exists v v', dget d k = Some v /\ dget d' k = Some v') \/ (dget d k = None /\ dget d' k = None).
Proof.
  intros H. destruct (dget d k) as [v|] eqn:Ed, (dget d' k) as [v'|] eqn:Ed'.
  - left. by exists v, v'.
  - exfalso. apply dget_None_key in Ed'. apply Ed', H. apply dget_Some_key. by eexists.
  - exfalso. apply dget_None_key in Ed. apply Ed, H. apply dget_Some_key. by eexists.
  - by right.
Qed.
Lemma same_keys_dset {A B} (d : dict A) (d' : dict B) k a b : same_keys d d' -> same_keys (dset d k a) (dset d' k b).
Proof. intros H k'. rewrite !dkeys_dset_elem. by rewrite (H k'). Qed.
Lemma dkeys_ddel {A} (d : dict A) k k' : NoDup (dkeys d) -> k' ∈ dkeys (ddel d k) <-> k' <> k /\ k' ∈ dkeys d.
Proof.
  intros Hn. rewrite <- !dget_Some_key. rewrite dget_ddel by done. destruct (decide (k' = k)); [split; [by intros [? ?]|tauto]|tauto].
Qed.
Lemma same_keys_ddel {A B} (d : dict A) (d' : dict B) k : NoDup (dkeys d) -> NoDup (dkeys d') -> same_keys d d' -> same_keys (ddel d k) (ddel d' k).
Proof. intros H1 H2 H k'. rewrite !dkeys_ddel by done. by rewrite (H k'). Qed.

(** ** [map_kwargs] looks at keys only *)
Lemma map_kwargs_keys {A B} (d : dict A) (d' : dict B) mapping : NoDup (dkeys d) -> NoDup (dkeys d') -> same_keys d d' ->
  match map_kwargs (E := E) d mapping, map_kwargs (E := E) d' mapping with
  | Ok o, Ok o' => same_keys o o' /\ NoDup (dkeys o) /\ NoDup (dkeys o')
  | Err e, Err e' => e = e'
  | _, _ => False
  end.
Proof.
  intros Hn Hn' Hk. unfold map_kwargs.
  assert (H : forall m0 (o : dict A) (o' : dict B), NoDup (dkeys o) -> NoDup (dkeys o') -> same_keys o o' ->
    match foldr_ (map_step (E := E) d mapping) m0 o, foldr_ (map_step (E := E) d' mapping) m0 o' with
    | Ok o, Ok o' => same_keys o o' /\ NoDup (dkeys o) /\ NoDup (dkeys o') | Err e, Err e' => e = e' | _, _ => False end); [|by apply H].
  induction m0 as [|[t s] m0 IH]; intros o o' Ho Ho' Hoo; cbn [foldr_]; [done|].
  assert (Hs : forall C (dd : dict C) oo, map_step (E := E) dd mapping (t, s) oo = match s with Many _ => Err QType | One o => match dget dd o with None => Err QKey | Some v =>
    if decide (One t ∈ map snd mapping) then Ok (dset oo t v) else match dget oo o with None => Err QKey | Some _ => Ok (dset (ddel oo o) t v) end end end) by done.
  rewrite !Hs. clear Hs. destruct s as [x|xs]; [|done].
  destruct (same_keys_get d d' x Hk) as [(v & v' & -> & ->)|[-> ->]]; [|done]. destruct (decide (One t ∈ map snd mapping)).
  - cbn [bindr]. apply IH; [by apply NoDup_dkeys_dset..|by apply same_keys_dset].
  - destruct (same_keys_get o o' x Hoo) as [(w & w' & -> & ->)|[-> ->]]; [|done]. cbn [bindr].
    apply IH; [by apply NoDup_dkeys_dset, NoDup_dkeys_ddel..|]. by apply same_keys_dset, same_keys_ddel.
Qed.

(** ** So does the binding *)
Lemma bind_all_keys ps kw kw' : same_keys kw kw' -> match bind_all kw ps, bind_all kw' ps with Some _, Some _ => True | None, None => True | _, _ => False end.
Proof.
  intros Hk. induction ps as [|p ps IH]; cbn [bind_all]; [done|]. unfold bind_one.
  destruct (p_kind p); try (destruct (p_default p)); try (destruct (same_keys_get kw kw' (p_name p) Hk) as [(x & x' & -> & ->)|[-> ->]]);
    revert IH; destruct (bind_all kw ps), (bind_all kw' ps); cbn; intros []; exact I.
Qed.
Lemma others_elem ps kw k v : (k, v) ∈ others ps kw <-> (k, v) ∈ kw /\ forall p, p ∈ ps -> named p = true -> p_name p <> k.
Proof.
  unfold others. rewrite elem_of_list_filter. cbn [fst]. split.
  - intros [H1 H2]. split; [done|]. intros p Hp Hn <-. apply H1. apply elem_of_list_fmap. exists p. split; [done|]. by apply elem_of_list_filter.
  - intros [H1 H2]. split; [|done]. intros (p & -> & [Hn Hp]%elem_of_list_filter)%elem_of_list_fmap. by apply (H2 p).
Qed.
Lemma others_nil ps kw : others ps kw = [] <-> forall k, k ∈ dkeys kw -> exists p, p ∈ ps /\ named p = true /\ p_name p = k.
Proof.
  split.
  - intros H k ([k' v] & -> & Hin)%elem_of_list_fmap. cbn. destruct (decide (k' ∈ map p_name (filter (fun p => named p = true) ps))) as [Hx|Hx].
    + apply elem_of_list_fmap in Hx as (p & -> & [Hn Hp]%elem_of_list_filter). by exists p.
    + exfalso. assert (Ho : (k', v) ∈ others ps kw) by (unfold others; by apply elem_of_list_filter). rewrite H in Ho. by apply elem_of_nil in Ho.
  - intros H. destruct (others ps kw) as [|[k v] l] eqn:Eo; [done|]. assert (Ho : (k, v) ∈ others ps kw) by (rewrite Eo; by left). apply others_elem in Ho as [Hin Hno].
    destruct (H k) as (p & Hp & Hn & Hk); [apply elem_of_list_fmap; by exists (k, v)|]. by destruct (Hno p Hp Hn).
Qed.
Lemma bind_sig_keys ps kw kw' : same_keys kw kw' -> (exists r, bind_sig (E := E) ps kw = Ok r) <-> (exists r, bind_sig (E := E) ps kw' = Ok r).
Proof.
  intros Hk. unfold bind_sig. assert (Ho : bool_decide (others ps kw <> []) = bool_decide (others ps kw' <> [])).
  { apply bool_decide_ext. rewrite !others_nil. unfold same_keys in Hk. split; intros H Hx; apply H; intros k Hkk; apply Hx; by apply Hk. }
  rewrite Ho. destruct (_ && _); [split; by intros [? ?]|]. assert (Hb := bind_all_keys ps kw kw' Hk). revert Hb. destruct (bind_all kw ps), (bind_all kw' ps); cbn; intros []; split; intros [? ?]; first [by eexists|done].
Qed.

(** ** The keys of a call *)
Lemma update_get {A} (e : dict A) k : forall d, NoDup (dkeys e) -> dget (update d e) k = match dget e k with Some v => Some v | None => dget d k end.
Proof.
  unfold update. induction e as [|[k' v] e IH]; intros d Hn; [done|]. change (dkeys ((k', v) :: e)) with (k' :: dkeys e) in Hn. apply NoDup_cons in Hn as [Hk Hn]. cbn [foldl fst snd dget].
  rewrite IH by done. destruct (decide (k = k')) as [-> |Hne].
  - rewrite (proj2 (dget_None_key e k') Hk). apply dget_dset_eq.
  - by rewrite dget_dset_ne.
Qed.
Lemma update_keys {A} (d e : dict A) k : k ∈ dkeys (update d e) <-> k ∈ dkeys d \/ k ∈ dkeys e.
Proof. apply dsets_keys. Qed.
Lemma update_NoDup {A} (e : dict A) : forall d, NoDup (dkeys d) -> NoDup (dkeys (update d e)).
Proof. unfold update. induction e as [|[k v] e IH]; intros d Hd; [done|]. cbn. apply IH. by apply NoDup_dkeys_dset. Qed.
Lemma defaults_keys ps k : k ∈ dkeys (defaults ps) <-> exists p, p ∈ ps /\ p_name p = k /\ p_default p <> None.
Proof.
  unfold dkeys, defaults. split.
  - intros ([k' v] & -> & (p & Hp & He)%elem_of_list_omap)%elem_of_list_fmap. destruct (p_default p) eqn:Ed; [|done]. injection He as <- <-. exists p. by rewrite Ed.
  - intros (p & Hp & <- & Hd). destruct (p_default p) as [v|] eqn:Ed; [|done]. apply elem_of_list_fmap. exists (p_name p, v). split; [done|]. apply elem_of_list_omap. exists p. split; [done|]. by rewrite Ed.
Qed.
Lemma defaults_NoDup ps : NoDup (map p_name ps) -> NoDup (dkeys (defaults ps)).
Proof.
  unfold defaults. induction ps as [|p ps IH]; [constructor|]. cbn [map]. intros [Hp Hn]%NoDup_cons. cbn. destruct (p_default p) as [v|]; [|by apply IH].
  change (dkeys ((p_name p, v) :: ?x)) with (p_name p :: dkeys x). apply NoDup_cons. split; [|by apply IH]. intros (p' & Hp' & He & _)%defaults_keys. apply Hp.
  apply elem_of_list_fmap. exists p'. split; [|done]. symmetry. exact He.
Qed.
Lemma defaults_get ps k : NoDup (map p_name ps) -> dget (defaults ps) k = match filter (fun p => p_name p = k) ps with p :: _ => p_default p | [] => None end.
Proof.
  induction ps as [|p ps IH]; [done|]. cbn [map]. intros [Hp Hn]%NoDup_cons. rewrite filter_cons. unfold defaults in *. cbn. destruct (decide (p_name p = k)) as [<- |Hne].
  - destruct (p_default p) as [v|] eqn:Ed; [cbn; by rewrite decide_True|]. apply dget_None_key. intros (p' & Hp' & He & _)%defaults_keys. apply Hp. apply elem_of_list_fmap. exists p'. split; [|done]. symmetry. exact He.
  - destruct (p_default p) as [v|]; [cbn; rewrite decide_False by done|]; by apply IH.
Qed.
Definition dummy ps : dict V := update (map (fun kv => (kv.1, ellipsis)) (defaults ps)) (map (fun p => (p_name p, ellipsis)) ps).
Lemma dkeys_const {A} (d : dict A) (v : V) : dkeys (map (fun kv => (kv.1, v)) d) = dkeys d.
Proof. unfold dkeys. induction d as [|[k a] d IH]; [done|]. cbn [map fst]. rewrite !fmap_cons. by rewrite IH. Qed.
Lemma dummy_keys ps kw : call_of ps kw -> same_keys (dummy ps) (update (defaults ps) kw).
Proof.
  intros (Hn & Hsub & Hreq) k. unfold dummy. rewrite !update_keys, dkeys_const. unfold dkeys at 2. split.
  - intros [H|([k' v'] & -> & (p & [= -> ->] & Hp)%elem_of_list_fmap)%elem_of_list_fmap]; [by left|]. cbn. destruct (p_default p) eqn:Ed.
    + left. apply defaults_keys. exists p. by rewrite Ed.
    + right. by apply Hreq.
  - intros [H|H]; [by left|]. right. destruct (Hsub k H) as (p & Hp & <-). apply elem_of_list_fmap. exists (p_name p, ellipsis). split; [done|]. apply elem_of_list_fmap. by exists p.
Qed.
Lemma wrapper_validate ps (f : function (V := V) (E := E)) mapping kw : NoDup (map p_name ps) -> call_of ps kw ->
  match compatible (E := E) ellipsis ps (fn_sig f) mapping with
  | Ok true => exists o nm ex, map_kwargs (E := E) (update (defaults ps) kw) mapping = Ok o /\ bind_sig (E := E) (fn_sig f) o = Ok (nm, ex) /\ ran (wrapper ps f mapping kw) (fn_body f nm ex)
  | Ok false => wrapper ps f mapping kw = Err QType
  | Err e => wrapper ps f mapping kw = Err e
  end.
Proof.
  intros Hn Hc. unfold compatible, wrapper. fold (dummy ps).
  assert (Hnd : NoDup (dkeys (dummy ps))) by (apply update_NoDup; rewrite dkeys_const; by apply defaults_NoDup).
  assert (Hnu : NoDup (dkeys (update (defaults ps) kw))) by (by apply update_NoDup, defaults_NoDup).
  assert (Hm := map_kwargs_keys (dummy ps) (update (defaults ps) kw) mapping Hnd Hnu (dummy_keys ps kw Hc)).
  destruct (map_kwargs (dummy ps) mapping) as [o|e], (map_kwargs (update (defaults ps) kw) mapping) as [o'|e']; cbn [bindr]; [|done|done|by subst].
  destruct Hm as (Hk & _ & _). assert (Hb := bind_sig_keys (fn_sig f) o o' Hk). unfold apply, ran.
  destruct (bind_sig (fn_sig f) o) as [r|e] eqn:E1.
  - destruct (proj1 Hb ltac:(by eexists)) as [[nm ex] Hr]. rewrite Hr. cbn [bindr fst snd]. exists o', nm, ex. done.
  - destruct (bind_sig (fn_sig f) o') as [r'|e'] eqn:E2; [destruct (proj2 Hb ltac:(by eexists)); done|]. cbn [bindr]. f_equal. clear -E2. unfold bind_sig in E2. destruct (_ && _); [congruence|]. destruct (bind_all _ _); congruence.
Qed.

(** ** What is passed on *)
Lemma map_kwargs_passed (d : dict V) mapping o : NoDup (dkeys d) -> regular mapping -> map_kwargs (E := E) d mapping = Ok o -> forall k, dget o k = passed mapping (dget d) k.
Proof.
  intros Hnd (Hnk & Hnv & Hreg) Ho. unfold map_kwargs in Ho.
  assert (H : forall done_ m0 out o, mapping = done_ ++ m0 -> NoDup (dkeys out) ->
    (forall k, dget out k = match dget done_ k with
                            | Some (One x) => dget d x
                            | Some (Many _) => None
                            | None => if decide (One k ∈ map snd done_ /\ k ∉ dkeys mapping) then None else dget d k
                            end) ->
    foldr_ (map_step (E := E) d mapping) m0 out = Ok o ->
    forall k, dget o k = match dget mapping k with
                         | Some (One x) => dget d x
                         | Some (Many _) => None
                         | None => if decide (One k ∈ map snd mapping /\ k ∉ dkeys mapping) then None else dget d k
                         end).
  { intros done_ m0. revert done_. induction m0 as [|[t s] m0 IH]; intros done_ out o0 Hm Hout Hinv Hf k.
    - cbn in Hf. injection Hf as <-. rewrite app_nil_r in Hm. subst done_. apply Hinv.
    - cbn [foldr_] in Hf. assert (Hin : (t, s) ∈ mapping) by (rewrite Hm, elem_of_app; right; by left). destruct (Hreg t s Hin) as (x & -> & Hiff).
      apply bindr_ok in Hf as (out1 & Hs & Hf). unfold map_step in Hs. cbn [fst snd] in Hs. destruct (dget d x) as [v|] eqn:Ev; [|done].
      assert (Htd : dget done_ t = None).
      { apply dget_None_key. intros Ht. rewrite Hm in Hnk. unfold dkeys in Hnk. rewrite fmap_app in Hnk. apply NoDup_app in Hnk as (_ & Hd & _). apply (Hd t Ht). rewrite fmap_cons. by left. }
      assert (Hxd : One x ∉ map snd done_).
      { intros Hx. rewrite Hm in Hnv. rewrite map_app in Hnv. apply NoDup_app in Hnv as (_ & Hd & _). apply (Hd (One x) Hx). cbn. by left. }
      assert (Hget : forall (m : dict src) y, dget (done_ ++ m) y = match dget done_ y with Some a => Some a | None => dget m y end).
      { intros m y. clear. induction done_ as [|[a b] l IHl]; [done|]. cbn. by destruct (decide (y = a)). }
      assert (Hvals : forall y, One y ∈ map snd (done_ ++ [(t, One x)]) <-> One y ∈ map snd done_ \/ y = x).
      { intros y. rewrite map_app. cbn. rewrite elem_of_app, elem_of_list_singleton. split; [intros [?|[= ->]]; tauto|intros [?| ->]; tauto]. }
      assert (Hkt : t ∈ dkeys mapping) by (apply elem_of_list_fmap; by exists (t, One x)).
      apply (IH (done_ ++ [(t, One x)]) out1); [by rewrite <- app_assoc| | |done].
      + destruct (decide _); [injection Hs as <-; by apply NoDup_dkeys_dset|]. destruct (dget out x); [|done]. injection Hs as <-. by apply NoDup_dkeys_dset, NoDup_dkeys_ddel.
      + intros y. rewrite Hget. cbn [dget]. assert (Hdec : forall z, decide (One y ∈ map snd (done_ ++ [(t, One x)]) /\ y ∉ dkeys mapping) = z -> (if z then None else dget d y) =
          if decide ((One y ∈ map snd done_ \/ y = x) /\ y ∉ dkeys mapping) then None else dget d y).
        { intros z <-. rewrite <- (decide_ext _ _ _ _ (and_iff_compat_r (y ∉ dkeys mapping) (Hvals y))). done. }
        rewrite (Hdec _ eq_refl). clear Hdec. destruct (decide (One t ∈ map snd mapping)) as [Hv|Hv].
        * injection Hs as <-. rewrite dget_dset. destruct (decide (y = t)) as [-> |Hne]; [by rewrite Htd, Ev|]. rewrite Hinv. destruct (dget done_ y) as [[z|zs]|]; [done..|].
          destruct (decide (One y ∈ map snd done_ /\ y ∉ dkeys mapping)) as [Hy|Hy]; [rewrite decide_True by tauto; done|]. rewrite decide_False; [done|]. intros [[?| ->] ?]; [tauto|]. apply Hiff in Hv. done.
        * destruct (dget out x) as [w|] eqn:Ew; [|done]. injection Hs as <-. rewrite dget_dset, dget_ddel by done. assert (Hxk : x ∉ dkeys mapping) by tauto.
          assert (Hxd' : dget done_ x = None). { apply dget_None_key. intros Hx. apply Hxk. rewrite Hm. unfold dkeys. rewrite fmap_app, elem_of_app. by left. }
          destruct (decide (y = t)) as [-> |Hne]; [by rewrite Htd, Ev|]. destruct (decide (y = x)) as [-> |Hnx]; [rewrite Hxd'; rewrite decide_True by tauto; done|].
          rewrite Hinv. destruct (dget done_ y) as [[z|zs]|]; [done..|]. destruct (decide (One y ∈ map snd done_ /\ y ∉ dkeys mapping)) as [Hy|Hy]; [rewrite decide_True by tauto; done|].
          rewrite decide_False; [done|]. tauto. }
  intros k. rewrite (H [] mapping d o eq_refl Hnd); [|intros k'; cbn; rewrite decide_False; [done|intros [Hx _]; by apply elem_of_nil in Hx]|done].
  unfold passed. destruct (dget mapping k) as [[x|xs]|] eqn:Ek; [done..|]. apply dget_None_key in Ek. destruct (decide (One k ∈ map snd mapping)); [rewrite decide_True by done|rewrite decide_False by tauto]; done.
Qed.
Lemma bind_all_get kw ps l : NoDup (map p_name ps) -> bind_all kw ps = Some l -> forall p, p ∈ ps -> named p = true -> dget l (p_name p) = match dget kw (p_name p) with Some v => Some v | None => p_default p end.
Proof.
  revert l. induction ps as [|q ps IH]; intros l Hn Hb p Hp Hnm; [by apply elem_of_nil in Hp|]. cbn [map] in Hn. apply NoDup_cons in Hn as [Hq Hn]. cbn [bind_all] in Hb.
  destruct (bind_one kw q) as [lq|] eqn:Eq; [|done]. destruct (bind_all kw ps) as [l'|] eqn:El; [|done]. injection Hb as <-.
  assert (Hget : dget (lq ++ l') (p_name p) = match dget lq (p_name p) with Some a => Some a | None => dget l' (p_name p) end).
  { clear. induction lq as [|[a b] lq IHl]; [done|]. cbn. by destruct (decide (p_name p = a)). }
  rewrite Hget. apply elem_of_cons in Hp as [-> |Hp].
  - unfold bind_one in Eq. unfold named in Hnm. destruct (p_kind q); try done; (destruct (dget kw (p_name q)) as [v|]; [injection Eq as <-; cbn; by rewrite decide_True|]);
      (destruct (p_default q) as [v|]; [injection Eq as <-; cbn; by rewrite decide_True|done]).
  - assert (Hlq : dget lq (p_name p) = None); [|rewrite Hlq; by apply IH]. assert (Hne : p_name p <> p_name q) by (intros He; apply Hq; rewrite <- He; apply elem_of_list_fmap; by exists p).
    unfold bind_one in Eq. destruct (p_kind q); try (destruct (dget kw (p_name q))); try (destruct (p_default q)); try done; injection Eq as <-; cbn; try done; by rewrite decide_False.
Qed.
Lemma bind_receives ps kw nm ex : NoDup (map p_name ps) -> NoDup (dkeys kw) -> bind_sig (E := E) ps kw = Ok (nm, ex) -> receives ps (dget kw) nm ex.
Proof.
  intros Hn Hk Hb. unfold bind_sig in Hb. destruct (_ && _); [done|]. destruct (bind_all kw ps) as [l|] eqn:El; [|done]. injection Hb as -> <-. split_and!.
  - by apply bind_all_get.
  - intros k (p & Hp & Hnm & <-). apply dget_None_key. intros ([k v] & Hkk & Hin)%elem_of_list_fmap. apply others_elem in Hin as [_ Hno]. cbn in Hkk. by destruct (Hno p Hp Hnm).
  - intros k Hno. assert (Hno' : NoDup (dkeys (others ps kw))).
    { unfold others, dkeys. clear -Hk. induction kw as [|[a b] kw IH]; [constructor|]. unfold dkeys in Hk. rewrite fmap_cons in Hk. apply NoDup_cons in Hk as [Ha Hk]. cbn [filter list_filter]. destruct (decide _); [|by apply IH].
      rewrite fmap_cons. apply NoDup_cons. split; [|by apply IH]. intros ([a' b'] & Heq & [_ Hin]%elem_of_list_filter)%elem_of_list_fmap. cbn in Heq. apply Ha. apply elem_of_list_fmap. exists (a', b'). done. }
    destruct (dget kw k) as [v|] eqn:Ev.
    + apply elem_dget; [done|]. apply others_elem. split; [by apply dget_elem|done].
    + apply dget_None_key. intros ([k' v] & Hkk & Hin)%elem_of_list_fmap. apply others_elem in Hin as [Hin _]. cbn in Hkk. subst k'. apply dget_None_key in Ev. apply Ev. apply elem_of_list_fmap. by exists (k, v).
Qed.
(** ** Regular mappings of parameters go through *)
Lemma map_kwargs_regular {A} (d : dict A) mapping : NoDup (dkeys d) -> regular mapping -> (forall t o, (t, One o) ∈ mapping -> o ∈ dkeys d) ->
  exists o, map_kwargs (E := E) d mapping = Ok o.
Proof.
  intros Hnd (Hnk & Hnv & Hreg) Hsrc. unfold map_kwargs.
  assert (H : forall m0 out, NoDup (dkeys out) -> NoDup (map snd m0) -> (forall e, e ∈ m0 -> e ∈ mapping) -> (forall t x, (t, One x) ∈ m0 -> x ∉ dkeys mapping -> x ∈ dkeys out) ->
    exists o, foldr_ (map_step (E := E) d mapping) m0 out = Ok o).
  - induction m0 as [|[t s] m0 IH]; intros out Hout Hm Hsub Hinv; cbn [foldr_]; [by eexists|]. cbn [map snd] in Hm. apply NoDup_cons in Hm as [Hs Hm].
    assert (Hin : (t, s) ∈ mapping) by (apply Hsub; by left). destruct (Hreg t s Hin) as (x & -> & Hiff). unfold map_step at 1. cbn [fst snd].
    destruct (dget d x) as [v|] eqn:Ev; [|by apply dget_None_key in Ev; destruct Ev; apply (Hsrc t)].
    assert (Hsub' : forall e, e ∈ m0 -> e ∈ mapping) by (intros e He; apply Hsub; by right).
    destruct (decide (One t ∈ map snd mapping)) as [Ht|Ht].
    + cbn [bindr]. apply IH; [by apply NoDup_dkeys_dset|done|done|]. intros t' x' Hin' Hx'. rewrite dkeys_dset_elem. right. apply (Hinv t'); [by right|done].
    + assert (Hx : x ∉ dkeys mapping) by tauto. destruct (dget out x) as [w|] eqn:Ew; [|apply dget_None_key in Ew; destruct Ew; by apply (Hinv t); [left|]].
      cbn [bindr]. apply IH; [by apply NoDup_dkeys_dset, NoDup_dkeys_ddel|done|done|]. intros t' x' Hin' Hx'. rewrite dkeys_dset_elem. right. apply dkeys_ddel; [done|].
      split; [|by apply (Hinv t'); [right|]]. intros ->. apply Hs. apply elem_of_list_fmap. by exists (t', One x).
  - apply H; [done|done|done|]. intros t x Hin _. by apply (Hsrc t).
Qed.
Lemma map_kwargs_no_user {A} (d : dict A) mapping e : map_kwargs (E := E) d mapping <> Err (QUser e).
Proof.
  unfold map_kwargs. assert (H : forall m0 out, foldr_ (map_step (E := E) d mapping) m0 out <> Err (QUser e)); [|apply H].
  induction m0 as [|[t s] m0 IH]; intros out; cbn [foldr_]; [done|]. destruct (map_step d mapping (t, s) out) as [o|x] eqn:Es; cbn [bindr]; [apply IH|].
  intros [= ->]. unfold map_step in Es. cbn [fst snd] in Es. destruct s as [y|ys]; [|done]. destruct (dget d y); [|done]. destruct (decide _); [done|]. by destruct (dget out y).
Qed.
End Proofs.
