(** Proofs about @parameterize. *)
From Verif Require Import Base Dict NodeModel NodeSpec NodeProofs PipeModel PipeSpec PipeProofs ParamModel ParamSpec.

Section Proofs.
Context {V E T : Type}.
Variable vlist : list V -> V.
Variable vdict : dict V -> V.
Variable list_elem dict_elem : T -> option T.
Variable captured : dict V -> res (nerr E) V.
Implicit Types (ns : dict (pnode V E T)) (sp : dict (spec V)) (env : gmap name V).
Notation new_inputs := (new_inputs list_elem dict_elem).
Notation new_kwarg := (new_kwarg (E := E) vlist vdict).
Notation new_kwargs := (new_kwargs (E := E) vlist vdict).
Notation resolve := (resolve (V := V) (E := E)).
Notation resolve_list := (resolve_list (V := V) (E := E)).
Notation resolve_dict := (resolve_dict (V := V) (E := E)).

Lemma dkeys_get {A} (d : dict A) k : k ∈ dkeys d <-> exists v, dget d k = Some v.
Proof. by rewrite <- dget_Some_key. Qed.

Lemma Forall2_impl_l {A B} (P Q : A -> B -> Prop) (l : list A) (k : list B) :
  Forall2 P l k -> (forall x y, x ∈ l -> P x y -> Q x y) -> Forall2 Q l k.
Proof.
  induction 1 as [|x y l k Hx Hf IH]; intros H; constructor; [apply H; [by left|done]|].
  apply IH. intros x' y' Hx'. apply H. by right.
Qed.

(** ** Inputs *)
Lemma group_inputs_get t dt (acc : dict (T * deptype)) (ds : list (dep V)) x :
  (DSource x ∈ ds /\ dget (group_inputs t dt acc ds) x = Some (t, dt)) \/
  (DSource x ∉ ds /\ dget (group_inputs t dt acc ds) x = dget acc x).
Proof.
  unfold group_inputs. revert acc. induction ds as [|d ds IH]; intros acc; cbn [foldl].
  - right. split; [|done]. by intros []%elem_of_nil.
  - destruct (IH (match d with DSource s => dset acc s (t, dt) | DValue _ => acc end)) as [[H1 H2] | [H1 H2]].
    + left. split; [by right|done].
    + destruct d as [s|v].
      * rewrite dget_dset in H2. destruct (decide (x = s)) as [-> | Hne].
        -- left. split; [by left|done].
        -- right. split; [|done]. intros [[= ?] | ?]%elem_of_cons; done.
      * right. split; [|done]. intros [? | ?]%elem_of_cons; done.
Qed.
Lemma NoDup_group_inputs t dt (acc : dict (T * deptype)) (ds : list (dep V)) : NoDup (dkeys acc) -> NoDup (dkeys (group_inputs t dt acc ds)).
Proof.
  unfold group_inputs. revert acc. induction ds as [|d ds IH]; intros acc N; cbn [foldl]; [done|]. apply IH.
  destruct d; [by apply NoDup_dkeys_dset|done].
Qed.
Lemma elem_map_snd (ds : dict (dep V)) d : d ∈ map snd ds <-> exists k, (k, d) ∈ ds.
Proof.
  change (map snd ds) with (ds.*2). rewrite elem_of_list_fmap. split.
  - intros ([k d'] & -> & H). by exists k.
  - intros (k & H). by exists (k, d).
Qed.

Lemma new_inputs_spec sp ins acc d : NoDup (dkeys acc) -> new_inputs sp acc ins = Some d ->
  NoDup (dkeys d) /\
  (forall x t dt, dget d x = Some (t, dt) -> dget acc x = Some (t, dt) \/ exists p tp, (p, (tp, dt)) ∈ ins /\ refers (dget sp p) p x) /\
  (forall x, (x ∈ dkeys acc \/ exists p tp, (p, tp) ∈ ins /\ refers (dget sp p) p x) -> x ∈ dkeys d).
Proof.
  revert acc. induction ins as [|[p [t dt]] ins IH]; intros acc N H; cbn in H.
  - injection H as <-. split_and!; [done|intros; by left|]. intros x [?|(? & ? & []%elem_of_nil & _)]; done.
  - assert (Key : forall acc', NoDup (dkeys acc') -> new_inputs sp acc' ins = Some d ->
      (forall x tt, dget acc' x = Some tt -> dget acc x = Some tt \/ (tt.2 = dt /\ refers (dget sp p) p x)) ->
      (forall x, x ∈ dkeys acc -> x ∈ dkeys acc') -> (forall x, refers (dget sp p) p x -> x ∈ dkeys acc') ->
      NoDup (dkeys d) /\
      (forall x t' dt', dget d x = Some (t', dt') -> dget acc x = Some (t', dt') \/ exists q tq, (q, (tq, dt')) ∈ (p, (t, dt)) :: ins /\ refers (dget sp q) q x) /\
      (forall x, (x ∈ dkeys acc \/ exists q tq, (q, tq) ∈ (p, (t, dt)) :: ins /\ refers (dget sp q) q x) -> x ∈ dkeys d)).
    { intros acc' N' H' A B C. destruct (IH acc' N' H') as (D1 & D2 & D3). split_and!; [done| |].
      - intros x t' dt' Hx. destruct (D2 x t' dt' Hx) as [Ha | (q & tq & Hq & Hr)].
        + destruct (A x _ Ha) as [? | [Hd Hr]]; [by left|]. cbn in Hd. subst. right. exists p, t. split; [by left|done].
        + right. exists q, tq. split; [by right|done].
      - intros x [Hx | (q & tq & [[= -> ->] | Hq]%elem_of_cons & Hr)].
        + apply D3. left. by apply B.
        + apply D3. left. by apply C.
        + apply D3. right. eauto. }
    destruct (dget sp p) as [[[s|v]|ds|ds]|] eqn:Es.
    + apply (Key (dset acc s (t, dt))); [by apply NoDup_dkeys_dset|done| | |].
      * intros x tt. rewrite dget_dset. destruct (decide (x = s)) as [-> | ?]; [intros [= <-]; by right|by left].
      * intros x Hx. apply dkeys_dset_elem. by right.
      * intros x Hx. cbn in Hx. injection Hx as ->. apply dkeys_dset_elem. by left.
    + apply (Key acc); [done|done|by left|done|]. intros x Hx. by cbn in Hx.
    + destruct (list_elem t) as [t'|]; [|done]. apply (Key (group_inputs t' dt acc ds)); [by apply NoDup_group_inputs|done| | |].
      * intros x tt. destruct (group_inputs_get t' dt acc ds x) as [[? ->] | [? ->]]; [intros [= <-]; by right|by left].
      * intros x Hx. apply dkeys_get in Hx as [v Hv]. apply dkeys_get. destruct (group_inputs_get t' dt acc ds x) as [[? ->] | [? ->]]; eauto.
      * intros x Hx. apply dkeys_get. destruct (group_inputs_get t' dt acc ds x) as [[? ->] | [? ->]]; [eauto|done].
    + destruct (dict_elem t) as [t'|]; [|done]. apply (Key (group_inputs t' dt acc (map snd ds))); [by apply NoDup_group_inputs|done| | |].
      * intros x tt. destruct (group_inputs_get t' dt acc (map snd ds) x) as [[Hd ->] | [Hd ->]]; [|by left]. intros [= <-]. right. split; [done|].
        by apply elem_map_snd in Hd.
      * intros x Hx. apply dkeys_get in Hx as [v Hv]. apply dkeys_get. destruct (group_inputs_get t' dt acc (map snd ds) x) as [[Hd ->] | [Hd ->]]; eauto.
      * intros x Hx. apply dkeys_get. destruct (group_inputs_get t' dt acc (map snd ds) x) as [[Hd ->] | [Hd ->]]; [eauto|]. exfalso. by apply Hd, elem_map_snd.
    + apply (Key (dset acc p (t, dt))); [by apply NoDup_dkeys_dset|done| | |].
      * intros x tt. rewrite dget_dset. destruct (decide (x = p)) as [-> | ?]; [intros [= <-]; by right|by left].
      * intros x Hx. apply dkeys_dset_elem. by right.
      * intros x Hx. cbn in Hx. subst x. apply dkeys_dset_elem. by left.
Qed.

(** ** Arguments *)
Lemma new_kwargs_ok sp kw ps acc : (forall p, p ∈ ps -> exists o, new_kwarg sp kw p = Ok o) ->
  exists nk, new_kwargs sp kw acc ps = Ok nk /\ (NoDup (dkeys acc) -> NoDup (dkeys nk)) /\
    forall k, dget nk k = if decide (k ∈ ps) then match new_kwarg sp kw k with Ok (Some v) => Some v | _ => dget acc k end else dget acc k.
Proof.
  revert acc. induction ps as [|p ps IH]; intros acc H; cbn [ParamModel.new_kwargs].
  - exists acc. split_and!; [done|done|]. intros k. rewrite decide_False; [done|]. by intros []%elem_of_nil.
  - destruct (H p) as [o Ho]; [by left|]. rewrite Ho.
    assert (H' : forall p, p ∈ ps -> exists o, new_kwarg sp kw p = Ok o) by (intros; apply H; by right).
    destruct o as [v|].
    + destruct (IH (dset acc p v) H') as (nk & E1 & E2 & E3). exists nk. split_and!; [done|intros; by apply E2, NoDup_dkeys_dset|].
      intros k. rewrite E3, dget_dset. destruct (decide (k = p)) as [-> | Hne].
      * rewrite Ho. rewrite (decide_True (P := p ∈ p :: ps)) by (by left). by destruct (decide (p ∈ ps)).
      * destruct (decide (k ∈ ps)); [rewrite decide_True by (by right); done|]. rewrite decide_False; [done|]. by intros [? | ?]%elem_of_cons.
    + destruct (IH acc H') as (nk & E1 & E2 & E3). exists nk. split_and!; [done|done|].
      intros k. rewrite E3. destruct (decide (k ∈ ps)); [rewrite decide_True by (by right); done|].
      destruct (decide (k = p)) as [-> | Hne]; [rewrite Ho, decide_True by (by left); done|].
      rewrite decide_False; [done|]. by intros [? | ?]%elem_of_cons.
Qed.
Lemma new_kwargs_inv sp kw ps acc nk : new_kwargs sp kw acc ps = Ok nk -> forall p, p ∈ ps -> exists o, new_kwarg sp kw p = Ok o.
Proof.
  revert acc. induction ps as [|q ps IH]; intros acc H p Hp; cbn in H; [by apply elem_of_nil in Hp|].
  destruct (new_kwarg sp kw q) as [o|] eqn:Eq; [|done]. apply elem_of_cons in Hp as [-> | Hp]; [by exists o|].
  destruct o; by eapply IH.
Qed.

Lemma resolve_list_spec kw ds vs : resolve_list kw ds = Ok vs <-> Forall2 (fun d v => resolve kw d = Ok v) ds vs.
Proof.
  revert vs. induction ds as [|d ds IH]; intros vs; cbn [ParamModel.resolve_list].
  - split; [intros [= <-]; constructor|by intros ->%Forall2_nil_inv_l].
  - split.
    + destruct (resolve kw d) as [v|] eqn:Ed; [|done]. destruct (resolve_list kw ds) as [vs'|] eqn:El; [|done]. intros [= <-].
      constructor; [done|]. by apply IH.
    + intros H. inversion H as [|? v ? vs' Hd Hf]; subst. rewrite Hd. apply IH in Hf. by rewrite Hf.
Qed.
Lemma resolve_dict_spec kw (ds : dict (dep V)) vs : resolve_dict kw ds = Ok vs <-> Forall2 (fun kd kv => kd.1 = kv.1 /\ resolve kw kd.2 = Ok kv.2) ds vs.
Proof.
  revert vs. induction ds as [|[k d] ds IH]; intros vs; cbn [ParamModel.resolve_dict].
  - split; [intros [= <-]; constructor|by intros ->%Forall2_nil_inv_l].
  - split.
    + destruct (resolve kw d) as [v|] eqn:Ed; [|done]. destruct (resolve_dict kw ds) as [vs'|] eqn:El; [|done]. intros [= <-].
      constructor; [done|]. by apply IH.
    + intros H. inversion H as [|? [k' v] ? vs' [Hk Hd] Hf]; subst. cbn in Hk, Hd. subst. rewrite Hd. apply IH in Hf. by rewrite Hf.
Qed.

Lemma dget_literals_Some sp k v : dget (literals sp) k = Some v -> (k, POne (DValue v)) ∈ sp.
Proof.
  intros H. apply dget_elem in H. unfold literals in H. apply elem_of_list_omap in H as ([k' s] & Hs & Heq). cbn in Heq.
  destruct s as [[|u]| |]; try done. by injection Heq as -> ->.
Qed.

Lemma new_kwarg_resolved sp kw p o x : new_kwarg sp kw p = Ok o -> dget sp p <> None -> refers (dget sp p) p x -> is_Some (dget kw x).
Proof.
  unfold ParamModel.new_kwarg. destruct (dget sp p) as [[d|ds|ds]|]; cbn; intros H Hs Hr; [| | |done].
  - subst d. cbn in H. destruct (dget kw x); [eauto|done].
  - destruct (resolve_list kw ds) as [vs|] eqn:El; [|done]. apply resolve_list_spec in El.
    apply elem_of_list_lookup in Hr as [i Hi]. destruct (Forall2_lookup_l _ _ _ _ _ El Hi) as (v & _ & Hv). cbn in Hv.
    destruct (dget kw x); [eauto|done].
  - destruct (resolve_dict kw ds) as [vs|] eqn:El; [|done]. apply resolve_dict_spec in El. destruct Hr as [k Hr].
    apply elem_of_list_lookup in Hr as [i Hi]. destruct (Forall2_lookup_l _ _ _ _ _ El Hi) as (v & _ & _ & Hv). cbn in Hv.
    destruct (dget kw x); [eauto|done].
Qed.

(** ** Main lemma *)
Lemma list_choice {A} (P : name -> A -> Prop) (xs : list name) : (forall x, x ∈ xs -> (exists v, P x v) \/ ~ (exists v, P x v)) ->
  exists m : gmap name A, forall x, (forall v, m !! x = Some v -> x ∈ xs /\ P x v) /\ (x ∈ xs -> m !! x = None -> ~ exists v, P x v).
Proof.
  induction xs as [|x xs IH]; intros H.
  - exists ∅. intros x. split; [intros v Hv; by rewrite lookup_empty in Hv|by intros []%elem_of_nil].
  - destruct IH as [m Hm]; [intros; apply H; by right|].
    destruct (H x) as [[v Hv] | Hn]; [by left| |].
    + exists (<[x := v]> m). intros y. destruct (decide (y = x)) as [-> | Hne].
      * rewrite lookup_insert. split; [|done]. intros v' [= <-]. split; [by left|done].
      * rewrite lookup_insert_ne by done. destruct (Hm y) as [M1 M2]. split.
        -- intros v' Hv'. destruct (M1 _ Hv'). split; [by right|done].
        -- intros [? | Hy]%elem_of_cons; [done|]. by apply M2.
    + exists m. intros y. destruct (Hm y) as [M1 M2]. split.
      * intros v' Hv'. destruct (M1 _ Hv'). split; [by right|done].
      * intros [-> | Hy]%elem_of_cons; [done|]. by apply M2.
Qed.

Lemma param_value_gen ns env n out sp n' v :
  (forall y n, dget ns y = Some n -> NoDup (dkeys (pn_inputs n))) ->
  NoDup (dkeys (pn_inputs n)) -> NoDup (dkeys sp) -> keyword_fn (pn_call n) ->
  param_node vlist vdict list_elem dict_elem captured n out sp = Some n' ->
  (value ns env out v <-> exists m, args ns env (pn_inputs n') m /\ pn_call n' (kwargs (pn_inputs n') m) = Ok v) ->
  (* no variable or literal parameter has a reserved name *)
  (forall x, x ∈ dkeys (pn_inputs n') -> x ∉ reserved) ->
  (forall l u, (l, POne (DValue u)) ∈ sp -> l ∉ reserved) ->
  (* a source with the name of a literal parameter exists *)
  (forall l u, (l, POne (DValue u)) ∈ sp -> l ∈ dkeys (pn_inputs n') -> defined ns env l) ->
  value ns env out v <->
  exists kw, pn_call n kw = Ok v /\ NoDup (dkeys kw) /\ (forall k, k ∈ dkeys kw -> k ∈ dkeys (pn_inputs n)) /\
    forall p t dt, (p, (t, dt)) ∈ pn_inputs n -> bound vlist vdict ns env (dget sp p) p dt (dget kw p).
Proof.
  intros W N Ns K Hn D R1 R2 L. unfold param_node in Hn. destruct (new_inputs sp [] (pn_inputs n)) as [ins|] eqn:Ei; [|done].
  injection Hn as <-. cbn [pn_inputs pn_call] in *. cbn [pn_inputs] in R1, L.
  destruct (new_inputs_spec sp (pn_inputs n) [] ins) as (Ni & I1 & I2); [apply NoDup_nil_2|done|].
  assert (I1' : forall x t dt, (x, (t, dt)) ∈ ins -> exists p tp, (p, (tp, dt)) ∈ pn_inputs n /\ refers (dget sp p) p x).
  { intros x t dt Hx. apply elem_dget in Hx; [|done]. apply I1 in Hx as [? | ?]; [done|done]. }
  assert (I2' : forall p tp x, (p, tp) ∈ pn_inputs n -> refers (dget sp p) p x -> x ∈ dkeys ins) by (intros; apply I2; right; eauto).
  (* what the executor passes *)
  set (full m := dupd (literals sp) (kwargs ins m)).
  assert (Full : forall m x, x ∈ dkeys ins -> (m !! x = None -> ~ defined ns env x) -> dget (full m) x = m !! x).
  { intros m x Hx Hd. unfold full. rewrite dget_dupd by (by apply NoDup_kwargs). rewrite dget_kwargs, decide_True by done.
    destruct (m !! x) as [u|] eqn:Em; [done|]. destruct (dget (literals sp) x) as [u|] eqn:El; [|done].
    exfalso. apply (Hd eq_refl). apply dget_literals_Some in El. by eapply L. }
  assert (Res : forall m, existsb (fun k => bool_decide (k ∈ dkeys (full m))) reserved = false).
  { intros m. apply not_true_iff_false. intros (k & Hk & Hb)%existsb_exists. apply bool_decide_eq_true in Hb.
    apply elem_of_list_In in Hk. unfold full in Hb. apply dkeys_get in Hb as [u Hu]. rewrite dget_dupd in Hu by (by apply NoDup_kwargs).
    rewrite dget_kwargs in Hu. destruct (decide (k ∈ dkeys ins)) as [Hi|Hi]; [by apply (R1 k)|].
    apply dget_literals_Some in Hu. by apply (R2 k u). }
  assert (Call : forall m, replacement vlist vdict captured n sp (kwargs ins m) =
    match new_kwargs sp (full m) [] (dkeys (pn_inputs n)) with Err e => Err e | Ok nk => pn_call n nk end).
  { intros m. unfold replacement. fold (full m). by rewrite Res. }
  assert (Und : forall m x, args ns env ins m -> x ∈ dkeys ins -> m !! x = None -> ~ defined ns env x).
  { intros m x [_ M2] Hx Hm [Hd | Hd]; apply dkeys_get in Hx as [[t dt] Hx]; apply dget_elem in Hx;
      destruct (M2 x t dt Hx Hm) as (_ & ? & ?); done. }
  (* arguments of one parameter *)
  assert (RV : forall m d u, args ns env ins m -> (forall s, d = DSource s -> s ∈ dkeys ins) ->
    resolve (full m) d = Ok u <-> dep_value ns env d u).
  { intros m d u Hm Hs. destruct d as [s|w]; cbn; [|split; congruence].
    rewrite Full; [|by apply Hs|by apply Und, Hs]. destruct Hm as [M1 M2]. destruct (m !! s) as [w|] eqn:Em.
    - destruct (M1 s w Em) as [_ Hw]. split; [intros [= <-]; done|]. intros Hu. f_equal. by apply (value_fun ns env s w u W).
    - split; [done|]. intros Hu. exfalso. apply (Und m s); [done|by apply Hs|done|]. unfold defined.
      inversion Hu; subst; [right|left]; congruence. }
  assert (KB1 : forall m, args ns env ins m -> (forall p, p ∈ dkeys (pn_inputs n) -> exists o, new_kwarg sp (full m) p = Ok o) ->
    forall p t dt, (p, (t, dt)) ∈ pn_inputs n -> exists o, new_kwarg sp (full m) p = Ok o /\ bound vlist vdict ns env (dget sp p) p dt o).
  { intros m Hm Hall p t dt Hp. assert (Hr : forall x, refers (dget sp p) p x -> x ∈ dkeys ins) by (intros x Hx; eapply I2'; [exact Hp|exact Hx]).
    assert (Hpk : p ∈ dkeys (pn_inputs n)) by (by apply (elem_of_list_fmap_1 fst) in Hp).
    destruct (Hall p Hpk) as [o Ho]. exists o. split; [done|]. unfold ParamModel.new_kwarg in Ho.
    destruct (dget sp p) as [[d|ds|ds]|] eqn:Es; cbn [bound].
    - assert (Hs : forall s, d = DSource s -> s ∈ dkeys ins) by (intros s ->; by apply Hr).
      destruct (resolve (full m) d) as [u|] eqn:Ed; [|done]. injection Ho as <-. exists u. split; [done|]. by apply (RV m d u Hm Hs).
    - assert (Hs : forall d s, d ∈ ds -> d = DSource s -> s ∈ dkeys ins) by (intros d s Hd ->; by apply Hr).
      destruct (resolve_list (full m) ds) as [us|] eqn:Ed; [|done]. injection Ho as <-. exists us. split; [done|].
      apply resolve_list_spec in Ed. apply (Forall2_impl_l _ _ _ _ Ed). intros d u Hd Hu.
      apply (RV m d u Hm); [|done]. intros s. by apply Hs.
    - assert (Hs : forall k d s, (k, d) ∈ ds -> d = DSource s -> s ∈ dkeys ins) by (intros k d s Hd ->; apply Hr; by exists k).
      destruct (resolve_dict (full m) ds) as [us|] eqn:Ed; [|done]. injection Ho as <-. exists us. split; [done|].
      apply resolve_dict_spec in Ed. apply (Forall2_impl_l _ _ _ _ Ed). intros [k d] [k' u] Hd [Hk Hu]. cbn in *.
      split; [done|]. apply (RV m d u Hm); [|done]. intros s. by apply (Hs k).
    - assert (Hi : p ∈ dkeys ins) by (by apply Hr). injection Ho as <-. rewrite Full by (done || by apply Und).
      destruct (m !! p) as [u|] eqn:Em; [by apply (proj1 Hm)|]. cbn.
      pose proof Hi as Hi'. apply dkeys_get in Hi' as [[t' dt'] Ht']. apply dget_elem in Ht'.
      destruct (proj2 Hm p t' dt' Ht' Em) as (-> & U1 & U2). split; [|done].
      destruct (I1' p t' OPTIONAL Ht') as (q & tq & Hq & Hrq).
      destruct (decide (q = p)) as [-> | Hne].
      { assert (H1 := elem_dget _ _ _ N Hq). assert (H2 := elem_dget _ _ _ N Hp). congruence. }
      exfalso. assert (Hqk : q ∈ dkeys (pn_inputs n)) by (by apply (elem_of_list_fmap_1 fst) in Hq).
      destruct (Hall q Hqk) as [oq Hoq]. destruct (new_kwarg_resolved sp (full m) q oq p Hoq) as [u Hu]; [|done|].
      + intros Hn. rewrite Hn in Hrq. cbn in Hrq. done.
      + rewrite Full in Hu by (done || by apply Und). congruence. }
  assert (KB2 : forall m p t dt o, args ns env ins m -> (p, (t, dt)) ∈ pn_inputs n ->
    bound vlist vdict ns env (dget sp p) p dt o -> new_kwarg sp (full m) p = Ok o).
  { intros m p t dt o Hm Hp. assert (Hr : forall x, refers (dget sp p) p x -> x ∈ dkeys ins) by (intros x Hx; eapply I2'; [exact Hp|exact Hx]).
    unfold ParamModel.new_kwarg. destruct (dget sp p) as [[d|ds|ds]|] eqn:Es; cbn [bound].
    - assert (Hs : forall s, d = DSource s -> s ∈ dkeys ins) by (intros s ->; by apply Hr).
      intros (u & -> & Hu). apply (RV m d u Hm Hs) in Hu. by rewrite Hu.
    - assert (Hs : forall d s, d ∈ ds -> d = DSource s -> s ∈ dkeys ins) by (intros d s Hd ->; by apply Hr).
      intros (us & -> & Hu). assert (Hl : resolve_list (full m) ds = Ok us); [|by rewrite Hl].
      apply resolve_list_spec. apply (Forall2_impl_l _ _ _ _ Hu). intros d u Hd Hv.
      apply (RV m d u Hm); [|done]. intros s. by apply Hs.
    - assert (Hs : forall k d s, (k, d) ∈ ds -> d = DSource s -> s ∈ dkeys ins) by (intros k d s Hd ->; apply Hr; by exists k).
      intros (us & -> & Hu). assert (Hl : resolve_dict (full m) ds = Ok us); [|by rewrite Hl].
      apply resolve_dict_spec. apply (Forall2_impl_l _ _ _ _ Hu). intros [k d] [k' u] Hd [Hk Hv]. cbn in *.
      split; [done|]. apply (RV m d u Hm); [|done]. intros s. by apply (Hs k).
    - assert (Hi : p ∈ dkeys ins) by (by apply Hr). rewrite Full by (done || by apply Und). intros Ho. f_equal.
      destruct o as [u|]; cbn in Ho; destruct (m !! p) as [w|] eqn:Em; [| |  |done].
      + f_equal. apply (value_fun ns env p w u W); [by apply (proj1 Hm)|done].
      + exfalso. apply (Und m p Hm Hi Em). inversion Ho; subst; [right|left]; congruence.
      + destruct Ho as (_ & U1 & U2). destruct (proj1 Hm p w Em) as [_ Hw]. apply value_input_iff in Hw; [congruence|done]. }
  rewrite D. split.
  - intros (m & Hm & Hc). rewrite Call in Hc. destruct (new_kwargs sp (full m) [] (dkeys (pn_inputs n))) as [nk|] eqn:Ek; [|done].
    pose proof (new_kwargs_inv _ _ _ _ _ Ek) as Hall. destruct (new_kwargs_ok sp (full m) _ [] Hall) as (nk' & E1 & E2 & E3).
    rewrite Ek in E1. injection E1 as <-. exists nk. split_and!; [done|apply E2, NoDup_nil_2| |].
    + intros k Hk. apply dkeys_get in Hk as [u Hu]. rewrite E3 in Hu. destruct (decide (k ∈ dkeys (pn_inputs n))); [done|done].
    + intros p t dt Hp. destruct (KB1 m Hm Hall p t dt Hp) as (o & Ho & Hb).
      rewrite E3, decide_True by (by apply (elem_of_list_fmap_1 fst) in Hp). rewrite Ho. destruct o; done.
  - intros (kw & Hc & Nk & Hk & Hb).
    assert (Dec : forall x, x ∈ dkeys ins -> (exists u, value ns env x u) \/
      (~ (exists u, value ns env x u) /\ (forall t dt, (x, (t, dt)) ∈ ins -> dt = OPTIONAL) /\ dget ns x = None /\ env !! x = None)).
    { intros x Hx. apply dkeys_get in Hx as [[t dt] Hx]. pose proof Hx as Hx'. apply dget_elem in Hx'.
      destruct (I1' x t dt Hx') as (q & tq & Hq & Hr). specialize (Hb q tq dt Hq). destruct (dget sp q) as [[d|ds|ds]|] eqn:Es; cbn in Hb, Hr.
      - subst d. destruct Hb as (u & _ & Hu). left. by exists u.
      - destruct Hb as (us & _ & HF). apply elem_of_list_lookup in Hr as [i Hi]. destruct (Forall2_lookup_l _ _ _ _ _ HF Hi) as (u & _ & Hu). left. by exists u.
      - destruct Hr as [k Hr]. destruct Hb as (us & _ & HF). apply elem_of_list_lookup in Hr as [i Hi].
        destruct (Forall2_lookup_l _ _ _ _ _ HF Hi) as ([k' u] & _ & _ & Hu). left. by exists u.
      - subst x. destruct (dget kw q) as [u|] eqn:Eq; cbn in Hb; [left; by exists u|]. destruct Hb as (-> & U1 & U2). right. split_and!; [| |done|done].
        + intros [u Hu]. apply value_input_iff in Hu; [congruence|done].
        + intros t' dt' Ht'. apply elem_dget in Ht'; [|done]. congruence. }
    destruct (list_choice (value ns env) (dkeys ins)) as [m Hm].
    { intros x Hx. destruct (Dec x Hx) as [? | [? _]]; [by left|by right]. }
    assert (Am : args ns env ins m).
    { split.
      - intros k w Hw. by apply (Hm k).
      - intros k t dt Hkt Hn. assert (Hki : k ∈ dkeys ins) by (by apply (elem_of_list_fmap_1 fst) in Hkt).
        destruct (Dec k Hki) as [Hv | (_ & Ho & ? & ?)]; [exfalso; by apply (proj2 (Hm k) Hki Hn)|]. split_and!; [by eapply Ho|done|done]. }
    exists m. split; [done|]. rewrite Call.
    assert (Hall : forall p, p ∈ dkeys (pn_inputs n) -> exists o, new_kwarg sp (full m) p = Ok o).
    { intros p Hp. apply dkeys_get in Hp as [[t dt] Hp]. apply dget_elem in Hp. exists (dget kw p). apply (KB2 m p t dt _ Am Hp). by apply (Hb p t dt). }
    destruct (new_kwargs_ok sp (full m) _ [] Hall) as (nk & E1 & E2 & E3). rewrite E1. rewrite <- Hc. apply K; [apply E2, NoDup_nil_2|done|].
    intros k. rewrite E3. destruct (decide (k ∈ dkeys (pn_inputs n))) as [Hki|Hki].
    + apply dkeys_get in Hki as [[t dt] Hp]. apply dget_elem in Hp. rewrite (KB2 m k t dt (dget kw k) Am Hp); [|by apply (Hb k t dt)].
      by destruct (dget kw k).
    + cbn. destruct (dget kw k) as [u|] eqn:Eku; [|done]. exfalso. apply Hki, Hk, dkeys_get. by exists u.
Qed.
Lemma param_value ns env n out sp n' v :
  (forall y n, dget ns y = Some n -> NoDup (dkeys (pn_inputs n))) ->
  NoDup (dkeys (pn_inputs n)) -> NoDup (dkeys sp) -> keyword_fn (pn_call n) ->
  param_node vlist vdict list_elem dict_elem captured n out sp = Some n' -> dget ns out = Some n' ->
  (* no variable or literal parameter has a reserved name *)
  (forall x, x ∈ dkeys (pn_inputs n') -> x ∉ reserved) ->
  (forall l u, (l, POne (DValue u)) ∈ sp -> l ∉ reserved) ->
  (* a source with the name of a literal parameter exists *)
  (forall l u, (l, POne (DValue u)) ∈ sp -> l ∈ dkeys (pn_inputs n') -> defined ns env l) ->
  value ns env out v <->
  exists kw, pn_call n kw = Ok v /\ NoDup (dkeys kw) /\ (forall k, k ∈ dkeys kw -> k ∈ dkeys (pn_inputs n)) /\
    forall p t dt, (p, (t, dt)) ∈ pn_inputs n -> bound vlist vdict ns env (dget sp p) p dt (dget kw p).
Proof. intros W N Ns K Hn D. apply param_value_gen; try done. by apply value_node_iff. Qed.
End Proofs.
