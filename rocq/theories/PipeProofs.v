From Verif Require Import Base Dict NodeModel NodeSpec NodeProofs PipeModel PipeSpec.

(** ** The value of a renamed node *)
Section Reassign.
Context {V E T : Type}.
Implicit Types (ns : dict (pnode V E T)) (env : gmap name V) (n : pnode V E T).

Lemma elem_dkeys {A} (d : dict A) k a : (k, a) ∈ d -> k ∈ dkeys d.
Proof. intros H. apply elem_of_list_fmap. by exists (k, a). Qed.

Lemma from_fn_keyword nm ty ins f : keyword_fn (pn_call (from_fn (V := V) (E := E) (T := T) nm ty ins f)).
Proof.
  intros kw kw' N N' H. cbn.
  assert (list_to_map kw = (list_to_map kw' : gmap name V)) as ->.
  { apply map_eq. intros k. by rewrite !list_to_map_dget. }
  assert (find (fun kt : name * (T * deptype) => bool_decide (kt.2.2 = REQUIRED) && bool_decide (dget kw kt.1 = None)) ins =
          find (fun kt : name * (T * deptype) => bool_decide (kt.2.2 = REQUIRED) && bool_decide (dget kw' kt.1 = None)) ins) as ->; [|done].
  induction ins as [|[k t] ins IH]; [done|]. cbn. rewrite H. by rewrite IH.
Qed.

Lemma reassign_value ns env x n names values v :
  let n' := reassign_inputs n names values in
  keyword_fn (pn_call n) -> clash_free names values (pn_inputs n) -> dget ns x = Some n' ->
  value ns env x v <->
  exists kw, pn_call n kw = Ok v /\ NoDup (dkeys kw) /\
    (forall k u, dget values k = Some u -> dget kw k = Some u) /\
    (forall k, k ∈ dkeys kw -> k ∈ dkeys (pn_inputs n) ++ dkeys values) /\
    (forall p t dt, (p, (t, dt)) ∈ pn_inputs n -> dget values p = None -> given ns env (rename names p) dt (dget kw p)).
Proof.
  intros n' K C D. rewrite (value_node_iff ns env x n' v D). pose proof C as (N1 & N2 & N3 & L & I). split.
  - intros (m & [M1 M2] & Hc). destruct (reassign_call n names values m C) as (kw & Hkw & Nk & G).
    exists kw. fold n' in Hkw. split; [by rewrite <- Hkw|]. split; [done|]. split_and!.
    + intros k u Hk. by rewrite G, Hk.
    + intros k Hk. apply dget_Some_key in Hk as [u Hu]. rewrite G in Hu. rewrite elem_of_app.
      destruct (dget values k) eqn:Ev; [right; apply dget_Some_key; by eexists|].
      destruct (decide (k ∈ dkeys (pn_inputs n))); [by left|done].
    + intros p t dt Hp Hv. rewrite G, Hv. rewrite decide_True by (by eapply elem_dkeys).
      destruct (m !! rename names p) as [u|] eqn:Em; cbn; [by apply M1|].
      apply (M2 (rename names p) t dt); [|done].
      apply dget_elem. unfold n'. rewrite (reassigned_input_get n names values p C); [|by eapply elem_dkeys|done].
      by apply elem_dget.
  - intros (kw & Hc & Nk & Hl & Hkeys & Hg).
    set (m := list_to_map (omap (fun kt : name * (T * deptype) => if dget values kt.1 then None else (fun u => (rename names kt.1, u)) <$> dget kw kt.1) (pn_inputs n)) : gmap name V).
    assert (Hm : forall p, p ∈ dkeys (pn_inputs n) -> dget values p = None -> m !! rename names p = dget kw p).
    { intros p Hp Hv. unfold m.
      assert (Hin : forall l : dict (T * deptype), (forall q, q ∈ dkeys l -> q ∈ dkeys (pn_inputs n)) -> NoDup (dkeys l) ->
        (list_to_map (omap (fun kt : name * (T * deptype) => if dget values kt.1 then None else (fun u => (rename names kt.1, u)) <$> dget kw kt.1) l) : gmap name V) !! rename names p
        = if decide (p ∈ dkeys l) then dget kw p else None).
      { intros l. induction l as [|[q t] l IH]; intros Hs Nl.
        - rewrite decide_False; [by cbn|]. by intros []%elem_of_nil.
        - cbn in Nl. apply NoDup_cons in Nl as [Nq Nl].
          assert (IH' := IH ltac:(intros; apply Hs; by right) Nl). clear IH.
          cbn [omap list_omap]. cbn [fst].
          destruct (decide (p = q)) as [-> | Hne].
          + rewrite Hv. rewrite (decide_True (P := q ∈ dkeys ((q, t) :: l))) by (by left).
            destruct (dget kw q) as [u|] eqn:Eu; cbn.
            * by rewrite lookup_insert.
            * change (omap _ l) with (omap (fun kt : name * (T * deptype) => if dget values kt.1 then None else (fun u => (rename names kt.1, u)) <$> dget kw kt.1) l).
              rewrite IH'. by destruct (decide (q ∈ dkeys l)).
          + assert (Hdec : (if decide (p ∈ dkeys ((q, t) :: l)) then dget kw p else None) = (if decide (p ∈ dkeys l) then dget kw p else None)).
            { destruct (decide (p ∈ dkeys l)) as [Hl'|Hl']; [rewrite decide_True; [done|by right]|].
              rewrite decide_False; [done|]. intros [? | ?]%elem_of_cons; done. }
            rewrite Hdec, <- IH'. destruct (dget values q) as [u|] eqn:Ev; [done|].
            destruct (dget kw q) as [u|] eqn:Eu; cbn; [|done].
            rewrite lookup_insert_ne; [done|]. intros Hr. apply Hne.
            apply I; [rewrite elem_of_app; by left|rewrite elem_of_app; left; apply Hs; by left|done]. }
      rewrite Hin; [|done|done]. by rewrite decide_True. }
    assert (Hm' : forall k u, m !! k = Some u -> exists p t dt, (p, (t, dt)) ∈ pn_inputs n /\ dget values p = None /\ rename names p = k).
    { intros k u Hk. unfold m in Hk. apply elem_of_list_to_map_2 in Hk.
      apply elem_of_list_omap in Hk as ([p [t dt]] & Hp & He). cbn in He.
      destruct (dget values p) eqn:Ev; [done|]. destruct (dget kw p); [|done]. injection He as <- <-. by exists p, t, dt. }
    exists m. split.
    + split.
      * intros k u Hk. destruct (Hm' k u Hk) as (p & t & dt & Hp & Hv & <-). split.
        -- apply dkeys_reassigned. exists p. split_and!; [by eapply elem_dkeys|done|done].
        -- pose proof (Hg p t dt Hp Hv) as Hgp. rewrite Hm in Hk; [|by eapply elem_dkeys|done]. by rewrite Hk in Hgp.
      * intros k t dt Hk Hn.
        pose proof (elem_dkeys _ _ _ Hk) as Hk'. apply dkeys_reassigned in Hk' as (p & Hp & Hv & <-).
        assert (Hd : dget (pn_inputs n') (rename names p) = dget (pn_inputs n) p) by (by apply reassigned_input_get).
        rewrite elem_dget with (a := (t, dt)) in Hd; [|unfold n'; cbn; rewrite reassigned_inputs_map; apply NoDup_dmapk|done].
        symmetry in Hd. apply dget_elem in Hd. pose proof (Hg p t dt Hd Hv) as Hgp.
        rewrite Hm in Hn by done. by rewrite Hn in Hgp.
    + destruct (reassign_call n names values m C) as (kw' & Hkw & Nk' & G). fold n' in Hkw. rewrite Hkw, <- Hc.
      apply K; [done|done|]. intros k. rewrite G.
      destruct (dget values k) as [u|] eqn:Ev; [by rewrite (Hl k u)|].
      destruct (decide (k ∈ dkeys (pn_inputs n))) as [Hk|Hk]; [by apply Hm|].
      symmetry. apply dget_None_key. intros Hk'. apply Hkeys in Hk'. apply elem_of_app in Hk' as [?|Hk'%dget_Some_key]; [done|].
      rewrite Ev in Hk'. by destruct Hk'.
Qed.
End Reassign.

(** ** Binding arguments *)
Section Bind.
Context {V E T : Type}.
Implicit Types (ps : dict (T * deptype)) (d : dict (dep V)).

Lemma bind_pos_spec ps args d rest : bind_pos ps args = Some (d, rest) ->
  dkeys ps = dkeys d ++ dkeys rest /\ d.*2 = args /\ drop (length args) ps = rest.
Proof.
  revert args d rest. induction ps as [|[p t] ps IH]; intros [|a args] d rest H; cbn in H; try done.
  - by injection H as <- <-.
  - by injection H as <- <-.
  - destruct (bind_pos ps args) as [[d' r']|] eqn:B; [|done]. injection H as <- <-.
    destruct (IH _ _ _ B) as (H1 & H2 & H3). split_and!; [unfold dkeys in *; cbn; by rewrite H1|cbn; by rewrite H2|done].
Qed.

Lemma dget_app {A} (a b : dict A) k : dget (a ++ b) k = match dget a k with Some x => Some x | None => dget b k end.
Proof. induction a as [|[k' v] a IH]; cbn; [done|]. by destruct (decide (k = k')). Qed.

Lemma dget_nth {A} (d : dict A) i k a : NoDup (dkeys d) -> d !! i = Some (k, a) -> dget d k = Some a.
Proof. intros N H. apply elem_dget; [done|]. by eapply elem_of_list_lookup_2. Qed.

Lemma bind_spec ps args kws d : NoDup (dkeys ps) -> bind ps args kws = Some d ->
  NoDup (dkeys d) /\ (forall p, p ∈ dkeys d -> p ∈ dkeys ps) /\
  forall i p t, ps !! i = Some (p, t) -> dget d p = match args !! i with Some a => Some a | None => dget kws p end.
Proof.
  intros N H. unfold bind in H. destruct (bind_pos ps args) as [[d1 rest]|] eqn:B; [|done].
  destruct (forallb _ kws && _) eqn:F; [|done]. injection H as <-.
  apply andb_prop in F as [F1 F2].
  apply bind_pos_spec in B as (B1 & B2 & B3). rewrite B1 in N. apply NoDup_app in N as (N1 & N2 & N3).
  set (d2 := omap (fun pt : name * (T * deptype) => (fun a => (pt.1, a)) <$> dget kws pt.1) rest).
  assert (G2 : forall p, dget d2 p = if decide (p ∈ dkeys rest) then dget kws p else None).
  { clear -N3. subst d2. intros p. induction rest as [|[q t] rest IH].
    - rewrite decide_False; [done|]. by intros []%elem_of_nil.
    - cbn in N3. apply NoDup_cons in N3 as [Hq N3]. specialize (IH N3). cbn [omap list_omap]. cbn [fst].
      assert (Hd : p <> q -> (if decide (p ∈ dkeys ((q, t) :: rest)) then dget kws p else None) = (if decide (p ∈ dkeys rest) then dget kws p else None)).
      { intros Hne. destruct (decide (p ∈ dkeys rest)) as [Hl'|Hl']; [rewrite decide_True; [done|by right]|].
        rewrite decide_False; [done|]. intros [? | ?]%elem_of_cons; done. }
      destruct (dget kws q) as [a|] eqn:Ea.
      + change (dget ((q, a) :: omap (fun pt : name * (T * deptype) => (fun a => (pt.1, a)) <$> dget kws pt.1) rest) p = if decide (p ∈ dkeys ((q, t) :: rest)) then dget kws p else None).
        cbn [dget]. destruct (decide (p = q)) as [-> | Hne].
        * rewrite decide_True; [by rewrite Ea|by left].
        * by rewrite Hd.
      + change (dget (omap (fun pt : name * (T * deptype) => (fun a => (pt.1, a)) <$> dget kws pt.1) rest) p = if decide (p ∈ dkeys ((q, t) :: rest)) then dget kws p else None).
        destruct (decide (p = q)) as [-> | Hne]; [|by rewrite Hd].
        rewrite IH. rewrite decide_False by done. rewrite decide_True; [by rewrite Ea|by left]. }
  assert (S2 : forall p, p ∈ dkeys d2 -> p ∈ dkeys rest).
  { intros p Hp. apply dget_Some_key in Hp as [a Ha]. rewrite G2 in Ha. by destruct (decide (p ∈ dkeys rest)). }
  split_and!.
  - unfold dkeys. rewrite fmap_app. apply NoDup_app. split_and!; [done| |].
    + intros x Hx Hx'. apply (N2 x Hx). by apply S2.
    + clear -N3. subst d2. induction rest as [|[q t] rest IH]; [apply NoDup_nil_2|].
      cbn in N3. apply NoDup_cons in N3 as [Hq N3]. specialize (IH N3). cbn [omap list_omap]. cbn [fst].
      destruct (dget kws q) as [a|] eqn:Ea; [|exact IH].
      change (NoDup (q :: (omap (fun pt : name * (T * deptype) => (fun a => (pt.1, a)) <$> dget kws pt.1) rest).*1)).
      apply NoDup_cons. split; [|exact IH].
      intros ([q' a'] & -> & He)%elem_of_list_fmap. apply elem_of_list_omap in He as ([q2 t2] & Hin & He). cbn in He.
      destruct (dget kws q2); [|done]. injection He as <- <-. apply Hq. by eapply elem_dkeys.
  - intros p. unfold dkeys. rewrite fmap_app, elem_of_app. change (ps.*1) with (dkeys ps). rewrite B1, elem_of_app.
    intros [?|Hp]; [by left|right; by apply S2].
  - intros i p t Hi. rewrite dget_app.
    assert (Hl : length d1 = length args) by (by rewrite <- B2, fmap_length).
    destruct (decide (i < length args)) as [Hlt|Hge].
    + assert (Hk : dkeys ps !! i = Some p) by (unfold dkeys; rewrite list_lookup_fmap; exact (f_equal (fmap fst) Hi)).
      rewrite B1 in Hk. rewrite lookup_app_l in Hk by (unfold dkeys; rewrite fmap_length; lia).
      unfold dkeys in Hk. rewrite list_lookup_fmap in Hk. apply fmap_Some in Hk as ([p' a] & Ed & Hp). cbn in Hp. subst p'.
      assert (Ha : args !! i = Some a) by (rewrite <- B2, list_lookup_fmap; exact (f_equal (fmap snd) Ed)).
      rewrite Ha. by rewrite (dget_nth d1 i p a).
    + rewrite (lookup_ge_None_2 args) by lia.
      assert (Hr : p ∈ dkeys rest).
      { rewrite <- B3. apply elem_of_list_fmap. exists (p, t). split; [done|].
        apply elem_of_list_lookup. exists (i - length args). rewrite lookup_drop.
        replace (length args + (i - length args)) with i by lia. done. }
      assert (dget d1 p = None) as ->.
      { apply dget_None_key. intros Hd. by apply (N2 p). }
      rewrite G2. by rewrite decide_True.
Qed.

Lemma dget_upstream d p : NoDup (dkeys d) -> dget (upstream_of d) p = match dget d p with Some (DSource s) => Some s | _ => None end.
Proof.
  unfold upstream_of. induction d as [|[q a] d IH]; cbn; intros N; [done|]. apply NoDup_cons in N as [N1 N2]. specialize (IH N2).
  destruct a as [s|v]; cbn.
  - by destruct (decide (p = q)).
  - destruct (decide (p = q)) as [-> | ]; [|done]. rewrite IH. by rewrite (proj2 (dget_None_key d q)).
Qed.
Lemma dget_literal d p : NoDup (dkeys d) -> dget (literal_of d) p = match dget d p with Some (DValue v) => Some v | _ => None end.
Proof.
  unfold literal_of. induction d as [|[q a] d IH]; cbn; intros N; [done|]. apply NoDup_cons in N as [N1 N2]. specialize (IH N2).
  destruct a as [s|v]; cbn.
  - destruct (decide (p = q)) as [-> | ]; [|done]. rewrite IH. by rewrite (proj2 (dget_None_key d q)).
  - by destruct (decide (p = q)).
Qed.
Lemma NoDup_omap_keys {A B} (f : name * A -> option (name * B)) (d : dict A) :
  (forall kv r, f kv = Some r -> r.1 = kv.1) -> NoDup (dkeys d) -> NoDup (dkeys (omap f d)).
Proof.
  intros Hf. induction d as [|[q a] d IH]; cbn; intros N; [apply NoDup_nil_2|]. apply NoDup_cons in N as [N1 N2].
  destruct (f (q, a)) as [r|] eqn:Er; cbn; [|by apply IH]. apply NoDup_cons. split; [|by apply IH].
  pose proof (Hf _ _ Er) as Hr. cbn in Hr. rewrite Hr.
  intros ([q' b] & Hq & He)%elem_of_list_fmap. apply elem_of_list_omap in He as ([q2 a2] & Hin & He). cbn in Hq.
  apply Hf in He. cbn in He. apply N1. rewrite Hq, He. by eapply elem_dkeys.
Qed.

(** What the code passes to [reassign_inputs] for a step. *)
Lemma step_clash_free (a : app V E T) target d :
  NoDup (dkeys (ap_params a)) -> bind (ap_params a) (DSource target :: ap_args a) (ap_kwargs a) = Some d ->
  distinct a target -> clash_free (upstream_of d) (literal_of d) (ap_params a).
Proof.
  intros N B Dq. destruct (bind_spec _ _ _ _ N B) as (Nd & Sd & Gd). unfold clash_free.
  assert (Nu : NoDup (dkeys (upstream_of d))).
  { apply NoDup_omap_keys; [|done]. by intros [k [s|v]] r; cbn; intros [= <-]. }
  assert (Nl : NoDup (dkeys (literal_of d))).
  { apply NoDup_omap_keys; [|done]. by intros [k [s|v]] r; cbn; intros [= <-]. }
  assert (Key : forall k, k ∈ dkeys (ap_params a) ++ dkeys (literal_of d) ++ dkeys (upstream_of d) -> k ∈ dkeys (ap_params a)).
  { intros k. rewrite !elem_of_app. intros [H|[H|H]]; [done| |]; apply dget_Some_key in H as [x Hx]; apply Sd, dget_Some_key.
    - rewrite dget_literal in Hx by done. destruct (dget d k); [by eexists|done].
    - rewrite dget_upstream in Hx by done. destruct (dget d k); [by eexists|done]. }
  assert (Ren : forall i p t, ap_params a !! i = Some (p, t) -> rename (upstream_of d) p = stands a target i p).
  { intros i p t Hi. unfold rename, stands, role. rewrite dget_upstream by done. rewrite (Gd i p t Hi).
    destruct i as [|i]; cbn; [done|]. rewrite Nat.sub_0_r. destruct (ap_args a !! i) as [[s|v]|]; [done|done|].
    by destruct (dget (ap_kwargs a) p) as [[s|v]|]. }
  split_and!; [done|done|done| |].
  - intros k Hk. apply dget_Some_key in Hk as [x Hx]. rewrite dget_literal in Hx by done. rewrite dget_upstream by done.
    by destruct (dget d k) as [[|]|].
  - intros k k' Hk%Key Hk'%Key He.
    apply elem_of_list_fmap in Hk as ([p tp] & -> & Hp). apply elem_of_list_fmap in Hk' as ([q tq] & -> & Hq).
    apply elem_of_list_lookup in Hp as [i Hi]. apply elem_of_list_lookup in Hq as [j Hj]. cbn in He.
    rewrite (Ren i p tp Hi), (Ren j q tq Hj) in He.
    assert (i = j) as -> by (by eapply Dq). rewrite Hi in Hj. by injection Hj as -> ->.
Qed.

Lemma step_node_value (ns : dict (pnode V E T)) env (a : app V E T) fn nsp c target n w v :
  (forall y n, dget ns y = Some n -> NoDup (dkeys (pn_inputs n))) ->
  NoDup (dkeys (ap_params a)) -> keyword_fn (ap_call a) -> distinct a target ->
  step_node a fn nsp c target = Some n -> dget ns (pn_name n) = Some n ->
  value ns env target w ->
  value ns env (pn_name n) v <-> step_value ns env a w v.
Proof.
  intros W N K Dq Hs Dn Ht. unfold step_node, bind_function_args in Hs.
  destruct (bind (ap_params a) (DSource target :: ap_args a) (ap_kwargs a)) as [d|] eqn:B; [|done]. injection Hs as <-.
  pose proof (step_clash_free a target d N B Dq) as C.
  destruct (bind_spec _ _ _ _ N B) as (Nd & Sd & Gd).
  rewrite (reassign_value ns env _ (PNode _ (ap_type a) (ap_params a) (ap_call a)) (upstream_of d) (literal_of d) v K C Dn). cbn [pn_call pn_inputs].
  assert (Hgiven : forall u s dt o, value ns env s u -> given ns env s dt o <-> o = Some u).
  { intros u s dt [x|] Hu; cbn.
    - split; [|intros [= ->]; done]. intros Hx. f_equal. by apply (value_fun ns env s x u W).
    - split; [|done]. intros (_ & Hn & He). apply value_input_iff in Hu; [congruence|done]. }
  unfold step_value. split.
  - intros (kw & Hc & Nk & Hl & Hk & Hg). exists kw. split_and!; [done|done| |].
    + intros p Hp. apply Hk in Hp. rewrite elem_of_app in Hp. destruct Hp as [?|Hp]; [done|]. apply dget_Some_key in Hp as [x Hx].
      rewrite dget_literal in Hx by done. apply Sd, dget_Some_key. destruct (dget d p); [by eexists|done].
    + intros i p t dt Hi. pose proof (Gd i p _ Hi) as Gi. pose proof (elem_of_list_lookup_2 _ _ _ Hi) as Hin.
      pose proof (Hg p t dt Hin) as Hgp. unfold rename in Hgp. rewrite dget_upstream, dget_literal in Hgp by done. rewrite Gi in Hgp.
      destruct (decide (i = 0)) as [-> | Hne].
      * cbn in Hgp. by apply (Hgiven w target dt); [|apply Hgp].
      * unfold role. destruct i as [|i]; [done|]. cbn in Hgp, Gi. cbn. rewrite Nat.sub_0_r.
        destruct (ap_args a !! i) as [[s|u]|] eqn:Ea; cbn in Hgp; [by apply Hgp| |].
        -- apply Hl. rewrite dget_literal by done. by rewrite Gi.
        -- destruct (dget (ap_kwargs a) p) as [[s|u]|]; cbn in Hgp; [by apply Hgp| |by apply Hgp].
           apply Hl. rewrite dget_literal by done. by rewrite Gi.
  - intros (kw & Hc & Nk & Hk & Hg). exists kw. split_and!; [done|done| | |].
    + intros k u Hl. rewrite dget_literal in Hl by done.
      assert (Hkp : k ∈ dkeys (ap_params a)) by (apply Sd, dget_Some_key; destruct (dget d k); [by eexists|done]).
      apply elem_of_list_fmap in Hkp as ([p [t dt]] & -> & Hp). apply elem_of_list_lookup in Hp as [i Hi]. cbn in *.
      pose proof (Gd i p _ Hi) as Gi. pose proof (Hg i p t dt Hi) as Hgp. rewrite Gi in Hl.
      destruct (decide (i = 0)) as [-> | Hne]; [done|]. unfold role in Hgp. destruct i as [|i]; [done|]. cbn in Hgp, Hl.
      rewrite Nat.sub_0_r in Hgp.
      destruct (ap_args a !! i) as [[s|x]|]; [done|by injection Hl as ->|].
      destruct (dget (ap_kwargs a) p) as [[s|x]|]; [done|by injection Hl as ->|done].
    + intros k Hkk. rewrite elem_of_app. left. by apply Hk.
    + intros p t dt Hp Hv. apply elem_of_list_lookup in Hp as [i Hi].
      pose proof (Gd i p _ Hi) as Gi. pose proof (Hg i p t dt Hi) as Hgp.
      unfold rename. rewrite dget_upstream by done. rewrite dget_literal in Hv by done. rewrite Gi in Hv |- *.
      destruct (decide (i = 0)) as [-> | Hne]; [cbn; by apply (Hgiven w)|].
      unfold role in Hgp. destruct i as [|i]; [done|]. cbn in Hgp, Hv |- *. rewrite Nat.sub_0_r in Hgp.
      destruct (ap_args a !! i) as [[s|x]|]; [done|done|].
      by destruct (dget (ap_kwargs a) p) as [[s|x]|].
Qed.
End Bind.

(** ** Chains *)
Section Chain.
Context {V E T : Type}.
Implicit Types (ns : dict (pnode V E T)) (env : gmap name V) (aps : list (app V E T)).

(** A value of the last node determines the values before it. *)
Lemma step_target_value ns env (a : app V E T) fn nsp c target n v t0 :
  NoDup (dkeys (ap_params a)) -> keyword_fn (ap_call a) -> distinct a target ->
  step_node a fn nsp c target = Some n -> dget ns (pn_name n) = Some n ->
  dget ns target = Some t0 -> value ns env (pn_name n) v -> exists w, value ns env target w.
Proof.
  intros N K Dq Hs Dn Dt Hv. unfold step_node, bind_function_args in Hs.
  destruct (bind (ap_params a) (DSource target :: ap_args a) (ap_kwargs a)) as [d|] eqn:B; [|done]. injection Hs as <-.
  pose proof (step_clash_free a target d N B Dq) as C.
  destruct (bind_spec _ _ _ _ N B) as (Nd & Sd & Gd).
  apply (reassign_value ns env _ (PNode _ (ap_type a) (ap_params a) (ap_call a)) (upstream_of d) (literal_of d) v K C Dn) in Hv as (kw & _ & _ & _ & _ & Hg).
  cbn [pn_inputs] in Hg.
  destruct (ap_params a) as [|[p [t dt]] ps] eqn:Ep; [by cbn in B|].
  pose proof (Gd 0 p _ eq_refl) as G0. cbn in G0.
  specialize (Hg p t dt ltac:(left)). unfold rename in Hg. rewrite dget_upstream, dget_literal in Hg by done. rewrite G0 in Hg.
  specialize (Hg eq_refl). cbn in Hg. destruct (dget kw p) as [w|]; cbn in Hg; [by exists w|]. destruct Hg as (_ & Hg & _). congruence.
Qed.

Lemma chain_target_value ns env cnt target aps nsp fn nodes last v t0 :
  chain cnt target aps nsp fn = Some (nodes, last) ->
  (forall n, n ∈ nodes -> dget ns (pn_name n) = Some n) ->
  chain_fits aps (target :: map pn_name nodes) ->
  dget ns target = Some t0 -> value ns env last v -> exists w, value ns env target w.
Proof.
  revert cnt target nodes t0. induction aps as [|a aps IH]; intros cnt target nodes t0 H Hn Hf Dt Hv; cbn in H.
  - injection H as <- <-. by exists v.
  - destruct (ap_resolves a) eqn:Er.
    + destruct (step_node a fn nsp _ target) as [n|] eqn:Es; [|done].
      destruct (chain _ (pn_name n) aps nsp fn) as [[nodes' last']|] eqn:Ec; [|done]. injection H as <- <-.
      destruct (Hf a ltac:(left) Er) as (N & K & Dq).
      assert (Dn : dget ns (pn_name n) = Some n) by (apply Hn; by left).
      destruct (IH _ _ _ n Ec) as [u Hu]; [intros; apply Hn; by right| |done|done|].
      { intros b Hb Hrb. destruct (Hf b ltac:(by right) Hrb) as (? & ? & Hd). split_and!; [done|done|].
        intros t Htt. apply Hd. cbn. by right. }
      eapply (step_target_value ns env a fn nsp _ target n u t0 N K); [apply Dq; by left|done..].
    + eapply (IH cnt target nodes t0); [done|done| |done|done]. intros b Hb. apply Hf. by right.
Qed.

Lemma chain_value ns env cnt target aps nsp fn nodes last w v :
  (forall y n, dget ns y = Some n -> NoDup (dkeys (pn_inputs n))) ->
  chain cnt target aps nsp fn = Some (nodes, last) ->
  (forall n, n ∈ nodes -> dget ns (pn_name n) = Some n) ->
  chain_fits aps (target :: map pn_name nodes) ->
  value ns env target w ->
  value ns env last v <-> steps_value ns env aps w v.
Proof.
  intros W. revert cnt target nodes w. induction aps as [|a aps IH]; intros cnt target nodes w H Hn Hf Ht; cbn in H.
  - injection H as <- <-. split.
    + intros Hv. assert (v = w) as -> by (by eapply (value_fun ns env target)). constructor.
    + intros Hv. by inversion Hv; subst.
  - destruct (ap_resolves a) eqn:Er.
    + destruct (step_node a fn nsp _ target) as [n|] eqn:Es; [|done].
      destruct (chain _ (pn_name n) aps nsp fn) as [[nodes' last']|] eqn:Ec; [|done]. injection H as <- <-.
      destruct (Hf a ltac:(left) Er) as (N & K & Dq).
      assert (Dn : dget ns (pn_name n) = Some n) by (apply Hn; by left).
      assert (S : forall u, value ns env (pn_name n) u <-> step_value ns env a w u).
      { intros u. eapply (step_node_value ns env a fn nsp _ target n w u W N K); [apply Dq; by left|exact Es|done|done]. }
      assert (IH' : forall u, value ns env (pn_name n) u -> value ns env last' v <-> steps_value ns env aps u v).
      { intros u Hu. apply (IH _ (pn_name n) nodes' u Ec); [intros; apply Hn; by right| |done].
        intros b Hb Hrb. destruct (Hf b ltac:(by right) Hrb) as (? & ? & Hd). split_and!; [done|done|].
        intros t Htt. apply Hd. cbn. by right. }
      split.
      * intros Hv.
        assert (Hx : exists u, value ns env (pn_name n) u).
        { eapply (chain_target_value ns env _ (pn_name n) aps nsp fn nodes' last' v n Ec); [intros; apply Hn; by right| |done|done].
          intros b Hb Hrb. destruct (Hf b ltac:(by right) Hrb) as (? & ? & Hd). split_and!; [done|done|].
          intros t Htt. apply Hd. cbn. by right. }
        destruct Hx as [u Hu]. apply (sv_step ns env a aps w u v); [done|by apply S|by apply IH'].
      * intros Hv. inversion Hv as [|? ? ? ? Hr|? ? ? u ? Hr Hu Hus]; subst; [congruence|].
        apply (IH' u); [by apply S|done].
    + specialize (IH cnt target nodes w H Hn). rewrite IH; [| |done].
      * split; [by apply sv_skip|]. intros Hv. inversion Hv as [|? ? ? ? Hr|? ? ? u ? Hr]; subst; [done|congruence].
      * intros b Hb. apply Hf. by right.
Qed.
End Chain.

(** ** The decorators *)
Section Decorators.
Context {V E T : Type}.
Implicit Types (ns : dict (pnode V E T)) (env : gmap name V) (aps : list (app V E T)).

Lemma given_value ns env s dt o u : (forall y n, dget ns y = Some n -> NoDup (dkeys (pn_inputs n))) ->
  value ns env s u -> given ns env s dt o <-> o = Some u.
Proof.
  intros W Hu. destruct o as [x|]; cbn.
  - split; [|intros [= ->]; done]. intros Hx. f_equal. by apply (value_fun ns env s x u W).
  - split; [|done]. intros (_ & Hn & He). apply value_input_iff in Hu; [congruence|done].
Qed.

Lemma single_clash_free p last (ins : dict (T * deptype)) : NoDup (dkeys ins) -> last ∉ dkeys ins \/ last = p -> p ∈ dkeys ins ->
  clash_free [(p, last)] ([] : dict V) ins.
Proof.
  intros N Hl Hp. unfold clash_free. split_and!; [apply NoDup_singleton|apply NoDup_nil_2|done| |].
  - intros k []%elem_of_nil.
  - assert (Key : forall k, k ∈ dkeys ins ++ dkeys ([] : dict V) ++ dkeys [(p, last)] -> k ∈ dkeys ins).
    { intros k. rewrite !elem_of_app. intros [?|[[]%elem_of_nil|H]]; [done|]. cbn in H. by apply elem_of_list_singleton in H as ->. }
    intros k k' Hk%Key Hk'%Key. unfold rename. cbn.
    destruct (decide (k = p)) as [-> | H1], (decide (k' = p)) as [-> | H2]; cbn; [done| | |done].
    + intros ->. destruct Hl; done.
    + intros <-. destruct Hl; done.
Qed.

Lemma pipe_input_value ns env orig n on_input aps nsp fn sig nodes p w v :
  (forall y n, dget ns y = Some n -> NoDup (dkeys (pn_inputs n))) ->
  NoDup (dkeys (pn_inputs n)) -> keyword_fn (pn_call n) ->
  pipe_input on_input aps nsp fn sig orig = Some nodes ->
  pipe_param (injectable orig) on_input sig = Some p ->
  n ∈ orig -> p ∈ dkeys (pn_inputs n) ->
  (forall m, m ∈ nodes -> dget ns (pn_name m) = Some m) ->
  chain_fits aps (p :: map pn_name (drop (length orig) nodes)) ->
  (forall m, m ∈ drop (length orig) nodes -> pn_name m = p \/ pn_name m ∉ dkeys (pn_inputs n)) ->
  value ns env p w ->
  value ns env (pn_name n) v <->
  exists kw u, pn_call n kw = Ok v /\ NoDup (dkeys kw) /\ (forall k, k ∈ dkeys kw -> k ∈ dkeys (pn_inputs n)) /\
    steps_value ns env aps w u /\ dget kw p = Some u /\
    (forall q t dt, (q, (t, dt)) ∈ pn_inputs n -> q <> p -> given ns env q dt (dget kw q)).
Proof.
  intros W N K H Hp Ho Hin Hn Hf Hd Hw. unfold pipe_input in H. rewrite Hp in H. unfold chain_transforms in H.
  destruct (chain [] p aps nsp fn) as [[steps last]|] eqn:Ec; [|done]. injection H as <-.
  rewrite drop_app_alt in * by (by rewrite map_length).
  assert (Hl : last = p \/ exists m, m ∈ steps /\ pn_name m = last).
  { clear -Ec. revert Ec. generalize ([] : dict nat) as cnt. revert p steps. induction aps as [|a aps IH]; intros p steps cnt H; cbn in H.
    - injection H as <- <-. by left.
    - destruct (ap_resolves a); [|by eapply IH].
      destruct (step_node a fn nsp _ p) as [m|]; [|done]. destruct (chain _ (pn_name m) aps nsp fn) as [[ns' l']|] eqn:E'; [|done].
      injection H as <- <-. right. destruct (IH _ _ _ E') as [-> | (m' & Hm & <-)]; [exists m; split; [by left|done]|exists m'; split; [by right|done]]. }
  assert (C : clash_free [(p, last)] ([] : dict V) (pn_inputs n)).
  { apply single_clash_free; [done| |done]. destruct Hl as [-> | (m & Hm & <-)]; [by right|].
    destruct (Hd m) as [? | ?]; [done|by right|by left]. }
  assert (Dn : dget ns (pn_name n) = Some (reassign_inputs n [(p, last)] [])) 
  by (apply (Hn (reassign_inputs n [(p, last)] [])); apply elem_of_app; left; apply elem_of_list_fmap; exists n; split; [by rewrite decide_True by done|done]).
  rewrite (reassign_value ns env (pn_name n) n [(p, last)] [] v K C Dn).
  assert (CV : forall u, value ns env last u <-> steps_value ns env aps w u).
  { intros u. apply (chain_value ns env [] p aps nsp fn steps last w u W Ec); [intros; apply Hn; apply elem_of_app; by right|done|done]. }
  assert (Hdef : dget ns last <> None \/ exists u, env !! last = Some u).
  { destruct Hl as [-> | (m & Hm & <-)].
    - destruct (dget ns p) eqn:E1; [by left|]. right. apply value_input_iff in Hw; [by eexists|done].
    - left. rewrite (Hn m); [done|apply elem_of_app; by right]. }
  split.
  - intros (kw & Hc & Nk & _ & Hk & Hg). pose proof Hin as Hin'. apply elem_of_list_fmap in Hin' as ([p' [t dt]] & Heq & Hp'). cbn in Heq. subst p'.
    pose proof (Hg p t dt Hp' eq_refl) as Hgp. unfold rename in Hgp. cbn in Hgp. rewrite decide_True in Hgp by done. cbn in Hgp.
    destruct (dget kw p) as [u|] eqn:Ek; cbn in Hgp.
    + exists kw, u. split_and!; [done|done| |by apply CV|done|].
      * intros k Hkk. apply Hk in Hkk. by rewrite app_nil_r in Hkk.
      * intros q t' dt' Hq Hne. pose proof (Hg q t' dt' Hq eq_refl) as Hgq. unfold rename in Hgq. cbn in Hgq. by rewrite decide_False in Hgq.
    + destruct Hgp as (_ & H1 & H2). destruct Hdef as [? | (u & Hu)]; [done|congruence].
  - intros (kw & u & Hc & Nk & Hk & Hu & Hkp & Hg). exists kw. split_and!; [done|done|by intros ? ? [=]| |].
    + intros k Hkk. rewrite app_nil_r. by apply Hk.
    + intros q t dt Hq _. unfold rename. cbn. destruct (decide (q = p)) as [-> | Hne]; cbn; [|by apply (Hg q t dt)].
      rewrite Hkp. cbn. by apply CV.
Qed.

Lemma chain_snoc cnt target aps a nsp fn nodes last : ap_resolves a = true ->
  chain cnt target (aps ++ [a]) nsp fn = Some (nodes, last) ->
  exists nodes0 last0 c n, chain cnt target aps nsp fn = Some (nodes0, last0) /\
    step_node a fn nsp c last0 = Some n /\ nodes = nodes0 ++ [n].
Proof.
  intros Ha. revert cnt target nodes. induction aps as [|b aps IH]; intros cnt target nodes H; cbn in H.
  - rewrite Ha in H. destruct (step_node a fn nsp _ target) as [n|] eqn:Es; [|done]. injection H as <- <-.
    by exists [], target, (default 0 (dget cnt (ap_fn a))), n.
  - cbn. destruct (ap_resolves b) eqn:Eb; [|by apply IH].
    destruct (step_node b fn nsp _ target) as [m|] eqn:Es; [|done].
    destruct (chain _ (pn_name m) (aps ++ [a]) nsp fn) as [[ns' l']|] eqn:Ec; [|done]. injection H as <- <-.
    apply IH in Ec as (nodes0 & last0 & c & n & E1 & E2 & ->). rewrite E1. by exists (m :: nodes0), last0, c, n.
Qed.

Variable any_type : T.
Lemma pipe_output_value ns env n aps nsp fn nodes v :
  (forall y n, dget ns y = Some n -> NoDup (dkeys (pn_inputs n))) ->
  keyword_fn (pn_call n) ->
  pipe_output any_type aps nsp fn n = Some nodes ->
  (exists a, a ∈ aps /\ ap_resolves a = true) ->
  (forall m, m ∈ nodes -> dget ns (pn_name m) = Some m) ->
  chain_fits aps (map pn_name nodes) ->
  value ns env (pn_name n) v <->
  exists w m, args ns env (pn_inputs n) m /\ pn_call n (kwargs (pn_inputs n) m) = Ok w /\ steps_value ns env aps w v.
Proof.
  intros W K H (a & Ha & Hr) Hn Hf.
  unfold pipe_output in H. destruct aps as [|a0 aps0]; [by apply elem_of_nil in Ha|].
  set (aps := a0 :: aps0) in *.
  set (nsp' := match nsp with NsNone => NsNone | NsDefault => NsName (pn_name n) | NsName s => NsName s end) in *.
  unfold chain_transforms in H.
  destruct (chain [] _ (aps ++ [identity_step any_type fn]) nsp' fn) as [[nds lst]|] eqn:Ec; [|done].
  apply chain_snoc in Ec as (nodes0 & last0 & c & idn & Ec & Es & ->); [|done].
  assert (Hne : nodes0 <> []).
  { intros ->. clear -Ec Ha Hr. revert Ec. generalize ([] : dict nat) as cnt.
    generalize (pn_name (renamed_node n (pn_name n ++ ".raw"))) as t. clearbody aps. induction aps as [|b aps IH]; [by apply elem_of_nil in Ha|].
    intros t cnt H. cbn in H. apply elem_of_cons in Ha as [<- | Ha].
    - rewrite Hr in H. destruct (step_node a fn nsp' _ t); [|done]. by destruct (chain _ _ aps nsp' fn) as [[? ?]|].
    - destruct (ap_resolves b); [|by eapply IH]. destruct (step_node b fn nsp' _ t); [|done]. by destruct (chain _ _ aps nsp' fn) as [[? ?]|]. }
  rewrite rev_app_distr in H. cbn [rev List.app] in H.
  destruct (rev nodes0) as [|prev rest] eqn:Erev.
  { exfalso. apply Hne. rewrite <- (rev_involutive nodes0). by rewrite Erev. }
  rewrite removelast_last in H. injection H as <-.
  set (raw := renamed_node n (pn_name n ++ ".raw")) in *.
  assert (Dr : dget ns (pn_name raw) = Some raw) by (apply Hn; by left).
  unfold step_node, bind_function_args in Es. cbn [identity_step ap_params ap_args ap_kwargs ap_ns ap_fn ap_name ap_type ap_call] in Es.
  cbn [bind bind_pos] in Es. cbn in Es.
  destruct idn as [inm ity iin icall]. injection Es as Hinm Hity Hiin Hicall.
  set (fin := retyped_node (renamed_node _ (pn_name n)) (pn_type prev)) in *.
  assert (Df : dget ns (pn_name n) = Some fin).
  { apply (Hn fin). right. apply elem_of_app. right. by left. }
  assert (Hfin : forall u, value ns env (pn_name n) u <-> value ns env last0 u).
  { intros u. rewrite (value_node_iff ns env _ fin u Df). cbn [fin retyped_node renamed_node pn_inputs pn_call]. rewrite <- Hiin, <- Hicall.
    change (reassigned_inputs [("foo", last0)] ([] : dict V) [("foo", (any_type, REQUIRED))]) with [(last0, (any_type, REQUIRED))].
    assert (Hcall : forall x, reassigned_call [("foo", last0)] ([] : dict V) (fun kw : dict V =>
      match dget kw "foo" with Some v => Ok v | None => Err (NMissing (E:=E) "foo") end) [(last0, x)] = Ok x).
    { intros x. unfold reassigned_call. cbn [dupd foldl dmapk fst snd]. unfold dmapk. cbn [foldl fst snd]. unfold rename, reverse_names. cbn [foldl fst snd].
      assert (D : dget (dset [] last0 "foo") last0 = Some "foo") by (apply dget_dset_eq). rewrite D. cbn. done. }
    assert (Hkw : forall m : gmap name V, kwargs [(last0, (any_type, REQUIRED))] m = match m !! last0 with Some x => [(last0, x)] | None => [] end).
    { intros m. unfold kwargs. cbn. by destruct (m !! last0). }
    split.
    - intros (m & [M1 M2] & Hc). rewrite Hkw in Hc. destruct (m !! last0) as [x|] eqn:Em.
      + rewrite Hcall in Hc. injection Hc as <-. by apply M1.
      + exfalso. destruct (M2 last0 any_type REQUIRED) as [? _]; [|done|done]. by left.
    - intros Hu. exists {[last0 := u]}. split.
      + split.
        * intros k x Hk. apply lookup_singleton_Some in Hk as [<- <-]. split; [by left|done].
        * intros k t dt Hk. apply elem_of_list_singleton in Hk as [= -> -> ->]. by rewrite lookup_singleton.
      + by rewrite Hkw, lookup_singleton, Hcall. }
  rewrite Hfin.
  assert (Hraw : forall w, value ns env (pn_name raw) w <-> exists m, args ns env (pn_inputs n) m /\ pn_call n (kwargs (pn_inputs n) m) = Ok w).
  { intros w. by apply (value_node_iff ns env _ raw w). }
  assert (Hf' : chain_fits aps (pn_name raw :: map pn_name nodes0)).
  { intros b Hb Hrb. destruct (Hf b Hb Hrb) as (? & ? & Hd). split_and!; [done|done|]. intros t Ht. apply Hd.
    rewrite map_cons. apply elem_of_cons. apply elem_of_cons in Ht as [-> | Ht]; [by left|right]. rewrite map_app. apply elem_of_app. by left. }
  assert (Hn' : forall m, m ∈ nodes0 -> dget ns (pn_name m) = Some m).
  { intros m Hm. apply Hn. right. apply elem_of_app. by left. }
  split.
  - intros Hv. destruct (chain_target_value ns env [] (pn_name raw) aps nsp' fn nodes0 last0 v raw Ec Hn' Hf' Dr Hv) as [w Hw].
    pose proof Hw as Hw'. apply Hraw in Hw' as (m & Hm & Hc). exists w, m. split_and!; [done|done|].
    by apply (chain_value ns env [] (pn_name raw) aps nsp' fn nodes0 last0 w v W Ec Hn' Hf' Hw).
  - intros (w & m & Hm & Hc & Hs). assert (Hw : value ns env (pn_name raw) w) by (apply Hraw; eauto).
    by apply (chain_value ns env [] (pn_name raw) aps nsp' fn nodes0 last0 w v W Ec Hn' Hf' Hw).
Qed.
End Decorators.
