(** Proofs about @config decorators and the collection of functions. *)
From Coq Require Import Ascii.
From Verif Require Import Base Dict Strings ConfigModel.

(** ** Names *)
Definition has2 (s : string) : Prop := exists p q, s = (p ++ "__" ++ q)%string.

Lemma under_spec c : under c = true <-> c = "_"%char.
Proof. unfold under. apply Ascii.eqb_eq. Qed.
Lemma rfind2_none s : rfind2 s = None <-> ~ has2 s.
Proof.
  induction s as [|a s IH]; cbn.
  { split; [|done]. intros _ (p & q & E). destruct p; done. }
  split.
  - intros H (p & q & E). destruct (rfind2 s) eqn:R; [done|].
    destruct p as [|a' p]; cbn in E.
    + injection E as -> ->. cbn in H. done.
    + injection E as -> ->. apply (proj1 IH eq_refl). by exists p, q.
  - intros H. assert (N : rfind2 s = None).
    { apply IH. intros (p & q & ->). apply H. by exists (String a p), q. }
    rewrite N. destruct s as [|b s]; [done|]. destruct (under a && under b) eqn:U; [|done].
    apply andb_true_iff in U as [->%under_spec ->%under_spec]. exfalso. apply H. by exists ""%string, s.
Qed.
Lemma rfind2_split s i : rfind2 s = Some i ->
  exists q, s = (String.substring 0 i s ++ "__" ++ q)%string /\ rfind2 ("_" ++ q) = None /\ String.length (String.substring 0 i s) = i.
Proof.
  revert i. induction s as [|a s IH]; intros i H; cbn in H; [done|].
  destruct (rfind2 s) as [j|] eqn:R.
  - injection H as <-. destruct (IH j eq_refl) as (q & E & N & L). exists q. cbn.
    split_and!; [|done|by rewrite L].
    change (String a s = String a (String.substring 0 j s ++ "__" ++ q)%string). by rewrite <- E.
  - destruct s as [|b s]; [done|]. destruct (under a && under b) eqn:U; [|done]. injection H as <-.
    apply andb_true_iff in U as [->%under_spec ->%under_spec]. exists s. cbn. split_and!; [done| |done].
    exact R.
Qed.
Lemma sanitize_id s : ~ has2 s -> sanitize s = s.
Proof. intros H%rfind2_none. unfold sanitize. by rewrite H. Qed.
Lemma rfind2_app p q : rfind2 ("_" ++ q) = None -> rfind2 (p ++ "__" ++ q) = Some (String.length p).
Proof.
  intros N. induction p as [|a p IH].
  - change (rfind2 (String "_" (String "_" q)) = Some 0). change (rfind2 (String "_" q) = None) in N.
    remember (String "_" q) as w eqn:E. cbn [rfind2]. rewrite N, E. done.
  - change (rfind2 (String a (p ++ "__" ++ q)) = Some (S (String.length p))). cbn [rfind2]. by rewrite IH.
Qed.
Lemma substring_app p q : String.substring 0 (String.length p) (p ++ q) = p.
Proof.
  induction p as [|a p IH]; [by destruct q|].
  change (String a (String.substring 0 (String.length p) (p ++ q)) = String a p). by rewrite IH.
Qed.
Lemma sanitize_suffix p q : ~ has2 ("_" ++ q) -> sanitize (p ++ "__" ++ q) = p.
Proof. intros N%rfind2_none. unfold sanitize. rewrite rfind2_app by done. apply substring_app. Qed.
Lemma hidden_sanitize s : hidden s = false -> hidden (sanitize s) = false.
Proof.
  unfold sanitize. destruct (rfind2 s) as [i|] eqn:R; [|done].
  destruct (rfind2_split s i R) as (q & E & N & L). destruct s as [|a s]; [done|]. cbn. intros H.
  destruct i as [|i]; [|done].
  cbn in R. destruct (rfind2 s); [done|]. destruct s as [|b s]; [done|]. by rewrite H in R.
Qed.
Lemma hidden_app p q : p <> ""%string -> hidden (p ++ q) = hidden p.
Proof. by destruct p. Qed.

Section Config.
Context {V P : Type} (eqv : V -> V -> bool) (inv : V -> list V -> bool) (none pfalse : V).
Notation config := (gmap name V).
Notation resolves := (resolves eqv inv none).
Notation resolve_fn := (resolve_fn eqv inv none pfalse).
Notation build := (build (P := P) eqv inv none pfalse).
Notation built := (built (P := P) eqv inv none pfalse).
Notation add_functions := (add_functions (P := P) eqv inv none pfalse).
Notation func := (func (V := V) (P := P)).

(** ** Resolvers *)
Lemma filter_get (c : config) ks k : k ∈ ks -> filter_config none pfalse c (Some ks) !! k = Some (default none (c !! k)).
Proof.
  intros Hk. cbn. rewrite map_lookup_imap.
  set (opt := list_to_map (map (fun k => (k, none)) ks) : gmap name V).
  assert (O : opt !! k = Some none).
  { unfold opt. clear opt. induction ks as [|k' ks IH]; [by apply elem_of_nil in Hk|]. cbn.
    destruct (decide (k' = k)) as [->|N]; [by rewrite lookup_insert|]. rewrite lookup_insert_ne by done. apply IH.
    by apply elem_of_cons in Hk as [-> | ?]. }
  destruct (decide (k = power)) as [->|N].
  - rewrite lookup_insert. cbn. rewrite O. done.
  - rewrite lookup_insert_ne by done. rewrite O. done.
Qed.
Lemma forallb_ext_in {A} (f g : A -> bool) l : (forall x, x ∈ l -> f x = g x) -> forallb f l = forallb g l.
Proof.
  induction l as [|x l IH]; intros H; [done|]. cbn. rewrite (H x) by left. rewrite IH; [done|]. intros; apply H; by right.
Qed.
Lemma filter_irrelevant r (c : config) : resolves r (filter_config none pfalse c (config_used r)) = resolves r c.
Proof.
  destruct r as [kv|kv|kv|kv|f]; cbn [config_used]; [| | | |done];
    unfold ConfigModel.resolves; apply forallb_ext_in; intros p Hp; unfold cget;
    rewrite filter_get by (apply elem_of_list_fmap; by exists p); done.
Qed.

(** ** Building *)
Definition kept (c : config) (ns : list (name * P)) : dict P :=
  filter (fun p => c !! p.1 = None) ns.
(** What the functions generate, given their current names. *)
Fixpoint gens (c : config) (fs : list func) (st : gmap nat name) : dict P :=
  match fs with
  | [] => []
  | f :: fs' =>
      let '(nm', included) := resolve_fn c (f_decs f) (default ""%string (st !! f_id f)) in
      (if included then kept c (f_gen f nm' c) else []) ++ gens c fs' st
  end.

Lemma dset_new {A} (d : dict A) k a : k ∉ dkeys d -> dset d k a = d ++ [(k, a)].
Proof.
  induction d as [|[k' a'] d IH]; intros H; [done|]. cbn in *. apply not_elem_of_cons in H as [H1 H2].
  case_decide; [by subst|]. by rewrite IH.
Qed.
Lemma dkeys_app {A} (a b : dict A) : dkeys (a ++ b) = dkeys a ++ dkeys b.
Proof. unfold dkeys. apply map_app. Qed.

Lemma add_nodes_inr c ns acc acc' : add_nodes c ns acc = inr acc' -> NoDup (dkeys acc) ->
  acc' = acc ++ kept c ns /\ NoDup (dkeys acc').
Proof.
  revert acc. induction ns as [|[x p] ns IH]; intros acc H N; cbn in H.
  { injection H as <-. by rewrite app_nil_r. }
  unfold kept. rewrite filter_cons. cbn [fst]. destruct (c !! x) eqn:E.
  - rewrite decide_False by done. by apply IH.
  - rewrite decide_True by done. destruct (dget acc x) eqn:D; [done|].
    apply dget_None_key in D. destruct (IH _ H) as [-> B].
    + by apply NoDup_dkeys_dset.
    + rewrite dset_new by done. rewrite <- app_assoc. split; [done|]. by rewrite dset_new, <- app_assoc in B.
Qed.
Lemma add_nodes_ok c ns acc : NoDup (dkeys (acc ++ kept c ns)) -> add_nodes c ns acc = inr (acc ++ kept c ns).
Proof.
  revert acc. induction ns as [|[x p] ns IH]; intros acc N; cbn [add_nodes].
  { by rewrite app_nil_r. }
  revert N. unfold kept. rewrite filter_cons. cbn [fst]. destruct (c !! x) eqn:E.
  - rewrite decide_False by done. apply IH.
  - rewrite decide_True by done. intros N.
    assert (D : x ∉ dkeys acc).
    { rewrite dkeys_app in N. apply NoDup_app in N as (_ & N & _). intros X. apply (N x X). cbn. by left. }
    rewrite (proj2 (dget_None_key acc x) D). rewrite dset_new by done.
    rewrite IH; [by rewrite <- app_assoc|]. by rewrite <- app_assoc.
Qed.

Lemma gens_ext c fs st st' : (forall f, f ∈ fs -> st !! f_id f = st' !! f_id f) -> gens c fs st = gens c fs st'.
Proof.
  induction fs as [|f fs IH]; intros H; [done|]. cbn. rewrite (H f) by left. rewrite IH; [done|]. intros; apply H; by right.
Qed.
Lemma add_functions_inr c fs st acc st' nodes : NoDup (map f_id fs) -> NoDup (dkeys acc) ->
  add_functions c fs st acc = (st', inr nodes) -> nodes = acc ++ gens c fs st /\ NoDup (dkeys nodes).
Proof.
  revert st acc. induction fs as [|f fs IH]; intros st acc I N H; cbn in H.
  { injection H as <- <-. split; [by rewrite app_nil_r|done]. }
  cbn in I. apply NoDup_cons in I as [I1 I2]. cbn [gens].
  destruct (resolve_fn c (f_decs f) (default ""%string (st !! f_id f))) as [nm' inc] eqn:R.
  assert (G : gens c fs (<[f_id f := nm']> st) = gens c fs st).
  { apply gens_ext. intros g Hg. apply lookup_insert_ne. intros X. apply I1. apply elem_of_list_fmap. by exists g. }
  destruct inc.
  - destruct (add_nodes c (f_gen f nm' c) acc) as [e|acc'] eqn:A; [done|].
    apply add_nodes_inr in A as [-> A]; [|done]. destruct (IH _ _ I2 A H) as [-> B]. split; [|done].
    by rewrite G, <- app_assoc.
  - destruct (IH _ _ I2 N H) as [-> B]. split; [by rewrite G|done].
Qed.
Lemma add_functions_ok c fs st acc : NoDup (map f_id fs) -> NoDup (dkeys (acc ++ gens c fs st)) ->
  (add_functions c fs st acc).2 = inr (acc ++ gens c fs st).
Proof.
  revert st acc. induction fs as [|f fs IH]; intros st acc I N; cbn [ConfigModel.add_functions gens] in *.
  { by rewrite app_nil_r. }
  cbn in I. apply NoDup_cons in I as [I1 I2].
  destruct (resolve_fn c (f_decs f) (default ""%string (st !! f_id f))) as [nm' inc] eqn:R.
  assert (G : gens c fs (<[f_id f := nm']> st) = gens c fs st).
  { apply gens_ext. intros g Hg. apply lookup_insert_ne. intros X. apply I1. apply elem_of_list_fmap. by exists g. }
  destruct inc.
  - rewrite app_assoc in N. rewrite add_nodes_ok; [|rewrite dkeys_app in N; by apply NoDup_app in N as [? _]].
    rewrite IH; [by rewrite G, <- app_assoc|done|by rewrite G].
  - rewrite IH; [by rewrite G|done|by rewrite G].
Qed.

Lemma gens_elem c fs st x p : (x, p) ∈ gens c fs st <->
  c !! x = None /\ exists f nm, f ∈ fs /\ resolve_fn c (f_decs f) (default ""%string (st !! f_id f)) = (nm, true) /\ (x, p) ∈ f_gen f nm c.
Proof.
  induction fs as [|f fs IH]; cbn [gens].
  { split; [by intros ?%elem_of_nil|]. intros (_ & f & nm & Hf & _). by apply elem_of_nil in Hf. }
  destruct (resolve_fn c (f_decs f) (default ""%string (st !! f_id f))) as [nm' inc] eqn:R.
  rewrite elem_of_app, IH. split.
  - intros [H|(Hc & g & nm & Hg & Rg & E)].
    + destruct inc; [|by apply elem_of_nil in H]. apply elem_of_list_filter in H as [Hc H]. split; [done|].
      exists f, nm'. split_and!; [by left|done|done].
    + split; [done|]. exists g, nm. split_and!; [by right|done|done].
  - intros (Hc & g & nm & [-> | Hg]%elem_of_cons & Rg & E).
    + left. rewrite R in Rg. injection Rg as <- ->. apply elem_of_list_filter. done.
    + right. split; [done|]. by exists g, nm.
Qed.

(** A build contains exactly the nodes generated by the functions that are public and resolve. *)
Lemma build_exact c fs st st' nodes x p : NoDup (map f_id fs) -> build c fs st = (st', inr nodes) ->
  dget nodes x = Some p <->
  c !! x = None /\ exists f nm, f ∈ fs /\ hidden (default ""%string (st !! f_id f)) = false /\
    resolve_fn c (f_decs f) (default ""%string (st !! f_id f)) = (nm, true) /\ (x, p) ∈ f_gen f nm c.
Proof.
  intros I H. unfold ConfigModel.build in H.
  set (fs' := filter _ fs) in *.
  assert (I' : NoDup (map f_id fs')).
  { unfold fs'. clear H fs'. induction fs as [|f fs IH]; [constructor|]. cbn in I. apply NoDup_cons in I as [I1 I2].
    rewrite filter_cons. case_decide; [|by apply IH]. cbn. apply NoDup_cons. split; [|by apply IH].
    intros X. apply I1. apply elem_of_list_fmap in X as (g & E & Hg). apply elem_of_list_filter in Hg as [_ Hg].
    apply elem_of_list_fmap. by exists g. }
  apply add_functions_inr in H as [-> N]; [|done|constructor]. cbn [app] in *.
  transitivity ((x, p) ∈ gens c fs' st).
  { split; [apply dget_elem|by apply elem_dget]. }
  rewrite gens_elem. apply and_iff_compat_l.
  split; intros (f & nm & Hf & H).
  - apply elem_of_list_filter in Hf as [Hh Hf]. exists f, nm. split_and!; try apply H; [done|]. apply Is_true_eq_true in Hh. by apply negb_true_iff.
  - exists f, nm. destruct H as (Hh & R & E). split_and!; try done. apply elem_of_list_filter. split; [|done]. by rewrite Hh.
Qed.

Lemma one_variant c fs st st' nodes x a b ra rb fa fb pa pb :
  resolves rb c = negb (resolves ra c) ->
  NoDup (map f_id fs) -> fa ∈ fs -> fb ∈ fs ->
  x <> ""%string -> hidden x = false -> ~ has2 ("_" ++ a) -> ~ has2 ("_" ++ b) -> c !! x = None ->
  st !! f_id fa = Some (x ++ "__" ++ a)%string -> st !! f_id fb = Some (x ++ "__" ++ b)%string ->
  f_decs fa = [CDec ra None] -> f_decs fb = [CDec rb None] ->
  (forall nm, f_gen fa nm c = [(nm, pa)]) -> (forall nm, f_gen fb nm c = [(nm, pb)]) ->
  build c fs st = (st', inr nodes) ->
  dget nodes x = Some (if resolves ra c then pa else pb).
Proof.
  intros Hr I Ha Hb Xn Xh Na Nb Cx Sa Sb Da Db Ga Gb H.
  apply (build_exact c fs st st' nodes x _ I H). split; [done|].
  destruct (resolves ra c) eqn:E; cbn in Hr.
  - exists fa, x. split_and!; [done| | |].
    + rewrite Sa. cbn. by rewrite hidden_app.
    + rewrite Sa, Da. cbn [ConfigModel.resolve_fn cd_res default]. rewrite filter_irrelevant, E.
      unfold renamed. cbn [cd_target]. f_equal. by apply sanitize_suffix.
    + rewrite Ga. by left.
  - exists fb, x. split_and!; [done| | |].
    + rewrite Sb. cbn. by rewrite hidden_app.
    + rewrite Sb, Db. cbn [ConfigModel.resolve_fn cd_res default]. rewrite filter_irrelevant, Hr.
      unfold renamed. cbn [cd_target]. f_equal. by apply sanitize_suffix.
    + rewrite Gb. by left.
Qed.

(** ** Building again *)
Definition stable (ds : list cdec) (n t : name) : Prop :=
  hidden t = hidden n /\ forall d : cdec (V := V), d ∈ ds -> renamed d n = t /\ renamed d t = t.
(** The current name of a function, against its original name [n]. *)
Definition now (ds : list cdec) (n m : name) : Prop := m = n \/ (hidden n = false /\ ds <> [] /\ stable ds n m).

Lemma resolve_now c ds n t m : (forall d, d ∈ ds -> renamed d n = t /\ renamed d t = t) -> m = n \/ m = t ->
  (resolve_fn c ds m).2 = (resolve_fn c ds n).2 /\
  ((resolve_fn c ds m).1 = m \/ (resolve_fn c ds m).1 = t) /\
  ((resolve_fn c ds m).2 = true -> ds <> [] -> (resolve_fn c ds m).1 = t).
Proof.
  revert m. assert (G : forall ds' m, (forall d, d ∈ ds' -> renamed d n = t /\ renamed d t = t) -> m = n \/ m = t ->
    ((resolve_fn c ds' m).1 = m \/ (resolve_fn c ds' m).1 = t) /\
    ((resolve_fn c ds' m).2 = true -> ds' <> [] -> (resolve_fn c ds' m).1 = t)).
  { induction ds' as [|d ds' IH]; intros m H E; cbn; [split; [by left|done]|].
    destruct (resolves _ _); cbn; [|split; [by left|done]].
    assert (R : renamed d m = t).
    { destruct (H d ltac:(left)) as [A B]. by destruct E as [-> | ->]. }
    rewrite R. destruct (IH t) as [A B]; [intros; apply H; by right|by auto|].
    assert (X : (resolve_fn c ds' t).1 = t) by (by destruct A). split; [by right|done]. }
  assert (S : forall ds' a b, (resolve_fn c ds' a).2 = (resolve_fn c ds' b).2).
  { induction ds' as [|d ds' IH]; intros a b; cbn; [done|]. destruct (resolves _ _); [apply IH|done]. }
  intros m H E. split; [apply S|]. by apply G.
Qed.

Lemma now_step c ds n m t : stable ds n t -> hidden n = false -> (m = n \/ m = t) ->
  let m' := (resolve_fn c ds m).1 in m' = n \/ m' = t.
Proof. intros [_ S] _ E. cbn. destruct (resolve_now c ds n t m S E) as (_ & [-> | ->] & _); auto. Qed.

Section Again.
Variable fs : list func.
Variable st0 : gmap nat name.
Hypothesis Hnd : NoDup (map f_id fs).
Variable tgt : nat -> name.
Notation orig f := (default ""%string (st0 !! f_id f)).
Hypothesis Hst : forall f, f ∈ fs -> hidden (orig f) = false -> stable (f_decs f) (orig f) (tgt (f_id f)).

(** States reachable by building. *)
Definition fine (st : gmap nat name) : Prop :=
  forall f, f ∈ fs ->
    default ""%string (st !! f_id f) = orig f \/
    (hidden (orig f) = false /\ f_decs f <> [] /\ default ""%string (st !! f_id f) = tgt (f_id f)).

Lemma fine_hidden st f : fine st -> f ∈ fs -> hidden (default ""%string (st !! f_id f)) = hidden (orig f).
Proof.
  intros F Hf. destruct (F f Hf) as [-> | (H & _ & ->)]; [done|]. by destruct (Hst f Hf H) as [-> _].
Qed.
Lemma add_functions_fine c gs st acc : (forall g, g ∈ gs -> g ∈ fs /\ hidden (orig g) = false) -> fine st ->
  fine (add_functions c gs st acc).1.
Proof.
  revert st acc. induction gs as [|g gs IH]; intros st acc H F; [done|].
  cbn. destruct (resolve_fn c (f_decs g) (default ""%string (st !! f_id g))) as [m' inc] eqn:R.
  destruct (H g ltac:(left)) as [Hg Hh].
  assert (F' : fine (<[f_id g := m']> st)).
  { intros f Hf. destruct (decide (f_id f = f_id g)) as [E|E]; [|rewrite lookup_insert_ne by done; by apply F].
    assert (f = g) as ->.
    { apply elem_of_list_lookup in Hf as [i Hi]. apply elem_of_list_lookup in Hg as [j Hj].
      assert (i = j) as ->; [|congruence].
      apply (NoDup_lookup (map f_id fs) i j (f_id g)); [done|..]; rewrite list_lookup_fmap; [by rewrite Hi, <- E|by rewrite Hj]. }
    rewrite lookup_insert. cbn [default].
    destruct (f_decs g) as [|d ds] eqn:D.
    { cbn in R. injection R as <- <-. destruct (F g Hg) as [X|(_ & X & _)]; [by left|by rewrite D in X]. }
    assert (X : m' = orig g \/ m' = tgt (f_id g)).
    { replace m' with (resolve_fn c (f_decs g) (default ""%string (st !! f_id g))).1 by (rewrite D, R; done).
      apply now_step with (t := tgt (f_id g)); [by apply Hst|done|]. destruct (F g Hg) as [Y|(_ & _ & Y)]; auto. }
    destruct X as [X|X]; [by left|]. right. done. }
  assert (H' : forall g, g ∈ gs -> g ∈ fs /\ hidden (orig g) = false) by (intros; apply H; by right).
  destruct inc; [|by apply IH]. destruct (add_nodes _ _ _); [done|]. by apply IH.
Qed.
Lemma add_functions_same c gs st acc : (forall g, g ∈ gs -> g ∈ fs /\ hidden (orig g) = false) -> NoDup (map f_id gs) -> fine st ->
  forall st1, (forall g, g ∈ gs -> default ""%string (st1 !! f_id g) = orig g) ->
  (add_functions c gs st acc).2 = (add_functions c gs st1 acc).2.
Proof.
  revert st acc. induction gs as [|g gs IH]; intros st acc H N F st1 E; [done|].
  cbn in N. apply NoDup_cons in N as [N1 N2].
  cbn. rewrite (E g) by left.
  destruct (H g ltac:(left)) as [Hg Hh].
  assert (Q : default ""%string (st !! f_id g) = orig g \/ default ""%string (st !! f_id g) = tgt (f_id g)).
  { destruct (F g Hg) as [Y|(_ & _ & Y)]; auto. }
  destruct (Hst g Hg Hh) as [_ S].
  destruct (resolve_now c (f_decs g) (orig g) (tgt (f_id g)) _ S Q) as (A & _ & B).
  destruct (resolve_now c (f_decs g) (orig g) (tgt (f_id g)) (orig g) S ltac:(by left)) as (_ & _ & B').
  pose proof (add_functions_fine c [g] st acc) as FF.
  destruct (resolve_fn c (f_decs g) (default ""%string (st !! f_id g))) as [m inc] eqn:R.
  destruct (resolve_fn c (f_decs g) (orig g)) as [m1 inc1] eqn:R1. cbn [fst snd] in *. subst inc1.
  assert (F' : fine (<[f_id g := m]> st)).
  { assert (FF' := FF ltac:(intros x ->%elem_of_list_singleton; done) F). cbn in FF'. rewrite R in FF'.
    destruct inc; [|done]. by destruct (add_nodes c (f_gen g m c) acc). }
  assert (E' : forall g', g' ∈ gs -> default ""%string (<[f_id g := m1]> st1 !! f_id g') = orig g').
  { intros g' Hg'. rewrite lookup_insert_ne; [apply E; by right|]. intros X. apply N1. apply elem_of_list_fmap. by exists g'. }
  assert (H' : forall g, g ∈ gs -> g ∈ fs /\ hidden (orig g) = false) by (intros; apply H; by right).
  destruct inc; [|by apply IH].
  assert (m = m1) as ->.
  { destruct (f_decs g) as [|d ds] eqn:D.
    - cbn in R, R1. injection R as <-. injection R1 as <-. destruct (F g Hg) as [X|(_ & X & _)]; [done|by rewrite D in X].
    - rewrite B, B' by done. done. }
  destruct (add_nodes c (f_gen g m1 c) acc); [done|]. by apply IH.
Qed.
Lemma build_fine c st : fine st -> fine (build c fs st).1.
Proof.
  intros F. unfold ConfigModel.build. apply add_functions_fine; [|done]. intros g [Hh Hg]%elem_of_list_filter.
  split; [done|]. apply Is_true_eq_true, negb_true_iff in Hh. by rewrite fine_hidden in Hh.
Qed.
Lemma filter_fine st : fine st ->
  filter (fun f => negb (hidden (default ""%string (st !! f_id f)))) fs =
  filter (fun f => negb (hidden (orig f))) fs.
Proof.
  intros F. assert (G : forall gs : list func, (forall g, g ∈ gs -> g ∈ fs) ->
    filter (fun f => negb (hidden (default ""%string (st !! f_id f)))) gs = filter (fun f => negb (hidden (orig f))) gs).
  { induction gs as [|g gs IH]; intros H; [done|]. rewrite !filter_cons.
    rewrite (fine_hidden st g F) by (apply H; left). rewrite IH by (intros; apply H; by right). done. }
  by apply G.
Qed.
Lemma build_again c cs : (build c fs (built cs fs st0)).2 = (build c fs st0).2.
Proof.
  assert (F : forall cs st, fine st -> fine (built cs fs st)).
  { clear cs. induction cs as [|c' cs IH]; intros st H; [done|]. cbn. apply IH. by apply build_fine. }
  specialize (F cs st0 ltac:(intros f _; by left)).
  unfold ConfigModel.build. rewrite filter_fine by done.
  apply add_functions_same; [| |done|done].
  - intros g [Hh Hg]%elem_of_list_filter. split; [done|]. by apply Is_true_eq_true, negb_true_iff in Hh.
  - clear F Hst. induction fs as [|f gs IH]; [constructor|]. cbn in Hnd. apply NoDup_cons in Hnd as [I1 I2].
    rewrite filter_cons. case_decide; [|by apply IH]. cbn. apply NoDup_cons. split; [|by apply IH].
    intros X. apply I1. apply elem_of_list_fmap in X as (g & E & Hg). apply elem_of_list_filter in Hg as [_ Hg].
    apply elem_of_list_fmap. by exists g.
Qed.
End Again.
End Config.
