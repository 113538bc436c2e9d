From Coq Require Import Ascii.
From Verif Require Import Base Dict NodeModel NodeSpec NodeProofs PipeModel SubdagModel SubdagSpec.

(** ** Names *)
Lemma append_inj_l (a b c : string) : (a ++ b)%string = (a ++ c)%string -> b = c.
Proof. induction a as [|x a IH]; cbn; [done|]. intros [= H]. auto. Qed.
Lemma assign_inj k k' N : assign_namespace k N = assign_namespace k' N -> k = k'.
Proof. unfold assign_namespace. intros H. apply append_inj_l in H. by injection H. Qed.
Fixpoint has_dot (s : string) : bool := match s with EmptyString => false | String c s => if Ascii.eqb c "."%char then true else has_dot s end.
Lemma has_dot_assign k N : has_dot (assign_namespace k N) = true.
Proof. unfold assign_namespace. induction N as [|c N IH]; [done|]. change (has_dot (String c (N ++ "." ++ k)) = true). cbn [has_dot]. by rewrite IH; destruct (Ascii.eqb c "."%char). Qed.
Lemma assign_not_reserved k N : assign_namespace k N ∉ sub_reserved.
Proof.
  intros H. assert (F : Forall (fun s => has_dot s = false) sub_reserved) by (repeat constructor).
  rewrite Forall_forall in F. specialize (F _ H). by rewrite has_dot_assign in F.
Qed.

(** ** Dictionaries *)
Lemma dset_new {A} (d : dict A) k v : k ∉ dkeys d -> dset d k v = d ++ [(k, v)].
Proof.
  induction d as [|[k' v'] d IH]; cbn; intros H; [done|]. apply not_elem_of_cons in H as [H1 H2].
  rewrite decide_False by done. by rewrite IH.
Qed.
Lemma foldl_dset_map {A B} (f : B -> name) (g : B -> A) l : forall acc, NoDup (dkeys acc ++ map f l) ->
  foldl (fun d x => dset d (f x) (g x)) acc l = acc ++ map (fun x => (f x, g x)) l.
Proof.
  induction l as [|x l IH]; intros acc N; cbn; [by rewrite app_nil_r|].
  assert (Hx : f x ∉ dkeys acc).
  { intros H. apply NoDup_app in N as (_ & N & _). apply (N _ H). by left. }
  rewrite dset_new by done. rewrite IH; [by rewrite <- app_assoc|].
  unfold dkeys. rewrite fmap_app. cbn. by rewrite <- app_assoc.
Qed.
Lemma NoDup_map_inj {A B} (f : A -> B) (l : list A) : NoDup l -> (forall x y, x ∈ l -> y ∈ l -> f x = f y -> x = y) -> NoDup (map f l).
Proof.
  induction 1 as [|x l Hx N IH]; intros H; cbn; [apply NoDup_nil_2|]. apply NoDup_cons. split.
  - intros (y & Hf & Hy)%elem_of_list_fmap. apply Hx. rewrite (H x y); [done|by left|by right|done].
  - apply IH. intros y z Hy Hz. apply H; by right.
Qed.

Section Rename.
Context {V E T : Type}.
Implicit Types (ins : dict (T * deptype)).
Variable ren : name -> name.

Definition renamed ins : dict (T * deptype) := map (fun kt => (ren kt.1, kt.2)) ins.
Definition injective_on (l : list name) : Prop := forall k k', k ∈ l -> k' ∈ l -> ren k = ren k' -> k = k'.

Lemma dkeys_renamed ins : dkeys (renamed ins) = map ren (dkeys ins).
Proof. unfold dkeys, renamed. change (@fmap list _ ?A ?B ?f ?l) with (map f l). rewrite !map_map. done. Qed.
Lemma mapping_eq (l : list name) : NoDup l -> injective_on l ->
  foldl (fun d k => dset d (ren k) k) [] l = map (fun k => (ren k, k)) l.
Proof. intros N I. rewrite (foldl_dset_map ren (fun k => k)); [done|]. cbn. by apply NoDup_map_inj. Qed.
Lemma dmapk_renamed ins : NoDup (dkeys ins) -> injective_on (dkeys ins) -> dmapk ren ins = renamed ins.
Proof.
  intros N I. unfold dmapk. rewrite (foldl_dset_map (fun kv => ren kv.1) snd); [done|]. cbn.
  replace (map (fun kv : name * (T * deptype) => ren kv.1) ins) with (map ren (dkeys ins)); [by apply NoDup_map_inj|].
  unfold dkeys. change (ins.*1) with (map fst ins). by rewrite map_map.
Qed.
Lemma mapped_inputs_renamed ins : NoDup (dkeys ins) -> mapped_inputs (map (fun k => (ren k, k)) (dkeys ins)) ins = renamed ins.
Proof.
  intros N. unfold mapped_inputs, renamed.
  assert (G : forall l, (forall kt, kt ∈ l -> kt ∈ ins) ->
    omap (fun nk => (fun t => (nk.1, t)) <$> dget ins nk.2) (map (fun k => (ren k, k)) (dkeys l)) = map (fun kt => (ren kt.1, kt.2)) l).
  { induction l as [|[k t] l IH]; intros H; [done|]. cbn. rewrite (elem_dget ins k t N) by (apply H; by left). cbn. f_equal. apply IH. intros kt ?. apply H. by right. }
  by apply G.
Qed.

Lemma unmap_renamed (m m' : gmap name V) (l : dict (T * deptype)) : forall ins acc,
  NoDup (dkeys acc ++ dkeys l) -> (forall k, k ∈ dkeys l -> k ∈ dkeys ins) -> NoDup (dkeys ins) -> injective_on (dkeys ins) ->
  (forall k, k ∈ dkeys l -> m !! k = m' !! ren k) ->
  unmap_kwargs (E := E) (map (fun k => (ren k, k)) (dkeys ins)) acc (kwargs (renamed l) m') = Ok (acc ++ kwargs l m).
Proof.
  induction l as [|[k t] l IH]; intros ins acc N Hi Ni I Hm; [by rewrite app_nil_r|].
  unfold kwargs. cbn [renamed map omap list_omap fst snd]. change (map (fun kt : name * (T * deptype) => (ren kt.1, kt.2)) l) with (renamed l).
  rewrite (Hm k) by by left. destruct (m' !! ren k) as [v|] eqn:Ev; cbn [fmap option_fmap option_map].
  - cbn [unmap_kwargs].
    assert (G : dget (map (fun k => (ren k, k)) (dkeys ins)) (ren k) = Some k).
    { apply elem_dget.
      - unfold dkeys at 1. change (@fmap list _ ?A ?B ?f ?l) with (map f l). rewrite map_map. cbn. by apply NoDup_map_inj.
      - apply elem_of_list_fmap. exists k. split; [done|]. apply Hi. by left. }
    rewrite G. rewrite dset_new.
    2: { intros H. apply NoDup_app in N as (_ & N & _). apply (N k H). by left. }
    change (omap _ (renamed l)) with (kwargs (renamed l) m'). rewrite IH; [by rewrite <- app_assoc| |intros; apply Hi; by right|done|done|intros; apply Hm; by right].
    unfold dkeys at 1. rewrite fmap_app. cbn. rewrite <- app_assoc. done.
  - change (omap _ (renamed l)) with (kwargs (renamed l) m'). rewrite IH; [done| |intros; apply Hi; by right|done|done|intros; apply Hm; by right].
    cbn in N. apply NoDup_app in N as (N1 & N2 & N3). apply NoDup_cons in N3 as [_ N3]. apply NoDup_app. split_and!; [done| |done]. intros x Hx Hx'. apply (N2 x Hx). by right.
Qed.
Lemma call_renamed (m m' : gmap name V) ins (call : dict V -> res (nerr E) V) : NoDup (dkeys ins) -> injective_on (dkeys ins) ->
  (forall k, k ∈ dkeys ins -> m !! k = m' !! ren k) ->
  mapped_call (map (fun k => (ren k, k)) (dkeys ins)) call (kwargs (renamed ins) m') = call (kwargs ins m).
Proof. intros N I Hm. unfold mapped_call. rewrite (unmap_renamed m m' ins ins []); try done. Qed.

Lemma gather (m' : gmap name V) (l : list name) : exists m : gmap name V, forall k, m !! k = if decide (k ∈ l) then m' !! ren k else None.
Proof.
  induction l as [|x l [m IH]].
  - exists ∅. intros k. rewrite lookup_empty. rewrite decide_False; [done|by intros []%elem_of_nil].
  - exists (partial_alter (fun _ => m' !! ren x) x m). intros k. destruct (decide (k = x)) as [-> | Hn].
    + rewrite lookup_partial_alter. rewrite decide_True; [done|by left].
    + rewrite lookup_partial_alter_ne by done. rewrite IH. destruct (decide (k ∈ l)) as [H|H]; [rewrite decide_True; [done|by right]|].
      rewrite decide_False; [done|]. by intros [? | ?]%elem_of_cons.
Qed.
Lemma scatter (m : gmap name V) (l : list name) : NoDup l -> injective_on l -> exists m' : gmap name V,
  (forall k, k ∈ l -> m' !! ren k = m !! k) /\ forall y w, m' !! y = Some w -> exists k, k ∈ l /\ y = ren k.
Proof.
  induction 1 as [|x l Hx N IH]; intros I.
  - exists ∅. split; [by intros k []%elem_of_nil|]. intros y w H. by rewrite lookup_empty in H.
  - destruct IH as (m' & H1 & H2); [intros k k' ? ?; apply I; by right|].
    exists (partial_alter (fun _ => m !! x) (ren x) m'). split.
    + intros k [-> | Hk]%elem_of_cons; [by rewrite lookup_partial_alter|].
      rewrite lookup_partial_alter_ne; [by apply H1|]. intros Hr. apply I in Hr; [by subst|by left|by right].
    + intros y w Hy. destruct (decide (y = ren x)) as [-> | Hn]; [exists x; split; [by left|done]|].
      rewrite lookup_partial_alter_ne in Hy by done. destruct (H2 _ _ Hy) as (k & ? & ?). exists k. split; [by right|done].
Qed.
Lemma elem_renamed ins k t dt : (k, (t, dt)) ∈ ins -> (ren k, (t, dt)) ∈ renamed ins.
Proof. intros H. apply elem_of_list_fmap. by exists (k, (t, dt)). Qed.
Lemma renamed_elem ins y t dt : (y, (t, dt)) ∈ renamed ins -> exists k, y = ren k /\ (k, (t, dt)) ∈ ins.
Proof. intros ([k [t' dt']] & [= -> -> ->] & H)%elem_of_list_fmap. by exists k. Qed.
Lemma elem_dkeys ins k t dt : (k, (t, dt)) ∈ ins -> k ∈ dkeys ins.
Proof. intros H. apply elem_of_list_fmap. by exists (k, (t, dt)). Qed.

(** The value of a node whose parameters are renamed. *)
Lemma renamed_value (ns : dict (pnode V E T)) env y n' ins call v :
  dget ns y = Some n' -> NoDup (dkeys ins) -> injective_on (dkeys ins) -> pn_inputs n' = renamed ins ->
  (forall m', pn_call n' (kwargs (renamed ins) m') = mapped_call (map (fun k => (ren k, k)) (dkeys ins)) call (kwargs (renamed ins) m')) ->
  value ns env y v <-> exists m : gmap name V,
    (forall k w, m !! k = Some w -> k ∈ dkeys ins /\ value ns env (ren k) w) /\
    (forall k t dt, (k, (t, dt)) ∈ ins -> m !! k = None -> dt = OPTIONAL /\ dget ns (ren k) = None /\ env !! ren k = None) /\
    call (kwargs ins m) = Ok v.
Proof.
  intros D N I Hi Hc. rewrite (value_node_iff ns env y n' v D), Hi. split.
  - intros (m' & [M1 M2] & C). destruct (gather m' (dkeys ins)) as [m Hm]. exists m. split_and!.
    + intros k w Hk. rewrite Hm in Hk. destruct (decide (k ∈ dkeys ins)) as [Hki|]; [|done]. split; [done|]. by apply M1.
    + intros k t dt Hk Hn. apply (M2 (ren k) t dt); [by apply elem_renamed|]. rewrite Hm, decide_True in Hn; [done|by eapply elem_dkeys].
    + rewrite <- C, Hc. symmetry. apply call_renamed; [done|done|]. intros k Hk. rewrite Hm. by rewrite decide_True.
  - intros (m & M1 & M2 & C). destruct (scatter m (dkeys ins) N I) as (m' & S1 & S2). exists m'. split; [split|].
    + intros y' w Hy'. destruct (S2 _ _ Hy') as (k & Hk & ->). rewrite S1 in Hy' by done. split; [|by apply M1].
      rewrite dkeys_renamed. by apply elem_of_list_fmap_1.
    + intros y' t dt Hy' Hn. apply renamed_elem in Hy' as (k & -> & Hk). rewrite S1 in Hn by by eapply elem_dkeys. by eapply M2.
    + rewrite Hc. rewrite (call_renamed m m'); [done|done|done|]. intros k Hk. by rewrite S1.
Qed.
End Rename.

(** ** Subdags *)
Section Subdag.
Context {V E T : Type}.
Variable captured : dict V -> res (nerr E) V.
Variable type_of : V -> T.
Variable ns : dict (pnode V E T).
Variable env : gmap name V.
Variable nodes : list (pnode V E T).
Variable inputs : dict (dep V).
Variable config : dict V.
Variable N : name.
Hypothesis wd : well_declared nodes inputs config.
Hypothesis W : forall y n, dget ns y = Some n -> NoDup (dkeys (pn_inputs n)).
Notation names := (new_name_map nodes N inputs config).
Notation nodes' := (add_namespace captured nodes N inputs config).
Hypothesis in_graph : forall n, n ∈ nodes' ++ static_nodes type_of nodes' N inputs config -> dget ns (pn_name n) = Some n.
(** Undeclared parameters are not captured. *)
Hypothesis apart : forall n k, n ∈ nodes -> k ∈ dkeys (pn_inputs n) -> ~ declared nodes inputs config k ->
  k ∉ sub_reserved /\ forall k', k' ∈ dkeys (pn_inputs n) -> k <> assign_namespace k' N.

Lemma add_names_get l : forall (d : dict name) k, dget (foldl (fun d k => dset d k (assign_namespace k N)) d l) k = if decide (k ∈ l) then Some (assign_namespace k N) else dget d k.
Proof.
  induction l as [|x l IH]; intros d k; cbn; [done|]. rewrite IH, dget_dset.
  destruct (decide (k ∈ l)) as [H|H].
  - by rewrite decide_True by by right.
  - destruct (decide (k = x)) as [-> | Hn]; [by rewrite decide_True by by left|].
    rewrite decide_False; [done|]. by intros [? | ?]%elem_of_cons.
Qed.
Lemma rename_declared k : declared nodes inputs config k -> rename names k = assign_namespace k N.
Proof.
  intros H. unfold rename, new_name_map. rewrite !add_names_get. repeat case_decide; try done. exfalso. by destruct H as [? | [? | ?]].
Qed.
Lemma rename_undeclared k : ~ declared nodes inputs config k -> rename names k = k.
Proof.
  intros H. unfold rename, new_name_map. rewrite !add_names_get. repeat case_decide; try done; exfalso; apply H; [by right; right|by right; left|by left].
Qed.
Lemma declared_dec k : declared nodes inputs config k \/ ~ declared nodes inputs config k.
Proof.
  unfold declared. destruct (decide (k ∈ map pn_name nodes)); [by left; left|]. destruct (decide (k ∈ dkeys inputs)); [by left; right; left|].
  destruct (decide (k ∈ dkeys config)); [by left; right; right|]. right. tauto.
Qed.
Lemma rename_inj n : n ∈ nodes -> injective_on (rename names) (dkeys (pn_inputs n)).
Proof.
  intros Hn k k' Hk Hk' H. destruct (declared_dec k) as [D|D], (declared_dec k') as [D'|D'].
  - rewrite !rename_declared in H by done. by apply assign_inj in H.
  - rewrite (rename_declared k), (rename_undeclared k') in H by done. exfalso. by apply (proj2 (apart n k' Hn Hk' D') k Hk).
  - rewrite (rename_declared k'), (rename_undeclared k) in H by done. exfalso. by apply (proj2 (apart n k Hn Hk D) k' Hk').
  - by rewrite !rename_undeclared in H.
Qed.

Lemma namespaced_inputs n : n ∈ nodes -> pn_inputs (namespaced_node captured names n) = renamed (rename names) (pn_inputs n).
Proof.
  intros Hn. cbn. unfold kwarg_mapping. destruct wd as (_ & Wn & _). rewrite mapping_eq by auto using rename_inj. by rewrite mapped_inputs_renamed by auto.
Qed.
Lemma namespaced_call n m' : n ∈ nodes ->
  pn_call (namespaced_node captured names n) (kwargs (renamed (rename names) (pn_inputs n)) m') =
  mapped_call (map (fun k => (rename names k, k)) (dkeys (pn_inputs n))) (pn_call n) (kwargs (renamed (rename names) (pn_inputs n)) m').
Proof.
  intros Hn. cbn [namespaced_node pn_call]. destruct (existsb _ sub_reserved) eqn:B.
  - exfalso. apply existsb_exists in B as (r & Hr & B). apply bool_decide_eq_true in B. apply dkeys_kwargs in B as [B _].
    rewrite dkeys_renamed in B. apply elem_of_list_fmap in B as (k & -> & Hk). apply elem_of_list_In in Hr.
    destruct (declared_dec k) as [D|D].
    + rewrite rename_declared in Hr by done. by apply assign_not_reserved in Hr.
    + rewrite rename_undeclared in Hr by done. by apply (apart n k Hn Hk D).
  - unfold kwarg_mapping. destruct wd as (_ & Wn & _). by rewrite mapping_eq by auto using rename_inj.
Qed.
Lemma namespaced_in n : n ∈ nodes -> dget ns (assign_namespace (pn_name n) N) = Some (namespaced_node captured names n).
Proof.
  intros Hn. rewrite <- rename_declared by (left; by apply elem_of_list_fmap_1). apply (in_graph (namespaced_node captured names n)).
  apply elem_of_app. left. by apply elem_of_list_fmap_1.
Qed.

(** Declared inputs. *)
Lemma literal_value k u w : dget inputs k = Some (DValue u) -> value ns env (assign_namespace k N) w <-> w = u.
Proof.
  intros H. assert (D : dget ns (assign_namespace k N) = Some (static_node (assign_namespace k N) (type_of u) u)).
  { apply (in_graph (static_node (assign_namespace k N) (type_of u) u)). apply elem_of_app. right. unfold static_nodes. apply elem_of_app. left.
    apply elem_of_list_omap. exists (k, DValue u). split; [by apply dget_elem|done]. }
  rewrite (value_node_iff ns env _ _ w D). cbn. split; [by intros (m & _ & [= ->])|]. intros ->. exists ∅. split; [|done]. split.
  - intros ? ? H'. by rewrite lookup_empty in H'.
  - by intros ? ? ? []%elem_of_nil.
Qed.
Lemma config_value k u w : dget config k = Some u -> value ns env (assign_namespace k N) w <-> w = u.
Proof.
  intros H. assert (D : dget ns (assign_namespace k N) = Some (static_node (assign_namespace k N) (type_of u) u)).
  { apply (in_graph (static_node (assign_namespace k N) (type_of u) u)). apply elem_of_app. right. unfold static_nodes. apply elem_of_app. right.
    apply elem_of_list_fmap. exists (k, u). split; [done|by apply dget_elem]. }
  rewrite (value_node_iff ns env _ _ w D). cbn. split; [by intros (m & _ & [= ->])|]. intros ->. exists ∅. split; [|done]. split.
  - intros ? ? H'. by rewrite lookup_empty in H'.
  - by intros ? ? ? []%elem_of_nil.
Qed.

Lemma known_types_get (l : list (pnode V E T)) k : (exists n, n ∈ l /\ k ∈ dkeys (pn_inputs n)) -> is_Some (dget (known_types l) k).
Proof.
  intros H. apply dget_Some_key. unfold known_types.
  assert (G1 : forall (ins : dict (T * deptype)) (d : dict T), k ∈ dkeys (foldl (fun d kt => dset d kt.1 kt.2.1) d ins) <-> k ∈ dkeys d \/ k ∈ dkeys ins).
  { induction ins as [|[x t] ins IH]; intros d; cbn [foldl].
    - split; [by left|]. intros [? | []%elem_of_nil]; done.
    - rewrite IH, dkeys_dset_elem. cbn. rewrite elem_of_cons. tauto. }
  assert (G2 : forall l (d : dict T), k ∈ dkeys d \/ (exists n, n ∈ l /\ k ∈ dkeys (pn_inputs n)) ->
    k ∈ dkeys (foldl (fun d n => foldl (fun d kt => dset d kt.1 kt.2.1) d (pn_inputs n)) d (l : list (pnode V E T)))).
  { clear H l. induction l as [|n l IH]; intros d H; cbn [foldl].
    - destruct H as [? | (? & []%elem_of_nil & _)]. done.
    - apply IH. rewrite G1. destruct H as [? | (n' & [-> | ?]%elem_of_cons & ?)]; eauto. }
  apply G2. by right.
Qed.
Lemma source_value k s w : dget inputs k = Some (DSource s) -> used nodes k ->
  value ns env (assign_namespace k N) w <-> value ns env s w.
Proof.
  intros H (n & Hn & Hk).
  assert (D : exists t, dget ns (assign_namespace k N) = Some (identity_node s (assign_namespace k N) t)).
  { destruct (known_types_get nodes' (assign_namespace k N)) as [t Ht].
    { exists (namespaced_node captured names n). split; [by apply elem_of_list_fmap_1|]. rewrite namespaced_inputs, dkeys_renamed by done.
      rewrite <- rename_declared by (right; left; apply dget_Some_key; by eexists). by apply elem_of_list_fmap_1. }
    exists t. apply (in_graph (identity_node s (assign_namespace k N) t)). apply elem_of_app. right. unfold static_nodes. apply elem_of_app. left.
    apply elem_of_list_omap. exists (k, DSource s). split; [by apply dget_elem|]. cbn [fst snd]. by rewrite Ht. }
  destruct D as [t D]. rewrite (value_node_iff ns env _ _ w D). cbn [identity_node pn_inputs pn_call]. split.
  - intros (m & [M1 M2] & C). unfold kwargs in C. cbn in C. destruct (m !! s) as [v|] eqn:Em; [|done]. cbn in C. injection C as ->. by apply M1.
  - intros Hw. exists {[s := w]}. split; [split|].
    + intros x v Hx. apply lookup_singleton_Some in Hx as [<- <-]. split; [by left|done].
    + intros x t' dt Hx Hm. apply elem_of_list_singleton in Hx as [= -> -> ->]. by rewrite lookup_singleton in Hm.
    + unfold kwargs. cbn. by rewrite lookup_singleton.
Qed.

Variable env' : gmap name V.
Hypothesis bound : forall k, used nodes k -> k ∉ map pn_name nodes -> binding ns env inputs config k (env' !! k).
Notation sns := (standalone nodes).

Lemma standalone_get x n : dget sns x = Some n <-> n ∈ nodes /\ pn_name n = x.
Proof.
  unfold standalone. destruct wd as (Nd & _). split.
  - intros H. apply dget_elem in H. apply elem_of_list_fmap in H as (n' & [= -> ->] & Hn). done.
  - intros [Hn <-]. apply elem_dget; [|apply elem_of_list_fmap; by exists n].
    unfold dkeys. change (@fmap list _ ?A ?B ?f ?l) with (map f l). rewrite map_map. done.
Qed.
Lemma standalone_none x : dget sns x = None <-> x ∉ map pn_name nodes.
Proof.
  destruct (dget sns x) as [n|] eqn:D.
  - apply standalone_get in D as [Hn <-]. split; [done|]. intros H. exfalso. apply H. by apply elem_of_list_fmap_1.
  - split; [|done]. intros _ (n & -> & Hn)%elem_of_list_fmap. assert (dget sns (pn_name n) = Some n) by by apply standalone_get. congruence.
Qed.

(** Values of parameters that are no nodes of the subdag. *)
Lemma outer_value k w : used nodes k -> k ∉ map pn_name nodes -> value ns env (rename names k) w <-> env' !! k = Some w.
Proof.
  intros U Hk. specialize (bound k U Hk). unfold binding in bound. destruct (dget inputs k) as [[s|u]|] eqn:Ei.
  - rewrite rename_declared by (right; left; apply dget_Some_key; by eexists). rewrite (source_value k s w Ei U).
    destruct bound as (w' & Hw' & ->). split; [intros Hw; f_equal; by eapply value_fun|by intros [= ->]].
  - rewrite rename_declared by (right; left; apply dget_Some_key; by eexists). rewrite (literal_value k u w Ei), bound. naive_solver.
  - apply dget_None_key in Ei. destruct (dget config k) as [u|] eqn:Ec.
    + rewrite rename_declared by (right; right; apply dget_Some_key; by eexists). rewrite (config_value k u w Ec), bound. naive_solver.
    + apply dget_None_key in Ec. rewrite rename_undeclared by (intros [? | [? | ?]]; done).
      destruct bound as [(w' & Hw' & ->) | (H1 & H2 & ->)]; [split; [intros Hw; f_equal; by eapply value_fun|by intros [= ->]]|].
      split; [|done]. intros Hw. apply value_input_iff in Hw; [congruence|done].
Qed.
Lemma outer_absent k : used nodes k -> k ∉ map pn_name nodes ->
  (dget ns (rename names k) = None /\ env !! rename names k = None) <-> env' !! k = None.
Proof.
  intros U Hk. split.
  - intros [H1 H2]. destruct (env' !! k) as [w|] eqn:Ew; [|done]. apply outer_value in Ew; [|done|done]. apply value_input_iff in Ew; [congruence|done].
  - intros Hn. specialize (bound k U Hk). unfold binding in bound. rewrite Hn in bound. destruct (dget inputs k) as [[s|u]|] eqn:Ei.
    + destruct bound as (? & _ & ?). done.
    + done.
    + destruct (dget config k) eqn:Ec; [done|]. apply dget_None_key in Ei, Ec. rewrite rename_undeclared by (intros [? | [? | ?]]; done).
      destruct bound as [(? & _ & ?) | (? & ? & _)]; done.
Qed.

Lemma subdag_sound y v : value ns env y v -> forall n, n ∈ nodes -> y = assign_namespace (pn_name n) N -> value sns env' (pn_name n) v.
Proof.
  induction 1 as [y v D Hy|y n' m' v D Hd Hv IH Ho Hc]; intros n Hn ->.
  - rewrite namespaced_in in D; done.
  - rewrite namespaced_in in D by done. injection D as <-. rewrite namespaced_inputs in Hd, Ho, Hc by done. rewrite namespaced_call in Hc by done.
    assert (Nn : NoDup (dkeys (pn_inputs n))) by by apply wd.
    destruct (gather (rename names) m' (dkeys (pn_inputs n))) as [m Hm].
    assert (Dn : dget sns (pn_name n) = Some n) by by apply standalone_get.
    apply (value_node_iff sns env' _ n v Dn). exists m. split; [split|].
    + intros k w Hk. rewrite Hm in Hk. destruct (decide (k ∈ dkeys (pn_inputs n))) as [Hki|]; [|done]. split; [done|].
      destruct (decide (k ∈ map pn_name nodes)) as [Hkn|Hkn].
      * pose proof Hkn as Hkn2. apply elem_of_list_fmap in Hkn as (nk & -> & Hnk). apply (IH _ _ Hk nk Hnk). apply rename_declared. by left.
      * apply value_input_iff; [by apply standalone_none|]. apply outer_value; [by exists n|done|]. by apply Hv.
    + intros k t dt Hk Hmk. pose proof (elem_dkeys _ _ _ _ Hk) as Hki. rewrite Hm, decide_True in Hmk by done.
      destruct (Ho (rename names k) t dt (elem_renamed _ _ _ _ _ Hk) Hmk) as (Hopt & H1 & H2).
      destruct (decide (k ∈ map pn_name nodes)) as [Hkn|Hkn].
      * exfalso. rewrite rename_declared in H1 by by left. apply elem_of_list_fmap in Hkn as (nk & -> & Hnk). by rewrite namespaced_in in H1.
      * split_and!; [done|by apply standalone_none|]. apply outer_absent; [by exists n|done|done].
    + rewrite <- Hc. symmetry. apply call_renamed; [done|by apply rename_inj|]. intros k Hk. rewrite Hm. by rewrite decide_True.
Qed.
Lemma subdag_complete x v : value sns env' x v -> x ∈ map pn_name nodes -> value ns env (assign_namespace x N) v.
Proof.
  induction 1 as [x v D Hx|x n m v D Hd Hv IH Ho Hc]; intros Hn.
  - by apply standalone_none in D.
  - apply standalone_get in D as [Hnn <-].
    assert (Nn : NoDup (dkeys (pn_inputs n))) by by apply wd.
    apply (renamed_value (rename names) ns env _ (namespaced_node captured names n) (pn_inputs n) (pn_call n) v);
      [by apply namespaced_in|done|by apply rename_inj|by apply namespaced_inputs|intros; by apply namespaced_call|].
    exists m. split_and!; [| |done].
    + intros k w Hk. split; [by eapply Hd|]. destruct (decide (k ∈ map pn_name nodes)) as [Hkn|Hkn].
      * rewrite rename_declared by by left. by eapply IH.
      * apply outer_value; [exists n; split; [done|by eapply Hd]|done|]. apply Hv in Hk. apply value_input_iff in Hk; [done|by apply standalone_none].
    + intros k t dt Hk Hmk. destruct (Ho k t dt Hk Hmk) as (Hopt & H1 & H2). split; [done|]. apply standalone_none in H1.
      apply outer_absent; [exists n; split; [done|by eapply elem_dkeys]|done|done].
Qed.

(** The final node. *)
Variable fn : pnode V E T.
Variable final : name.
Variable external : list name.
Hypothesis fn_nodup : NoDup (dkeys (pn_inputs fn)).
Hypothesis final_in : dget ns final = Some (final_node fn final N external).
Hypothesis ext_apart : forall k k', k ∈ external -> k ∈ dkeys (pn_inputs fn) -> k' ∈ dkeys (pn_inputs fn) -> k <> assign_namespace k' N.
Notation ren := (fun k => if decide (k ∈ external) then k else assign_namespace k N).

Lemma final_inj : injective_on ren (dkeys (pn_inputs fn)).
Proof.
  intros k k' Hk Hk'. repeat case_decide; [done| | |].
  - intros H'. exfalso. by apply (ext_apart k k').
  - intros H'. exfalso. by apply (ext_apart k' k).
  - apply assign_inj.
Qed.
Lemma final_value v : value ns env final v <-> exists m : gmap name V,
    (forall k w, m !! k = Some w -> k ∈ dkeys (pn_inputs fn) /\ value ns env (ren k) w) /\
    (forall k t dt, (k, (t, dt)) ∈ pn_inputs fn -> m !! k = None -> dt = OPTIONAL /\ dget ns (ren k) = None /\ env !! ren k = None) /\
    pn_call fn (kwargs (pn_inputs fn) m) = Ok v.
Proof.
  apply (renamed_value ren ns env final _ (pn_inputs fn) (pn_call fn) v final_in); [done|apply final_inj| |].
  - cbn. apply dmapk_renamed; [done|apply final_inj].
  - intros m'. cbn. rewrite mapping_eq; [done|done|apply final_inj].
Qed.
End Subdag.
