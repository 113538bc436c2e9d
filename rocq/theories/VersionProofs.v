(** Proofs about versions and diffs. *)
From stdpp Require Import sorting.
From Verif Require Import Base Dict CacheKeyModel CacheKeyProofs FingerprintModel FingerprintProofs ResultProofs VersionModel VersionSpec.

(** ** Documentation *)
Fixpoint tree_rect' (P : tree -> Prop) (HD : forall n h b, Forall P b -> P (Def n h b)) (HT : forall s, P (Text s)) (HO : forall h b, Forall P b -> P (Other h b)) (t : tree) : P t :=
  let go := fix go (b : list tree) : Forall P b := match b with [] => Forall_nil_2 P | t :: b => Forall_cons_2 P t b (tree_rect' P HD HT HO t) (go b) end in
  match t with Def n h b => HD n h b (go b) | Text s => HT s | Other h b => HO h b (go b) end.
Lemma drop_body n h b : drop_docs (Def n h b) = Def n h (map drop_docs (undocumented b)).
Proof. cbn. by destruct b as [|[] b]. Qed.
Lemma Forall_undoc (P : tree -> Prop) b : Forall P b -> Forall P (undocumented b).
Proof. intros H. destruct b as [|[] b]; cbn; [done|done| |done]. by inversion H. Qed.
Lemma drop_list b : Forall (fun t => forall t', drop_docs t = drop_docs t' <-> same_code t t') b -> forall b', map drop_docs b = map drop_docs b' <-> same_list b b'.
Proof.
  induction 1 as [|t b Ht _ IH]; intros [|t' b']; cbn [map]; (split; [intros He|intros Hs]); try done; try constructor; try (by inversion Hs); try (by injection He; intros; (by apply Ht) || (by apply IH)).
  inversion Hs; subst. f_equal; [by apply Ht|by apply IH].
Qed.
Lemma drop_same t : forall t', drop_docs t = drop_docs t' <-> same_code t t'.
Proof.
  induction t as [n h b IH|s|h b IH] using tree_rect'; intros t'.
  - assert (Hl := drop_list _ (Forall_undoc _ _ IH)). rewrite drop_body. split.
    + destruct t' as [n' h' b'| |]; [|done|done]. rewrite drop_body. intros [= -> -> Hb]. constructor. by apply Hl.
    + intros H. inversion H; subst. rewrite drop_body. f_equal. by apply Hl.
  - split; [destruct t'; [done| |done]; by intros [= ->]; constructor|]. intros H. by inversion H.
  - assert (Hl := drop_list _ IH). split.
    + destruct t' as [| |h' b']; [done|done|]. cbn. intros [= -> Hb]. constructor. by apply Hl.
    + intros H. inversion H; subst. cbn. f_equal. by apply Hl.
Qed.

Section Proofs.
Variable hash : tree -> string.
Variable sha : list (option string) -> string.
Variable params : string -> list name.
Notation params_of := (params_of params).
Notation graph_of := (graph_of params).
Notation version := (version hash).
Notation hash_nodes := (hash_nodes hash).
Notation variable := (variable params).
Implicit Types (config : list name) (fns : list fn) (g : hgraph).

(** ** The graph *)
Lemma function_nodes_elem config fns : NoDup (map f_name fns) -> (forall x f, (x, f) ∈ function_nodes config fns <-> live config fns f /\ f_name f = x) /\ NoDup (dkeys (function_nodes config fns)).
Proof.
  unfold function_nodes. intros Hn. assert (H : forall d, NoDup (dkeys d) -> (forall f, f ∈ fns -> f_name f ∉ dkeys d) ->
    let r := foldl (fun d f => if decide (f_name f ∈ config) then d else dset d (f_name f) f) d fns in
    NoDup (dkeys r) /\ forall x f, (x, f) ∈ r <-> (x, f) ∈ d \/ (live config fns f /\ f_name f = x)).
  - induction fns as [|f0 fns IH]; intros d Hd Hf; cbn [foldl].
    + split; [done|]. intros x f. unfold live. rewrite elem_of_nil. tauto.
    + cbn [map] in Hn. apply NoDup_cons in Hn as [H0 Hn]. destruct (decide (f_name f0 ∈ config)) as [Hc|Hc].
      * destruct (IH Hn d Hd) as [I1 I2]; [intros f Hi; apply Hf; by right|]. split; [done|]. intros x f. rewrite I2. unfold live. rewrite elem_of_cons. split; [naive_solver|].
        intros [?|[[[-> |?] ?] ?]]; [tauto|done|tauto].
      * assert (Hk : f_name f0 ∉ dkeys d) by (apply Hf; by left). destruct (IH Hn (dset d (f_name f0) f0)) as [I1 I2].
        -- by apply NoDup_dkeys_dset.
        -- intros f Hi. rewrite dkeys_dset_elem. intros [He|He]; [|by apply (Hf f); [right|]]. apply H0. rewrite <- He. apply elem_of_list_fmap. by exists f.
        -- split; [done|]. intros x f. rewrite I2. rewrite dset_fresh by done. rewrite elem_of_app, elem_of_list_singleton. unfold live. rewrite elem_of_cons. split.
           ++ intros [[?|[= -> ->]]|?]; [tauto|right|]; tauto.
           ++ intros [?|[[[-> |?] ?] <-]]; [tauto..|]. tauto.
  - destruct (H []) as [H1 H2]; [constructor|intros f _ Hx; by apply elem_of_nil in Hx|]. split; [|done]. intros x f. rewrite H2. rewrite elem_of_nil. tauto.
Qed.
Lemma add_missing_get g x n y : dget (add_missing g x n) y = match dget g y with Some m => Some m | None => if decide (y = x) then Some n else None end.
Proof.
  unfold add_missing. destruct (dget g x) as [m|] eqn:Eg.
  - destruct (dget g y) eqn:Ey; [done|]. destruct (decide (y = x)); [congruence|done].
  - rewrite dget_dset. destruct (decide (y = x)) as [-> |]; [by rewrite Eg|by destruct (dget g y)].
Qed.
Lemma add_missing_NoDup g x n : NoDup (dkeys g) -> NoDup (dkeys (add_missing g x n)).
Proof. intros H. unfold add_missing. destruct (dget g x); [done|]. by apply NoDup_dkeys_dset. Qed.
Lemma add_all_get (n : hnode) (l : list name) : forall g y, NoDup (dkeys g) -> NoDup (dkeys (foldl (fun g p => add_missing g p n) g l)) /\
  dget (foldl (fun g p => add_missing g p n) g l) y = match dget g y with Some m => Some m | None => if decide (y ∈ l) then Some n else None end.
Proof.
  induction l as [|x l IH]; intros g y Hg; cbn [foldl].
  - split; [done|]. destruct (dget g y); [done|]. by rewrite decide_False by apply not_elem_of_nil.
  - destruct (IH (add_missing g x n) y) as [I1 I2]; [by apply add_missing_NoDup|]. split; [done|]. rewrite I2, add_missing_get. destruct (dget g y); [done|].
    destruct (decide (y = x)) as [-> |Hne]; [rewrite decide_True by (by left); done|]. destruct (decide (y ∈ l)); [rewrite decide_True by (by right)|rewrite decide_False by (rewrite not_elem_of_cons; tauto)]; done.
Qed.
Lemma add_inputs_get (fs : dict fn) : forall g y, NoDup (dkeys g) ->
  let r := foldl (fun g kv => foldl (fun g p => add_missing g p (HNode true (Some [kv.2]))) g (params_of kv.2)) g fs in
  NoDup (dkeys r) /\ match dget g y with
                     | Some m => dget r y = Some m
                     | None => (exists x f, (x, f) ∈ fs /\ y ∈ params_of f /\ dget r y = Some (HNode true (Some [f]))) \/ ((forall x f, (x, f) ∈ fs -> y ∉ params_of f) /\ dget r y = None)
                     end.
Proof.
  induction fs as [|[x f] fs IH]; intros g y Hg; cbn [foldl snd].
  - split; [done|]. destruct (dget g y) eqn:Ey; [done|]. right. split; [intros x f H; by apply elem_of_nil in H|done].
  - destruct (add_all_get (HNode true (Some [f])) (params_of f) g y Hg) as [A1 A2]. destruct (IH _ y A1) as [I1 I2]. split; [done|]. rewrite A2 in I2. destruct (dget g y); [done|].
    destruct (decide (y ∈ params_of f)) as [Hy|Hy].
    + left. exists x, f. split; [by left|]. split; [done|]. exact I2.
    + destruct I2 as [(x' & f' & Hin & Hp & Hr)|[Hno Hr]]; [left; exists x', f'; split; [by right|done]|]. right. split; [|done]. intros x' f' [[= -> ->]|Hin]%elem_of_cons; [done|by apply (Hno x')].
Qed.

(** The four cases. *)
Lemma graph_get config fns x : NoDup (map f_name fns) -> NoDup (dkeys (graph_of config fns)) /\
  ((exists f, live config fns f /\ f_name f = x /\ dget (graph_of config fns) x = Some (HNode false (Some [f]))) \/
   (~ computed config fns x /\ exists f, live config fns f /\ x ∈ params_of f /\ dget (graph_of config fns) x = Some (HNode true (Some [f]))) \/
   (~ computed config fns x /\ (forall f, live config fns f -> x ∉ params_of f) /\ x ∈ config /\ dget (graph_of config fns) x = Some (HNode true None)) \/
   (~ variable config fns x /\ dget (graph_of config fns) x = None)).
Proof.
  intros Hn. destruct (function_nodes_elem config fns Hn) as [He Hnd]. unfold VersionModel.graph_of. set (fs := function_nodes config fns) in *.
  set (g0 := map (fun kv => (kv.1, HNode false (Some [kv.2]))) fs).
  assert (Hk0 : dkeys g0 = dkeys fs). { unfold g0, dkeys. clear. induction fs as [|[k f] fs IH]; [done|]. cbn [map]. rewrite !fmap_cons. by rewrite IH. }
  assert (Hg0 : NoDup (dkeys g0)) by (by rewrite Hk0).
  assert (HG := add_inputs_get fs g0 x Hg0). cbn zeta in HG. set (g1 := foldl (fun g kv => foldl (fun g p => add_missing g p (HNode true (Some [kv.2]))) g (params_of kv.2)) g0 fs) in *. destruct HG as [N1 G1]. destruct (add_all_get (HNode true None) config g1 x N1) as [N2 G2]. split; [done|]. rewrite G2. clear G2 N2.
  destruct (dget g0 x) as [m|] eqn:E0.
  - left. apply dget_elem in E0. unfold g0 in E0. apply elem_of_list_fmap in E0 as ([k f] & [= -> ->] & Hin). apply He in Hin as [Hl Hx]. exists f. rewrite G1. done.
  - assert (Hc : ~ computed config fns x). { intros (f & Hl & Hx). apply dget_None_key in E0. apply E0. rewrite Hk0. apply elem_of_list_fmap. exists (x, f). split; [done|]. by apply He. }
    destruct G1 as [(k & f & Hin & Hp & Hr)|[Hno Hr]].
    + right. left. split; [done|]. apply He in Hin as [Hl _]. exists f. rewrite Hr. done.
    + rewrite Hr. assert (Hno' : forall f, live config fns f -> x ∉ params_of f) by (intros f Hl; apply (Hno (f_name f)), He; done).
      destruct (decide (x ∈ config)) as [Hx|Hx]; [right; right; left; done|]. right. right. right. split; [|done]. intros [?|[(f & Hl & Hp)|?]]; [done|by apply (Hno' f)|done].
Qed.
Lemma graph_keys config fns x : NoDup (map f_name fns) -> x ∈ dkeys (graph_of config fns) <-> variable config fns x.
Proof.
  intros Hn. rewrite <- dget_Some_key. destruct (graph_get config fns x Hn) as [_ [(f & Hl & Hx & Hg)|[(_ & f & Hl & Hp & Hg)|[(_ & _ & Hc & Hg)|[Hv Hg]]]]]; rewrite Hg.
  - split; [|by eexists]. intros _. left. by exists f.
  - split; [|by eexists]. intros _. right. left. by exists f.
  - split; [|by eexists]. intros _. right. by right.
  - split; [by intros [? ?]|done].
Qed.
Lemma live_get config fns f : NoDup (map f_name fns) -> live config fns f -> dget (graph_of config fns) (f_name f) = Some (HNode false (Some [f])).
Proof.
  intros Hn Hl. assert (Hc : computed config fns (f_name f)) by (by exists f).
  destruct (graph_get config fns (f_name f) Hn) as [_ [(f' & Hl' & Hx & Hg)|[(? & _)|[(? & _)|[Hv _]]]]]; [|done|done|destruct Hv; by left].
  rewrite Hg. do 4 f_equal. destruct Hl as [Hf _], Hl' as [Hf' _]. clear -Hn Hf Hf' Hx. induction fns as [|a l IH]; [by apply elem_of_nil in Hf|]. cbn [map] in Hn. apply NoDup_cons in Hn as [Ha Hn].
  apply elem_of_cons in Hf as [-> |Hf], Hf' as [-> |Hf']; [done| | |by apply IH].
  - destruct Ha. rewrite <- Hx. apply elem_of_list_fmap. by exists f'.
  - destruct Ha. rewrite Hx. apply elem_of_list_fmap. by exists f.
Qed.

(** ** Versions *)
Lemma hash_nodes_keys g : dkeys (hash_nodes g) = dkeys g.
Proof. unfold VersionModel.hash_nodes, dkeys. induction g as [|[k n] g IH]; [done|]. cbn [map]. rewrite !fmap_cons. by rewrite IH. Qed.
Lemma hash_nodes_get g x : dget (hash_nodes g) x = match dget g x with Some n => Some (version x n) | None => None end.
Proof. unfold VersionModel.hash_nodes. induction g as [|[k n] g IH]; [done|]. cbn [map fst snd dget]. destruct (decide (x = k)) as [-> |]; [done|apply IH]. Qed.
Definition code (f : fn) : string := hash (drop_docs (tree_of f)).
Lemma readable_hash f : f_readable f = true -> hash_source hash f = Some (code f).
Proof. unfold hash_source. by intros ->. Qed.
(** In a program, all variables have versions. *)
Lemma program_version config fns x : program fns -> getv (hash_nodes (graph_of config fns)) x = None <-> ~ variable config fns x.
Proof.
  intros [Hn Hr]. unfold getv. rewrite hash_nodes_get. destruct (graph_get config fns x Hn) as [_ [(f & Hl & Hx & Hg)|[(_ & f & Hl & Hp & Hg)|[(_ & _ & Hc & Hg)|[Hv Hg]]]]]; rewrite Hg; unfold VersionModel.version; cbn.
  - rewrite readable_hash by apply Hr, Hl. split; [done|]. intros []. left. by exists f.
  - rewrite readable_hash by apply Hr, Hl. split; [done|]. intros []. right. left. by exists f.
  - split; [done|]. intros []. right. by right.
  - done.
Qed.
Lemma live_version config fns f : program fns -> live config fns f -> dget (hash_nodes (graph_of config fns)) (f_name f) = Some (Some (code f)).
Proof. intros [Hn Hr] Hl. rewrite hash_nodes_get, live_get by done. unfold VersionModel.version. cbn. by rewrite readable_hash by apply Hr, Hl. Qed.
Lemma values_program config fns v : program fns -> v ∈ map snd (hash_nodes (graph_of config fns)) -> exists s, v = Some s /\ ((exists f, live config fns f /\ s = code f) \/ s ∈ config).
Proof.
  intros Hp ([x w] & -> & Hin)%elem_of_list_fmap. destruct Hp as [Hn Hr]. destruct (graph_get config fns x Hn) as [Hnd Hcases]. apply elem_dget in Hin; [|by rewrite hash_nodes_keys].
  rewrite hash_nodes_get in Hin. destruct Hcases as [(f & Hl & Hx & Hg)|[(_ & f & Hl & _ & Hg)|[(_ & _ & Hc & Hg)|[_ Hg]]]]; rewrite Hg in Hin; [| | |done]; injection Hin as <-; unfold VersionModel.version; cbn.
  - rewrite readable_hash by apply Hr, Hl. eexists. split; [done|]. left. by exists f.
  - rewrite readable_hash by apply Hr, Hl. eexists. split; [done|]. left. by exists f.
  - exists x. split; [done|]. by right.
Qed.

(** ** Diffs *)
Lemma current_only_elem cur ref x : x ∈ current_only (diff_versions cur ref) <-> x ∈ dkeys cur /\ getv ref x = None.
Proof.
  cbn. split.
  - intros ([k v] & -> & [H1 H2]%elem_of_list_filter)%elem_of_list_fmap. split; [|done]. apply elem_of_list_fmap. by exists (k, v).
  - intros [([k v] & -> & Hin)%elem_of_list_fmap Hg]. apply elem_of_list_fmap. exists (k, v). split; [done|]. by apply elem_of_list_filter.
Qed.
Lemma reference_only_elem cur ref x : x ∈ reference_only (diff_versions cur ref) <-> x ∈ dkeys ref /\ getv cur x = None.
Proof. apply (current_only_elem ref cur). Qed.
Lemma edit_elem cur ref x : NoDup (dkeys cur) -> x ∈ edit (diff_versions cur ref) <-> exists v w, dget cur x = Some v /\ dget ref x = Some (Some w) /\ v <> Some w.
Proof.
  intros Hn. cbn. split.
  - intros ([k v] & -> & [[H1 H2] H3]%elem_of_list_filter)%elem_of_list_fmap. cbn [fst snd] in *. unfold getv in H1, H2. destruct (dget ref k) as [[w|]|]; [|done..]. exists v, w. split; [|done]. by apply elem_dget.
  - intros (v & w & Hv & Hw & Hne). apply elem_of_list_fmap. exists (x, v). split; [done|]. apply elem_of_list_filter. cbn [fst snd]. unfold getv. rewrite Hw. split; [done|]. by apply dget_elem.
Qed.

(** ** Same code, same versions *)
Definition like (f f' : fn) : Prop := same_code (tree_of f) (tree_of f') /\ f_readable f = f_readable f'.
Definition like_node (n n' : hnode) : Prop := h_external n = h_external n' /\
  match h_origins n, h_origins n' with None, None => True | Some [f], Some [f'] => like f f' | _, _ => False end.
Definition like_dict {A} (R : A -> A -> Prop) (d d' : dict A) : Prop := Forall2 (fun kv kv' => kv.1 = kv'.1 /\ R kv.2 kv'.2) d d'.
Lemma like_head f f' : like f f' -> f_name f = f_name f' /\ f_head f = f_head f'.
Proof. intros [H _]. unfold tree_of in H. by inversion H. Qed.
Lemma like_dget {A} (R : A -> A -> Prop) d d' x : like_dict R d d' -> match dget d x, dget d' x with Some a, Some a' => R a a' | None, None => True | _, _ => False end.
Proof. induction 1 as [|[k a] [k' a'] d d' [Hk Ha] _ IH]; [done|]. cbn in Hk. subst k'. cbn [dget]. by destruct (decide (x = k)). Qed.
Lemma like_dset {A} (R : A -> A -> Prop) d d' x a a' : like_dict R d d' -> R a a' -> like_dict R (dset d x a) (dset d' x a').
Proof.
  intros H Ha. induction H as [|[k b] [k' b'] d d' [Hk Hb] Hd IH]; cbn [dset].
  - constructor; [done|constructor].
  - cbn in Hk. subst k'. destruct (decide (x = k)); constructor; done.
Qed.
Lemma like_function_nodes config fns fns' : Forall2 like fns fns' -> like_dict like (function_nodes config fns) (function_nodes config fns').
Proof.
  intros H. unfold function_nodes. assert (Hd : like_dict like (@nil (name * fn)) []) by constructor. revert Hd. generalize (@nil (name * fn)) at 1 3. generalize (@nil (name * fn)).
  induction H as [|f f' fns fns' Hf _ IH]; intros d' d Hd; cbn [foldl]; [done|]. destruct (like_head f f' Hf) as [<- _]. destruct (decide _); apply IH; [done|]. by apply like_dset.
Qed.
Lemma like_add g g' x n n' : like_dict like_node g g' -> like_node n n' -> like_dict like_node (add_missing g x n) (add_missing g' x n').
Proof. intros Hg Hn. unfold add_missing. assert (H := like_dget _ _ _ x Hg). destruct (dget g x), (dget g' x); try done. by apply like_dset. Qed.
Lemma like_add_all (l : list name) n n' : like_node n n' -> forall g g', like_dict like_node g g' -> like_dict like_node (foldl (fun g p => add_missing g p n) g l) (foldl (fun g p => add_missing g p n') g' l).
Proof. intros Hn. induction l as [|x l IH]; intros g g' Hg; cbn [foldl]; [done|]. apply IH. by apply like_add. Qed.
Lemma like_graph config fns fns' : Forall2 like fns fns' -> like_dict like_node (graph_of config fns) (graph_of config fns').
Proof.
  intros H. unfold VersionModel.graph_of. assert (Hf := like_function_nodes config fns fns' H). set (fs := function_nodes config fns) in *. set (fs' := function_nodes config fns') in *.
  apply like_add_all; [done|].
  assert (H0 : like_dict like_node (map (fun kv => (kv.1, HNode false (Some [kv.2]))) fs) (map (fun kv => (kv.1, HNode false (Some [kv.2]))) fs')).
  { clear -Hf. induction Hf as [|[k f] [k' f'] fs fs' [Hk Hff] _ IH]; constructor; [|done]. cbn in *. done. }
  revert H0. generalize (map (fun kv => (kv.1, HNode false (Some [kv.2]))) fs) as g. generalize (map (fun kv => (kv.1, HNode false (Some [kv.2]))) fs') as g'. clearbody fs fs'.
  induction Hf as [|[k f] [k' f'] fs fs' [Hk Hff] _ IH]; intros g' g Hg; cbn [foldl snd]; [done|]. apply IH. cbn in Hff. unfold VersionModel.params_of. destruct (like_head f f' Hff) as [_ <-].
  apply like_add_all; [|done]. done.
Qed.
Lemma like_versions g g' : like_dict like_node g g' -> hash_nodes g = hash_nodes g'.
Proof.
  induction 1 as [|[k n] [k' n'] g g' [Hk [He Ho]] _ IH]; [done|]. cbn in *. subst k'. unfold VersionModel.hash_nodes in *. cbn. rewrite IH. do 2 f_equal. unfold VersionModel.version.
  destruct (h_origins n) as [[|f [|]]|], (h_origins n') as [[|f' [|]]|]; try done; [|by rewrite He].
  destruct Ho as [Hs Hr]. unfold hash_source. rewrite Hr. apply drop_same in Hs. by rewrite Hs.
Qed.
Lemma filter_none {A} (P : A -> Prop) `{forall x, Decision (P x)} (l : list A) : (forall x, P x -> x ∈ l -> False) -> filter P l = [].
Proof.
  intros Hno. destruct (filter P l) as [|x l'] eqn:Ef; [done|]. assert (Hx : x ∈ filter P l) by (rewrite Ef; by left). apply elem_of_list_filter in Hx as [Hp Hin]. by destruct (Hno x).
Qed.
Lemma diff_self d : NoDup (dkeys d) -> (forall x v, (x, v) ∈ d -> v <> None) -> diff_versions d d = Diff [] [] [].
Proof.
  intros Hn Hv. unfold diff_versions. assert (H1 : filter (fun kv => getv d kv.1 = None) d = []).
  { apply filter_none. intros [x v] Hg Hin. cbn in Hg. unfold getv in Hg. rewrite (elem_dget d x v Hn Hin) in Hg. by apply (Hv x v). }
  assert (H2 : filter (fun kv => getv d kv.1 <> None /\ kv.2 <> getv d kv.1) d = []).
  { apply filter_none. intros [x v] Hg Hin. cbn in Hg. unfold getv in Hg. rewrite (elem_dget d x v Hn Hin) in Hg. tauto. }
  rewrite H1, H2. done.
Qed.

(** ** Versions of dataflows *)
Lemma omap_somes (l : list (option string)) : (forall v, v ∈ l -> exists s, v = Some s) -> map Some (omap id l) = l.
Proof.
  induction l as [|v l IH]; intros H; [done|]. destruct (H v) as [s ->]; [by left|]. cbn. f_equal. apply IH. intros v Hv. apply H. by right.
Qed.
Lemma hash_dataflow_ok (d : dict (option string)) : (forall v, v ∈ map snd d -> exists s, v = Some s) -> hash_dataflow sha d = Some (sha (map Some (merge_sort str_le (omap id (map snd d))))).
Proof.
  intros H. unfold hash_dataflow. assert (Hall : forallb (fun v => match v with Some _ => true | None => false end) (map snd d) = true).
  { apply forallb_forall. intros v Hv. apply elem_of_list_In in Hv. by destruct (H v Hv) as [s ->]. }
  destruct (map snd d) as [|v [|w vs]] eqn:Ed.
  - done.
  - destruct (H v) as [s ->]; [by left|]. do 2 f_equal.
  - by rewrite Hall.
Qed.
Lemma hash_dataflow_values (d d' : dict (option string)) : sha_tells sha -> (forall v, v ∈ map snd d -> exists s, v = Some s) -> (forall v, v ∈ map snd d' -> exists s, v = Some s) ->
  hash_dataflow sha d = hash_dataflow sha d' -> map snd d ≡ₚ map snd d'.
Proof.
  intros Hs H H' He. rewrite !hash_dataflow_ok in He by done. injection He as He%Hs. assert (Hm : merge_sort str_le (omap id (map snd d)) = merge_sort str_le (omap id (map snd d'))).
  { clear -He. revert He. generalize (merge_sort str_le (omap id (map snd d))) as l. generalize (merge_sort str_le (omap id (map snd d'))) as l'. intros l' l. revert l'. induction l as [|s l IH]; intros [|s' l']; cbn; try done. intros [= -> He]. f_equal. by apply IH. }
  rewrite <- (omap_somes (map snd d) H), <- (omap_somes (map snd d') H'). apply Permutation_map. rewrite <- (merge_sort_Permutation str_le (omap id (map snd d))), <- (merge_sort_Permutation str_le (omap id (map snd d'))). by rewrite Hm.
Qed.
End Proofs.

Section Against.
Variable hash : tree -> string.
Variable params : string -> list name.
Notation graph_of := (graph_of params).
Notation hash_nodes := (hash_nodes hash).
Implicit Types (config : list name) (fns : list fn) (g : hgraph).

Lemma map_nodes_some g : (forall x n, (x, n) ∈ g -> h_origins n <> Some []) -> exists d, map_nodes g = Some d.
Proof.
  induction g as [|[x n] g IH]; intros H; [by eexists|]. cbn. destruct IH as [d Hd]; [intros y m Hin; apply (H y); by right|]. rewrite Hd.
  assert (Hx := H x n ltac:(by left)). destruct (h_origins n) as [[|f l]|]; [done|by eexists|by eexists].
Qed.
Lemma map_nodes_get g d x : NoDup (dkeys g) -> map_nodes g = Some d ->
  dget d x = match dget g x with Some n => match h_origins n with Some (f :: _) => Some (f_name f) | _ => None end | None => None end.
Proof.
  revert d x. induction g as [|[k n] g IH]; intros d x Hn Hd; cbn [map_nodes] in Hd; [by injection Hd as <-|]. change (dkeys ((k, n) :: g)) with (k :: dkeys g) in Hn. apply NoDup_cons in Hn as [Hk Hn]. cbn [dget].
  assert (Hskip : forall d, map_nodes g = Some d -> dget d k = None) by (intros e He; rewrite (IH e k Hn He); by rewrite (proj2 (dget_None_key g k) Hk)).
  destruct (h_origins n) as [[|f l]|] eqn:Eo; [done| |].
  - destruct (map_nodes g) as [e|]; [|done]. injection Hd as <-. cbn [dget]. destruct (decide (x = k)); [by rewrite Eo|by apply IH].
  - destruct (decide (x = k)) as [-> |]; [rewrite Eo; by apply Hskip|by apply IH].
Qed.
Lemma graph_origins config fns : NoDup (map f_name fns) -> forall x n, (x, n) ∈ graph_of config fns -> h_origins n <> Some [].
Proof.
  intros Hn x n Hin. destruct (graph_get params config fns x Hn) as [Hnd Hc]. apply elem_dget in Hin; [|done]. rewrite Hin in Hc.
  destruct Hc as [(f & _ & _ & [= ->])|[(_ & f & _ & _ & [= ->])|[(_ & _ & _ & [= ->])|[_ ?]]]]; done.
Qed.
Lemma against_elem nodes origins n2o added code_ : against_nodes nodes origins n2o = Some (added, code_) ->
  (forall x, x ∈ added <-> exists v o, (x, v) ∈ nodes /\ dget n2o x = Some o /\ dget origins o = None) /\
  (forall x, x ∈ code_ <-> exists v o w, (x, v) ∈ nodes /\ dget n2o x = Some o /\ dget origins o = Some w /\ v <> Some w).
Proof.
  revert added code_. induction nodes as [|[k v] nodes IH]; intros added code_ H; cbn [against_nodes] in H.
  - injection H as <- <-. split; intros x; rewrite elem_of_nil; (split; [done|]); [intros (? & ? & Hx & _)|intros (? & ? & ? & Hx & _)]; by apply elem_of_nil in Hx.
  - destruct (dget n2o k) as [o|] eqn:Eo; [|done]. destruct (against_nodes nodes origins n2o) as [[a c]|]; [|done]. destruct (IH a c eq_refl) as [IA IC].
    assert (Htail : forall x v', (x, v') ∈ nodes -> (x, v') ∈ (k, v) :: nodes) by (intros; by right).
    destruct (dget origins o) as [w|] eqn:Ew; [destruct (decide (v = Some w)) as [Hv|Hv]|]; injection H as <- <-.
    + split; intros x; [rewrite IA|rewrite IC]; split.
      * intros (v' & o' & Hi & Ho). exists v', o'. split; [by apply Htail|done].
      * intros (v' & o' & [[= -> ->]|Hi]%elem_of_cons & Ho & Hw); [congruence|by exists v', o'].
      * intros (v' & o' & w' & Hi & Ho). exists v', o', w'. split; [by apply Htail|done].
      * intros (v' & o' & w' & [[= -> ->]|Hi]%elem_of_cons & Ho & Hw & Hne); [congruence|by exists v', o', w'].
    + split; intros x; [rewrite IA|rewrite elem_of_cons, IC]; split.
      * intros (v' & o' & Hi & Ho). exists v', o'. split; [by apply Htail|done].
      * intros (v' & o' & [[= -> ->]|Hi]%elem_of_cons & Ho & Hw); [congruence|by exists v', o'].
      * intros [-> |(v' & o' & w' & Hi & Ho)]; [exists v, o, w; split; [by left|done]|]. exists v', o', w'. split; [by apply Htail|done].
      * intros (v' & o' & w' & [[= -> ->]|Hi]%elem_of_cons & Ho & Hw & Hne); [by left|]. right. by exists v', o', w'.
    + split; intros x; [rewrite elem_of_cons, IA|rewrite IC]; split.
      * intros [-> |(v' & o' & Hi & Ho)]; [exists v, o; split; [by left|done]|]. exists v', o'. split; [by apply Htail|done].
      * intros (v' & o' & [[= -> ->]|Hi]%elem_of_cons & Ho & Hw); [by left|]. right. by exists v', o'.
      * intros (v' & o' & w' & Hi & Ho). exists v', o', w'. split; [by apply Htail|done].
      * intros (v' & o' & w' & [[= -> ->]|Hi]%elem_of_cons & Ho & Hw & Hne); [congruence|by exists v', o', w'].
Qed.
Lemma against_some nodes origins n2o : (forall x, x ∈ dkeys nodes -> dget n2o x <> None) -> exists r, against_nodes nodes origins n2o = Some r.
Proof.
  induction nodes as [|[k v] nodes IH]; intros H; [by eexists|]. cbn. change (dkeys ((k, v) :: nodes)) with (k :: dkeys nodes) in H.
  destruct (dget n2o k) as [o|] eqn:Eo; [|destruct (H k); [by left|done]]. destruct IH as [[a c] ->]; [intros x Hx; apply H; by right|].
  destruct (dget origins o) as [w|]; [destruct (decide _)|]; by eexists.
Qed.
Lemma hash_functions_ok fns : (forall f, f ∈ fns -> f_readable f = true) -> hash_functions hash fns = Some (map (fun f => (f_name f, code hash f)) fns).
Proof.
  induction fns as [|f fns IH]; intros H; [done|]. cbn. rewrite (readable_hash hash f) by (apply H; by left). rewrite IH; [done|]. intros f' Hf'. apply H. by right.
Qed.
Lemma functions_get fns x : NoDup (map f_name fns) -> match dget (map (fun f => (f_name f, code hash f)) fns) x with
  | Some w => exists f, f ∈ fns /\ f_name f = x /\ w = code hash f | None => forall f, f ∈ fns -> f_name f <> x end.
Proof.
  induction fns as [|f fns IH]; intros Hn; cbn [map dget]; [intros f Hf; by apply elem_of_nil in Hf|]. cbn [map] in Hn. apply NoDup_cons in Hn as [Hf Hn].
  destruct (decide (x = f_name f)) as [-> |Hne]; [exists f; split; [by left|done]|]. specialize (IH Hn). destruct (dget _ x).
  - destruct IH as (f' & Hin & ?). exists f'. split; [by right|done].
  - intros f' [-> |Hin]%elem_of_cons; [congruence|by apply IH].
Qed.
End Against.
