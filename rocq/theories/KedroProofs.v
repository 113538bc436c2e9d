From Verif Require Import Base Dict KedroModel KedroSpec.

Section Clean.
Lemma substring_all s : String.substring 0 (String.length s) s = s.
Proof. induction s as [|c s IH]; [done|]. cbn. by rewrite IH. Qed.
Lemma prefix_params s : String.prefix "params:" s = true -> exists u, s = ("params:" ++ u)%string.
Proof.
  intros H. do 7 (destruct s as [|? s]; [done|]; cbn in H; match type of H with context [if ?x then _ else _] => destruct x; [subst|done] end). by exists s.
Qed.
Lemma clean_prefix u : clean ("params:" ++ u) = u.
Proof.
  unfold clean. assert (E : String.prefix "params:" ("params:" ++ u) = true) by (cbn; by destruct u). rewrite E.
  assert (E2 : String.length ("params:" ++ u) - 7 = String.length u) by (by rewrite <- (Nat.sub_0_r (String.length u))). rewrite E2. cbn. apply substring_all.
Qed.
Lemma clean_iff s t : clean s = t <-> unprefixed s t.
Proof.
  split.
  - intros <-. destruct (String.prefix "params:" s) eqn:E.
    + destruct (prefix_params s E) as [u ->]. left. by rewrite clean_prefix.
    + right. unfold clean. rewrite E. split; [done|]. intros u ->. cbn in E. by destruct u.
  - intros [->|[-> Hn]]; [apply clean_prefix|]. unfold clean. destruct (String.prefix "params:" t) eqn:E; [|done].
    destruct (prefix_params t E) as [u Hu]. by destruct (Hn u).
Qed.
End Clean.

Section Dsets.
Context {A B : Type} (f : B -> string) (g : B -> A).
Notation sets := (fold_left (fun d x => dset d (f x) (g x))).
Lemma sets_other l d k : k ∉ map f l -> dget (sets l d) k = dget d k.
Proof.
  revert d. induction l as [|x l IH]; intros d H; [done|]. cbn in *. apply not_elem_of_cons in H as [H1 H2]. rewrite IH by done. by rewrite dget_dset_ne.
Qed.
Lemma sets_in l d x : NoDup (map f l) -> x ∈ l -> dget (sets l d) (f x) = Some (g x).
Proof.
  revert d. induction l as [|y l IH]; intros d Hnd Hx; [by apply elem_of_nil in Hx|]. cbn in *. apply NoDup_cons in Hnd as [Hy Hnd].
  apply elem_of_cons in Hx as [->|Hx]; [|by apply IH]. rewrite sets_other by done. by rewrite dget_dset_eq.
Qed.
End Dsets.

Lemma zip_in {A B} (l : list A) (k : list B) i x y : l !! i = Some x -> k !! i = Some y -> (x, y) ∈ zip l k.
Proof. intros H1 H2. apply elem_of_list_lookup. exists i. rewrite lookup_zip_with. rewrite H1. cbn. by rewrite H2. Qed.
Lemma dget_zip {A} (l : list string) (k : list A) i x y : NoDup l -> l !! i = Some x -> k !! i = Some y -> dget (zip l k) x = Some y.
Proof.
  revert k i. induction l as [|a l IH]; intros [|b k] [|i] Hnd H1 H2; cbn in *; try done.
  - injection H1 as ->. injection H2 as ->. by rewrite decide_True.
  - apply NoDup_cons in Hnd as [Ha Hnd]. rewrite decide_False; [by apply (IH k i)|]. intros ->. destruct Ha. by apply elem_of_list_lookup_2 in H1.
Qed.
Lemma dget_zip_None {A} (l : list string) (k : list A) x : x ∉ l -> dget (zip l k) x = None.
Proof.
  revert k. induction l as [|a l IH]; intros [|b k] H; cbn in *; try done. apply not_elem_of_cons in H as [H1 H2]. rewrite decide_False by done. by apply IH.
Qed.

Section Proofs.
Context {V : Type}.
Variable members : V -> option (list V).
Variable mkdict : list (string * V) -> V.
Variable field : V -> string -> option V.
Notation hrun := (hrun members mkdict field).
Notation krun := (krun members field).
Notation pnames n := (map fst (kf_params (kn_fun n))).

(** ** Depth *)
Lemma gather_mono (f f' : string -> res kerr V) there l kw : (forall k v, f k = Ok v -> f' k = Ok v) -> gather f there l = Ok kw -> gather f' there l = Ok kw.
Proof.
  intros Hf. revert kw. induction l as [|[k o] l IH]; intros kw; cbn [gather]; [done|]. destruct (o && negb (there k)); [apply IH|].
  destruct (f k) as [v|e] eqn:E; [|done]. rewrite (Hf _ _ E). destruct (gather f there l) as [kw'|e]; [|done]. intros [= <-]. by rewrite (IH kw').
Qed.
Lemma hrun_step m g given k : hrun (S m) g given k =
  match dget g k with
  | None => match dget given k with Some v => Ok v | None => Err KMissing end
  | Some n => match gather (hrun m g given) (is_there g given) (needs n) with Err e => Err e | Ok kw => call members mkdict field n kw end
  end.
Proof. done. Qed.
Lemma hrun_S m g given k v : hrun m g given k = Ok v -> hrun (S m) g given k = Ok v.
Proof.
  revert k v. induction m as [|m IH]; intros k v; [done|]. intros H. rewrite hrun_step in H. rewrite hrun_step. destruct (dget g k) as [n|]; [|done].
  destruct (gather (hrun m g given) _ (needs n)) as [kw|e] eqn:E; [|done]. by rewrite (gather_mono _ _ _ _ _ IH E).
Qed.
Lemma hrun_le m m' g given k v : m <= m' -> hrun m g given k = Ok v -> hrun m' g given k = Ok v.
Proof. induction 1 as [|m' _ IH]; [done|]. intros H. apply hrun_S. by apply IH. Qed.
Lemma hrun_there m g given k v : hrun m g given k = Ok v -> is_there g given k = true.
Proof. destruct m; [done|]. cbn [KedroModel.hrun]. unfold is_there. destruct (dget g k); [done|]. by destruct (dget given k). Qed.
Lemma hrun_all g given cs (vs : list V) : Forall2 (fun c v => exists m, hrun m g given c = Ok v) cs vs -> exists m, Forall2 (fun c v => hrun m g given c = Ok v) cs vs.
Proof.
  induction 1 as [|c v cs vs [m Hm] _ [m' IH]]; [exists 0; constructor|]. exists (m `max` m'). constructor; [apply (hrun_le m); [lia|exact Hm]|].
  eapply Forall2_impl; [exact IH|]. intros x y Hxy. apply (hrun_le m'); [lia|exact Hxy].
Qed.

(** ** Binding of inputs *)
Lemma omap_all {A B} (f : A -> option B) l : (forall x, x ∈ l -> is_Some (f x)) -> length (omap f l) = length l /\ forall i x, l !! i = Some x -> f x = omap f l !! i.
Proof.
  induction l as [|a l IH]; intros H; [done|]. destruct (H a) as [b Hb]; [by left|]. destruct IH as [IH1 IH2]; [intros x Hx; apply H; by right|].
  cbn. rewrite Hb. split; [cbn; by rewrite IH1|]. intros [|i] x; cbn; [intros [= <-]; done|apply IH2].
Qed.
Lemma bound (n : knode V) : plain_node n -> length (inputs_of n) = length (pnames n) /\ forall i p, pnames n !! i = Some p -> bound_to n i p = inputs_of n !! i.
Proof.
  intros Hp. pose proof (pl_bound _ Hp) as Hb. unfold inputs_of, bound_to. destruct (kn_inputs n) as [l|m]; [by rewrite map_length|].
  destruct (omap_all (fun p : string * option V => dget m p.1) (kf_params (kn_fun n))) as [H1 H2].
  { intros x Hx. apply Hb. apply elem_of_list_fmap. by exists x. }
  split; [by rewrite map_length|]. intros i p Hi. rewrite list_lookup_fmap in Hi. destruct (kf_params (kn_fun n) !! i) as [x|] eqn:E; [|done]. injection Hi as <-. by apply H2.
Qed.
Lemma cleaned_once (n : knode V) : plain_node n -> NoDup (map clean (inputs_of n)).
Proof.
  intros Hp. destruct (bound n Hp) as [Hl Hb]. apply NoDup_alt. intros i j t Hi Hj. rewrite list_lookup_fmap in Hi, Hj.
  destruct (inputs_of n !! i) as [x|] eqn:Ei; [|done]. destruct (inputs_of n !! j) as [y|] eqn:Ej; [|done]. injection Hi as Hi. injection Hj as Hj.
  destruct (lookup_lt_is_Some_2 (pnames n) i) as [p Hpi]; [rewrite <- Hl; by eapply lookup_lt_Some|].
  destruct (lookup_lt_is_Some_2 (pnames n) j) as [q Hqj]; [rewrite <- Hl; by eapply lookup_lt_Some|].
  eapply (pl_once _ Hp i j p q x y t); [done|done|by rewrite Hb|by rewrite Hb|by apply clean_iff|by apply clean_iff].
Qed.
Lemma kargs_bound value (n : knode V) i ps vs xs : kargs value n i ps = Ok vs -> length xs = length ps -> (forall j p, map fst ps !! j = Some p -> bound_to n (i + j) p = xs !! j) ->
  Forall2 (fun x v => value x = Ok v) xs vs.
Proof.
  revert i vs xs. induction ps as [|[p d] ps IH]; intros i vs [|x xs] H Hl Hb; cbn in Hl; try done.
  - injection H as <-. constructor.
  - cbn [kargs] in H. pose proof (Hb 0 p eq_refl) as H0. rewrite Nat.add_0_r in H0. cbn in H0. rewrite H0 in H.
    destruct (value x) as [v|e] eqn:Ev; [|done]. destruct (kargs value n (S i) ps) as [vs'|e] eqn:E; [|done]. injection H as <-. constructor; [done|].
    apply (IH (S i) vs' xs E); [lia|]. intros j q Hj. specialize (Hb (S j) q Hj). by rewrite Nat.add_succ_r in Hb.
Qed.

(** ** Calling renamed functions *)
Lemma new_params_get (n : knode V) i p c : plain_node n -> pnames n !! i = Some p -> map clean (inputs_of n) !! i = Some c -> renamed (new_params n) p = c.
Proof. intros Hp H1 H2. unfold renamed, new_params. by rewrite (dget_zip _ _ i p c (pl_params _ Hp)). Qed.
Lemma reverse_get (n : knode V) i p c : plain_node n -> pnames n !! i = Some p -> map clean (inputs_of n) !! i = Some c -> renamed (reverse (new_params n)) c = p.
Proof.
  intros Hp H1 H2. unfold renamed, reverse. pose proof (sets_in (snd : string * string -> string) fst (new_params n) [] (p, c)) as H. cbn [fst snd] in H. rewrite H; [done| |by eapply zip_in].
  unfold new_params. destruct (bound n Hp) as [Hl _]. rewrite snd_zip; [by apply cleaned_once|]. rewrite map_length. lia.
Qed.
Lemma back_get (n : knode V) (vs : list V) i p v : plain_node n -> length vs = length (inputs_of n) -> pnames n !! i = Some p -> vs !! i = Some v ->
  dget (back (new_params n) (zip (map clean (inputs_of n)) vs)) p = Some v.
Proof.
  intros Hp Hl Hi Hv. destruct (bound n Hp) as [Hb _].
  destruct (lookup_lt_is_Some_2 (map clean (inputs_of n)) i) as [c Hc]; [rewrite map_length, <- Hl; by eapply lookup_lt_Some|].
  unfold back. pose proof (sets_in (fun p : string * V => renamed (reverse (new_params n)) p.1) snd (zip (map clean (inputs_of n)) vs) [] (c, v)) as H. cbn [fst snd] in H.
  rewrite (reverse_get n i p c Hp Hi Hc) in H. apply H; [|by eapply zip_in].
  assert (E : map (fun p : string * V => renamed (reverse (new_params n)) p.1) (zip (map clean (inputs_of n)) vs) = pnames n); [|rewrite E; apply (pl_params _ Hp)].
  apply list_eq. intros j. rewrite list_lookup_fmap, lookup_zip_with.
  destruct (map clean (inputs_of n) !! j) as [cj|] eqn:Ej; cbn.
  - destruct (lookup_lt_is_Some_2 vs j) as [vj Hvj]; [rewrite Hl, <- (map_length clean); by eapply lookup_lt_Some|]. rewrite Hvj. cbn.
    destruct (lookup_lt_is_Some_2 (pnames n) j) as [pj Hpj]; [rewrite <- Hb, <- (map_length clean); by eapply lookup_lt_Some|].
    rewrite (reverse_get n j pj cj Hp Hpj Ej). done.
  - symmetry. apply lookup_ge_None. apply lookup_ge_None in Ej. rewrite map_length in Ej. lia.
Qed.
Lemma arguments_ok (ps : list (string * option V)) kw vs : length vs = length ps -> (forall i p v, map fst ps !! i = Some p -> vs !! i = Some v -> dget kw p = Some v) -> arguments ps kw = Ok vs.
Proof.
  revert vs. induction ps as [|[p d] ps IH]; intros [|v vs] Hl H; cbn in Hl; try done. cbn [arguments]. rewrite (H 0 p v eq_refl eq_refl).
  rewrite (IH vs); [done|lia|]. intros i q w H1 H2. by apply (H (S i)).
Qed.
Lemma gather_ok value there l cs vs : map fst l = cs -> Forall2 (fun c v => value c = Ok v /\ there c = true) cs vs -> gather value there l = Ok (zip cs vs : list (string * V)).
Proof.
  intros <-. revert vs. induction l as [|[k o] l IH]; intros vs H; cbn in H; inversion H as [|? v ? vs' [H1 H2] H3]; subst; [done|].
  cbn [gather]. rewrite H2, andb_false_r, H1. by rewrite (IH vs' H3).
Qed.
Lemma needs_fun (n : knode V) d u : plain_node n -> map fst (needs (HNode d (HFun (kn_fun n) u) (new_params n))) = map clean (inputs_of n).
Proof.
  intros Hp. destruct (bound n Hp) as [Hb _]. unfold needs. cbn [hn_body hn_rename params_of]. rewrite !map_map. cbn [fst].
  rewrite <- (map_map fst (renamed (new_params n))). apply list_eq. intros i. rewrite list_lookup_fmap.
  destruct (pnames n !! i) as [p|] eqn:E; cbn.
  - destruct (lookup_lt_is_Some_2 (map clean (inputs_of n)) i) as [c Hc]; [rewrite map_length, Hb; by eapply lookup_lt_Some|]. by rewrite Hc, (new_params_get n i p c).
  - symmetry. apply lookup_ge_None. apply lookup_ge_None in E. rewrite map_length. lia.
Qed.
Lemma call_fun (n : knode V) d u (vs : list V) : plain_node n -> length vs = length (inputs_of n) ->
  call members mkdict field (HNode d (HFun (kn_fun n) u) (new_params n)) (zip (map clean (inputs_of n)) vs) =
  match kf_run (kn_fun n) vs, u with
  | Err e, _ => Err e
  | Ok r, None => Ok r
  | Ok r, Some outs => match members r with Some l => Ok (mkdict (zip outs l)) | None => Err KType end
  end.
Proof.
  intros Hp Hl. unfold call. cbn [hn_body hn_rename call_body]. rewrite (arguments_ok _ _ vs); [done| |].
  - destruct (bound n Hp) as [Hb _]. rewrite Hl, Hb. by rewrite map_length.
  - intros i p v H1 H2. by apply (back_get n vs i).
Qed.
Lemma run_fun m g given (n : knode V) k d u vs : plain_node n -> dget g k = Some (HNode d (HFun (kn_fun n) u) (new_params n)) ->
  Forall2 (fun c v => hrun m g given c = Ok v) (map clean (inputs_of n)) vs ->
  hrun (S m) g given k = match kf_run (kn_fun n) vs, u with
  | Err e, _ => Err e
  | Ok r, None => Ok r
  | Ok r, Some outs => match members r with Some l => Ok (mkdict (zip outs l)) | None => Err KType end
  end.
Proof.
  intros Hp Hg Hv. rewrite hrun_step, Hg. rewrite (gather_ok _ _ _ (map clean (inputs_of n)) vs).
  - apply call_fun; [done|]. apply Forall2_length in Hv. by rewrite map_length in Hv.
  - by apply needs_fun.
  - eapply Forall2_impl; [exact Hv|]. intros c v H. split; [exact H|]. exact (hrun_there _ _ _ _ _ H).
Qed.
Lemma run_field m g given (n : knode V) k o v : plain_node n -> 1 < length (datasets n) -> dget g k = Some (HNode o (HField (kf_name (kn_fun n)) o) (new_params n)) ->
  hrun m g given (kf_name (kn_fun n)) = Ok v -> hrun (S m) g given k = match field v o with Some w => Ok w | None => Err KField end.
Proof.
  intros Hp Hm Hg Hv. destruct (pl_name _ Hp Hm) as [Hn1 Hn2]. destruct (bound n Hp) as [Hl Hb].
  assert (E1 : renamed (new_params n) (kf_name (kn_fun n)) = kf_name (kn_fun n)) by (unfold renamed, new_params; by rewrite dget_zip_None).
  assert (E2 : renamed (reverse (new_params n)) (kf_name (kn_fun n)) = kf_name (kn_fun n)).
  { unfold renamed, reverse. rewrite (sets_other (snd : string * string -> string) fst); [done|]. intros Hin. unfold new_params in Hin. rewrite snd_zip in Hin by (rewrite map_length; lia).
    apply elem_of_list_lookup in Hin as [i Hi]. rewrite list_lookup_fmap in Hi. destruct (inputs_of n !! i) as [x|] eqn:E; [|done]. injection Hi as Hi.
    destruct (lookup_lt_is_Some_2 (pnames n) i) as [p Hpi]; [rewrite <- Hl; by eapply lookup_lt_Some|]. apply (Hn2 i p x); [done|by rewrite Hb|by apply clean_iff]. }
  rewrite hrun_step, Hg. unfold needs. cbn [hn_body hn_rename params_of map fst snd]. rewrite E1. cbn [gather andb]. rewrite Hv.
  unfold call. cbn [hn_body hn_rename]. unfold back. cbn [fold_left fst snd]. rewrite E2. cbn [call_body dset dget]. by rewrite decide_True.
Qed.

(** ** The conversion *)
Definition h_nodes (n : knode V) : list (hnode V) :=
  match datasets n with
  | [] | [_] => [HNode (base_name n) (HFun (kn_fun n) None) (new_params n)]
  | outs => HNode (kf_name (kn_fun n)) (HFun (kn_fun n) (match kn_outputs n with OList l => Some l | _ => None end)) (new_params n) :: map (fun o => HNode o (HField (kf_name (kn_fun n)) o) (new_params n)) outs
  end.
Lemma h_names (n : knode V) : map hn_name (h_nodes n) = names n.
Proof. unfold h_nodes, names, base_name. change (outputs_of n) with (datasets n). destruct (datasets n) as [|d [|d' ds]]; [done|done|]. cbn. f_equal. f_equal. f_equal. rewrite map_map. cbn. apply map_id. Qed.
Definition fine (anns : dict ann) (l : list string) : Prop := forall k a, dget anns k = Some a -> a = ADict /\ k ∉ l.
Lemma node_ok anns (n : knode V) l : plain_node n -> NoDup (names n ++ l) -> fine anns (names n ++ l) -> exists anns', k_node_to_h_nodes anns n = (Ok (h_nodes n), anns') /\ fine anns' l.
Proof.
  intros Hp Hnd Hf. pose proof (pl_outputs _ Hp) as Ho. unfold k_node_to_h_nodes. cbn zeta.
  assert (Hf' : fine anns l) by (intros k a H; destruct (Hf k a H) as [-> Hk]; split; [done|]; by intros ?; apply Hk, elem_of_app; right).
  assert (Hann : kf_ann (kn_fun n) <> ANone -> annotation anns (kn_fun n) <> ANone).
  { intros Hne. unfold annotation. destruct (dget anns _) as [a|] eqn:E; [|done]. by destruct (Hf _ _ E) as [-> _]. }
  assert (Hfresh : 1 < length (datasets n) -> annotation anns (kn_fun n) = kf_ann (kn_fun n)).
  { intros Hlen. unfold annotation. destruct (dget anns _) as [a|] eqn:E; [|done]. destruct (Hf _ _ E) as [_ Hk]. destruct Hk. apply elem_of_app. left. unfold names.
    destruct (datasets n) as [|d [|d' ds]]; cbn in Hlen; [lia|lia|by left]. }
  unfold h_nodes, base_name, expand_k_node. change (outputs_of n) with (datasets n). unfold datasets in *. destruct (kn_outputs n) as [|d|ds|m] eqn:Eo.
  - exists anns. split; [|done]. destruct (annotation anns (kn_fun n)) eqn:E; [by destruct (Hann Ho)|done..].
  - exists anns. split; [|done]. destruct (annotation anns (kn_fun n)) eqn:E; [by destruct (Hann Ho)|done..].
  - destruct Ho as (Hlen & _ & Ha). rewrite (Hfresh Hlen), Ha. destruct ds as [|d [|d' ds]]; cbn in Hlen; [lia|lia|].
    eexists. split; [done|]. intros k a. destruct (decide (k = kf_name (kn_fun n))) as [->|Hne]; [|rewrite dget_dset_ne by done; apply Hf'].
    rewrite dget_dset_eq. intros [= <-]. split; [done|]. intros Hk. unfold names in Hnd. unfold datasets in Hnd. rewrite Eo in Hnd. cbn in Hnd. apply NoDup_cons in Hnd as [Hnot _]. apply Hnot. do 2 right. apply elem_of_app. by right.
  - destruct Ho as (Hlen & Ha & _). rewrite (Hfresh ltac:(by rewrite map_length)), Ha. destruct m as [|[k d] [|[k' d'] m]]; cbn in Hlen; [lia|lia|].
    exists anns. by split.
Qed.
Lemma convert_ok anns (p : list (knode V)) : Forall plain_node p -> NoDup (p ≫= names) -> fine anns (p ≫= names) -> exists anns', convert anns p = (Ok (p ≫= h_nodes), anns').
Proof.
  revert anns. induction p as [|n p IH]; intros anns Hp Hnd Hf; [by eexists|]. inversion Hp; subst. cbn [mbind list_bind] in Hnd, Hf. cbn [convert].
  destruct (node_ok anns n (p ≫= names)) as (anns1 & -> & Hf1); [done..|]. apply NoDup_app in Hnd as (_ & _ & Hnd). destruct (IH anns1) as (anns2 & ->); [done..|]. by eexists.
Qed.
Lemma convert_names (p : list (knode V)) : map hn_name (p ≫= h_nodes) = p ≫= names.
Proof. induction p as [|n p IH]; [done|]. cbn [mbind list_bind]. rewrite map_app. f_equal; [apply h_names|apply IH]. Qed.
Lemma by_name_in (p : list (knode V)) n h : NoDup (p ≫= names) -> n ∈ p -> h ∈ h_nodes n -> dget (by_name (p ≫= h_nodes)) (hn_name h) = Some h.
Proof.
  intros Hnd Hn Hh. unfold by_name. apply (sets_in hn_name (fun x => x)); [by rewrite convert_names|]. apply elem_of_list_bind. by exists n.
Qed.
Lemma by_name_other (p : list (knode V)) k : k ∉ p ≫= names -> dget (by_name (p ≫= h_nodes)) k = None.
Proof. intros H. unfold by_name. rewrite (sets_other hn_name (fun x => x)); [done|]. by rewrite convert_names. Qed.

(** ** Values *)
Lemma producer_in (p : list (knode V)) d n : producer p d = Some n -> n ∈ p /\ d ∈ datasets n.
Proof. induction p as [|a p IH]; cbn; [done|]. case_decide; [intros [= <-]; by split; [left|]|]. intros H'. destruct (IH H'). by split; [right|]. Qed.
Lemma index_of_lookup d l i : index_of d l = Some i -> l !! i = Some d.
Proof.
  revert i. induction l as [|x l IH]; intros i; cbn; [done|]. case_decide; [intros [= <-]; by subst|]. destruct (index_of d l) as [j|]; [|done]. intros [= <-]. by apply IH.
Qed.
Lemma key_of_in d m k : key_of d m = Some k -> (k, d) ∈ m.
Proof. induction m as [|[k' x] m IH]; cbn; [done|]. case_decide; [intros [= <-]; subst; by left|]. intros H'. right. by apply IH. Qed.

Hypothesis field_mkdict : forall l k, NoDup (map fst l) -> field (mkdict l) k = dget l k.
Lemma values p gk gh m d v t : plain p -> same_inputs p gk gh -> krun m p gk d = Ok v -> unprefixed d t ->
  exists m', hrun m' (by_name (p ≫= h_nodes)) gh t = Ok v.
Proof.
  intros Hp [Hs1 Hs2]. revert d v t. induction m as [|m IH]; intros d v t; [done|]. intros H Ht. cbn [KedroSpec.krun] in H.
  destruct (producer p d) as [n|] eqn:Epr.
  2: { destruct (dget gk d) as [w|] eqn:Eg; [|done]. injection H as ->. destruct (Hs2 d v t Eg Epr Ht) as [Hg Hn]. exists 1. cbn [KedroModel.hrun]. rewrite (by_name_other p t Hn). by rewrite Hg. }
  assert (t = d) as -> by (destruct Ht as [Ht|[Ht _]]; [by destruct (Hs1 d n Epr t)|done]).
  destruct (producer_in p d n Epr) as [Hn Hd]. pose proof (pn_nodes _ Hp) as Hall. rewrite Forall_forall in Hall. pose proof (Hall n Hn) as Hpn.
  destruct (bound n Hpn) as [Hl Hb].
  destruct (kargs (krun m p gk) n 0 (kf_params (kn_fun n))) as [vs|e] eqn:Ea; [|done].
  apply (kargs_bound _ _ _ _ _ (inputs_of n)) in Ea; [|by rewrite Hl, map_length|done].
  assert (Hc : Forall2 (fun c v => exists m', hrun m' (by_name (p ≫= h_nodes)) gh c = Ok v) (map clean (inputs_of n)) vs).
  { apply Forall2_fmap_l. eapply Forall2_impl; [done|]. intros x w Hx. apply (IH x w (clean x) Hx). by apply clean_iff. }
  apply hrun_all in Hc as [M HM].
  destruct (kf_run (kn_fun n) vs) as [r|e] eqn:Er; [|done].
  destruct (dataset members field (kn_outputs n) d r) as [w|] eqn:Ed; [|done]. injection H as ->.
  pose proof (pl_outputs _ Hpn) as Ho. pose proof (pn_names _ Hp) as Hnd.
  destruct (decide (1 < length (datasets n))) as [Hlen|Hlen].
  - assert (Hbase : dget (by_name (p ≫= h_nodes)) (kf_name (kn_fun n)) = Some (HNode (kf_name (kn_fun n)) (HFun (kn_fun n) (match kn_outputs n with OList l => Some l | _ => None end)) (new_params n))).
    { apply (by_name_in p n (HNode (kf_name (kn_fun n)) _ _)); [done|done|]. unfold h_nodes. destruct (datasets n) as [|x [|y ds]]; cbn in Hlen; [lia|lia|by left]. }
    assert (Hfield : dget (by_name (p ≫= h_nodes)) d = Some (HNode d (HField (kf_name (kn_fun n)) d) (new_params n))).
    { apply (by_name_in p n (HNode d _ _)); [done|done|]. unfold h_nodes. destruct (datasets n) as [|x [|y ds]]; cbn in Hlen; [lia|lia|]. right. apply elem_of_list_fmap. by exists d. }
    pose proof (run_fun M _ gh n _ _ _ vs Hpn Hbase HM) as Hrun. rewrite Er in Hrun. unfold dataset in Ed. unfold datasets in Hd, Hlen. destruct (kn_outputs n) as [|o|l|mm] eqn:Eo; cbn in Hlen; [lia|lia| |].
    + destruct (members r) as [ms|]; [|done]. destruct (index_of d l) as [i|] eqn:Ei; [|done]. destruct (decide (length ms = length l)) as [El|]; [|done].
      exists (S (S M)). rewrite (run_field (S M) _ gh n d d (mkdict (zip l ms)) Hpn); [|unfold datasets; by rewrite Eo|done|done].
      destruct Ho as (_ & Hnl & _). rewrite field_mkdict by (rewrite fst_zip by lia; done). rewrite (dget_zip l ms i d v); [done|done|by apply index_of_lookup|done].
    + destruct (key_of d mm) as [k|] eqn:Ek; [|done]. cbn in Ed. apply key_of_in in Ek. destruct Ho as (_ & _ & Hk). rewrite (Hk k d Ek) in Ed.
      exists (S (S M)). rewrite (run_field (S M) _ gh n d d r Hpn); [by rewrite Ed|unfold datasets; by rewrite Eo|done|done].
  - unfold datasets in Hd, Hlen. unfold dataset in Ed. destruct (kn_outputs n) as [|o|l|mm] eqn:Eo; [by apply elem_of_nil in Hd| |lia|rewrite map_length in Hlen; lia].
    apply elem_of_list_singleton in Hd as ->. injection Ed as ->.
    assert (Hbase : dget (by_name (p ≫= h_nodes)) o = Some (HNode o (HFun (kn_fun n) None) (new_params n))).
    { apply (by_name_in p n (HNode o _ _)); [done|done|]. unfold h_nodes, base_name, datasets, outputs_of. rewrite Eo. by left. }
    exists (S M). rewrite (run_fun M _ gh n _ _ _ vs Hpn Hbase HM). by rewrite Er.
Qed.
End Proofs.
