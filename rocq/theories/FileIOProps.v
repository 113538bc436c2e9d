(** C94: what is saved in files is what is loaded. *)
From Coq Require Import Ascii.
From Verif Require Import Base Dict FileIOModel FileIOSpec.

(** ** Text *)
Lemma no_returns_cons c s : no_returns (String c s) <-> c <> cr /\ no_returns s.
Proof.
  split.
  - intros H. split; [intros ->; by apply (H "" s)|]. intros a b ->. by apply (H (String c a) b).
  - intros [Hc H] [|a a'] b; [intros [= Hc' _]; by apply Hc|]. intros [= _ E]. by apply (H a' b).
Qed.
Lemma read_same s : no_returns s -> read_text s = s.
Proof. induction s as [|c s IH]; [done|]. intros [Hc H]%no_returns_cons. cbn [read_text]. rewrite decide_False by done. by rewrite IH. Qed.
Lemma read_none s : no_returns (read_text s).
Proof.
  assert (H : forall n s, String.length s <= n -> no_returns (read_text s)); [|by apply (H (String.length s))]. clear s.
  assert (H0 : no_returns "") by (intros [|? ?] ?; done).
  induction n as [|n IH]; intros [|c s] Hn; cbn in Hn; try done; try lia. cbn [read_text]. destruct (decide (c = cr)) as [->|Hc].
  - apply no_returns_cons. split; [done|]. destruct s as [|c' s']; [done|]. cbn in Hn. destruct (decide (c' = lf)); apply IH; cbn; lia.
  - apply no_returns_cons. split; [done|]. apply IH. lia.
Qed.

(** ** JSON *)
#[local] Instance pkey_eq_dec : EqDecision pkey.
Proof. solve_decision. Defined.
Fixpoint pv_size (v : pv) : nat :=
  match v with
  | PList l | PTuple l => S ((fix go l := match l with [] => 0 | v :: l => pv_size v + go l end) l)
  | PDict l => S ((fix go (l : list (pkey * pv)) := match l with [] => 0 | (_, v) :: l => pv_size v + go l end) l)
  | _ => 1
  end.
Lemma pv_induction (P : pv -> Prop) : (forall v, (forall w, pv_size w < pv_size v -> P w) -> P v) -> forall v, P v.
Proof. intros H v. assert (Hn : forall n w, pv_size w < n -> P w); [|by apply (Hn (S (pv_size v))); lia]. induction n as [|n IH]; intros w Hw; [lia|]. apply H. intros u Hu. apply IH. lia. Qed.
Lemma pv_size_pos v : 0 < pv_size v.
Proof. destruct v; cbn; lia. Qed.
Lemma size_list l v : v ∈ l -> pv_size v < pv_size (PList l).
Proof. cbn. induction l as [|w l IH]; intros H; [by apply elem_of_nil in H|]. apply elem_of_cons in H as [->|H]; [lia|]. specialize (IH H). lia. Qed.
Lemma size_dict l k v : (k, v) ∈ l -> pv_size v < pv_size (PDict l).
Proof. cbn. induction l as [|[k' w] l IH]; intros H; [by apply elem_of_nil in H|]. apply elem_of_cons in H as [[= -> ->]|H]; [lia|]. specialize (IH H). lia. Qed.

Section Json.
Variable show : Z -> string.
Notation dump := (json_dump show).
Fixpoint dump_list (l : list pv) : option jv :=
  match l with [] => Some (JArr []) | v :: l => match dump v, dump_list l with Some j, Some (JArr js) => Some (JArr (j :: js)) | _, _ => None end end.
Fixpoint dump_dict (l : list (pkey * pv)) : option jv :=
  match l with
  | [] => Some (JObj [])
  | (k, v) :: l => match json_key show k, dump v, dump_dict l with Some k, Some j, Some (JObj js) => Some (JObj ((k, j) :: js)) | _, _, _ => None end
  end.
Lemma dump_PList l : dump (PList l) = dump_list l.
Proof. induction l as [|v l IH]; [done|]. cbn in *. by rewrite <- IH. Qed.
Lemma dump_PDict l : dump (PDict l) = dump_dict l.
Proof. induction l as [|[k v] l IH]; [done|]. cbn in *. by rewrite <- IH. Qed.
Fixpoint load_pairs (l : list (string * jv)) (acc : list (pkey * pv)) : list (pkey * pv) :=
  match l with [] => acc | (k, j) :: l => load_pairs l (pset acc k (json_load j)) end.
Lemma load_JObj l : json_load (JObj l) = PDict (load_pairs l []).
Proof. done. Qed.
Lemma pset_new l k v : PKStr k ∉ map fst l -> pset l k v = l ++ [(PKStr k, v)].
Proof.
  induction l as [|[k' v'] l IH]; intros H; [done|]. cbn in H. apply not_elem_of_cons in H as [H1 H2]. cbn [pset]. destruct k' as [s| | | |]; [|by rewrite IH..].
  rewrite decide_False by congruence. by rewrite IH.
Qed.
Lemma load_dump_list l : (forall v, v ∈ l -> exists j, dump v = Some j /\ json_load j = v) -> exists js, dump_list l = Some (JArr js) /\ map json_load js = l.
Proof.
  induction l as [|v l IH]; intros H; [by exists []|]. destruct (H v) as (j & Hj & Hl); [by left|]. destruct IH as (js & E & Em); [intros w Hw; apply H; by right|].
  exists (j :: js). cbn [dump_list]. rewrite Hj, E. split; [done|]. cbn. by rewrite Hl, Em.
Qed.
Lemma load_dump_dict l acc : (forall k v, (k, v) ∈ l -> exists s, k = PKStr s) -> (forall k v, (k, v) ∈ l -> exists j, dump v = Some j /\ json_load j = v) -> NoDup (map fst (acc ++ l)) ->
  exists js, dump_dict l = Some (JObj js) /\ load_pairs js acc = acc ++ l.
Proof.
  revert acc. induction l as [|[k v] l IH]; intros acc Hk Hv Hnd; [exists []; by rewrite app_nil_r|]. destruct (Hk k v) as [s ->]; [by left|]. destruct (Hv (PKStr s) v) as (j & Hj & Hl); [by left|].
  destruct (IH (acc ++ [(PKStr s, v)])) as (js & E & Em).
  - intros k' v' H'. apply (Hk k' v'). by right.
  - intros k' v' H'. apply (Hv k' v'). by right.
  - by rewrite <- app_assoc.
  - exists ((s, j) :: js). cbn [dump_dict json_key]. rewrite Hj, E. split; [done|]. cbn [load_pairs]. rewrite Hl. rewrite pset_new.
    + rewrite Em. by rewrite <- app_assoc.
    + intros Hin. rewrite map_app in Hnd. apply NoDup_app in Hnd as (_ & Hnd & _). apply (Hnd (PKStr s) Hin). by left.
Qed.
Lemma load_dump v : as_is v -> proper v -> exists j, dump v = Some j /\ json_load j = v.
Proof.
  revert v. apply (pv_induction (fun v => as_is v -> proper v -> exists j, dump v = Some j /\ json_load j = v)). intros v IH Ha Hp.
  destruct Ha as [|b|n|s|l Hl|l Hk Hl]; [by eexists..| |].
  - inversion Hp; subst. destruct (load_dump_list l) as (js & E & Em); [intros w Hw; apply IH; [by apply size_list|by apply Hl|by auto]|].
    exists (JArr js). rewrite dump_PList. split; [done|]. cbn. by rewrite Em.
  - inversion Hp; subst. destruct (load_dump_dict l []) as (js & E & Em); [done|intros k w Hw; apply IH; [by eapply size_dict|by eapply Hl|by eauto]|done|].
    exists (JObj js). rewrite dump_PDict, load_JObj. split; [done|]. by rewrite Em.
Qed.
Fixpoint jv_size (j : jv) : nat :=
  match j with
  | JArr l => S ((fix go l := match l with [] => 0 | v :: l => jv_size v + go l end) l)
  | JObj l => S ((fix go (l : list (string * jv)) := match l with [] => 0 | (_, v) :: l => jv_size v + go l end) l)
  | _ => 1
  end.
Lemma pset_as_is l k v : as_is (PDict l) -> as_is v -> as_is (PDict (pset l k v)).
Proof.
  intros Hl Hv. inversion Hl as [| | | | |? H1 H2]; subst. clear Hl.
  assert (H : forall k' v', (k', v') ∈ pset l k v -> (exists s, k' = PKStr s) /\ as_is v').
  { induction l as [|[k0 v0] l IH]; intros k' v' H'; cbn in H'.
    - apply elem_of_list_singleton in H' as [= -> ->]. split; [by eexists|done].
    - destruct (H1 k0 v0) as [s ->]; [by left|]. destruct (decide (s = k)).
      + apply elem_of_cons in H' as [[= -> ->]|H']; [split; [by eexists|done]|]. split; [apply (H1 k' v'); by right|apply (H2 k' v'); by right].
      + apply elem_of_cons in H' as [[= -> ->]|H']; [split; [by eexists|apply (H2 (PKStr s) v0); by left]|].
        apply IH; [intros k1 v1 Hin; apply (H1 k1 v1); by right|intros k1 v1 Hin; apply (H2 k1 v1); by right|done]. }
  constructor; intros k' v' H'; by apply H in H' as [? ?].
Qed.
Lemma load_as_is j : as_is (json_load j).
Proof.
  assert (H : forall n j, jv_size j < n -> as_is (json_load j)); [|by apply (H (S (jv_size j))); lia]. clear j.
  induction n as [|n IH]; intros j Hj; [lia|]. destruct j as [|b|z|s|l|l]; [by constructor..| |].
  - cbn [json_load]. constructor. intros v Hv. apply elem_of_list_fmap in Hv as (j & -> & Hin). apply IH. cbn in Hj. clear -Hj Hin. induction l as [|i l IHl]; [by apply elem_of_nil in Hin|].
    apply elem_of_cons in Hin as [->|Hin]; [lia|]. apply IHl; [lia|done].
  - rewrite load_JObj. assert (Hacc : as_is (PDict [])) by (constructor; intros k v Hin; by apply elem_of_nil in Hin).
    assert (Hall : forall k j, (k, j) ∈ l -> as_is (json_load j)).
    { intros k j Hin. apply IH. cbn in Hj. clear -Hj Hin. induction l as [|[k' i] l IHl]; [by apply elem_of_nil in Hin|]. apply elem_of_cons in Hin as [[= -> ->]|Hin]; [lia|]. apply IHl; [lia|done]. }
    clear Hj. revert Hacc. generalize (@nil (pkey * pv)). induction l as [|[k j] l IHl]; intros acc Hacc; [done|]. cbn [load_pairs]. apply IHl; [intros k' j' Hin; apply (Hall k' j'); by right|].
    apply pset_as_is; [done|]. apply (Hall k j). by left.
Qed.

(** A value saved as JSON is loaded as it was exactly if it has no tuples and all keys in it are strings. *)
Theorem C94_json path v fs : proper v -> (exists fs', save_json show path v fs = (Ok tt, fs') /\ load_json path fs' = Ok v) <-> as_is v.
Proof.
  intros Hp. unfold save_json, load_json. split.
  - intros (fs' & H & Hl). destruct (dump v) as [j|]; [|done]. injection H as <-. rewrite dget_dset_eq in Hl. injection Hl as <-. apply load_as_is.
  - intros Ha. destruct (load_dump v Ha Hp) as (j & -> & Hj). eexists. split; [done|]. rewrite dget_dset_eq. by rewrite Hj.
Qed.
Lemma pset_keys l k v : map fst (pset l k v) = if decide (PKStr k ∈ map fst l) then map fst l else map fst l ++ [PKStr k].
Proof.
  induction l as [|[k' v'] l IH]; cbn [pset map fst]; [by rewrite decide_False by (by intros ?%elem_of_nil)|].
  assert (Hc : PKStr k <> k' -> map fst ((k', v') :: pset l k v) = if decide (PKStr k ∈ k' :: map fst l) then k' :: map fst l else (k' :: map fst l) ++ [PKStr k]).
  { intros Hne. cbn [map fst]. rewrite IH. assert (Hi : PKStr k ∈ k' :: map fst l <-> PKStr k ∈ map fst l) by (rewrite elem_of_cons; naive_solver). rewrite (decide_ext _ _ _ _ Hi). by destruct (decide _). }
  destruct k' as [s| | | |]; [|by apply Hc..]. destruct (decide (s = k)) as [->|Hne]; [cbn; by rewrite decide_True by (by left)|]. apply Hc. congruence.
Qed.
Lemma pset_proper l k v : proper (PDict l) -> proper v -> proper (PDict (pset l k v)).
Proof.
  intros Hl Hv. inversion Hl as [| | | | | | |? Hnd H2]; subst. clear Hl. constructor.
  - rewrite pset_keys. destruct (decide _) as [|Hn]; [done|]. apply NoDup_app. split; [done|]. split; [|by apply NoDup_singleton]. intros x Hx ->%elem_of_list_singleton. by apply Hn.
  - clear Hnd. induction l as [|[k0 v0] l IH]; intros k' v' H'.
    + cbn in H'. apply elem_of_list_singleton in H' as [= -> ->]. done.
    + assert (Hr : (k', v') ∈ (k0, v0) :: pset l k v -> proper v').
      { intros Hin. apply elem_of_cons in Hin as [[= -> ->]|Hin]; [apply (H2 k0 v0); by left|]. eapply IH; [|exact Hin]. intros k1 v1 H1. apply (H2 k1 v1). by right. }
      cbn [pset] in H'. destruct k0 as [s| | | |]; [|by apply Hr..]. destruct (decide (s = k)); [|by apply Hr]. apply elem_of_cons in H' as [[= -> ->]|H']; [done|]. apply (H2 k' v'). by right.
Qed.
Lemma load_proper j : proper (json_load j).
Proof.
  assert (H : forall n j, jv_size j < n -> proper (json_load j)); [|by apply (H (S (jv_size j))); lia]. clear j.
  induction n as [|n IH]; intros j Hj; [lia|]. destruct j as [|b|z|s|l|l]; [by constructor..| |].
  - cbn [json_load]. constructor. intros v Hv. apply elem_of_list_fmap in Hv as (j & -> & Hin). apply IH. cbn in Hj. clear -Hj Hin. induction l as [|i l IHl]; [by apply elem_of_nil in Hin|].
    apply elem_of_cons in Hin as [->|Hin]; [lia|]. apply IHl; [lia|done].
  - rewrite load_JObj. assert (Hacc : proper (PDict [])) by (constructor; [constructor|intros k v Hin; by apply elem_of_nil in Hin]).
    assert (Hall : forall k j, (k, j) ∈ l -> proper (json_load j)).
    { intros k j Hin. apply IH. cbn in Hj. clear -Hj Hin. induction l as [|[k' i] l IHl]; [by apply elem_of_nil in Hin|]. apply elem_of_cons in Hin as [[= -> ->]|Hin]; [lia|]. apply IHl; [lia|done]. }
    clear Hj. revert Hacc. generalize (@nil (pkey * pv)). induction l as [|[k j] l IHl]; intros acc Hacc; [done|]. cbn [load_pairs]. apply IHl; [intros k' j' Hin; apply (Hall k' j'); by right|].
    apply pset_proper; [done|]. apply (Hall k j). by left.
Qed.
(** What was loaded from JSON, whoever wrote it, is saved and loaded as it was from then on. *)
Theorem C94_stable path path' v fs fs0 : load_json path fs0 = Ok v -> exists fs', save_json show path' v fs = (Ok tt, fs') /\ load_json path' fs' = Ok v.
Proof. unfold load_json at 1. destruct (dget fs0 path) as [[j| | |]|]; [|done..]. intros [= <-]. apply C94_json; [apply load_proper|apply load_as_is]. Qed.

Lemma dump_PTuple l : dump (PTuple l) = dump_list l.
Proof. apply dump_PList. Qed.
Lemma dump_list_iff l : (forall v, v ∈ l -> is_Some (dump v) <-> savable v) -> (is_Some (dump_list l) <-> forall v, v ∈ l -> savable v).
Proof.
  intros H. split.
  - induction l as [|v l IH]; intros Hs w Hw; [by apply elem_of_nil in Hw|]. cbn [dump_list] in Hs. destruct (dump v) as [j|] eqn:Ej; [|by destruct Hs]. destruct (dump_list l) as [js|] eqn:El; [|by destruct Hs].
    apply elem_of_cons in Hw as [->|Hw]; [apply H; [by left|by eexists]|]. apply IH; [intros u Hu; apply H; by right|by eexists|done].
  - intros Hs. assert (Hd : exists js, dump_list l = Some (JArr js)); [|destruct Hd as [js ->]; by eexists]. induction l as [|v l IH]; [by eexists|].
    destruct (proj2 (H v ltac:(by left)) (Hs v ltac:(by left))) as [j Hj]. destruct IH as [js Hjs]; [intros u Hu; apply H; by right|intros u Hu; apply Hs; by right|]. exists (j :: js). cbn [dump_list]. by rewrite Hj, Hjs.
Qed.
Lemma dump_dict_iff l : (forall k v, (k, v) ∈ l -> is_Some (dump v) <-> savable v) -> (is_Some (dump_dict l) <-> forall k v, (k, v) ∈ l -> k <> PKOther /\ savable v).
Proof.
  intros H. split.
  - induction l as [|[k v] l IH]; intros Hs k' w Hw; [by apply elem_of_nil in Hw|]. cbn [dump_dict] in Hs. destruct (json_key show k) as [s|] eqn:Ek; [|by destruct Hs].
    destruct (dump v) as [j|] eqn:Ej; [|by destruct Hs]. destruct (dump_dict l) as [js|] eqn:El; [|by destruct Hs].
    apply elem_of_cons in Hw as [[= -> ->]|Hw]; [split; [by intros ->|apply (H k v); [by left|by eexists]]|]. refine (IH _ _ k' w Hw); [intros k0 v0 H0; apply (H k0 v0); by right|exact (mk_is_Some _ js eq_refl)].
  - intros Hs. assert (Hd : exists js, dump_dict l = Some (JObj js)); [|destruct Hd as [js ->]; by eexists]. induction l as [|[k v] l IH]; [by eexists|].
    destruct (Hs k v) as [Hk Hv]; [by left|]. destruct (proj2 (H k v ltac:(by left)) Hv) as [j Hj]. destruct IH as [js Hjs]; [intros k' u Hu; apply (H k' u); by right|intros k' u Hu; apply (Hs k' u); by right|].
    assert (Hkk : is_Some (json_key show k)) by (destruct k; [by eexists..|done]). destruct Hkk as [s Hs']. exists ((s, j) :: js). cbn [dump_dict]. by rewrite Hs', Hj, Hjs.
Qed.
Lemma dump_iff v : is_Some (dump v) <-> savable v.
Proof.
  revert v. apply pv_induction. intros v IH. destruct v as [|b|z|s|l|l|l|]; try (split; [by constructor|by eexists]).
  - rewrite dump_PList, dump_list_iff by (intros w Hw; apply IH; by apply size_list). split; [by constructor|by inversion 1].
  - rewrite dump_PTuple, dump_list_iff by (intros w Hw; apply IH; by apply (size_list l)). split; [by constructor|by inversion 1].
  - rewrite dump_PDict, dump_dict_iff by (intros k w Hw; apply IH; by eapply size_dict). split.
    + intros H. constructor; intros k v Hin; by apply (H k v).
    + intros Hs. inversion Hs as [| | | | | |? H1 H2]; subst. intros k v Hin. split; [by eapply H1|by eapply H2].
  - split; [by intros [? [=]]|inversion 1].
Qed.
(** A value is saved exactly if JSON has a form of all that is in it and of all keys; otherwise there is a TypeError,
    and then whatever was in the file is lost. *)
Theorem C94_saved path v fs : ((save_json show path v fs).1 = Ok tt <-> savable v) /\
  (~ savable v -> (save_json show path v fs).1 = Err IOType /\ load_json path (save_json show path v fs).2 = Err IOFormat).
Proof.
  rewrite <- dump_iff. unfold save_json, load_json. destruct (dump v) as [j|]; cbn.
  - split; [by split; [by eexists|]|]. intros H. exfalso. apply H. by eexists.
  - split; [by split; [|intros [? [=]]]|]. intros _. by rewrite dget_dset_eq.
Qed.
End Json.

(** A text saved in a file is loaded as it was exactly if there are no carriage returns in it. *)
Theorem C94_text path s fs : load_text path (save_text path s fs) = Ok s <-> no_returns s.
Proof.
  unfold load_text, save_text. rewrite dget_dset_eq. split; [|intros H; by rewrite read_same]. intros [= H]. rewrite <- H. apply read_none.
Qed.
(** In any case what is loaded has none, and saving it again changes nothing. *)
Theorem C94_text_again path s fs t : load_text path (save_text path s fs) = Ok t -> load_text path (save_text path t fs) = Ok t.
Proof. unfold load_text, save_text. rewrite !dget_dset_eq. intros [= <-]. by rewrite (read_same (read_text s)) by apply read_none. Qed.
(** What was pickled is loaded as it was. *)
Theorem C94_pickle pickles path v fs fs' : save_pickle pickles path v fs = (Ok tt, fs') -> load_pickle path fs' = Ok v.
Proof. unfold save_pickle, load_pickle. destruct (pickles v); [|done]. intros [= <-]. by rewrite dget_dset_eq. Qed.
(** Whatever is saved, other files stay. *)
Theorem C94_others show pickles path v s (fs : files) p : p <> path ->
  dget (save_json show path v fs).2 p = dget fs p /\ dget (save_text path s fs) p = dget fs p /\ dget (save_pickle pickles path v fs).2 p = dget fs p.
Proof.
  intros H. unfold save_json, save_text, save_pickle. split; [|split].
  - destruct (json_dump show v); cbn; by apply dget_dset_ne.
  - by apply dget_dset_ne.
  - destruct (pickles v); cbn; by apply dget_dset_ne.
Qed.
Lemma load_env_from_ok names env acc : (forall n, n ∈ names -> is_Some (dget env n)) -> exists d, load_env_from acc names env = Ok d /\ forall n, dget d n = if decide (n ∈ names) then dget env n else dget acc n.
Proof.
  revert acc. induction names as [|n names IH]; intros acc H.
  - exists acc. split; [done|]. intros n. by rewrite decide_False by (by intros ?%elem_of_nil).
  - destruct (H n) as [v Hv]; [by left|]. destruct (IH (dset acc n v)) as (d & E & Hd); [intros m Hm; apply H; by right|]. exists d. cbn [load_env_from]. rewrite Hv. split; [done|]. intros m. rewrite Hd.
    destruct (decide (m ∈ names)) as [Hin|Hin]; [by rewrite decide_True by (by right)|]. destruct (decide (m = n)) as [->|Hne].
    + rewrite decide_True by (by left). by rewrite dget_dset_eq.
    + rewrite decide_False by (rewrite elem_of_cons; naive_solver). by apply dget_dset_ne.
Qed.
(** Variables of the environment that are all there are loaded, these and no others; ... *)
Theorem C94_env names env : (forall n, n ∈ names -> is_Some (dget env n)) -> exists d, load_env names env = Ok d /\ forall n, dget d n = if decide (n ∈ names) then dget env n else None.
Proof. apply load_env_from_ok. Qed.
(** ... one that is not there is a KeyError. *)
Theorem C94_env_missing names env n : n ∈ names -> dget env n = None -> load_env names env = Err IOKey.
Proof.
  intros Hn He. unfold load_env. generalize (@nil (string * string)). induction names as [|m names IH]; intros acc; [by apply elem_of_nil in Hn|]. cbn [load_env_from].
  apply elem_of_cons in Hn as [->|Hn]; [by rewrite He|]. destruct (dget env m); [|done]. by apply IH.
Qed.

(** ** Examples *)
Definition show1 (z : Z) : string := if decide (z = 1%Z) then "1" else "n".
Definition tree : pv := PDict [(PKStr "a", PList [PNum 1; PNone; PStr "x"]); (PKStr "b", PDict [(PKStr "c", PBool true)])].
Ltac members := repeat match goal with H : _ ∈ _ :: _ |- _ => apply elem_of_cons in H as [H|H]; [first [injection H as -> ->|subst]|] | H : _ ∈ [] |- _ => by apply elem_of_nil in H end.
Example C94_json_case : as_is tree /\ proper tree.
Proof.
  split; unfold tree.
  - constructor; [intros k v H; members; by eexists|]. intros k v H. members.
    + constructor. intros v H. members; constructor.
    + constructor; [intros k v H; members; by eexists|]. intros k v H. members. constructor.
  - constructor; [by apply (bool_decide_unpack _); vm_compute|]. intros k v H. members.
    + constructor. intros v H. members; constructor.
    + constructor; [by apply (bool_decide_unpack _); vm_compute|]. intros k v H. members. constructor.
Qed.
Example C94_json_run : exists fs, save_json show1 "f" tree [] = (Ok tt, fs) /\ load_json "f" fs = Ok tree.
Proof. eexists. split; by vm_compute. Qed.
Example C94_text_case : no_returns "a
b".
Proof. repeat (apply no_returns_cons; split; [done|]). intros [|? ?] ?; done. Qed.
Example C94_env_case : load_env ["HOME"; "USER"; "HOME"] [("USER", "u"); ("HOME", "h")] = Ok [("HOME", "h"); ("USER", "u")] /\ load_env ["HOME"; "NO"] [("HOME", "h")] = Err IOKey.
Proof. by vm_compute. Qed.

Example C94_saved_case : (save_json show1 "f" (PTuple [PDict [(PKNone, PNum 1)]]) []).1 = Ok tt /\ (save_json show1 "f" (PTuple [PDict [(PKOther, PNum 1)]]) []).1 = Err IOType /\ (save_json show1 "f" (PList [PNum 1; POther]) []).1 = Err IOType.
Proof. by vm_compute. Qed.
Example C94_pickle_case : load_pickle "f" (save_pickle (fun _ => true) "f" (PTuple [PNum 1]) [("f", CText "x")]).2 = Ok (PTuple [PNum 1]).
Proof. by vm_compute. Qed.

(** That all that can be saved as JSON is loaded as it was: tuples become lists *)
Theorem C94_tuple_refuted : exists v fs, proper v /\ save_json show1 "f" v [] = (Ok tt, fs) /\ load_json "f" fs = Ok (PList [PNum 1]) /\ v <> PList [PNum 1].
Proof. exists (PTuple [PNum 1]). eexists. split; [constructor; intros v Hv; apply elem_of_list_singleton in Hv as ->; constructor|]. split; [by vm_compute|]. by split. Qed.
(** That no values disappear in JSON: keys become strings, and equal strings hide each other *)
Theorem C94_keys_refuted : exists v fs, proper v /\ save_json show1 "f" v [] = (Ok tt, fs) /\ v = PDict [(PKNum 1, PStr "number"); (PKStr "1", PStr "string")] /\ load_json "f" fs = Ok (PDict [(PKStr "1", PStr "string")]).
Proof.
  exists (PDict [(PKNum 1, PStr "number"); (PKStr "1", PStr "string")]). eexists. split; [|split; [by vm_compute|by split]].
  constructor; [|intros k v Hv; repeat (apply elem_of_cons in Hv as [[= -> ->]|Hv]; [constructor|]); by apply elem_of_nil in Hv].
  constructor; [|constructor; [by intros ?%elem_of_nil|constructor]]. cbn. intros [=]%elem_of_list_singleton.
Qed.
(** That texts are loaded as they were: "\r\n" becomes "\n". *)
Theorem C94_text_refuted : exists s t, load_text "f" (save_text "f" s []) = Ok t /\ t <> s.
Proof. exists (String "a" (String "013" (String "010" ""))), (String "a" (String "010" "")). split; [by vm_compute|done]. Qed.
(** That a file stays as it was if saving fails *)
Theorem C94_failed_refuted : exists fs v, load_json "f" fs = Ok (PStr "before") /\ (save_json show1 "f" v fs).1 = Err IOType /\ load_json "f" (save_json show1 "f" v fs).2 = Err IOFormat /\
  (save_pickle (fun _ => false) "f" v fs).1 = Err IOType /\ load_json "f" (save_pickle (fun _ => false) "f" v fs).2 = Err IOFormat.
Proof. exists [("f", CJson (JStr "before"))], POther. by vm_compute. Qed.

Print Assumptions C94_json.
Print Assumptions C94_stable.
Print Assumptions C94_saved.
Print Assumptions C94_text.
Print Assumptions C94_text_again.
Print Assumptions C94_pickle.
Print Assumptions C94_others.
Print Assumptions C94_env.
Print Assumptions C94_env_missing.
Print Assumptions C94_tuple_refuted.
Print Assumptions C94_keys_refuted.
Print Assumptions C94_text_refuted.
Print Assumptions C94_failed_refuted.
