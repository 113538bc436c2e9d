(** Proofs about the comparison of schemas. *)
From Coq Require Import Ascii.
From Verif Require Import Base Dict NodeModel DecorModel DecorProofs ResultProofs ArrowModel ArrowSpec.

Lemma py_eqb_eq : forall a b, py_eqb a b = true <-> a = b.
Proof.
  fix IH 1. intros a b. destruct a as [s|x|l|d x]; destruct b as [t|y|m|e y]; cbn [py_eqb];
    try (destruct d); try (destruct e); try (split; [done|congruence]); try (rewrite IH; split; congruence).
  - rewrite bool_decide_eq_true. split; congruence.
  - rewrite Bool.eqb_true_iff. split; congruence.
  - assert (H : forall m, (fix go (l m : list (name * py)) : bool :=
       match l, m with
       | [], [] => true
       | (k, x) :: l, (k', y) :: m => bool_decide (k = k') && py_eqb x y && go l m
       | _, _ => false
       end) l m = true <-> l = m).
    { clear m. revert l. fix IHl 1. intros l m. destruct l as [|[k x] l]; destruct m as [|[k' y] m]; try (split; done).
      rewrite !andb_true_iff, bool_decide_eq_true, IH, IHl. split; [by intros [[-> ->] ->]|]. intros [= -> -> ->]. done. }
    rewrite H. split; congruence.
Qed.

Global Instance py_eq_dec : EqDecision py.
Proof. intros a b. destruct (py_eqb a b) eqn:E; [left; by apply py_eqb_eq|right]. intros H%py_eqb_eq. congruence. Defined.

(** ** [_diff_mappings] *)
Lemma dget_app {A} (d e : dict A) k : dget (d ++ e) k = match dget d k with Some a => Some a | None => dget e k end.
Proof. induction d as [|[k' a] d IH]; [done|]. cbn. by destruct (decide (k = k')). Qed.
Lemma dget_omap {A B} (h : name -> A -> option B) (d : dict A) k : NoDup (dkeys d) ->
  dget (omap (fun kv => match h kv.1 kv.2 with Some b => Some (kv.1, b) | None => None end) d) k = match dget d k with Some a => h k a | None => None end.
Proof.
  induction d as [|[k' a] d IH]; [done|]. change (dkeys ((k', a) :: d)) with (k' :: dkeys d). rewrite NoDup_cons. intros [Hk Hn]. cbn [dget].
  change (omap ?f ((k', a) :: d)) with (match f (k', a) with Some b => b :: omap f d | None => omap f d end). cbn [fst snd].
  destruct (decide (k = k')) as [-> | Hne].
  - destruct (h k' a); cbn [dget]; [by rewrite decide_True|]. rewrite IH by done. rewrite (proj2 (dget_None_key d k') Hk). done.
  - destruct (h k' a); cbn [dget]; [rewrite decide_False by done|]; by apply IH.
Qed.
Lemma dkeys_omap {A B} (h : name -> A -> option B) (d : dict A) k :
  k ∈ dkeys (omap (fun kv => match h kv.1 kv.2 with Some b => Some (kv.1, b) | None => None end) d) -> exists a b, (k, a) ∈ d /\ h k a = Some b.
Proof.
  unfold dkeys. intros ([k' b] & -> & ([k0 a] & Hin & Hh)%elem_of_list_omap)%elem_of_list_fmap. cbn in *. destruct (h k0 a) eqn:E; [|done]. injection Hh as -> ->. by exists a, b.
Qed.
Lemma NoDup_omap_keys {A B} (h : name -> A -> option B) (d : dict A) : NoDup (dkeys d) ->
  NoDup (dkeys (omap (fun kv => match h kv.1 kv.2 with Some b => Some (kv.1, b) | None => None end) d)).
Proof.
  induction d as [|[k a] d IH]; [constructor|]. change (dkeys ((k, a) :: d)) with (k :: dkeys d). rewrite NoDup_cons. intros [Hk Hn].
  change (omap ?f ((k, a) :: d)) with (match f (k, a) with Some b => b :: omap f d | None => omap f d end). cbn [fst snd].
  destruct (h k a) as [b|]; [|by apply IH]. change (dkeys ((k, b) :: ?x)) with (k :: dkeys x). apply NoDup_cons. split; [|by apply IH].
  intros (a' & b' & Hin & _)%dkeys_omap. apply Hk. apply elem_of_list_fmap. by exists (k, a').
Qed.

Definition dm_add (ref : dict py) (k : name) (v : py) : option py := match dget ref k with None => Some (PDiff ADDED v) | _ => None end.
Definition dm_rem (cur : dict py) (k : name) (v : py) : option py := match dget cur k with None => Some (PDiff REMOVED v) | _ => None end.
Definition dm_both (ref : dict py) (k : name) (v : py) : option py :=
  match dget ref k with Some r => Some (if py_eqb v r then PDiff EQUAL v else PDiff UNEQUAL (cur_ref v r)) | None => None end.
Lemma diff_mappings_alt cur ref : diff_mappings cur ref =
  omap (fun kv => match dm_add ref kv.1 kv.2 with Some b => Some (kv.1, b) | None => None end) cur ++
  omap (fun kv => match dm_rem cur kv.1 kv.2 with Some b => Some (kv.1, b) | None => None end) ref ++
  omap (fun kv => match dm_both ref kv.1 kv.2 with Some b => Some (kv.1, b) | None => None end) cur.
Proof.
  unfold diff_mappings, dm_add, dm_rem, dm_both. f_equal; [|f_equal]; apply list_omap_ext; (apply Forall2_Forall_diag || idtac);
    apply Forall_Forall2_diag, Forall_forall; intros [k v] _; cbn; by destruct (dget _ k).
Qed.
Lemma dget_diff cur ref k : NoDup (dkeys cur) -> NoDup (dkeys ref) -> dget (diff_mappings cur ref) k =
  match dget cur k, dget ref k with
  | Some v, Some r => Some (if decide (v = r) then PDiff EQUAL v else PDiff UNEQUAL (cur_ref v r))
  | Some v, None => Some (PDiff ADDED v)
  | None, Some r => Some (PDiff REMOVED r)
  | None, None => None
  end.
Proof.
  intros Hc Hr. rewrite diff_mappings_alt, !dget_app, !dget_omap by done. unfold dm_add, dm_rem, dm_both.
  destruct (dget cur k) as [v|] eqn:Ec, (dget ref k) as [r|] eqn:Er; try done. f_equal. destruct (py_eqb v r) eqn:E.
  - apply py_eqb_eq in E. by rewrite decide_True.
  - rewrite decide_False; [done|]. intros ->. assert (py_eqb r r = true) by (by apply py_eqb_eq). congruence.
Qed.
Lemma NoDup_diff cur ref : NoDup (dkeys cur) -> NoDup (dkeys ref) -> NoDup (dkeys (diff_mappings cur ref)).
Proof.
  intros Hc Hr. rewrite diff_mappings_alt. unfold dkeys. rewrite !fmap_app. apply NoDup_app. split_and!.
  - by apply NoDup_omap_keys.
  - intros k Hk%dkeys_omap. destruct Hk as (a & b & Hin & Hb). unfold dm_add in Hb. rewrite elem_of_app. intros [Hk%dkeys_omap | Hk%dkeys_omap].
    + destruct Hk as (a' & b' & Hin' & Hb'). rewrite (elem_dget ref k a') in Hb by done. done.
    + destruct Hk as (a' & b' & Hin' & Hb'). unfold dm_both in Hb'. by destruct (dget ref k).
  - apply NoDup_app. split_and!; [by apply NoDup_omap_keys| |by apply NoDup_omap_keys].
    intros k Hk%dkeys_omap Hk'%dkeys_omap. destruct Hk as (a & b & Hin & Hb), Hk' as (a' & b' & Hin' & Hb'). unfold dm_rem in Hb. by rewrite (elem_dget cur k a') in Hb.
Qed.

(** ** [human_readable_diff] *)
Definition entry (k : name) (r : py) : res xc (option py) :=
  match r with
  | PDiff d v =>
    if decide (k = metadata_field) then bindr (readable v) (fun m => Ok (match m with [] => None | _ => Some (PDict m) end))
    else match d with
         | EQUAL => Ok None
         | ADDED => Ok (Some (PStr "+"))
         | REMOVED => Ok (Some (PStr "-"))
         | UNEQUAL =>
           match v with
           | PDict vl => if (match dget vl "cur" with Some c => truthy c | None => false end) then Ok (Some v) else bindr (readable v) (fun m => Ok (Some (PDict m)))
           | _ => Err XAttribute
           end
         end
  | _ => Err XAttribute
  end.
Definition readable_step (kr : name * py) (acc : dict py) : res xc (dict py) :=
  bindr (entry kr.1 kr.2) (fun o => Ok (match o with Some p => dset acc kr.1 p | None => acc end)).
Lemma readable_loop l : readable (PDict l) = foldr_ readable_step l [].
Proof.
  cbn [readable]. generalize (@nil (name * py)) as acc. induction l as [|[k r] l IH]; intros acc; [done|]. cbn [foldr_]. unfold readable_step at 1, entry. cbn [fst snd].
  destruct r as [s|b|m|d v]; try done. destruct (decide (k = metadata_field)).
  - destruct (readable v) as [[|x m]|]; cbn [bindr]; [apply IH|apply IH|done].
  - destruct d; cbn [bindr]; [apply IH|apply IH|apply IH|]. destruct v as [s|b|vl|d' v']; try done.
    destruct (match dget vl "cur" with Some c => truthy c | None => false end); cbn [bindr]; [apply IH|]. destruct (readable (PDict vl)); cbn [bindr]; [apply IH|done].
Qed.
Lemma readable_ok l : NoDup (dkeys l) -> (forall k r, dget l k = Some r -> exists o, entry k r = Ok o) ->
  exists m, readable (PDict l) = Ok m /\ NoDup (dkeys m) /\ forall k, dget m k = match dget l k with Some r => match entry k r with Ok o => o | Err _ => None end | None => None end.
Proof.
  intros Hn Ho. rewrite readable_loop. assert (H : forall acc, NoDup (dkeys acc) -> (forall k, k ∈ dkeys acc -> k ∉ dkeys l) -> exists m, foldr_ readable_step l acc = Ok m /\ NoDup (dkeys m) /\
    forall k, dget m k = match dget l k with Some r => match entry k r with Ok o => o | Err _ => None end | None => dget acc k end).
  { induction l as [|[k r] l IH]; intros acc Hna Hd; [by exists acc|]. change (dkeys ((k, r) :: l)) with (k :: dkeys l) in *. apply NoDup_cons in Hn as [Hk Hn]. cbn [foldr_].
    destruct (Ho k r) as [o Hoo]; [cbn; by rewrite decide_True|]. unfold readable_step at 1. cbn [fst snd]. rewrite Hoo. cbn [bindr].
    assert (Hka : dget acc k = None). { apply dget_None_key. intros Hin. apply (Hd k Hin). by left. }
    destruct (IH Hn) with (acc := match o with Some p => dset acc k p | None => acc end) as (m & -> & Hm1 & Hm2).
    - intros k' r' Hk'. apply Ho. cbn. rewrite decide_False; [done|]. intros ->. apply Hk. apply dget_Some_key. by eexists.
    - destruct o; [by apply NoDup_dkeys_dset|done].
    - intros k' Hk'. assert (k' = k \/ k' ∈ dkeys acc) as [-> | Hin]; [|done|]; [destruct o; [by apply dkeys_dset_elem in Hk'|by right]|].
      intros Hl. apply (Hd k' Hin). by right.
    - exists m. split_and!; [done|done|]. intros k'. rewrite Hm2. cbn [dget]. destruct (decide (k' = k)) as [-> | Hne].
      + rewrite (proj2 (dget_None_key l k) Hk), Hoo. destruct o; [by rewrite dget_dset_eq|done].
      + destruct (dget l k'); [done|]. destruct o; [by rewrite dget_dset_ne|done]. }
  destruct (H []) as (m & Hm & Hm1 & Hm2); [constructor|intros k Hk; by apply elem_of_nil in Hk|]. exists m. split_and!; [done|done|]. intros k. rewrite Hm2. by destruct (dget l k).
Qed.

(** ** Metadata *)
Lemma dkeys_meta (m : meta) : dkeys (meta_json m) = (map_to_list m).*1.
Proof. unfold dkeys, meta_json. change (map ?f ?l) with (f <$> l). rewrite <- list_fmap_compose. by apply list_fmap_ext. Qed.
Lemma NoDup_meta (m : meta) : NoDup (dkeys (meta_json m)).
Proof. rewrite dkeys_meta. apply NoDup_fst_map_to_list. Qed.
Lemma dget_meta (m : meta) k : dget (meta_json m) k = PStr <$> (m !! k).
Proof.
  destruct (m !! k) as [v|] eqn:E; cbn.
  - apply elem_dget; [apply NoDup_meta|]. apply elem_of_list_fmap. exists (k, v). split; [done|]. by apply elem_of_map_to_list.
  - apply dget_None_key. rewrite dkeys_meta. intros ([k' v] & -> & Hin%elem_of_map_to_list)%elem_of_list_fmap. cbn in *. congruence.
Qed.
Lemma meta_json_inj (m m' : meta) : meta_json m = meta_json m' <-> m = m'.
Proof.
  split; [|by intros ->]. intros H. apply map_eq. intros k. assert (Hk : dget (meta_json m) k = dget (meta_json m') k) by (by rewrite H). rewrite !dget_meta in Hk.
  destruct (m !! k), (m' !! k); cbn in Hk; congruence.
Qed.
Lemma meta_json_nil (m : meta) : meta_json m = [] <-> m = ∅.
Proof. change (@nil (name * py)) with (meta_json ∅) at 1. by rewrite meta_json_inj. Qed.

Lemma dget_diff_meta (c r : meta) k : dget (diff_mappings (meta_json c) (meta_json r)) k =
  match c !! k, r !! k with
  | Some v, Some w => Some (if decide (v = w) then PDiff EQUAL (PStr v) else PDiff UNEQUAL (cur_ref (PStr v) (PStr w)))
  | Some v, None => Some (PDiff ADDED (PStr v))
  | None, Some w => Some (PDiff REMOVED (PStr w))
  | None, None => None
  end.
Proof.
  rewrite dget_diff by apply NoDup_meta. rewrite !dget_meta. destruct (c !! k) as [v|], (r !! k) as [w|]; cbn; try done.
  destruct (decide (v = w)) as [-> | Hne]; [by rewrite decide_True|]. rewrite decide_False by congruence. done.
Qed.
(** The report about two mappings of texts. *)
Lemma readable_meta (c r : meta) : showable c r -> exists m, readable (PDict (diff_mappings (meta_json c) (meta_json r))) = Ok m /\ shows (Keys (text_report c r)) (PDict m) /\ (m = [] <-> c = r).
Proof.
  intros (Hc & Hr & Hv). assert (He : forall k x, dget (diff_mappings (meta_json c) (meta_json r)) k = Some x ->
    entry k x = Ok (match text_report c r k with Some (Atom p) => Some p | _ => None end)).
  { intros k x Hx. rewrite dget_diff_meta in Hx. unfold text_report. assert (Hk : k <> metadata_field) by (intros ->; by rewrite Hc, Hr in Hx).
    destruct (c !! k) as [v|] eqn:Ec, (r !! k) as [w|] eqn:Er; [|injection Hx as <-; unfold entry; by rewrite decide_False..|done].
    destruct (decide (v = w)) as [-> | Hne]; injection Hx as <-; unfold entry; rewrite decide_False by done; [done|]. cbn.
    assert (v <> "") by (by apply (Hv k v w)). by destruct v. }
  destruct (readable_ok (diff_mappings (meta_json c) (meta_json r))) as (m & Hm & Hn & Hg).
  { apply NoDup_diff; apply NoDup_meta. }
  { intros k x Hx. eexists. by apply He. }
  assert (Hk : forall k, dget m k = match text_report c r k with Some (Atom p) => Some p | _ => None end).
  { intros k. rewrite Hg. destruct (dget (diff_mappings (meta_json c) (meta_json r)) k) as [x|] eqn:Ex; [by rewrite (He k x Ex)|].
    rewrite dget_diff_meta in Ex. unfold text_report. by destruct (c !! k), (r !! k). }
  exists m. split_and!; [done| |].
  - exists m. split_and!; [done|done|]. intros k. rewrite Hk. unfold text_report. destruct (c !! k), (r !! k); [|by eexists..|done]. destruct (decide _); [done|by eexists].
  - split.
    + intros ->. apply map_eq. intros k. specialize (Hk k). cbn in Hk. unfold text_report in Hk. destruct (c !! k), (r !! k); try done. destruct (decide _) as [-> |]; done.
    + intros ->. destruct m as [|[k p] m]; [done|]. specialize (Hk k). cbn in Hk. rewrite decide_True in Hk by done. unfold text_report in Hk. destruct (r !! k); [|done]. by rewrite decide_True in Hk.
Qed.

(** ** Columns *)
Lemma dget_field_json f a : dget [("name", PStr (f_name f)); ("type", PStr (f_type f)); ("nullable", PBool (f_null f)); ("metadata", PDict (meta_json (f_meta f)))] a =
  if decide (a = "name") then Some (PStr (f_name f)) else if decide (a = "type") then Some (PStr (f_type f)) else if decide (a = "nullable") then Some (PBool (f_null f))
  else if decide (a = "metadata") then Some (PDict (meta_json (f_meta f))) else None.
Proof. done. Qed.
Lemma field_json_eq f g : field_json f = field_json g <-> f_name f = f_name g /\ f_type f = f_type g /\ f_null f = f_null g /\ f_meta f = f_meta g.
Proof.
  unfold field_json. split; [|by intros (-> & -> & -> & ->)]. intros H. injection H as H1 H2 H3 H4. apply meta_json_inj in H4. done.
Qed.
Lemma schema_dsets l : forall d : dict py, foldl (fun d f => dset d (f_name f) (field_json f)) d l = foldl (fun d kc => dset d kc.1 kc.2) d (map (fun f => (f_name f, field_json f)) l).
Proof. induction l as [|f l IH]; intros d; [done|]. cbn. apply IH. Qed.
Lemma schema_json_columns s : wf_schema s -> schema_json s = (if decide (s_meta s = ∅) then [] else [(metadata_field, PDict (meta_json (s_meta s)))]) ++ map (fun f => (f_name f, field_json f)) (s_fields s) /\
  NoDup (dkeys (schema_json s)).
Proof.
  intros (Hn & Hm & _). set (d0 := if decide (s_meta s = ∅) then [] else [(metadata_field, PDict (meta_json (s_meta s)))]).
  assert (Hd : NoDup (dkeys (d0 ++ map (fun f => (f_name f, field_json f)) (s_fields s)))).
  { unfold dkeys. rewrite fmap_app.
    assert (Hmm : map (fun f => (f_name f, field_json f)) (s_fields s) = (fun f => (f_name f, field_json f)) <$> s_fields s) by done.
    assert (Hmn : (map (fun f => (f_name f, field_json f)) (s_fields s)).*1 = map f_name (s_fields s)) by (rewrite Hmm, <- list_fmap_compose; by apply list_fmap_ext).
    rewrite Hmn. apply NoDup_app. split_and!; [|subst d0; destruct (decide _)|exact Hn].
    - subst d0. destruct (decide _); [constructor|apply NoDup_singleton].
    - intros x Hx. by apply elem_of_nil in Hx.
    - intros x ->%elem_of_list_singleton. done. }
  assert (He : schema_json s = d0 ++ map (fun f => (f_name f, field_json f)) (s_fields s)).
  { unfold schema_json. fold d0. rewrite <- dsets_fresh by done. apply schema_dsets. }
  split; [done|]. by rewrite He.
Qed.
Lemma dget_columns (l : list field) k : dget (map (fun f => (f_name f, field_json f)) l) k = field_json <$> head (filter (fun f => f_name f = k) l).
Proof.
  induction l as [|f l IH]; [done|]. cbn [map dget]. rewrite filter_cons. destruct (decide (k = f_name f)) as [-> | Hne]; [by rewrite decide_True|]. by rewrite decide_False by congruence.
Qed.
Lemma dget_schema s k : wf_schema s -> dget (schema_json s) k =
  if decide (k = metadata_field) then if decide (s_meta s = ∅) then None else Some (PDict (meta_json (s_meta s))) else field_json <$> find_column s k.
Proof.
  intros Hw. destruct (schema_json_columns s Hw) as [-> _]. rewrite dget_app, dget_columns. destruct Hw as (_ & Hm & _). destruct (decide (k = metadata_field)) as [-> | Hne].
  - assert (Hh : head (filter (fun f => f_name f = metadata_field) (s_fields s)) = None).
    { destruct (filter _ _) as [|f l] eqn:E; [done|]. exfalso. assert (Hf : f ∈ filter (fun f => f_name f = metadata_field) (s_fields s)) by (rewrite E; by left).
      apply elem_of_list_filter in Hf as [Hf Hin]. apply Hm. rewrite <- Hf. apply elem_of_list_fmap. by exists f. }
    rewrite Hh. destruct (decide (s_meta s = ∅)); [done|]. cbn. done.
  - destruct (decide (s_meta s = ∅)); [done|]. cbn [dget]. by rewrite decide_False.
Qed.
Lemma find_column_of s k f : find_column s k = Some f -> column_of s k f.
Proof.
  unfold find_column. intros H. assert (Hf : f ∈ filter (fun f => f_name f = k) (s_fields s)) by (destruct (filter _ _); [done|injection H as ->; by left]).
  apply elem_of_list_filter in Hf as [? ?]. by split.
Qed.

(** ** Equality *)
Lemma fields_equal_iff md l : forall m, fields_equal md l m = true <->
  Forall2 (fun f g => f_name f = f_name g /\ f_type f = f_type g /\ f_null f = f_null g /\ (md = true -> f_meta f = f_meta g)) l m.
Proof.
  induction l as [|f l IH]; intros [|g m]; cbn [fields_equal].
  - split; [constructor|done].
  - split; [done|intros H; inversion H].
  - split; [done|intros H; inversion H].
  - rewrite andb_true_iff, IH. unfold field_equals. rewrite !andb_true_iff, !bool_decide_eq_true, Bool.eqb_true_iff, orb_true_iff, bool_decide_eq_true.
    assert (Hmd : negb md = true \/ f_meta f = f_meta g <-> (md = true -> f_meta f = f_meta g)) by (destruct md; cbn; naive_solver). rewrite Hmd. split.
    + intros [(((? & ?) & ?) & ?) ?]. by constructor.
    + intros H. inversion H as [|? ? ? ? Hfg Hrest]; subst. naive_solver.
Qed.
Lemma schema_equals_iff md s t : schema_equals md s t = true <-> same_schema md s t.
Proof.
  unfold schema_equals, same_schema. rewrite andb_true_iff, fields_equal_iff, orb_true_iff, bool_decide_eq_true. destruct md; cbn; naive_solver.
Qed.

(** ** [diff_schemas] *)
Lemma diff_elem cur ref k : k ∈ dkeys cur \/ k ∈ dkeys ref -> exists x, (k, x) ∈ diff_mappings cur ref.
Proof.
  intros H. unfold diff_mappings. destruct (dget cur k) as [c|] eqn:Ec, (dget ref k) as [r|] eqn:Er.
  - eexists. rewrite !elem_of_app. right. right. apply elem_of_list_omap. exists (k, c). split; [by apply dget_elem|]. cbn. by rewrite Er.
  - eexists. rewrite !elem_of_app. left. apply elem_of_list_omap. exists (k, c). split; [by apply dget_elem|]. cbn. by rewrite Er.
  - eexists. rewrite !elem_of_app. right. left. apply elem_of_list_omap. exists (k, r). split; [by apply dget_elem|]. cbn. by rewrite Ec.
  - apply dget_None_key in Ec, Er. tauto.
Qed.
Lemma dset_not_nil {A} (d : dict A) k a : dset d k a <> [].
Proof. destruct d as [|[k' a'] d]; [done|]. cbn. by destruct (decide _). Qed.
Lemma schema_json_nil s : schema_json s = [] -> s_fields s = [] /\ s_meta s = ∅.
Proof.
  unfold schema_json. intros H. destruct (s_fields s) as [|f l] using rev_ind.
  - cbn in H. destruct (decide (s_meta s = ∅)); done.
  - rewrite foldl_app in H. cbn in H. by apply dset_not_nil in H.
Qed.
Lemma diff_mappings_nil cur ref : diff_mappings cur ref = [] -> cur = [] /\ ref = [].
Proof.
  intros H. split.
  - destruct cur as [|[k v] cur]; [done|]. destruct (diff_elem ((k, v) :: cur) ref k) as [x Hx]; [left; by left|]. rewrite H in Hx. by apply elem_of_nil in Hx.
  - destruct ref as [|[k v] ref]; [done|]. destruct (diff_elem cur ((k, v) :: ref) k) as [x Hx]; [right; by left|]. rewrite H in Hx. by apply elem_of_nil in Hx.
Qed.
Lemma diff_same cs cf s t : diff_schemas cs cf s t = Ok [] <-> same_schema (cs || cf) s t.
Proof.
  rewrite <- schema_equals_iff. unfold diff_schemas. destruct (schema_equals (cs || cf) s t) eqn:E; [done|]. split; [|done]. intros H. exfalso.
  apply bindr_ok in H as (d & Hd & H). destruct cs.
  - apply bindr_ok in H as (cm & _ & (rm & _ & H)%bindr_ok). injection H as H. by apply dset_not_nil in H.
  - injection H as ->. apply mapr_ok in Hd. inversion Hd as [Hn|]. symmetry in Hn. apply diff_mappings_nil in Hn as [[Hs Hms]%schema_json_nil [Ht Hmt]%schema_json_nil].
    assert (schema_equals (false || cf) s t = true); [|congruence]. apply schema_equals_iff. unfold same_schema. rewrite Hs, Ht, Hms, Hmt. by split.
Qed.

Lemma mapr_entries {X A B} (h : name * A -> res X (name * B)) (g : name -> A -> B) (d : dict A) : (forall k a, (k, a) ∈ d -> h (k, a) = Ok (k, g k a)) ->
  mapr h d = Ok (map (fun ka => (ka.1, g ka.1 ka.2)) d).
Proof.
  induction d as [|[k a] d IH]; intros H; [done|]. cbn [mapr map fst snd]. rewrite H by by left. cbn [bindr]. by rewrite IH by (intros; apply H; by right).
Qed.
Lemma dget_map {A B} (g : name -> A -> B) (d : dict A) k : dget (map (fun ka => (ka.1, g ka.1 ka.2)) d) k = g k <$> dget d k.
Proof. induction d as [|[k' a] d IH]; [done|]. cbn [map dget fst snd]. by destruct (decide (k = k')) as [-> |]. Qed.
Lemma dkeys_map {A B} (g : name -> A -> B) (d : dict A) : dkeys (map (fun ka => (ka.1, g ka.1 ka.2)) d) = dkeys d.
Proof. unfold dkeys. induction d as [|[k a] d IH]; [done|]. cbn [map fst snd]. rewrite !fmap_cons. by rewrite IH. Qed.

(** The attributes of a column. *)
Definition attrs (f : field) : dict py := [("name", PStr (f_name f)); ("type", PStr (f_type f)); ("nullable", PBool (f_null f)); ("metadata", PDict (meta_json (f_meta f)))].
Lemma NoDup_attrs f : NoDup (dkeys (attrs f)).
Proof. change (dkeys (attrs f)) with ["name"; "type"; "nullable"; "metadata"]. apply (bool_decide_unpack _). vm_compute. exact I. Qed.
Definition fdiff (cf : bool) (f g : field) : dict py :=
  let d := diff_mappings (attrs f) (attrs g) in
  if cf then if decide (f_meta f = f_meta g) then d else dset d "metadata" (PDiff UNEQUAL (PDict (diff_mappings (meta_json (f_meta f)) (meta_json (f_meta g))))) else d.
Lemma NoDup_fdiff cf f g : NoDup (dkeys (fdiff cf f g)).
Proof.
  assert (Hd : NoDup (dkeys (diff_mappings (attrs f) (attrs g)))) by (apply NoDup_diff; apply NoDup_attrs).
  unfold fdiff. destruct cf; [|done]. destruct (decide _); [done|]. by apply NoDup_dkeys_dset.
Qed.
(** What the diff of two columns of one name has. *)
Definition fentry (cf : bool) (f g : field) (a : name) : option py :=
  if decide (a = "name") then Some (PDiff EQUAL (PStr (f_name f)))
  else if decide (a = "type") then Some (if decide (f_type f = f_type g) then PDiff EQUAL (PStr (f_type f)) else PDiff UNEQUAL (cur_ref (PStr (f_type f)) (PStr (f_type g))))
  else if decide (a = "nullable") then Some (if decide (f_null f = f_null g) then PDiff EQUAL (PBool (f_null f)) else PDiff UNEQUAL (cur_ref (PBool (f_null f)) (PBool (f_null g))))
  else if decide (a = "metadata") then
    Some (if decide (f_meta f = f_meta g) then PDiff EQUAL (PDict (meta_json (f_meta f)))
          else PDiff UNEQUAL (if cf then PDict (diff_mappings (meta_json (f_meta f)) (meta_json (f_meta g))) else cur_ref (PDict (meta_json (f_meta f))) (PDict (meta_json (f_meta g)))))
  else None.
Lemma dget_fdiff cf f g a : f_name f = f_name g -> dget (fdiff cf f g) a = fentry cf f g a.
Proof.
  intros Hn. assert (Hd : dget (diff_mappings (attrs f) (attrs g)) a = fentry false f g a).
  { rewrite dget_diff by apply NoDup_attrs. unfold attrs. rewrite !dget_field_json. unfold fentry.
    destruct (decide (a = "name")); [by rewrite Hn, decide_True|].
    destruct (decide (a = "type")); [destruct (decide (f_type f = f_type g)) as [-> |]; [by rewrite decide_True|rewrite decide_False; [done|congruence]]|].
    destruct (decide (a = "nullable")); [destruct (decide (f_null f = f_null g)) as [-> |]; [by rewrite decide_True|rewrite decide_False; [done|congruence]]|].
    destruct (decide (a = "metadata")); [|done]. destruct (decide (f_meta f = f_meta g)) as [-> |Hm]; [by rewrite decide_True|].
    rewrite decide_False; [done|]. intros [= H%meta_json_inj]. done. }
  unfold fdiff. destruct cf; [|done]. destruct (decide (f_meta f = f_meta g)) as [Hm|Hm].
  - rewrite Hd. unfold fentry. rewrite !(decide_True (P := f_meta f = f_meta g)) by done. done.
  - rewrite dget_dset. destruct (decide (a = "metadata")) as [-> |Ha].
    + unfold fentry. rewrite (decide_False (P := f_meta f = f_meta g)) by done. done.
    + rewrite Hd. unfold fentry. by rewrite !(decide_False (P := a = "metadata")) by done.
Qed.

(** An entry of the diff, after the loop. *)
Definition rentry (cf : bool) (s t : schema) (k : name) (x : py) : py :=
  match x with
  | PDiff UNEQUAL _ =>
    if decide (k = metadata_field) then PDiff UNEQUAL (PDict (diff_mappings (meta_json (s_meta s)) (meta_json (s_meta t))))
    else match find_column s k, find_column t k with Some f, Some g => PDiff UNEQUAL (PDict (fdiff cf f g)) | _, _ => x end
  | _ => x
  end.
Lemma get_attrs f : get_map (attrs f) "metadata" = Ok (meta_json (f_meta f)).
Proof. done. Qed.
Lemma get_schema s k : wf_schema s -> get_map (schema_json s) k =
  if decide (k = metadata_field) then Ok (meta_json (s_meta s)) else match find_column s k with Some f => Ok (attrs f) | None => Ok [] end.
Proof.
  intros Hw. unfold get_map. rewrite dget_schema by done. destruct (decide (k = metadata_field)); [|by destruct (find_column s k)].
  destruct (decide (s_meta s = ∅)) as [-> |]; [|done]. by rewrite (proj2 (meta_json_nil ∅) eq_refl).
Qed.
Lemma refine_entry cf s t k x : wf_schema s -> wf_schema t -> apart cf s t -> (k, x) ∈ diff_mappings (schema_json s) (schema_json t) ->
  refine cf (schema_json s) (schema_json t) (k, x) = Ok (k, rentry cf s t k x).
Proof.
  intros Hs Ht Ha Hin. destruct (schema_json_columns s Hs) as [_ Hns], (schema_json_columns t Ht) as [_ Hnt].
  apply elem_dget in Hin; [|by apply NoDup_diff]. rewrite dget_diff in Hin by done. unfold refine. cbn [fst snd].
  destruct (dget (schema_json s) k) as [v|] eqn:Ev, (dget (schema_json t) k) as [w|] eqn:Ew; [|by injection Hin as <-..|done].
  destruct (decide (v = w)) as [-> | Hne]; injection Hin as <-; [done|]. rewrite !get_schema by done. rewrite dget_schema in Ev, Ew by done. unfold rentry.
  destruct (decide (k = metadata_field)) as [-> | Hk].
  - cbn [bindr]. destruct cf; [|done]. exfalso. destruct (decide (s_meta s = ∅)), (decide (s_meta t = ∅)); try done. destruct (Ha eq_refl) as [Hm|[Hm|Hm]]; [|done..].
    apply Hne. rewrite Hm in Ev. congruence.
  - destruct (find_column s k) as [f|] eqn:Ef, (find_column t k) as [g|] eqn:Eg; try done. cbn [bindr].
    assert (Hnm : f_name f = f_name g). { apply find_column_of in Ef as [_ ->], Eg as [_ ->]. done. }
    assert (Hmd : dget (diff_mappings (attrs f) (attrs g)) "metadata" = fentry false f g "metadata") by (by rewrite <- dget_fdiff).
    destruct cf; [|done]. rewrite Hmd. unfold fentry, fdiff. cbn [decide]. rewrite !(decide_False (P := "metadata" = _)) by done. rewrite decide_True by done.
    destruct (decide (f_meta f = f_meta g)); [done|]. rewrite !get_attrs. done.
Qed.

Definition mentry (s t : schema) : option py :=
  if decide (s_meta s = ∅) then if decide (s_meta t = ∅) then None else Some (PDiff REMOVED (PDict (meta_json (s_meta t))))
  else if decide (s_meta t = ∅) then Some (PDiff ADDED (PDict (meta_json (s_meta s))))
  else if decide (s_meta s = s_meta t) then Some (PDiff EQUAL (PDict (meta_json (s_meta s))))
  else Some (PDiff UNEQUAL (PDict (diff_mappings (meta_json (s_meta s)) (meta_json (s_meta t))))).
Definition centry (cf : bool) (s t : schema) (k : name) : option py :=
  match find_column s k, find_column t k with
  | Some f, Some g =>
    Some (if decide (f_type f = f_type g /\ f_null f = f_null g /\ f_meta f = f_meta g) then PDiff EQUAL (field_json f) else PDiff UNEQUAL (PDict (fdiff cf f g)))
  | Some f, None => Some (PDiff ADDED (field_json f))
  | None, Some g => Some (PDiff REMOVED (field_json g))
  | None, None => None
  end.
Definition dentry (cs cf : bool) (s t : schema) (k : name) : option py :=
  if decide (k = metadata_field) then if cs then Some (PDiff UNEQUAL (PDict (diff_mappings (meta_json (s_meta s)) (meta_json (s_meta t))))) else mentry s t
  else centry cf s t k.
Lemma diff_entries cf s t k : wf_schema s -> wf_schema t ->
  rentry cf s t k <$> dget (diff_mappings (schema_json s) (schema_json t)) k = if decide (k = metadata_field) then mentry s t else centry cf s t k.
Proof.
  intros Hs Ht. destruct (schema_json_columns s Hs) as [_ Hns], (schema_json_columns t Ht) as [_ Hnt]. rewrite dget_diff, !dget_schema by done.
  destruct (decide (k = metadata_field)) as [Hk|Hk].
  - unfold mentry. destruct (decide (s_meta s = ∅)), (decide (s_meta t = ∅)); try done. cbn. destruct (decide (s_meta s = s_meta t)) as [He|He].
    + rewrite decide_True by by rewrite He. done.
    + rewrite decide_False by (intros [= H%meta_json_inj]; done). unfold rentry. by rewrite decide_True.
  - unfold centry. destruct (find_column s k) as [f|] eqn:Ef, (find_column t k) as [g|] eqn:Eg; try done. cbn.
    assert (Hnm : f_name f = f_name g). { apply find_column_of in Ef as [_ ->], Eg as [_ ->]. done. }
    destruct (decide (f_type f = f_type g /\ _)) as [He|He].
    + rewrite decide_True; [done|]. apply field_json_eq. tauto.
    + rewrite decide_False by (intros H%field_json_eq; tauto). unfold rentry. rewrite decide_False by done. by rewrite Ef, Eg.
Qed.
Lemma diff_ok cs cf s t : wf_schema s -> wf_schema t -> apart cf s t -> ~ same_schema (cs || cf) s t ->
  exists d, diff_schemas cs cf s t = Ok d /\ NoDup (dkeys d) /\ forall k, dget d k = dentry cs cf s t k.
Proof.
  intros Hs Ht Ha Hne. unfold diff_schemas. destruct (schema_equals (cs || cf) s t) eqn:E; [by apply schema_equals_iff in E|].
  rewrite (mapr_entries _ (rentry cf s t)) by (intros; by apply refine_entry). cbn [bindr].
  destruct (schema_json_columns s Hs) as [_ Hns], (schema_json_columns t Ht) as [_ Hnt].
  set (d := map _ _). assert (Hd : NoDup (dkeys d)) by (unfold d; rewrite dkeys_map; by apply NoDup_diff).
  assert (Hg : forall k, dget d k = if decide (k = metadata_field) then mentry s t else centry cf s t k) by (intros k; unfold d; rewrite dget_map; by apply diff_entries).
  destruct cs.
  - rewrite !get_schema by done. rewrite !decide_True by done. cbn [bindr]. eexists. split_and!; [done|by apply NoDup_dkeys_dset|].
    intros k. rewrite dget_dset, Hg. unfold dentry. by destruct (decide (k = metadata_field)).
  - exists d. split_and!; [done..|]. intros k. rewrite Hg. done.
Qed.

(** ** The readable report *)
Lemma dget_fdiff_cur cf f g : f_name f = f_name g -> dget (fdiff cf f g) "cur" = None.
Proof. intros H. by rewrite dget_fdiff. Qed.
Lemma truthy_str s : s <> "" -> truthy (PStr s) = true.
Proof. intros H. cbn. by rewrite bool_decide_eq_false_2. Qed.
(** What is said of two columns. *)
Definition col_ok (cf : bool) (f g : field) : Prop :=
  f_type f <> "" /\ (f_null f = false -> f_null g = false) /\
  (f_meta f <> f_meta g -> if cf then showable (f_meta f) (f_meta g) /\ f_meta f !! "cur" = None /\ f_meta g !! "cur" = None else f_meta f <> ∅).
Lemma fentry_entry cf f g a x : col_ok cf f g -> fentry cf f g a = Some x ->
  exists o, entry a x = Ok o /\ match field_report cf f g a with Some sh => exists p, o = Some p /\ shows sh p | None => o = None end.
Proof.
  intros (Hty & Hnu & Hme) Hx. unfold fentry in Hx. unfold field_report.
  destruct (decide (a = "name")) as [-> |]; [injection Hx as <-; by exists None|].
  destruct (decide (a = "type")) as [-> |].
  { destruct (decide (f_type f = f_type g)); injection Hx as <-; [by exists None|]. eexists. split; [|by eexists].
    unfold entry. rewrite decide_False by done. unfold cur_ref. cbn [dget]. rewrite decide_True by done. by rewrite truthy_str. }
  destruct (decide (a = "nullable")) as [-> |].
  { destruct (decide (f_null f = f_null g)) as [|Hd]; injection Hx as <-; [by exists None|]. eexists. split; [|by eexists].
    unfold entry. rewrite decide_False by done. unfold cur_ref. cbn [dget]. rewrite decide_True by done. cbn [truthy]. destruct (f_null f); [done|]. exfalso. by rewrite Hnu in Hd. }
  destruct (decide (a = "metadata")) as [-> |]; [|done].
  destruct (decide (f_meta f = f_meta g)) as [|Hd]; injection Hx as <-; [by exists None|]. specialize (Hme Hd). destruct cf.
  - destruct Hme as (Hsh & Hc & Hr). destruct (readable_meta _ _ Hsh) as (m & Hm & Hshows & _). exists (Some (PDict m)). split; [|by eexists].
    unfold entry. rewrite decide_False by done. rewrite dget_diff_meta, Hc, Hr. by rewrite Hm.
  - eexists. split; [|by eexists]. unfold entry. rewrite decide_False by done. unfold cur_ref. cbn [dget]. rewrite decide_True by done.
    destruct (meta_json (f_meta f)) eqn:E; [by apply meta_json_nil in E|]. done.
Qed.
Lemma readable_fdiff cf f g : f_name f = f_name g -> col_ok cf f g -> exists m, readable (PDict (fdiff cf f g)) = Ok m /\ shows (Keys (field_report cf f g)) (PDict m).
Proof.
  intros Hn Hok. destruct (readable_ok (fdiff cf f g)) as (m & Hm & Hnm & Hg); [apply NoDup_fdiff| |].
  { intros k x Hx. rewrite dget_fdiff in Hx by done. destruct (fentry_entry cf f g k x Hok Hx) as (o & Ho & _). by exists o. }
  exists m. split; [done|]. exists m. split_and!; [done..|]. intros k. rewrite Hg, dget_fdiff by done. destruct (fentry cf f g k) as [x|] eqn:E.
  - destruct (fentry_entry cf f g k x Hok E) as (o & Ho & Hs). rewrite Ho. destruct (field_report cf f g k) as [sh|]; [|done]. destruct Hs as (p & -> & Hp). by exists p.
  - assert (Hfr : field_report cf f g k = None); [|by rewrite Hfr]. unfold fentry in E. unfold field_report.
    destruct (decide (k = "name")); [done|]. destruct (decide (k = "type")); [done|]. destruct (decide (k = "nullable")); [done|]. by destruct (decide (k = "metadata")).
Qed.
Lemma dentry_entry cs cf s t k x : wf_schema s -> wf_schema t -> tame cs cf s t -> dentry cs cf s t k = Some x ->
  exists o, entry k x = Ok o /\ match schema_report cf s t k with Some sh => exists p, o = Some p /\ shows sh p | None => o = None end.
Proof.
  intros Hs Ht (Hsh & _ & Hcs & Hcol) Hx. unfold dentry in Hx. unfold schema_report. destruct (decide (k = metadata_field)) as [-> |Hk].
  - destruct (readable_meta _ _ Hsh) as (m & Hm & Hshows & Hnil).
    assert (x = PDiff UNEQUAL (PDict (diff_mappings (meta_json (s_meta s)) (meta_json (s_meta t))))) as ->.
    { destruct cs; [by injection Hx as <-|]. unfold mentry in Hx. destruct (Hcs eq_refl) as [[Hms Hmt]|(Hms & Hmt & Hd)].
      - by rewrite !decide_True in Hx by done.
      - rewrite !decide_False in Hx by done. by injection Hx as <-. }
    unfold entry. rewrite decide_True by done. rewrite Hm. cbn [bindr]. destruct (decide (s_meta s = s_meta t)) as [He|He].
    + rewrite (proj2 Hnil He). by exists None.
    + destruct m as [|a m]; [by destruct He; apply Hnil|]. eexists. split; [done|]. by eexists.
  - unfold centry in Hx. unfold entry. destruct (find_column s k) as [f|] eqn:Ef, (find_column t k) as [g|] eqn:Eg.
    + destruct (decide (f_type f = f_type g /\ _)) as [He|He]; injection Hx as <-; rewrite decide_False by done; [by exists None|].
      apply find_column_of in Ef, Eg. assert (Hnm : f_name f = f_name g) by (destruct Ef as [_ ->], Eg as [_ ->]; done). rewrite dget_fdiff_cur by done.
      destruct (readable_fdiff cf f g) as (m & -> & Hm); [done| |].
      { destruct (Hcol k f g Ef Eg) as [H1 H2]. split_and!; [|done..]. destruct Hs as (_ & _ & Hty). rewrite Forall_forall in Hty. apply Hty. by destruct Ef. }
      cbn [bindr]. eexists. split; [done|]. by eexists.
    + injection Hx as <-. rewrite decide_False by done. eexists. split; [done|]. by eexists.
    + injection Hx as <-. rewrite decide_False by done. eexists. split; [done|]. by eexists.
    + done.
Qed.
Lemma report_ok cs cf s t : wf_schema s -> wf_schema t -> tame cs cf s t -> ~ same_schema (cs || cf) s t ->
  exists d m, diff_schemas cs cf s t = Ok d /\ d <> [] /\ readable (PDict d) = Ok m /\ shows (Keys (schema_report cf s t)) (PDict m).
Proof.
  intros Hs Ht Htame Hne. destruct (diff_ok cs cf s t) as (d & Hd & Hnd & Hg); [done..|by destruct Htame as (_ & ? & _)|done|].
  destruct (readable_ok d) as (m & Hm & Hnm & Hgm); [done| |].
  { intros k x Hx. rewrite Hg in Hx. destruct (dentry_entry cs cf s t k x Hs Ht Htame Hx) as (o & Ho & _). by exists o. }
  exists d, m. split_and!; [done| |done|].
  { intros ->. apply Hne. by apply diff_same. }
  exists m. split_and!; [done..|]. intros k. rewrite Hgm, Hg. destruct (dentry cs cf s t k) as [x|] eqn:E.
  - destruct (dentry_entry cs cf s t k x Hs Ht Htame E) as (o & Ho & Hsh). rewrite Ho. destruct (schema_report cf s t k) as [sh|]; [|done]. destruct Hsh as (p & -> & Hp). by exists p.
  - assert (Hfr : schema_report cf s t k = None); [|by rewrite Hfr]. unfold dentry, mentry, centry in E. unfold schema_report. destruct (decide (k = metadata_field)).
    + destruct cs; [done|]. destruct (decide (s_meta s = ∅)) as [Hms|], (decide (s_meta t = ∅)) as [Hmt|]; try done; [by rewrite decide_True by by rewrite Hms, Hmt|].
      by destruct (decide (s_meta s = s_meta t)).
    + by destruct (find_column s k), (find_column t k).
Qed.

(** ** JSON *)
Fixpoint jok (s : shown) : Prop := match s with Atom p => is_json p = true | Keys h => forall k, match h k with Some s' => jok s' | None => True end end.
Lemma is_json_dict l : (forall k p, (k, p) ∈ l -> is_json p = true) -> is_json (PDict l) = true.
Proof.
  induction l as [|[k p] l IH]; intros H; [done|]. cbn [is_json]. rewrite (H k p) by by left. cbn [andb]. apply IH. intros k' p' Hin. apply (H k' p'). by right.
Qed.
Lemma shows_json : forall s p, jok s -> shows s p -> is_json p = true.
Proof.
  fix IH 1. intros s p. destruct s as [q|h]; cbn [jok shows]; [by intros ? ->|]. intros Hj (l & -> & Hn & Hk). apply is_json_dict. intros k p Hin%elem_dget; [|done].
  specialize (Hj k). specialize (Hk k). destruct (h k) as [s'|]; [|congruence]. destruct Hk as (p' & Hp' & Hs). assert (p' = p) as -> by congruence. by apply (IH s').
Qed.
Lemma meta_is_json m : is_json (PDict (meta_json m)) = true.
Proof. apply is_json_dict. intros k p ([k' v] & [= -> ->] & _)%elem_of_list_fmap. done. Qed.
Lemma jok_text c r : jok (Keys (text_report c r)).
Proof. intros k. unfold text_report. destruct (c !! k), (r !! k); try done. by destruct (decide _). Qed.
Lemma jok_report cf s t : jok (Keys (schema_report cf s t)).
Proof.
  intros k. unfold schema_report. destruct (decide (k = metadata_field)); [destruct (decide (s_meta s = s_meta t)); [done|apply jok_text]|].
  destruct (find_column s k) as [f|], (find_column t k) as [g|]; try done. destruct (decide _); [done|]. intros a. unfold field_report.
  destruct (decide (a = "type")); [by destruct (decide (f_type f = f_type g))|]. destruct (decide (a = "nullable")); [by destruct (decide (f_null f = f_null g))|].
  destruct (decide (a = "metadata")); [|done]. destruct (decide (f_meta f = f_meta g)); [done|]. destruct cf; [apply jok_text|].
  unfold changed. cbn [jok]. apply is_json_dict. intros k' p' Hin. apply elem_of_cons in Hin as [[= -> ->]|Hin]; [apply meta_is_json|].
  apply elem_of_list_singleton in Hin as [= -> ->]. apply meta_is_json.
Qed.

(** ** The validator *)
Lemma after_same st n s v ref : st_check st = true -> v_files v !! schema_path n = Some ref -> same_schema (st_cs st || st_cf st) s ref ->
  after_node st n s v = Ok (VState (v_files v) (dset (v_schemas v) n s) (v_diffs v) (v_warned v)).
Proof. intros Hc Hf Hs. unfold after_node. rewrite Hc. cbn [negb]. cbn [v_files]. rewrite Hf. by rewrite (proj2 (diff_same _ _ _ _) Hs). Qed.
Lemma after_fail st n s v ref : st_check st = true -> st_fail st = true -> v_files v !! schema_path n = Some ref ->
  (exists v', after_node st n s v = Ok v') <-> same_schema (st_cs st || st_cf st) s ref.
Proof.
  intros Hc Hfl Hf. split; [|intros H; eexists; by eapply after_same]. intros [v' H]. apply diff_same. unfold after_node in H. rewrite Hc in H. cbn [negb v_files] in H. rewrite Hf in H.
  apply bindr_ok in H as (d & Hd & H). destruct d as [|a d]; [done|]. exfalso. apply bindr_ok in H as (m & _ & H). destruct (is_json (PDict m)); [|done]. by rewrite Hfl in H.
Qed.
Lemma after_warn st n s v ref : st_check st = true -> v_files v !! schema_path n = Some ref -> wf_schema s -> wf_schema ref -> tame (st_cs st) (st_cf st) s ref ->
  ~ same_schema (st_cs st || st_cf st) s ref ->
  exists d m, shows (Keys (schema_report (st_cf st) s ref)) (PDict m) /\
    after_node st n s v = (if st_fail st then Err (XRuntime m) else Ok (VState (v_files v) (dset (v_schemas v) n s) (dset (v_diffs v) n d) (v_warned v ++ [(n, m)]))).
Proof.
  intros Hc Hf Hs Ht Htame Hne. destruct (report_ok _ _ _ _ Hs Ht Htame Hne) as (d & m & Hd & Hnil & Hm & Hsh). exists d, m. split; [done|].
  unfold after_node. rewrite Hc. cbn [negb v_files v_schemas v_diffs v_warned]. rewrite Hf, Hd. cbn [bindr]. destruct d as [|a d]; [done|]. rewrite Hm. cbn [bindr].
  rewrite (shows_json _ _ (jok_report _ _ _) Hsh). done.
Qed.
(** A reference file is never changed while checking. *)
Lemma after_files st n s v v' p ref : st_check st = true -> v_files v !! p = Some ref -> after_node st n s v = Ok v' -> v_files v' !! p = Some ref.
Proof.
  intros Hc Hp H. unfold after_node in H. rewrite Hc in H. cbn [negb v_files v_schemas v_diffs v_warned] in H. destruct (v_files v !! schema_path n) as [r|] eqn:E.
  - apply bindr_ok in H as (d & Hd & H). destruct d as [|a d]; [by injection H as <-|]. apply bindr_ok in H as (m & _ & H). destruct (is_json (PDict m)); [|done].
    destruct (st_fail st); [done|]. by injection H as <-.
  - destruct (st_must_exist st); [done|]. injection H as <-. cbn. rewrite lookup_insert_ne by congruence. done.
Qed.
Lemma run_files st ns : forall v v' p ref, st_check st = true -> v_files v !! p = Some ref -> run_nodes st ns v = Ok v' -> v_files v' !! p = Some ref.
Proof.
  unfold run_nodes. induction ns as [|[n s] ns IH]; intros v v' p ref Hc Hp H; cbn [foldr_] in H; [by injection H as <-|].
  apply bindr_ok in H as (v1 & H1 & H). eapply IH; [done| |done]. by eapply after_files.
Qed.
Lemma run_saved st ns : forall v, st_check st = true -> st_must_exist st = false -> NoDup (map (fun ns => schema_path ns.1) ns) ->
  (forall n s, (n, s) ∈ ns -> v_files v !! schema_path n = None) ->
  exists v', run_nodes st ns v = Ok v' /\ v_warned v' = v_warned v /\ v_diffs v' = v_diffs v /\ forall n s, (n, s) ∈ ns -> v_files v' !! schema_path n = Some s.
Proof.
  unfold run_nodes. induction ns as [|[n s] ns IH]; intros v Hc Hm Hn Hf; [exists v; split_and!; [done..|]; intros n s Hin; by apply elem_of_nil in Hin|].
  cbn [foldr_ fst snd]. cbn [map fst] in Hn. apply NoDup_cons in Hn as [Hx Hn].
  assert (Hv : after_node st n s v = Ok (VState (<[schema_path n := s]> (v_files v)) (dset (v_schemas v) n s) (v_diffs v) (v_warned v))).
  { unfold after_node. rewrite Hc. cbn [negb v_files v_schemas v_diffs v_warned]. rewrite (Hf n s) by by left. by rewrite Hm. }
  rewrite Hv. cbn [bindr]. destruct (IH (VState (<[schema_path n := s]> (v_files v)) (dset (v_schemas v) n s) (v_diffs v) (v_warned v)) Hc Hm Hn) as (v' & Hr & Hw & Hdf & Hall).
  { intros n' s' Hin. cbn. rewrite lookup_insert_ne; [apply (Hf n' s'); by right|]. intros He. apply Hx. rewrite He. apply elem_of_list_fmap. by exists (n', s'). }
  exists v'. split_and!; [done..|]. intros n' s' [[= -> ->]|Hin]%elem_of_cons; [|by apply Hall]. eapply (run_files st ns); [done| |done]. cbn. by rewrite lookup_insert.
Qed.
Lemma run_same st ns : forall v, st_check st = true -> (forall n s, (n, s) ∈ ns -> exists ref, v_files v !! schema_path n = Some ref /\ same_schema (st_cs st || st_cf st) s ref) ->
  exists v', run_nodes st ns v = Ok v' /\ v_files v' = v_files v /\ v_warned v' = v_warned v /\ v_diffs v' = v_diffs v.
Proof.
  unfold run_nodes. induction ns as [|[n s] ns IH]; intros v Hc H; [by exists v|]. cbn [foldr_ fst snd]. destruct (H n s) as (ref & Hf & Hs); [by left|].
  rewrite (after_same st n s v ref) by done. cbn [bindr]. destruct (IH (VState (v_files v) (dset (v_schemas v) n s) (v_diffs v) (v_warned v)) Hc) as (v' & ? & ? & ? & ?).
  { intros n' s' Hin. apply H. by right. }
  by exists v'.
Qed.
Lemma run_fail st ns : forall v, st_check st = true -> st_fail st = true -> (forall n s, (n, s) ∈ ns -> is_Some (v_files v !! schema_path n)) ->
  (exists v', run_nodes st ns v = Ok v') <-> (forall n s, (n, s) ∈ ns -> exists ref, v_files v !! schema_path n = Some ref /\ same_schema (st_cs st || st_cf st) s ref).
Proof.
  intros v Hc Hfl Hall. split; [|intros H; destruct (run_same st ns v Hc H) as (v' & ? & _); by exists v'].
  revert v Hall. unfold run_nodes. induction ns as [|[n s] ns IH]; intros v Hall [v' H] n0 s0 Hin; [by apply elem_of_nil in Hin|]. cbn [foldr_ fst snd] in H.
  apply bindr_ok in H as (v1 & H1 & H). destruct (Hall n s) as [ref Hf]; [by left|]. assert (Hs : same_schema (st_cs st || st_cf st) s ref) by (eapply after_fail; [done..|by eexists]).
  rewrite (after_same st n s v ref) in H1 by done. injection H1 as <-.
  apply elem_of_cons in Hin as [[= -> ->]|Hin]; [by exists ref|]. apply (IH (VState (v_files v) (dset (v_schemas v) n s) (v_diffs v) (v_warned v))); [|by eexists|done].
  intros n' s' Hin'. apply (Hall n' s'). by right.
Qed.
(** ** Paths *)
Fixpoint has_dot (s : string) : bool := match s with EmptyString => false | String a s' => Ascii.eqb a "."%char || has_dot s' end.
Lemma last_dot_none s : forall i, has_dot s = false -> last_dot s i = None.
Proof. induction s as [|a s IH]; intros i H; [done|]. cbn in *. apply orb_false_iff in H as [H1 H2]. rewrite IH by done. by rewrite H1. Qed.
Lemma app_inj_r (s t u : string) : s +:+ u = t +:+ u -> s = t.
Proof.
  assert (Hl : forall x y : string, String.length (x +:+ y) = String.length x + String.length y) by (intros x y; induction x as [|a x IHx]; [done|]; change (S (String.length (x +:+ y)) = S (String.length x + String.length y)); by rewrite IHx).
  revert t. induction s as [|a s IH]; intros [|b t] H; [done| | |].
  - exfalso. assert (HL : String.length (EmptyString +:+ u) = String.length (String b t +:+ u)) by (by rewrite H). rewrite !Hl in HL. cbn in HL. lia.
  - exfalso. assert (HL : String.length (String a s +:+ u) = String.length (EmptyString +:+ u)) by (by rewrite H). rewrite !Hl in HL. cbn in HL. lia.
  - cbn in H. injection H as -> H. f_equal. by apply IH.
Qed.
Lemma path_inj n n' : has_dot n = false -> has_dot n' = false -> schema_path n = schema_path n' -> n = n'.
Proof. intros H H'. unfold schema_path, stem. rewrite !last_dot_none by done. apply app_inj_r. Qed.
Lemma column_find s k f : wf_schema s -> column_of s k f -> find_column s k = Some f.
Proof.
  intros (Hn & _) [Hin Hk]. unfold find_column. assert (Hf : f ∈ filter (fun f => f_name f = k) (s_fields s)) by (by apply elem_of_list_filter).
  destruct (filter _ _) as [|g l] eqn:E; [by apply elem_of_nil in Hf|]. cbn. f_equal.
  assert (Hg : column_of s k g) by (apply find_column_of; unfold find_column; by rewrite E). destruct Hg as [Hg Hgk].
  clear E Hf l. induction (s_fields s) as [|h l IH]; [by apply elem_of_nil in Hin|]. cbn [map] in Hn. apply NoDup_cons in Hn as [Hh Hn].
  apply elem_of_cons in Hin as [-> | Hin], Hg as [-> | Hg]; [done| | |by apply IH].
  - exfalso. apply Hh. rewrite Hk, <- Hgk. apply elem_of_list_fmap. by exists g.
  - exfalso. apply Hh. rewrite Hgk, <- Hk. apply elem_of_list_fmap. by exists f.
Qed.
Lemma column_none s k : find_column s k = None <-> forall f, ~ column_of s k f.
Proof.
  unfold find_column. split.
  - intros H f [Hin Hk]. assert (Hf : f ∈ filter (fun f => f_name f = k) (s_fields s)) by (by apply elem_of_list_filter). destruct (filter _ _); [by apply elem_of_nil in Hf|done].
  - intros H. destruct (filter _ _) as [|g l] eqn:E; [done|]. exfalso. apply (H g). apply find_column_of. unfold find_column. by rewrite E.
Qed.
Lemma fdiff_differs cf f g a : f_name f = f_name g -> differs a f g <-> exists x, dget (fdiff cf f g) a = Some (PDiff UNEQUAL x).
Proof.
  intros Hn. rewrite dget_fdiff by done. unfold fentry, differs.
  destruct (decide (a = "name")) as [-> |]; [split; [intros [[? _]|[[? _]|[? _]]]; done|by intros [x Hx]]|].
  destruct (decide (a = "type")) as [-> |].
  { destruct (decide (f_type f = f_type g)); (split; [intros [[_ ?]|[[? _]|[? _]]]; try done; by eexists|]); [by intros [x Hx]|]. intros _. by left. }
  destruct (decide (a = "nullable")) as [-> |].
  { destruct (decide (f_null f = f_null g)); (split; [intros [[? _]|[[_ ?]|[? _]]]; try done; by eexists|]); [by intros [x Hx]|]. intros _. right. by left. }
  destruct (decide (a = "metadata")) as [-> |].
  { destruct (decide (f_meta f = f_meta g)); (split; [intros [[? _]|[[? _]|[_ ?]]]; try done; by eexists|]); [by intros [x Hx]|]. intros _. right. by right. }
  split; [intros [[? _]|[[? _]|[? _]]]; done|by intros [x Hx]].
Qed.
