(** C80: the tags of a node are what its decorators say, the outermost one first; which tags are
    accepted; the options of ray and the fields of a schema are carried by tags without loss. *)
From Coq Require Import Ascii.
From stdpp Require Import pretty.
From Verif Require Import Base Dict Strings CacheKeyModel CacheKeyProofs DecorModel AdapterModel TaggingModel TaggingSpec TaggingProofs.

Section Props.
Context {T R J : Type}.
Variable ident : string -> bool.
Variable dumps : J -> string.
Variable loads : string -> option J.
Variable dataset : T -> bool.
Notation tnode := (tnode T R).
Notation dec := (dec J).

(** The tags of the nodes. In full this would hold without [mark_free] and for @tag_outputs with
    any tags; see [C80_mark_refuted] and [C80_swallowed_refuted]. *)
Theorem C80_tags_partial (decs : list dec) (nodes : list tnode) : nodes_ok nodes -> Forall dec_ok decs -> Forall mark_free decs ->
  match apply_decs dumps dataset decs nodes with
  | Ok out => Forall (fits dataset nodes) decs /\ map tn_name out ≡ₚ map tn_name nodes /\
      forall n, n ∈ nodes -> exists m, m ∈ out /\ same n m /\ forall k v, dget (tn_tags m) k = Some v <-> last_word dumps decs nodes n k v
  | Err e => e = TInvalid /\ Exists (fun d => ~ fits dataset nodes d) decs
  end.
Proof.
  intros Hok Hd Hm. pose proof (apply_decs_spec ident dumps loads dataset nodes decs [] nodes Hok Hd Hm (after_start dumps nodes Hok)) as H.
  destruct (apply_decs dumps dataset decs nodes) as [out|e]; [|done]. destruct H as (H1 & H2 & H3). split_and!; [done|done|].
  intros n Hn. destruct (H3 n Hn) as (m & Hm' & Hs & _ & _ & Hk). by exists m.
Qed.

(** What is accepted, and the stack that results: @tag and @ray_remote_options want good tags,
    @schema.output wants to be the innermost. *)
Definition acceptable (decs : list dec) (d : dec) : Prop :=
  match d with
  | DTag _ bypass tags => good ident bypass tags
  | DRay options => forall o, o ∈ dkeys options -> good_key ident true o
  | DSchema _ _ => decs = []
  | _ => True
  end.
Lemma ray_key o : ident "ray_remote" = true -> good_key ident true ("ray_remote." +:+ o) <-> good_key ident true o.
Proof.
  intros Hr. rewrite <- !key_allowed_spec. unfold key_allowed. change ("ray_remote." +:+ o) with ("ray_remote" +:+ String "."%char o). rewrite split_app by (cbn; by repeat split).
  destruct (split "."%char o) as [|c cs] eqn:E; [by destruct (split_nonempty "."%char o)|]. cbn. by rewrite Hr.
Qed.
Lemma good_ray o : ident "ray_remote" = true -> good ident true (ray_tags dumps o) <-> forall k, k ∈ dkeys o -> good_key ident true k.
Proof.
  intros Hr. unfold good. split.
  - intros H k Hk. apply dget_Some_key in Hk as [j Hj]. rewrite <- ray_key by done. apply (H _ (VStr (dumps j))). apply dget_elem. by rewrite ray_tags_get, Hj.
  - intros H k v Hin. apply elem_of_list_fmap in Hin as ([o' j] & [= -> ->] & Hin). split; [|done]. cbn [fst]. apply (ray_key o' Hr). apply H. apply elem_of_list_fmap. by exists (o', j).
Qed.
Theorem C80_accepted decs d r : ident "ray_remote" = true -> attach ident dumps decs d = Ok r <-> r = decs ++ [d] /\ acceptable decs d.
Proof.
  intros Hr. unfold attach, acceptable.
  assert (V : forall b tags, validate ident b false tags = Ok () <-> good ident b tags).
  { intros b tags. destruct (validate_spec ident b false tags) as (_ & -> & _). rewrite not_bad. tauto. }
  assert (Hok : forall (x : list dec) (P : Prop), P -> (Ok x = Ok r :> res terr (list dec)) <-> r = x /\ P) by (intros x P HP; split; [by intros [= ->]|by intros [-> _]]).
  destruct d as [t b tags|mp|t bh f|t fs|o].
  - specialize (V b tags). revert V. destruct (validate ident b false tags) as [[]|e]; intros V; cbn.
    + destruct decs; apply Hok; by apply V.
    + split; [done|]. intros [_ H]. apply V in H. done.
  - cbn. destruct decs; by apply Hok.
  - cbn. destruct decs; by apply Hok.
  - cbn. destruct decs; [by apply Hok|]. split; [done|by intros [_ ?]].
  - specialize (V true (ray_tags dumps o)). rewrite good_ray in V by done. revert V. destruct (validate ident true false (ray_tags dumps o)) as [[]|e]; intros V; cbn.
    + destruct decs; apply Hok; by apply V.
    + split; [done|]. intros [_ H]. apply V in H. done.
Qed.
(** How @tag is refused. In full it would always be InvalidDecoratorException, see
    [C80_unhashable_refuted]. *)
Theorem C80_refused_partial decs t b tags :
  attach ident dumps decs (DTag t b tags) = Err TInvalid <-> ~ good ident b tags /\ forall k v, (k, v) ∈ tags -> unhashable v -> good_key ident b k /\ good_value v.
Proof.
  assert (Hun : forall v, unhashable v <-> hashable v = false).
  { intros v. unfold unhashable. split; [by intros [b' ->]|]. destruct v as [| |h tr]; cbn; try done. intros ->. by exists tr. }
  destruct (validate_spec ident b false tags) as (V1 & V2 & V3). rewrite not_bad in V2. unfold attach.
  revert V1 V2 V3. destruct (validate ident b false tags) as [[]|e]; intros V1 V2 V3; cbn.
  - split; [by destruct decs|]. intros [H _]. destruct H. by apply V2.
  - split.
    + intros [= ->]. split; [intros H; by pose proof (proj2 V2 (conj eq_refl H))|]. intros k v Hin Hh%Hun.
      destruct (negb (key_allowed ident b k) || negb (value_allowed v)) eqn:E.
      * exfalso. apply bad_spec in E. assert (Err TInvalid = Err TUnhashable) by (apply V1; by exists (k, v)). done.
      * apply orb_false_iff in E as [E1%negb_false_iff E2%negb_false_iff]. by rewrite <- key_allowed_spec, <- value_allowed_spec.
    + intros [_ H]. f_equal. destruct (V3 e eq_refl) as [-> | ->]; [|done]. destruct (proj1 V1 eq_refl) as ([k v] & Hin & Hb & Hh). destruct Hb. apply H; [done|]. by apply Hun.
Qed.

(** Accepted decorators without [bypass_reserved_namespaces_] and without @tag_outputs leave the
    reserved namespaces alone, but for the tags of @schema.output and @ray_remote_options. In full
    this would hold with @tag_outputs; see [C80_outputs_refuted]. *)
Definition vetted (d : dec) : Prop := match d with DTag _ b _ => b = false | DTagOutputs _ => False | _ => True end.
Definition in_reserved (k : string) : Prop := exists c cs, k = join "."%char (c :: cs) /\ c ∈ reserved /\ Forall (lacks "."%char) (c :: cs).
Lemma attach_all_acceptable decs r0 r : ident "ray_remote" = true -> foldr_ (fun d s => attach ident dumps s d) decs r0 = Ok r -> forall d, d ∈ decs -> exists s, acceptable s d.
Proof.
  intros Hr. revert r0. induction decs as [|d decs IH]; intros r0 H; [by intros d ?%elem_of_nil|]. cbn [foldr_] in H. destruct (attach ident dumps r0 d) as [r1|e] eqn:E; [|done]. cbn in H.
  intros d' [-> |Hin]%elem_of_cons; [|by eapply IH]. apply C80_accepted in E as [_ E]; [|done]. by exists r0.
Qed.
Lemma reserved_bad k : in_reserved k -> ~ good_key ident false k.
Proof.
  intros (c & cs & -> & Hc & Hl) Hg. apply key_allowed_spec in Hg. unfold key_allowed in Hg. rewrite split_join in Hg by done. cbn in Hg. by rewrite bool_decide_eq_true_2 in Hg.
Qed.
Theorem C80_reserved_partial decs nodes out : ident "ray_remote" = true -> nodes_ok nodes -> Forall dec_ok decs -> attach_all ident dumps decs = Ok decs -> Forall vetted decs ->
  apply_decs dumps dataset decs nodes = Ok out ->
  forall n : tnode, n ∈ nodes -> exists m, m ∈ out /\ same n m /\
    forall k, in_reserved k -> k <> "hamilton.internal.schema_output" -> (forall o, k <> "ray_remote." +:+ o) -> dget (tn_tags m) k = dget (tn_tags n) k.
Proof.
  intros Hr Hok Hd Ha Hv Ho.
  assert (Hno : forall d, d ∈ decs -> forall t b tags, d = DTag t b tags -> forall k, in_reserved k -> k ∉ dkeys tags).
  { intros d Hin t b tags -> k Hk [v Hg]%dget_Some_key. destruct (attach_all_acceptable decs [] decs Hr Ha _ Hin) as [s Hs]. rewrite Forall_forall in Hv. specialize (Hv _ Hin). cbn in Hv, Hs. subst b.
    destruct (Hs k v (dget_elem _ _ _ Hg)) as [Hgk _]. by apply (reserved_bad k). }
  assert (Hm : Forall mark_free decs).
  { rewrite Forall_forall. rewrite Forall_forall in Hv. intros d Hin. specialize (Hv d Hin). destruct d as [t b tags|mp|t bh f|t fs|o]; cbn in *; try done.
    apply (Hno _ Hin t b tags eq_refl). exists "hamilton", ["non_final_node"]. split_and!; [done|by left|]. repeat constructor; cbn; by repeat split. }
  pose proof (C80_tags_partial decs nodes Hok Hd Hm) as H. rewrite Ho in H. destruct H as (_ & _ & H). intros n Hn. destruct (H n Hn) as (m & Hm' & Hs & Hk). exists m. split_and!; [done|done|].
  intros k Hres Hsk Hray. assert (Hng : forall d v, d ∈ decs -> ~ gives dumps nodes d n k v).
  { intros d v Hin Hg. rewrite Forall_forall in Hv. specialize (Hv d Hin). destruct Hg as [t b tags n k v Ht Hg|mp n tags k v|t b f n|t b f n|fs s n|x fs s n|o n k j]; try done.
    - apply (Hno _ Hin t b tags eq_refl k Hres). apply dget_Some_key. by exists v.
    - destruct Hres as (c & cs & He & Hc & Hl). assert (Hsp := split_join "."%char (c :: cs) ltac:(done) Hl). rewrite <- He in Hsp. injection Hsp as <- _. revert Hc. apply (bool_decide_unpack _). vm_compute. exact I.
    - destruct Hres as (c & cs & He & Hc & Hl). assert (Hsp := split_join "."%char (c :: cs) ltac:(done) Hl). rewrite <- He in Hsp. injection Hsp as <- _. revert Hc. apply (bool_decide_unpack _). vm_compute. exact I.
    - by apply (Hray k). }
  apply option_eq. intros v. rewrite Hk. split.
  - intros [(pre & d & post & -> & Hg & _)|[_ Hg]]; [|done]. exfalso. apply (Hng d v); [|done]. apply elem_of_app. right. by left.
  - intros Hg. right. split; [|done]. intros d v' Hin. by apply Hng.
Qed.

(** The options of ray are read back from the tags: for every option of a final node the
    outermost @ray_remote_options that has it. *)
Definition ray_free (d : dec) : Prop :=
  match d with
  | DTag _ _ tags => forall o, "ray_remote." +:+ o ∉ dkeys tags
  | DTagOutputs m => forall x tags, dget m x = Some tags -> forall o, "ray_remote." +:+ o ∉ dkeys tags
  | _ => True
  end.
Lemma gives_ray nodes d (n : tnode) o v : ray_free d ->
  gives dumps nodes d n ("ray_remote." +:+ o) v <-> exists options j, d = DRay options /\ targeted TNone nodes n /\ dget options o = Some j /\ v = VStr (dumps j).
Proof.
  intros Hf. split.
  - intros [Ht Hg]%gives_said. assert (Hin : "ray_remote." +:+ o ∈ dkeys (said dumps d n)) by (apply dget_Some_key; by exists v).
    destruct d as [t b tags|mp|t bh f|t fs|options]; cbn [said ray_free dec_target] in *.
    + by destruct (Hf o).
    + destruct (dget mp (tn_name n)) as [tags|] eqn:E; cbn in Hin; [by destruct (Hf _ _ E o)|by apply elem_of_nil in Hin].
    + rewrite cache_tags_get in Hg. done.
    + apply elem_of_list_singleton in Hin. done.
    + rewrite ray_tags_get in Hg. destruct (dget options o) as [j|] eqn:E; [|done]. injection Hg as <-. by exists options, j.
  - intros (options & j & -> & Ht & Hg & ->). by apply G_ray.
Qed.
Theorem C80_ray decs nodes out : (forall j, loads (dumps j) = Some j) -> nodes_ok nodes -> Forall dec_ok decs -> Forall mark_free decs -> Forall ray_free decs ->
  (forall (n : tnode) o, n ∈ nodes -> "ray_remote." +:+ o ∉ dkeys (tn_tags n)) -> apply_decs dumps dataset decs nodes = Ok out ->
  forall n, n ∈ nodes -> exists m options, m ∈ out /\ same n m /\ parse_ray loads (tn_tags m) = Ok options /\
    forall o j, dget options o = Some j <-> targeted TNone nodes n /\ last_option decs o j.
Proof.
  intros Hl Hok Hd Hm Hf Hown Ho. pose proof (apply_decs_spec ident dumps loads dataset nodes decs [] nodes Hok Hd Hm (after_start dumps nodes Hok)) as H. rewrite Ho in H. destruct H as (_ & _ & H).
  intros n Hn. destruct (H n Hn) as (m & Hm' & Hs & [Hnd _] & _ & Hk). rewrite app_nil_l in Hk.
  assert (Hlast : forall o v, last_word dumps decs nodes n ("ray_remote." +:+ o) v <-> exists j, v = VStr (dumps j) /\ targeted TNone nodes n /\ last_option decs o j).
  { intros o v. rewrite Forall_forall in Hf. split.
    - intros [(pre & d & post & -> & Hg & Hq)|[_ Hg]].
      + apply gives_ray in Hg as (options & j & -> & Ht & Hg & ->); [|apply Hf; apply elem_of_app; right; by left]. exists j. split_and!; [done|done|].
        exists pre, options, post. split_and!; [done|done|]. intros options' Hin. destruct (dget options' o) as [j'|] eqn:E; [|done]. destruct (Hq _ (VStr (dumps j')) Hin). by apply G_ray.
      + exfalso. apply (Hown n o Hn). apply dget_Some_key. by exists v.
    - intros (j & -> & Ht & pre & options & post & -> & Hg & Hq). left. exists pre, (DRay options), post. split_and!; [done|by apply G_ray|].
      intros d' v' Hin Hg'. apply gives_ray in Hg' as (options' & j' & -> & _ & Hg' & _); [|apply Hf; apply elem_of_app; right; by right]. by rewrite (Hq _ Hin) in Hg'. }
  destruct (parse_ray_spec loads (tn_tags m)) as (options & Hp & Hget).
  { intros o v Hin. apply elem_dget in Hin; [|done]. apply Hk, Hlast in Hin as (j & -> & _). by exists (dumps j), j. }
  exists m, options. split_and!; [done|done|done|]. intros o j. rewrite Hget. split.
  - destruct (dget (tn_tags m) ("ray_remote." +:+ o)) as [v|] eqn:E; [|done]. apply Hk, Hlast in E as (j' & -> & Ht & Hlo). rewrite Hl. by intros [= ->].
  - intros [Ht Hlo]. assert (E : dget (tn_tags m) ("ray_remote." +:+ o) = Some (VStr (dumps j))) by (apply Hk, Hlast; by exists j). by rewrite E, Hl.
Qed.
End Props.
Print Assumptions C80_tags_partial.
Print Assumptions C80_accepted.
Print Assumptions C80_refused_partial.
Print Assumptions C80_reserved_partial.
Print Assumptions C80_ray.

(** The tag of a schema determines its fields, if the names contain no comma and no equals sign
    and the types no comma. In full this would hold for all fields; see [C80_schema_refuted]. *)
Definition plain_fields (fs : list (string * string)) : Prop := forall k t, (k, t) ∈ fs -> lacks ","%char k /\ lacks "="%char k /\ lacks ","%char t.
Theorem C80_schema_partial fs fs' s : plain_fields fs -> plain_fields fs' -> rendered fs s -> rendered fs' s -> fs = fs'.
Proof.
  intros Hp Hp' Hs%schema_rendered Hs'%schema_rendered. rewrite Hs in Hs'. clear s Hs. unfold schema_tag in Hs'.
  assert (Hc : forall fs, plain_fields fs -> fs <> [] -> split ","%char (join ","%char (map (fun f : string * string => f.1 +:+ "=" +:+ f.2) fs)) = map (fun f : string * string => f.1 +:+ "=" +:+ f.2) fs).
  { intros l Hl Hne. apply split_join; [by destruct l|]. rewrite Forall_forall. intros x ([k t] & -> & Hin)%elem_of_list_fmap. cbn [fst snd]. destruct (Hl k t Hin) as (? & ? & ?). rewrite !lacks_app. cbn. by repeat split. }
  assert (He : forall k t (fs : list (string * string)), join ","%char (map (fun f : string * string => f.1 +:+ "=" +:+ f.2) ((k, t) :: fs)) <> "").
  { intros k t l. destruct l; cbn; destruct k; done. }
  destruct fs as [|[k t] fs], fs' as [|[k' t'] fs']; [done|by destruct (He k' t' fs')|by destruct (He k t fs)|].
  apply (f_equal (split ","%char)) in Hs'. rewrite !Hc in Hs' by done. clear He Hc. revert Hs'. generalize ((k, t) :: fs) ((k', t') :: fs') Hp Hp'. clear.
  intros l. induction l as [|[k t] l IH]; intros l' Hp Hp' H; destruct l' as [|[k' t'] l']; [done|done|done|]. cbn in H. injection H as H1 H2. f_equal.
  - destruct (Hp k t) as (_ & ? & _); [by left|]. destruct (Hp' k' t') as (_ & ? & _); [by left|]. apply (split_unique "="%char) in H1 as [-> ->]; done.
  - apply IH; [intros ???; apply Hp; by right|intros ???; apply Hp'; by right|done].
Qed.
Print Assumptions C80_schema_partial.

(** ** Where the documentation and the code differ *)
Definition idn (s : string) : bool := bool_decide (s <> "").
Definition num (j : nat) : string := pretty j.
Definition frame (t : string) : bool := bool_decide (t = "DataFrame").
Definition nd x t ps : tnode string () := TNode x t ps [("module", VStr "flows")] tt.

(** @tag_outputs does not validate: it overwrites the tag [module] that hamilton manages, with
    something that is not a string. The same by @tag is refused. *)
Theorem C80_outputs_refuted : exists (m : dict (dict tv)) (n out : tnode string ()), attach_all idn num [DTagOutputs m] = Ok [DTagOutputs m] /\
  apply_decs num frame [DTagOutputs m] [n] = Ok [out] /\ dget (tn_tags n) "module" = Some (VStr "flows") /\ dget (tn_tags out) "module" = Some (VOther true true) /\
  forall tags, dget m (tn_name n) = Some tags -> attach_all idn num [DTag TAll false tags] = Err TInvalid.
Proof.
  exists [("a", [("module", VOther true true)])], (nd "a" "int" []). eexists. split_and!; [vm_compute; reflexivity..|]. intros tags [= <-]. vm_compute. reflexivity.
Qed.
(** @tag_outputs loses the tags that have the names of arguments of @tag, and fails late on [self]. *)
Theorem C80_swallowed_refuted : exists (m m' : dict (dict tv)) (n out : tnode string ()) k v,
  attach_all idn num [DTagOutputs m] = Ok [DTagOutputs m] /\ gives num [n] (DTagOutputs m) n k v /\ good_key idn false k /\ good_value v /\
  apply_decs num frame [DTagOutputs m] [n] = Ok [out] /\ dget (tn_tags out) k = None /\
  attach_all idn num [DTagOutputs m'] = Ok [DTagOutputs m'] /\ apply_decs num frame [DTagOutputs m'] [n] = Err TBadCall.
Proof.
  exists [("a", [("target_", VStr "revenue"); ("owner", VStr "ops")])], [("a", [("self", VStr "me")])], (nd "a" "int" []). eexists. exists "target_", (VStr "revenue").
  split_and!; [vm_compute; reflexivity|by eapply G_outputs|apply key_allowed_spec; vm_compute; reflexivity|done|vm_compute; reflexivity..].
Qed.
(** A tag can mark a final node as not final, so that the decorators outside of it pass it by. *)
Theorem C80_mark_refuted : exists (d d' : dec nat) (n out : tnode string ()) k v, attach_all idn num [d; d'] = Ok [d; d'] /\ gives num [n] d' n k v /\
  apply_decs num frame [d; d'] [n] = Ok [out] /\ dget (tn_tags out) k = None.
Proof.
  exists (DTagOutputs [("a", [("hamilton.non_final_node", VStr "yes")])]), (DTag TNone false [("owner", VStr "ops")]), (nd "a" "int" []). eexists. exists "owner", (VStr "ops").
  split_and!; [vm_compute; reflexivity| |vm_compute; reflexivity..]. constructor; [|done]. split; [by intros (v & ? & _)|]. intros n' ->%elem_of_list_singleton. apply not_elem_of_nil.
Qed.
(** A bad value that cannot be hashed is a TypeError and not an InvalidDecoratorException. *)
Theorem C80_unhashable_refuted : exists tags : dict tv, ~ good idn false tags /\ attach_all (J := nat) idn num [DTag TNone false tags] = Err TUnhashable.
Proof.
  exists [("owner", VOther false true)]. split; [|vm_compute; reflexivity]. intros H. destruct (H "owner" (VOther false true)) as [_ []]. by left.
Qed.
(** @schema.output is refused outside of @tag, though the same two are accepted the other way round. *)
Theorem C80_schema_order_refuted : exists d d' : dec nat, attach_all idn num [d; d'] = Ok [d; d'] /\ attach_all idn num [d'; d] = Err TMultiple.
Proof. exists (DSchema None [("a", "int")]), (DTag TNone false [("owner", VStr "ops")]). split; vm_compute; reflexivity. Qed.
(** Different schemas with the same tag. *)
Theorem C80_schema_refuted : exists fs fs' s, fs <> fs' /\ rendered fs s /\ rendered fs' s.
Proof.
  exists [("a", "array<int,b=int>")], [("a", "array<int"); ("b", "int>")], "a=array<int,b=int>". split_and!; [done|apply schema_rendered; vm_compute; reflexivity..].
Qed.
(** Neither @cache nor @tag look at the behaviour that they are given for the cache. *)
Theorem C80_behavior_refuted : exists (d d' : dec nat) (n out : tnode string ()), (forall b, b ∈ ["default"; "recompute"; "ignore"; "disable"] -> b <> "sometimes") /\
  attach_all idn num [d] = Ok [d] /\ attach_all idn num [d'] = Ok [d'] /\
  apply_decs num frame [d] [n] = Ok [out] /\ apply_decs num frame [d'] [n] = Ok [out] /\ dget (tn_tags out) "cache.behavior" = Some (VStr "sometimes").
Proof.
  exists (DCache TAll (Some "sometimes") None), (DTag TAll false [("cache.behavior", VStr "sometimes")]), (nd "a" "int" []). eexists.
  split; [intros b Hb ->; revert Hb; apply (bool_decide_unpack _); vm_compute; exact I|]. split_and!; vm_compute; reflexivity.
Qed.
Print Assumptions C80_outputs_refuted.
Print Assumptions C80_swallowed_refuted.
Print Assumptions C80_mark_refuted.
Print Assumptions C80_unhashable_refuted.
Print Assumptions C80_schema_order_refuted.
Print Assumptions C80_schema_refuted.
Print Assumptions C80_behavior_refuted.

(** A function that is split into columns: a schema on the dataframe, a tag on one column, a
    tag on all nodes, options of ray on the final nodes (the columns), twice. *)
Definition columns : list (tnode string ()) := [nd "df" "DataFrame" ["raw"]; nd "a" "Series" ["df"]; nd "b" "Series" ["df"]].
Definition stack : list (dec nat) :=
  [DSchema (Some "df") [("a", "int"); ("b", "str")]; DTag (TNames ["a"]) false [("owner", VStr "ops"); ("pii.kind", VList [Some "email"; Some "phone"])];
   DTag TAll false [("owner", VStr "all"); ("team", VStr "x")]; DTagOutputs [("b", [("owner", VStr "bob")]); ("zzz", [])]; DRay [("num_cpus", 2); ("num_gpus", 1)];
   DCache TAll (Some "recompute") None; DRay [("num_gpus", 4)]].
Definition tagged_columns : list (tnode string ()) := Eval vm_compute in match apply_decs num frame stack columns with Ok out => out | Err _ => [] end.
Definition tagged_b : tnode string () := Eval vm_compute in match filter (fun n => tn_name n = "b") tagged_columns with n :: _ => n | [] => nd "" "" [] end.
Definition read_num (s : string) : option nat := if decide (s = "4") then Some 4 else if decide (s = "2") then Some 2 else None.
Example C80_example :
  nodes_ok columns /\ Forall dec_ok stack /\ Forall mark_free stack /\ Forall ray_free stack /\ attach_all idn num stack = Ok stack /\
  apply_decs num frame stack columns = Ok tagged_columns /\ tagged_b ∈ tagged_columns /\ tn_name tagged_b = "b" /\
  dget (tn_tags tagged_b) "owner" = Some (VStr "bob") /\ dget (tn_tags tagged_b) "module" = Some (VStr "flows") /\ dget (tn_tags tagged_b) "ray_remote.num_gpus" = Some (VStr "4") /\
  parse_ray read_num (tn_tags tagged_b) = Ok [("num_cpus", 2); ("num_gpus", 4)].
Proof.
  assert (Hown : forall tags : dict tv, bool_decide (NoDup (dkeys tags)) = true -> forallb (fun k => bool_decide (k ∉ dkeys tags)) own_names = true -> tags_ok tags).
  { intros tags Hn H. split; [by apply bool_decide_eq_true in Hn|]. intros k Hk%elem_of_list_In. rewrite forallb_forall in H. specialize (H _ Hk). by apply bool_decide_eq_true in H. }
  assert (Hout : forall (P : dict tv -> Prop), P [("owner", VStr "bob")] -> P [] -> forall x tags, dget [("b", [("owner", VStr "bob")]); ("zzz", [])] x = Some tags -> P tags).
  { intros P H1 H2 x tags. cbn [dget]. destruct (decide (x = "b")); [by intros [= <-]|]. destruct (decide (x = "zzz")); [by intros [= <-]|]. intros [=]. }
  assert (Hk : forall tags : dict tv, forallb (fun k => negb (is_ray k)) (dkeys tags) = true -> forall o, "ray_remote." +:+ o ∉ dkeys tags).
  { intros tags H o Hin%elem_of_list_In. rewrite forallb_forall in H. specialize (H _ Hin). apply negb_true_iff, not_true_iff_false in H. apply H. apply prefix_split. by exists o. }
  assert (Hmk : forall tags : dict tv, bool_decide ("hamilton.non_final_node" ∉ dkeys tags) = true -> "hamilton.non_final_node" ∉ dkeys tags) by (intros tags H; by apply bool_decide_eq_true in H).
  split; [|split; [|split; [|split; [|split; [vm_compute; reflexivity|]]]]].
  - split; [apply (bool_decide_unpack _); vm_compute; exact I|]. intros n Hn.
    repeat (apply elem_of_cons in Hn as [-> |Hn]; [apply Hown; vm_compute; reflexivity|]). by apply elem_of_nil in Hn.
  - unfold stack. apply Forall_cons; split; [exact I|]. apply Forall_cons; split; [split; [apply NoDup_singleton|apply Hown; vm_compute; reflexivity]|].
    apply Forall_cons; split; [split; [exact I|apply Hown; vm_compute; reflexivity]|]. apply Forall_cons; split; [refine (Hout tags_ok _ _); apply Hown; vm_compute; reflexivity|].
    apply Forall_cons; split; [apply (bool_decide_unpack _); vm_compute; exact I|]. apply Forall_cons; split; [exact I|]. apply Forall_cons; split; [apply NoDup_singleton|]. by apply Forall_nil.
  - unfold stack. apply Forall_cons; split; [exact I|]. apply Forall_cons; split; [apply Hmk; vm_compute; reflexivity|]. apply Forall_cons; split; [apply Hmk; vm_compute; reflexivity|].
    apply Forall_cons; split; [refine (Hout (fun tags => "hamilton.non_final_node" ∉ dkeys tags) _ _); apply Hmk; vm_compute; reflexivity|]. repeat (apply Forall_cons; split; [exact I|]). by apply Forall_nil.
  - unfold stack. apply Forall_cons; split; [exact I|]. apply Forall_cons; split; [refine (Hk _ _); vm_compute; reflexivity|]. apply Forall_cons; split; [refine (Hk _ _); vm_compute; reflexivity|].
    apply Forall_cons; split; [refine (Hout (fun tags => forall o, "ray_remote." +:+ o ∉ dkeys tags) _ _); refine (Hk _ _); vm_compute; reflexivity|]. repeat (apply Forall_cons; split; [exact I|]). by apply Forall_nil.
  - split; [vm_compute; reflexivity|]. split; [unfold tagged_columns, tagged_b; repeat (first [left; fail | apply elem_of_list_here | apply elem_of_list_further])|].
    split; [|split; [|split; [|split]]]; vm_compute; reflexivity.
Qed.
