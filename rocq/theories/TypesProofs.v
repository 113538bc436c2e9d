(** Proofs about annotations and their checks. *)
From Verif Require Import Base Dict GraphModel RelinkSpec TypesModel TypesSpec.

Section Ind.
Context {V : Type}.
Variable P : ann V -> Prop.
Hypothesis Hany : P AAny.
Hypothesis Hclass : forall c, P (AClass c).
Hypothesis Hgen : forall o args, Forall P args -> P (AGen o args).
Hypothesis Hunion : forall ts, Forall P ts -> P (AUnion ts).
Hypothesis Hlit : forall vs, P (ALiteral vs).
Hypothesis Hell : P AEllipsis.
Fixpoint ann_rect' (t : ann V) : P t :=
  match t with
  | AAny => Hany
  | AClass c => Hclass c
  | AGen o args => Hgen o args ((fix go l := match l return Forall P l with [] => Forall_nil_2 P | x :: l' => Forall_cons_2 P x l' (ann_rect' x) (go l') end) args)
  | AUnion ts => Hunion ts ((fix go l := match l return Forall P l with [] => Forall_nil_2 P | x :: l' => Forall_cons_2 P x l' (ann_rect' x) (go l') end) ts)
  | ALiteral vs => Hlit vs
  | AEllipsis => Hell
  end.
End Ind.

(** [decides o P]: the check does not raise and its answer is whether [P]. *)
Definition decides (o : option bool) (P : Prop) : Prop := (o = Some true /\ P) \/ (o = Some false /\ ~ P).
Lemma decides_bool (b : bool) (P : Prop) : (b = true <-> P) -> decides (Some b) P.
Proof. intros H. destruct b; [left|right]; (split; [done|]); [by apply H|]. intros HP. by apply H in HP. Qed.
Lemma decides_all {A} (f : A -> option bool) (P : A -> Prop) l : (forall x, x ∈ l -> decides (f x) (P x)) ->
  decides (all_lazy f l) (forall x, x ∈ l -> P x).
Proof.
  induction l as [|x l IH]; intros H; cbn [all_lazy].
  - left. split; [done|]. intros x Hx. by apply elem_of_nil in Hx.
  - destruct (H x ltac:(by left)) as [[-> Hx]|[-> Hx]].
    + destruct IH as [[-> Hl]|[-> Hl]]; [intros y Hy; apply H; by right| |].
      * left. split; [done|]. intros y Hy. apply elem_of_cons in Hy as [-> | Hy]; [done|by apply Hl].
      * right. split; [done|]. intros Hall. apply Hl. intros y Hy. apply Hall. by right.
    + right. split; [done|]. intros Hall. apply Hx, Hall. by left.
Qed.
Lemma decides_any {A} (f : A -> option bool) (P : A -> Prop) l : (forall x, x ∈ l -> decides (f x) (P x)) ->
  decides (any_lazy f l) (exists x, x ∈ l /\ P x).
Proof.
  induction l as [|x l IH]; intros H; cbn [any_lazy].
  - right. split; [done|]. intros (x & Hx & _). by apply elem_of_nil in Hx.
  - destruct (H x ltac:(by left)) as [[-> Hx]|[-> Hx]].
    + left. split; [done|]. exists x. split; [by left|done].
    + fold (any_lazy f). destruct IH as [[-> Hl]|[-> Hl]]; [intros y Hy; apply H; by right| |].
      * left. split; [done|]. destruct Hl as (y & Hy & HP). exists y. split; [by right|done].
      * right. split; [done|]. intros (y & Hy & HP). apply elem_of_cons in Hy as [-> | Hy]; [done|]. apply Hl. by exists y.
Qed.
Lemma decides_iff o P Q : (P <-> Q) -> decides o P -> decides o Q.
Proof. intros H [[? ?]|[? ?]]; [left|right]; (split; [done|]); tauto. Qed.

Section Proofs.
Context {V : Type} `{!EqDecision V}.
Variable class_of : V -> cls.
Variable sub : cls -> cls -> bool.
Variable items : V -> list V.
Variable entries : V -> list (V * V).
Notation ann := (ann V).
Notation means := (means class_of sub items entries).
Notation shaped := (shaped items entries).
Notation inst := (inst class_of sub).
Notation check_instance := (check_instance class_of sub items entries).
Notation ann_eqb := (@ann_eqb V _).
Notation csc := (custom_subclass_check sub).
Notation ann_match := (ann_match sub).

(** ** Unfolding *)
Lemma means_union ts v : means (AUnion ts) v <-> exists t, t ∈ ts /\ means t v.
Proof.
  induction ts as [|t ts IH].
  - split; [done|]. intros (t & Ht & _). by apply elem_of_nil in Ht.
  - change (means (AUnion (t :: ts)) v) with (means t v \/ means (AUnion ts) v). rewrite IH. split.
    + intros [H|(t' & Ht' & H)]; [exists t; split; [by left|done]|exists t'; split; [by right|done]].
    + intros (t' & Ht' & H). apply elem_of_cons in Ht' as [-> | Ht']; [by left|right; by exists t'].
Qed.
Lemma checkable_union (ts : list ann) : checkable (AUnion ts) <-> forall t, t ∈ ts -> checkable t.
Proof.
  induction ts as [|t ts IH].
  - split; [|done]. intros _ t Ht. by apply elem_of_nil in Ht.
  - change (checkable (AUnion (t :: ts))) with (checkable t /\ checkable (AUnion ts)). rewrite IH. split.
    + intros [H1 H2] t' Ht'. apply elem_of_cons in Ht' as [-> | Ht']; [done|by apply H2].
    + intros H. split; [apply H; by left|]. intros t' Ht'. apply H. by right.
Qed.
Lemma lenient_union final (ts : list ann) : lenient final (AUnion ts) <-> forall t, t ∈ ts -> lenient final t.
Proof.
  induction ts as [|t ts IH].
  - split; [|done]. intros _ t Ht. by apply elem_of_nil in Ht.
  - change (lenient final (AUnion (t :: ts))) with (lenient final t /\ lenient final (AUnion ts)). rewrite IH. split.
    + intros [H1 H2] t' Ht'. apply elem_of_cons in Ht' as [-> | Ht']; [done|by apply H2].
    + intros H. split; [apply H; by left|]. intros t' Ht'. apply H. by right.
Qed.
Lemma flat_union (ts : list ann) : flat (AUnion ts) <-> forall t, t ∈ ts -> flat t.
Proof.
  induction ts as [|t ts IH].
  - split; [|done]. intros _ t Ht. by apply elem_of_nil in Ht.
  - change (flat (AUnion (t :: ts))) with (flat t /\ flat (AUnion ts)). rewrite IH. split.
    + intros [H1 H2] t' Ht'. apply elem_of_cons in Ht' as [-> | Ht']; [done|by apply H2].
    + intros H. split; [apply H; by left|]. intros t' Ht'. apply H. by right.
Qed.
Lemma proper_union (ts : list ann) : proper sub (AUnion ts) <-> forall t, t ∈ ts -> proper sub t.
Proof.
  induction ts as [|t ts IH].
  - split; [|done]. intros _ t Ht. by apply elem_of_nil in Ht.
  - change (proper sub (AUnion (t :: ts))) with (proper sub t /\ proper sub (AUnion ts)). rewrite IH. split.
    + intros [H1 H2] t' Ht'. apply elem_of_cons in Ht' as [-> | Ht']; [done|by apply H2].
    + intros H. split; [apply H; by left|]. intros t' Ht'. apply H. by right.
Qed.
Lemma generic_over_union c (ts : list ann) : generic_over sub c (AUnion ts) <-> exists t, t ∈ ts /\ generic_over sub c t.
Proof.
  induction ts as [|t ts IH].
  - split; [done|]. intros (t & Ht & _). by apply elem_of_nil in Ht.
  - change (generic_over sub c (AUnion (t :: ts))) with (generic_over sub c t \/ generic_over sub c (AUnion ts)). rewrite IH. split.
    + intros [H|(t' & Ht' & H)]; [exists t; split; [by left|done]|exists t'; split; [by right|done]].
    + intros (t' & Ht' & H). apply elem_of_cons in Ht' as [-> | Ht']; [by left|right; by exists t'].
Qed.

(** ** The strict check *)
Hypothesis Hh : hierarchy sub.

Lemma inst_dict v : inst v "dict" = true -> inst v "list" = false /\ inst v "set" = false /\ inst v "tuple" = false.
Proof. apply (hi_apart _ Hh). Qed.

Lemma check_instance_decides t : checkable t -> forall v, decides (check_instance t v) (means t v).
Proof.
  induction t as [|c|o args IH|ts IH|vs|] using ann_rect'; intros Hc v.
  - by left.
  - by apply decides_bool.
  - cbn [TypesModel.check_instance TypesSpec.means]. fold (inst v o). destruct (inst v o) eqn:Ho; cbn [negb].
    2: { right. split; [done|]. by intros [? _]. }
    rewrite Forall_forall in IH.
    destruct args as [|a [|b [|]]]; [done|..|by destruct Hc].
    + destruct Hc as [Ho' Ha].
      assert (Hd : inst v "dict" = false).
      { destruct (inst v "dict") eqn:Hd; [|done]. apply inst_dict in Hd as (H1 & H2 & H3). destruct Ho' as [-> | ->]; congruence. }
      rewrite Hd. assert (Hl : inst v "list" || inst v "set" || inst v "tuple" = true).
      { destruct Ho' as [-> | ->]; rewrite Ho; [done|]. by rewrite orb_true_r. }
      rewrite Hl. apply decides_iff with (forall x, x ∈ items v -> means a x).
      * unfold TypesSpec.shaped. cbn. destruct (decide (o = "tuple")) as [->|]; [by destruct Ho'|]. tauto.
      * apply decides_all. intros x _. apply IH; [by left|done].
    + destruct Hc as [(-> & -> & Ha)|(-> & Ha & Hb)].
      * assert (Hd : inst v "dict" = false).
        { destruct (inst v "dict") eqn:Hd; [|done]. apply inst_dict in Hd as (H1 & H2 & H3). congruence. }
        rewrite Hd, Ho, orb_true_r. apply decides_iff with (forall x, x ∈ items v -> means a x).
        -- unfold TypesSpec.shaped. cbn. tauto.
        -- apply decides_all. intros x _. apply IH; [by left|done].
      * rewrite Ho. apply decides_iff with (forall kw : V * V, kw ∈ entries v -> means a kw.1 /\ means b kw.2).
        -- unfold TypesSpec.shaped. cbn. split; [intros H; split; [done|]; intros k w Hk; by apply (H (k, w))|].
           intros [_ H] [k w] Hk. by apply H.
        -- apply decides_all. intros [k w] _. cbn.
           destruct (IH a ltac:(by left) Ha k) as [[-> H1]|[-> H1]], (IH b ltac:(right; by left) Hb w) as [[-> H2]|[-> H2]];
             [left|right..]; (split; [done|tauto]).
  - rewrite checkable_union in Hc. rewrite Forall_forall in IH. eapply decides_iff; [symmetry; apply means_union|].
    cbn [TypesModel.check_instance]. apply decides_any. intros t Ht. apply IH; [done|by apply Hc].
  - apply decides_bool. cbn. apply bool_decide_eq_true.
  - done.
Qed.

(** ** The check of inputs *)
Section Inputs.
Variable one_shot : V -> bool.
Notation check_input_type := (check_input_type class_of sub items one_shot).
Lemma input_union_accepts ts v : forall off,
  (exists t, t ∈ ts /\ forall off, (check_input_type t v off).1 = true) -> (check_input_type (AUnion ts) v off).1 = true.
Proof.
  induction ts as [|t ts IH]; intros off (t' & Ht' & H); [by apply elem_of_nil in Ht'|].
  cbn [TypesModel.check_input_type]. destruct (check_input_type t v off) as [b off1] eqn:Ht.
  change ((let '(b', off2) := check_input_type (AUnion ts) v off1 in (b || b', off2)).1 = true).
  destruct (check_input_type (AUnion ts) v off1) as [b' off2] eqn:Hts. cbn.
  apply elem_of_cons in Ht' as [-> | Ht'].
  - assert (Hb := H off). rewrite Ht in Hb. cbn in Hb. by rewrite Hb.
  - assert (Hb := IH off1 ltac:(by exists t')). rewrite Hts in Hb. cbn in Hb. by rewrite Hb, orb_true_r.
Qed.
Lemma remaining_items v off x : x ∈ remaining items one_shot v off -> x ∈ items v.
Proof.
  unfold remaining. destruct (one_shot v); [|done]. intros Hx. apply elem_of_list_lookup in Hx as [i Hi].
  rewrite lookup_drop in Hi. by eapply elem_of_list_lookup_2.
Qed.

Lemma check_input_accepts (final : cls -> Prop) (t : ann) : (forall o v, final o -> inst v o = true -> class_of v = o) -> lenient final t ->
  forall v off, means t v -> (check_input_type t v off).1 = true.
Proof.
  intros Hfin. induction t as [|c|o args IH|ts IH|vs|] using ann_rect'; intros Hl v off Hm.
  - done.
  - cbn in *. unfold TypesModel.inst. by rewrite Hm.
  - destruct Hl as [Hnt Hl]. destruct Hm as [Hi Hs]. fold (inst v o) in Hi. cbn [TypesModel.check_input_type].
    destruct (String.eqb_spec o "tuple") as [|_]; [done|]. destruct (String.eqb_spec o (class_of v)) as [|Hne]; [done|].
    destruct Hl as [Hf|(Ho & Ha & Hlen)]; [by rewrite (Hfin o v Hf Hi) in Hne|].
    destruct args as [|a [|]]; [done| |done]. rewrite Forall_forall in IH.
    assert (Hfirst : match remaining items one_shot v off with i :: _ => ((check_input_type a i 0).1, S off) | [] => (true, off) end.1 = true).
    { destruct (remaining items one_shot v off) as [|i l] eqn:Hr; [done|]. cbn [fst]. apply IH; [by left|done|].
      unfold TypesSpec.shaped in Hs. rewrite decide_False in Hs by done. cbn in Hs. apply Hs.
      apply (remaining_items v off). rewrite Hr. by left. }
    destruct Ho as [-> |[-> |[-> | ->]]]; rewrite Hi; cbn; rewrite ?orb_true_r; exact Hfirst.
  - rewrite lenient_union in Hl. rewrite Forall_forall in IH. apply means_union in Hm as (t & Ht & Hm).
    apply input_union_accepts. exists t. split; [done|]. intros off'. apply IH; [done|by apply Hl|done].
  - cbn. by apply bool_decide_eq_true.
  - done.
Qed.

Lemma check_input_flat t : flat t -> forall v off, (check_input_type t v off).1 = true -> means t v.
Proof.
  induction t as [|c|o args IH|ts IH|vs|] using ann_rect'; intros Hl v off Hc; try done.
  - cbn in *. apply orb_true_iff in Hc as [Hc|Hc]; [done|]. apply String.eqb_eq in Hc as ->. apply (hi_refl _ Hh).
  - rewrite flat_union in Hl. apply means_union. revert off Hc. induction ts as [|t ts IHts]; intros off Hc; [done|].
    cbn [TypesModel.check_input_type] in Hc. destruct (check_input_type t v off) as [b off1] eqn:Ht.
    change ((let '(b', off2) := check_input_type (AUnion ts) v off1 in (b || b', off2)).1 = true) in Hc.
    destruct (check_input_type (AUnion ts) v off1) as [b' off2] eqn:Hts. cbn in Hc. apply Forall_cons in IH as [IHt IH].
    apply orb_true_iff in Hc as [Hc|Hc].
    + exists t. split; [by left|]. apply IHt with off; [apply Hl; by left|]. by rewrite Ht.
    + destruct (IHts IH ltac:(intros; apply Hl; by right) off1) as (t' & Ht' & Hm); [by rewrite Hts|]. exists t'. split; [by right|done].
  - cbn in *. by apply bool_decide_eq_true in Hc.
Qed.

End Inputs.

(** ** Equality of annotations *)
Lemma args_eqb_gen xs ys : (fix go xs ys := match xs, ys with
                       | [], [] => true
                       | x :: xs', y :: ys' => ann_eqb x y && go xs' ys'
                       | _, _ => false
                       end) xs ys = args_eqb xs ys.
Proof. done. Qed.

Lemma ann_eqb_refl a : ann_eqb a a = true.
Proof.
  induction a as [|c|o args IH|ts IH|vs|] using ann_rect'; cbn [TypesModel.ann_eqb]; try done.
  - apply String.eqb_refl.
  - rewrite String.eqb_refl. cbn. rewrite args_eqb_gen. induction IH as [|x xs Hx _ IHxs]; [done|]. cbn. by rewrite Hx.
  - rewrite Forall_forall in IH. apply andb_true_iff. split; apply forallb_forall; intros x Hx; apply existsb_exists; exists x;
      (split; [done|]); apply IH; by apply elem_of_list_In.
  - rewrite andb_diag. apply bool_decide_eq_true, Forall_forall. done.
Qed.

Definition equal_parts (p q : bool * (V -> Prop)) : Prop := p.1 = q.1 /\ forall v, p.2 v <-> q.2 v.
Lemma shaped_equal o ps qs v : Forall2 equal_parts ps qs -> shaped o ps v -> shaped o qs v.
Proof.
  intros H. unfold TypesSpec.shaped. destruct (decide (o = "tuple")).
  - assert (Hf : Forall2 (fun p x => p.2 x) ps (items v) -> Forall2 (fun p x => p.2 x) qs (items v)).
    { generalize (items v). induction H as [|p q ps qs Hpq _ IH]; intros l Hl; inversion Hl; subst; constructor; [by apply Hpq|by apply IH]. }
    destruct H as [|[b P] [b' P'] ps qs [H1 H2] H]; [done|]. cbn in H1, H2. subst b'.
    destruct H as [|[c Q] [c' Q'] ps qs [H3 H4] H]; [done|]. cbn in H3, H4. subst c'.
    destruct H as [|? ? ? ? ? ?]; [|by destruct c]. destruct c; [|done]. intros Hx x Hin. apply H2. by apply Hx.
  - destruct H as [|[b P] [b' P'] ps qs [H1 H2] H]; [done|]. cbn in H1, H2.
    destruct H as [|[c Q] [c' Q'] ps qs [H3 H4] H]; [intros Hx x Hin; apply H2; by apply Hx|]. cbn in H3, H4.
    destruct H as [|]; [|done]. intros Hx k w Hin. rewrite <-H2, <-H4. by apply Hx.
Qed.
Lemma ann_eqb_ellipsis a b : ann_eqb a b = true -> is_ellipsis a = is_ellipsis b.
Proof. by destruct a, b. Qed.

Definition same (a : ann) : Prop := forall b, ann_eqb a b = true -> forall v, means a v <-> means b v.
Lemma args_same xs : Forall same xs -> forall ys, args_eqb xs ys = true ->
  Forall2 equal_parts (map (fun a => (is_ellipsis a, means a)) xs) (map (fun a => (is_ellipsis a, means a)) ys).
Proof.
  induction 1 as [|x xs Hx _ IH]; intros [|y ys] He; try done; [constructor|]. cbn in He. apply andb_true_iff in He as [H1 H2].
  constructor; [|by apply IH]. split; [by apply ann_eqb_ellipsis|by apply Hx].
Qed.
Lemma equal_parts_sym ps qs : Forall2 equal_parts ps qs -> Forall2 equal_parts qs ps.
Proof. induction 1 as [|? ? ? ? [? ?]]; constructor; [|done]. split; [done|]. intros v. by symmetry. Qed.
Lemma ann_eqb_means a : same a.
Proof.
  induction a as [|c|o args IH|ts IH|vs|] using ann_rect'; intros b He v; destruct b as [|d|p ys|ts'|ws|]; cbn [TypesModel.ann_eqb] in He; try done.
  - by apply String.eqb_eq in He as ->.
  - apply andb_true_iff in He as [Ho He]. apply String.eqb_eq in Ho as ->. rewrite args_eqb_gen in He.
    assert (Hp := args_same _ IH _ He). cbn [TypesSpec.means]. split; (intros [H1 H2]; split; [done|]).
    + by apply (shaped_equal _ _ _ _ Hp).
    + by apply (shaped_equal _ _ _ _ (equal_parts_sym _ _ Hp)).
  - apply andb_true_iff in He as [H1 H2]. rewrite !means_union. rewrite Forall_forall in IH.
    rewrite forallb_forall in H1. rewrite forallb_forall in H2. split.
    + intros (t & Ht & Hm). assert (Hx := H1 t ltac:(by apply elem_of_list_In)). apply existsb_exists in Hx as (y & Hy & Hxy).
      apply elem_of_list_In in Hy. exists y. split; [done|]. by apply (IH t Ht y Hxy).
    + intros (t & Ht & Hm). assert (Hx := H2 t ltac:(by apply elem_of_list_In)). apply existsb_exists in Hx as (y & Hy & Hxy).
      apply elem_of_list_In in Hy. exists y. split; [done|]. by apply (IH y Hy t Hxy).
  - apply andb_true_iff in He as [H1 H2]. apply bool_decide_eq_true in H1, H2. rewrite Forall_forall in H1, H2. cbn. split; [apply H1|apply H2].
Qed.

(** ** Producers and consumers *)
Lemma gen_narrower o1 o2 a1 a2 : proper sub (AGen o1 a1) -> proper sub (AGen o2 a2) -> sub o1 o2 = true -> args_eqb a1 a2 = true ->
  forall v, means (AGen o1 a1) v -> means (AGen o2 a2) v.
Proof.
  intros (Hn1 & Ht1 & _) (Hn2 & Ht2 & H2) Hs He v. cbn [TypesSpec.means]. intros [Hi Hm].
  split; [by eapply (hi_trans _ Hh)|].
  assert (Hp : Forall2 equal_parts (map (fun a => (is_ellipsis a, means a)) a1) (map (fun a => (is_ellipsis a, means a)) a2)).
  { apply args_same; [|done]. apply Forall_forall. intros a _. apply ann_eqb_means. }
  apply (shaped_equal o1 _ _ v Hp) in Hm.
  destruct (decide (o1 = "tuple")) as [->|Ho1]; destruct (decide (o2 = "tuple")) as [->|Ho2]; [done|..].
  - (* a tuple as another generic *)
    destruct a2 as [|x [|y [|]]]; [done|..].
    + unfold TypesSpec.shaped in *. rewrite decide_False by done. cbn in *. inversion Hm as [|? z ? l Hx Hl Heq Hv]; subst.
      inversion Hl; subst. intros w Hw. by apply elem_of_list_singleton in Hw as ->.
    + exfalso. rewrite H2 in Hs by done. done.
    + unfold TypesSpec.shaped. by rewrite decide_False by done.
  - by destruct Ho1; apply Ht1.
  - unfold TypesSpec.shaped in *. rewrite (decide_False (P := o1 = "tuple")) in Hm by done. by rewrite (decide_False (P := o2 = "tuple")) by done.
Qed.

Lemma csc_narrower p : proper sub p -> forall r, proper sub r -> r <> AAny -> tells sub p r -> csc r p = true -> forall v, means r v -> means p v.
Proof.
  induction p as [|c|o args IH|ts IH|vs|] using ann_rect'; intros Hp r Hr Hany Ht Hc v Hm.
  - done.
  - cbn [custom_subclass_check] in Hc. destruct r as [|d|o' args'|ts'|ws|]; try done; cbn in *.
    + rewrite orb_false_r, andb_true_r in Hc. apply orb_true_iff in Hc as [Hc|Hc]; [by eapply (hi_trans _ Hh)|].
      apply orb_true_iff in Hc as [Hc|Hc]; [by apply String.eqb_eq in Hc as <-|by eapply (hi_trans _ Hh)].
    + destruct Hm as [Hm _]. destruct args' as [|]; rewrite andb_true_r in Hc;
        (apply orb_true_iff in Hc as [Hc|Hc]; [by apply String.eqb_eq in Hc as <-|by eapply (hi_trans _ Hh)]).
  - cbn [custom_subclass_check] in Hc. destruct r as [|d|o' args'|ts'|ws|]; try done; cbn [origin safe_subclass orb] in Hc.
    + exfalso. apply Ht. cbn. apply andb_true_iff in Hc as [Hc _]. apply orb_true_iff in Hc as [Hc|Hc]; [|done].
      apply String.eqb_eq in Hc as <-. apply (hi_refl _ Hh).
    + apply andb_true_iff in Hc as [Hs Ha].
      assert (Hs' : sub o' o = true).
      { apply orb_true_iff in Hs as [Hs|Hs]; [|done]. apply String.eqb_eq in Hs as <-. apply (hi_refl _ Hh). }
      apply (gen_narrower o' o args' args Hr Hp Hs'); [|done].
      destruct Hr as (Hn1 & _), Hp as (Hn2 & _). by destruct args', args.
  - rewrite proper_union in Hp. rewrite Forall_forall in IH. cbn [custom_subclass_check] in Hc.
    apply orb_true_iff in Hc as [Hc|Hc].
    + apply orb_true_iff in Hc as [Hc|Hc]; [by destruct r|]. apply existsb_exists in Hc as (t & Hin & Hc). apply elem_of_list_In in Hin.
      apply means_union. exists t. split; [done|]. apply (IH t Hin (Hp t Hin) r Hr Hany); [|done..].
      destruct r; try done. cbn in *. intros Hg. apply Ht. apply generic_over_union. by exists t.
    + destruct r as [| | |ts'| |]; try done. cbn [origin] in Hc. by apply (ann_eqb_means (AUnion ts') (AUnion ts) Hc v).
  - cbn [custom_subclass_check] in Hc. destruct r as [| | | |ws|]; try done. cbn in *. apply bool_decide_eq_true in Hc. by subst.
  - cbn [custom_subclass_check] in Hc. destruct r; done.
Qed.
Lemma match_narrower p r : proper sub p -> proper sub r -> tells sub p r -> ann_match p r = true -> narrower class_of sub items entries p r.
Proof.
  intros Hp Hr Ht Hm v Hv. unfold TypesModel.ann_match in Hm. assert (Hd : r = AAny \/ r <> AAny) by (destruct r; [by left|by right..]). destruct Hd as [->|Hne].
  { cbn in Ht. by subst p. }
  assert (Hm' : ann_eqb r p || csc r p = true) by (by destruct r). apply orb_true_iff in Hm' as [He|Hc].
  - by apply (ann_eqb_means r p He v).
  - by apply (csc_narrower p Hp r Hr Hne Ht Hc v).
Qed.
End Proofs.
