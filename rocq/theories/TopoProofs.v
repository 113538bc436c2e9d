From Verif Require Import Base TopoModel.

Global Instance tnode_eq_dec : EqDecision tnode.
Proof. solve_decision. Defined.

(** In a finite set where every element has a successor, every element reaches a cycle. *)
Lemma reaches_cycle (R : name -> name -> Prop) (X : gset name) :
  (forall x, x ∈ X -> exists y, y ∈ X /\ R x y) ->
  forall x, x ∈ X -> exists z, rtc R x z /\ tc R z z.
Proof.
  intros Hs x0 Hx0.
  assert (H : forall n (A : gset name) x, size (X ∖ A) < n -> x ∈ X -> rtc R x0 x ->
              (forall a, a ∈ A -> tc R a x) -> exists z, rtc R x0 z /\ tc R z z).
  { induction n as [|n IH]; intros A x Hn Hx Hr HA; [lia|].
    destruct (decide (x ∈ A)) as [Hin|Hin]; [exists x; split; [done|by apply HA]|].
    destruct (Hs x Hx) as (y & Hy & Hxy).
    apply (IH ({[x]} ∪ A) y); [|done|by eapply rtc_r|].
    - assert (size (X ∖ ({[x]} ∪ A)) < size (X ∖ A)); [|lia]. apply subset_size. clear -Hx Hin; set_solver.
    - intros a [->%elem_of_singleton|Ha]%elem_of_union; [by apply tc_once|].
      eapply tc_r; [by apply HA|done]. }
  eapply (H (S (size X)) ∅ x0); [|done|done|set_solver].
  rewrite difference_empty_L. lia.
Qed.

Lemma count_remove (l : list name) (X : list name) x :
  NoDup l -> x ∉ X ->
  length (filter (fun d => d ∉ X) l) =
  length (filter (fun d => d ∉ X ++ [x]) l) + (if decide (x ∈ l) then 1 else 0).
Proof.
  intros Hnd HxS. induction Hnd as [|d l Hd Hnd IH].
  - cbn. by rewrite decide_False by (by intros ?%elem_of_nil).
  - destruct (decide (d ∈ X)) as [HdS|HdS].
    + rewrite filter_cons_False by (intros H; by apply H).
      rewrite (filter_cons_False (fun d => d ∉ X ++ [x])) by (intros H; apply H, elem_of_app; by left).
      rewrite IH. assert (d <> x) by (intros ->; done).
      destruct (decide (x ∈ l)) as [Hxl|Hxl].
      * by rewrite decide_True by (by right).
      * rewrite decide_False; [done|]. intros [?|?]%elem_of_cons; [subst; done|done].
    + rewrite filter_cons_True by done. destruct (decide (d = x)) as [->|Hne].
      * rewrite (filter_cons_False (fun d => d ∉ X ++ [x])) by (intros H; apply H, elem_of_app; right; by left).
        rewrite (decide_True (P := x ∈ x :: l)) by (by left).
        rewrite decide_False in IH by done. cbn. lia.
      * rewrite (filter_cons_True (fun d => d ∉ X ++ [x]))
          by (intros [?|?%elem_of_list_singleton]%elem_of_app; done).
        cbn [length]. rewrite IH. destruct (decide (x ∈ l)) as [Hxl|Hxl].
        -- rewrite decide_True by (by right). lia.
        -- rewrite decide_False; [lia|]. intros [?|?]%elem_of_cons; congruence.
Qed.

Lemma nodup_map_filter {A B} (f : A -> B) (P : A -> Prop) `{forall x, Decision (P x)} (l : list A) :
  NoDup (map f l) -> NoDup (map f (filter P l)).
Proof.
  induction l as [|a l IH]; intros Hnd; [done|]. cbn in Hnd. apply NoDup_cons in Hnd as [Ha Hl].
  rewrite filter_cons. destruct (decide (P a)); [|by apply IH]. cbn. apply NoDup_cons. split; [|by apply IH].
  rewrite elem_of_list_In, in_map_iff. intros (b & Heq & Hb). apply Ha.
  rewrite elem_of_list_In, in_map_iff. exists b. split; [done|].
  apply elem_of_list_In, elem_of_list_filter in Hb as [_ Hb]. by apply elem_of_list_In.
Qed.

Section Topo.
Variable nodes : list tnode.
Hypothesis Hnames : NoDup (tnames nodes).
Hypothesis Hdeps : forall n, n ∈ nodes -> NoDup (tn_deps n).

(** [x] depends directly on [d], both in the list. *)
Definition ldep (x d : name) : Prop :=
  exists n, n ∈ nodes /\ tn_name n = x /\ d ∈ tn_deps n /\ d ∈ tnames nodes.

Lemma tnames_elem (l : list tnode) x : x ∈ tnames l <-> exists n, n ∈ l /\ tn_name n = x.
Proof.
  unfold tnames. rewrite elem_of_list_In, in_map_iff. setoid_rewrite elem_of_list_In. naive_solver.
Qed.
Lemma tnames_app l l' : tnames (l ++ l') = tnames l ++ tnames l'.
Proof. apply map_app. Qed.

Lemma name_inj (n m : tnode) : n ∈ nodes -> m ∈ nodes -> tn_name n = tn_name m -> n = m.
Proof.
  clear Hdeps. revert n m. induction nodes as [|a l IH]; intros n m Hn Hm Heq; [by apply elem_of_nil in Hn|].
  cbn in Hnames. apply NoDup_cons in Hnames as [Ha Hl].
  apply elem_of_cons in Hn as [->|Hn]; apply elem_of_cons in Hm as [->|Hm]; [done| | |by apply IH].
  - exfalso. apply Ha. apply tnames_elem. by exists m.
  - exfalso. apply Ha. apply tnames_elem. by exists n.
Qed.

Definition dflt (o : option (list tnode)) : list tnode := match o with Some l => l | None => [] end.

Lemma add_dependents_lookup names n d : forall m, NoDup (tn_deps n) ->
  dflt (add_dependents names m n !! d) =
  dflt (m !! d) ++ (if decide (d ∈ names /\ d ∈ tn_deps n) then [n] else []).
Proof.
  unfold add_dependents. induction (tn_deps n) as [|e l IH]; intros m Hnd; cbn [foldl].
  - rewrite decide_False by (by intros [_ ?%elem_of_nil]). by rewrite app_nil_r.
  - apply NoDup_cons in Hnd as [He Hl]. rewrite IH by done. clear IH.
    destruct (decide (d = e)) as [->|Hne].
    + rewrite (decide_False (P := e ∈ names /\ e ∈ l)) by (by intros [_ ?]). rewrite app_nil_r.
      destruct (decide (e ∈ names)) as [Hen|Hen].
      * rewrite lookup_insert. cbn. rewrite decide_True; [by destruct (m !! e)|]. split; [done|by left].
      * rewrite decide_False by (by intros [? _]). by rewrite app_nil_r.
    + replace (dflt ((if decide (e ∈ names) then <[e:=(match m !! e with Some l0 => l0 | None => [] end) ++ [n]]> m else m) !! d))
        with (dflt (m !! d)).
      2:{ destruct (decide (e ∈ names)); [by rewrite lookup_insert_ne by done|done]. }
      f_equal. destruct (decide (d ∈ names /\ d ∈ l)) as [[? ?]|Hn].
      * rewrite decide_True; [done|]. split; [done|by right].
      * rewrite decide_False; [done|]. intros [? [?|?]%elem_of_cons]; [done|]. by apply Hn.
Qed.

Lemma fold_dependents names d l : forall m, (forall n, n ∈ l -> NoDup (tn_deps n)) ->
  dflt (foldl (add_dependents names) m l !! d) =
  dflt (m !! d) ++ filter (fun n => d ∈ names /\ d ∈ tn_deps n) l.
Proof.
  induction l as [|n l IH]; intros m Hl; cbn [foldl].
  - by rewrite app_nil_r.
  - rewrite IH by (intros n' Hn'; apply Hl; by right).
    rewrite add_dependents_lookup by (apply Hl; by left). rewrite <-app_assoc. f_equal.
    rewrite filter_cons. by destruct (decide (d ∈ names /\ d ∈ tn_deps n)).
Qed.

Lemma dob_lookup d : dflt (depended_on_by_map nodes !! d) =
  filter (fun n => d ∈ tnames nodes /\ d ∈ tn_deps n) nodes.
Proof. unfold depended_on_by_map. rewrite fold_dependents by done. by rewrite lookup_empty. Qed.

Lemma in_degrees_aux (l : list tnode) (f : tnode -> Z) n : forall m,
  NoDup (tnames l) -> n ∈ l ->
  foldl (fun (m : gmap name Z) n => <[tn_name n := f n]> m) m l !! tn_name n = Some (f n).
Proof.
  induction l as [|a l IH]; intros m Hnd Hn; [by apply elem_of_nil in Hn|].
  cbn in Hnd. apply NoDup_cons in Hnd as [Ha Hl]. cbn [foldl].
  apply elem_of_cons in Hn as [->|Hn]; [|by apply IH].
  assert (Hk : forall m : gmap name Z, m !! tn_name a = Some (f a) ->
    foldl (fun (m : gmap name Z) n => <[tn_name n := f n]> m) m l !! tn_name a = Some (f a)).
  { clear -Ha. induction l as [|b l IH]; intros m Hm; [done|]. cbn [foldl]. apply IH.
    - intros ?. apply Ha. cbn. by right.
    - rewrite lookup_insert_ne; [done|]. intros Heq. apply Ha. rewrite <-Heq. cbn. by left. }
  apply Hk. by rewrite lookup_insert.
Qed.

Lemma in_degrees_lookup n : n ∈ nodes ->
  in_degrees nodes !! tn_name n = Some (Z.of_nat (length (local_deps nodes n))).
Proof. intros Hn. unfold in_degrees. by rewrite (in_degrees_aux nodes (fun n => Z.of_nat (length (local_deps nodes n)))). Qed.

(** Number of dependencies (in the list) of [n] that are not in [done_]. *)
Definition open (done_ : list name) (n : tnode) : nat :=
  length (filter (fun d => d ∉ done_) (local_deps nodes n)).

Lemma open_zero done_ n : open done_ n = 0 <-> forall d, d ∈ local_deps nodes n -> d ∈ done_.
Proof.
  unfold open. split.
  - intros H d Hd. destruct (decide (d ∈ done_)) as [?|Hn]; [done|]. exfalso.
    apply nil_length_inv in H. assert (Hin : d ∈ filter (fun d => d ∉ done_) (local_deps nodes n)).
    { apply elem_of_list_filter. done. }
    rewrite H in Hin. by apply elem_of_nil in Hin.
  - intros H. induction (local_deps nodes n) as [|d l IH]; [done|].
    rewrite filter_cons_False; [|intros Hn; apply Hn, H; by left]. apply IH. intros d' Hd'. apply H. by right.
Qed.

Lemma open_snoc done_ n x : n ∈ nodes -> x ∉ done_ -> x ∈ tnames nodes ->
  open done_ n = open (done_ ++ [x]) n + (if decide (x ∈ tn_deps n) then 1 else 0).
Proof.
  intros Hn Hx Hxn. unfold open. rewrite (count_remove _ _ x); [|by apply NoDup_filter, Hdeps|done].
  f_equal. unfold local_deps. destruct (decide (x ∈ tn_deps n)) as [Hd|Hd].
  - rewrite decide_True; [done|]. by apply elem_of_list_filter.
  - rewrite decide_False; [done|]. intros [_ ?]%elem_of_list_filter. done.
Qed.

Record kinv (sorted queue : list tnode) (deg : gmap name Z) (pending : list tnode) : Prop := {
  k_nodup : NoDup (tnames (sorted ++ queue));
  k_sub : forall n, n ∈ sorted ++ queue -> n ∈ nodes;
  k_deg : forall n, n ∈ nodes -> deg !! tn_name n =
     Some (Z.of_nat (open (tnames sorted) n + if decide (n ∈ pending) then 1 else 0));
  k_zero : forall n, n ∈ nodes -> n ∈ sorted ++ queue <-> open (tnames sorted) n = 0 /\ n ∉ pending;
  k_ord : forall l1 n l2, sorted = l1 ++ n :: l2 -> forall d, d ∈ local_deps nodes n -> d ∈ tnames l1;
}.

Lemma relax_ok sorted next : forall queue deg,
  NoDup next -> (forall n, n ∈ next -> n ∈ nodes) ->
  kinv sorted queue deg next ->
  kinv sorted (relax deg queue next).2 (relax deg queue next).1 [].
Proof.
  induction next as [|n next IH]; intros queue deg Hnd Hsub Hk; cbn [relax]; [done|].
  apply NoDup_cons in Hnd as [Hn Hnd].
  assert (Hnn : n ∈ nodes) by (apply Hsub; by left).
  pose proof (k_deg _ _ _ _ Hk n Hnn) as Hd. rewrite decide_True in Hd by (by left).
  rewrite Hd. apply IH; [done|intros m Hm; apply Hsub; by right|].
  assert (Hnq : n ∉ sorted ++ queue).
  { intros Hin. apply (k_zero _ _ _ _ Hk n Hnn) in Hin as [_ Hc]. apply Hc. by left. }
  assert (Hdeg' : forall m, m ∈ nodes ->
     <[tn_name n := (Z.of_nat (open (tnames sorted) n + 1) - 1)%Z]> deg !! tn_name m =
     Some (Z.of_nat (open (tnames sorted) m + if decide (m ∈ next) then 1 else 0))).
  { intros m Hm. destruct (decide (m = n)) as [->|Hne].
    - rewrite lookup_insert. rewrite decide_False by done. f_equal. lia.
    - rewrite lookup_insert_ne; [|intros Heq; apply Hne; symmetry; by apply name_inj].
      rewrite (k_deg _ _ _ _ Hk m Hm). do 2 f_equal. f_equal.
      destruct (decide (m ∈ next)) as [Hin|Hin].
      + by rewrite decide_True by (by right).
      + rewrite decide_False; [done|]. intros [?|?]%elem_of_cons; done. }
  destruct (decide (Z.of_nat (open (tnames sorted) n + 1) - 1 = 0)%Z) as [Hz|Hz].
  - split; [| |done| |apply Hk].
    + rewrite app_assoc, tnames_app. apply NoDup_app. split_and!; [apply Hk| |].
      * intros x Hx Hx'. cbn in Hx'. apply elem_of_list_singleton in Hx' as ->.
        apply tnames_elem in Hx as (m & Hm & Heq). apply Hnq.
        assert (m = n) as <-; [|done]. apply name_inj; [by apply (k_sub _ _ _ _ Hk)|done|done].
      * cbn. apply NoDup_singleton.
    + intros m. rewrite app_assoc. intros [Hm|Hm]%elem_of_app; [by apply (k_sub _ _ _ _ Hk)|].
      by apply elem_of_list_singleton in Hm as ->.
    + intros m Hm. rewrite app_assoc, elem_of_app, elem_of_list_singleton, (k_zero _ _ _ _ Hk m Hm). split.
      * intros [[? Hni]| ->]; [split; [done|]; intros ?; apply Hni; by right|]. split; [lia|done].
      * intros [Ho Hni]. destruct (decide (m = n)) as [->|Hne]; [by right|left]. split; [done|].
        intros [?|?]%elem_of_cons; done.
  - split; [apply Hk|apply Hk|done| |apply Hk].
    intros m Hm. rewrite (k_zero _ _ _ _ Hk m Hm). split.
    + intros [? Hni]. split; [done|]. intros ?. apply Hni. by right.
    + intros [Ho Hni]. split; [done|]. intros [->|?]%elem_of_cons; [|done]. apply Hz. lia.
Qed.

Lemma names_length (l : list tnode) : NoDup (tnames l) -> (forall n, n ∈ l -> n ∈ nodes) ->
  length l <= length nodes.
Proof.
  intros Hnd Hsub. assert (H : length (tnames l) <= length (tnames nodes)).
  { apply submseteq_length, NoDup_submseteq; [done|]. intros x Hx.
    apply tnames_elem in Hx as (n & Hn & <-). apply tnames_elem. exists n. split; [by apply Hsub|done]. }
  unfold tnames in H. by rewrite !map_length in H.
Qed.

Lemma nodes_nodup : NoDup nodes.
Proof. unfold tnames in Hnames. by apply NoDup_fmap_1 in Hnames. Qed.

Lemma kahn_ok fuel : forall sorted queue deg,
  kinv sorted queue deg [] -> length nodes <= length sorted + fuel ->
  exists out deg', kahn fuel (depended_on_by_map nodes) deg queue sorted = Some out /\ kinv out [] deg' [].
Proof.
  induction fuel as [|fuel IH]; intros sorted queue deg Hk Hf.
  - destruct queue as [|x queue]; [by exists sorted, deg|]. exfalso.
    assert (length (sorted ++ x :: queue) <= length nodes).
    { apply names_length; apply Hk. }
    rewrite app_length in *. cbn in *. lia.
  - destruct queue as [|x queue]; [by exists sorted, deg|]. cbn [kahn].
    change (match depended_on_by_map nodes !! tn_name x with Some l => l | None => [] end)
      with (dflt (depended_on_by_map nodes !! tn_name x)).
    rewrite dob_lookup.
    assert (Hx : x ∈ nodes). { apply (k_sub _ _ _ _ Hk). apply elem_of_app. right. by left. }
    assert (Hxn : tn_name x ∈ tnames nodes) by (apply tnames_elem; by exists x).
    assert (Hxs : tn_name x ∉ tnames sorted).
    { pose proof (k_nodup _ _ _ _ Hk) as Hnd. rewrite tnames_app in Hnd. apply NoDup_app in Hnd as (_ & Hnd & _).
      intros Hin. apply (Hnd _ Hin). cbn. by left. }
    set (next := filter (fun n => tn_name x ∈ tnames nodes /\ tn_name x ∈ tn_deps n) nodes).
    assert (Hnext : forall n, n ∈ nodes -> n ∈ next <-> tn_name x ∈ tn_deps n).
    { intros n Hn. unfold next. rewrite elem_of_list_filter. naive_solver. }
    assert (Hopen : forall n, n ∈ nodes -> open (tnames sorted) n =
       open (tnames (sorted ++ [x])) n + (if decide (n ∈ next) then 1 else 0)).
    { intros n Hn. rewrite (open_snoc _ n (tn_name x)) by done. rewrite tnames_app. cbn.
      destruct (decide (tn_name x ∈ tn_deps n)) as [Hd|Hd].
      - rewrite (decide_True (P := n ∈ next)) by (by apply Hnext). done.
      - rewrite (decide_False (P := n ∈ next)); [done|]. by intros ?%Hnext. }
    apply IH; [|rewrite app_length; cbn; lia].
    apply relax_ok.
    + apply NoDup_filter, nodes_nodup.
    + intros n [_ ?]%elem_of_list_filter. done.
    + split.
      * rewrite <-app_assoc. apply Hk.
      * rewrite <-app_assoc. apply Hk.
      * intros n Hn. rewrite (k_deg _ _ _ _ Hk n Hn). rewrite (decide_False (P := n ∈ [])) by (by intros ?%elem_of_nil).
        do 2 f_equal. rewrite Hopen by done. lia.
      * intros n Hn. rewrite <-app_assoc. cbn [app]. rewrite (k_zero _ _ _ _ Hk n Hn), Hopen by done.
        destruct (decide (n ∈ next)); split; intros [? ?]; split; try done; try lia; [by intros ?%elem_of_nil].
      * intros l1 n l2 Heq d Hd.
        destruct l2 as [|y l2 _] using rev_ind.
        -- apply app_inj_tail in Heq as [<- <-].
           assert (Hz : open (tnames sorted) x = 0).
           { apply (k_zero _ _ _ _ Hk x Hx). apply elem_of_app. right. by left. }
           by eapply open_zero in Hz.
        -- rewrite app_comm_cons, app_assoc in Heq. apply app_inj_tail in Heq as [Heq _].
           by eapply (k_ord _ _ _ _ Hk).
Qed.

Lemma topo_ok : exists out, topologically_sort_nodes nodes = Some out /\
  NoDup (tnames out) /\ (forall n, n ∈ out -> n ∈ nodes) /\
  (forall l1 n l2, out = l1 ++ n :: l2 -> forall d, d ∈ local_deps nodes n -> d ∈ tnames l1) /\
  (forall n, n ∈ nodes -> n ∉ out -> exists d, ldep (tn_name n) d /\ d ∉ tnames out).
Proof.
  unfold topologically_sort_nodes.
  destruct (kahn_ok (length nodes) [] (filter (fun n => in_degrees nodes !! tn_name n = Some 0%Z) nodes) (in_degrees nodes))
    as (out & deg & Heq & Hk).
  - split.
    + cbn. by apply nodup_map_filter.
    + intros n [_ ?]%elem_of_list_filter. done.
    + intros n Hn. rewrite in_degrees_lookup by done. rewrite decide_False by (by intros ?%elem_of_nil).
      do 2 f_equal. unfold open. cbn. rewrite (list_filter_iff _ (fun _ => True)).
      * rewrite Nat.add_0_r. clear. induction (local_deps nodes n) as [|d l IH]; [done|]. rewrite filter_cons_True by done. cbn. by rewrite <-IH.
      * intros d. split; [done|]. by intros _ ?%elem_of_nil.
    + intros n Hn. cbn. rewrite elem_of_list_filter, in_degrees_lookup by done. rewrite open_zero. split.
      * intros [Hz _]. split; [|by intros ?%elem_of_nil]. intros d Hd. exfalso.
        destruct (local_deps nodes n); [by apply elem_of_nil in Hd|]. cbn [length] in Hz. injection Hz as Hz. lia.
      * intros [Hz _]. split; [|done]. destruct (local_deps nodes n) as [|d l]; [done|].
        specialize (Hz d ltac:(by left)). by apply elem_of_nil in Hz.
    + intros l1 n l2 Hc. by destruct l1.
  - cbn. lia.
  - exists out. split_and!; [done| | | |].
    + pose proof (k_nodup _ _ _ _ Hk) as H. by rewrite app_nil_r in H.
    + intros n Hn. apply (k_sub _ _ _ _ Hk). by rewrite app_nil_r.
    + apply Hk.
    + intros n Hn Hno. pose proof (k_zero _ _ _ _ Hk n Hn) as Hz. rewrite app_nil_r in Hz.
      assert (Hnz : open (tnames out) n <> 0).
      { intros H0. apply Hno, Hz. split; [done|]. by intros ?%elem_of_nil. }
      unfold open in Hnz. destruct (filter (fun d => d ∉ tnames out) (local_deps nodes n)) as [|d l] eqn:Hf; [done|].
      assert (Hd : d ∈ filter (fun d => d ∉ tnames out) (local_deps nodes n)) by (rewrite Hf; by left).
      apply elem_of_list_filter in Hd as [Hd1 Hd2]. apply elem_of_list_filter in Hd2 as [Hd2 Hd3].
      exists d. split; [|done]. exists n. done.
Qed.

Lemma topo_cycles out : topologically_sort_nodes nodes = Some out ->
  forall n, n ∈ nodes ->
    n ∈ out <-> ~ exists z, rtc ldep (tn_name n) z /\ tc ldep z z.
Proof.
  intros Hout n Hn. destruct topo_ok as (out' & Heq & Hnd & Hsub & Hord & Hrest).
  rewrite Hout in Heq. injection Heq as <-. split.
  - (* a sorted node only reaches sorted nodes, strictly earlier ones *)
    intros Hno (z & Hr & Hc).
    assert (Hpos : forall l1 l2, out = l1 ++ l2 -> forall y d, y ∈ tnames l1 -> ldep y d -> d ∈ tnames l1).
    { intros l1 l2 Heq y d Hy (m & Hm & <- & Hd & Hdn). apply tnames_elem in Hy as (m' & Hm' & Heqn).
      assert (m' = m) as ->. { apply name_inj; [|done|done]. apply Hsub. rewrite Heq. apply elem_of_app. by left. }
      apply elem_of_list_split in Hm' as (a & b & ->).
      rewrite tnames_app, elem_of_app. left.
      eapply (Hord a m (b ++ l2)); [by rewrite Heq, <-app_assoc|]. by apply elem_of_list_filter. }
    assert (Hacc : forall l1 l2, out = l1 ++ l2 -> forall y, y ∈ tnames l1 -> ~ tc ldep y y).
    { induction l1 as [|m l1 IH] using rev_ind; intros l2 Heq y Hy Hcyc; [by apply elem_of_nil in Hy|].
      rewrite <-app_assoc in Heq. cbn in Heq.
      assert (Hpre : forall y, y ∈ tnames l1 -> ~ tc ldep y y) by (by eapply IH).
      rewrite tnames_app, elem_of_app in Hy. destruct Hy as [Hy|Hy]; [by eapply Hpre|].
      cbn in Hy. apply elem_of_list_singleton in Hy as ->.
      assert (Hm : exists d, ldep (tn_name m) d /\ rtc ldep d (tn_name m)).
      { inversion Hcyc; subst; [eexists; split; [done|]; done|]. eexists. split; [done|]. by apply tc_rtc. }
      destruct Hm as (d & Hd & Hrd).
      assert (Hdl : d ∈ tnames l1).
      { destruct Hd as (m' & Hm' & Hmn & Hd1 & Hd2). assert (m' = m) as ->.
        { apply name_inj; [done| |done]. apply Hsub. rewrite Heq. apply elem_of_app. right. by left. }
        eapply (Hord l1 m l2); [done|]. by apply elem_of_list_filter. }
      assert (Hml : tn_name m ∈ tnames l1).
      { clear Hd Hcyc. remember (tn_name m) as x eqn:Hx. clear Hx.
        induction Hrd as [|a b c Hab Hbc IH']; [done|]. apply IH'. by eapply (Hpos l1 (m :: l2)). }
      rewrite Heq, tnames_app in Hnd. apply NoDup_app in Hnd as (_ & Hnd & _). apply (Hnd _ Hml). cbn. by left. }
    assert (Hz : z ∈ tnames out).
    { assert (Hx : tn_name n ∈ tnames out) by (apply tnames_elem; by exists n).
      clear -Hr Hx Hpos. induction Hr as [|a b c Hab Hbc IH]; [done|]. apply IH.
      eapply (Hpos out []); [by rewrite app_nil_r|done|done]. }
    eapply (Hacc out []); [by rewrite app_nil_r|done|done].
  - intros Hn'. destruct (decide (n ∈ out)) as [?|Hno]; [done|]. exfalso. apply Hn'.
    apply (reaches_cycle ldep (list_to_set (filter (fun x => x ∉ tnames out) (tnames nodes)))).
    + intros x Hx. apply elem_of_list_to_set, elem_of_list_filter in Hx as [Hxo Hx].
      apply tnames_elem in Hx as (m & Hm & <-).
      destruct (Hrest m Hm) as (d & Hd & Hdo).
      { intros Hmo. apply Hxo. apply tnames_elem. by exists m. }
      exists d. split; [|done]. apply elem_of_list_to_set, elem_of_list_filter. split; [done|].
      by destruct Hd as (_ & _ & _ & _ & ?).
    + apply elem_of_list_to_set, elem_of_list_filter. split; [|apply tnames_elem; by exists n].
      intros (m & Hm & Heqn)%tnames_elem. assert (m = n) as ->; [|done].
      apply name_inj; [by apply Hsub|done|done].
Qed.
End Topo.

(** ** Levels *)
(** [chain nodes n x]: a dependency chain of [n] steps inside the list starts at [x]. *)
Inductive chain (nodes : list tnode) : nat -> name -> Prop :=
| chain_0 x : x ∈ tnames nodes -> chain nodes 0 x
| chain_S n x d : ldep nodes x d -> chain nodes n d -> chain nodes (S n) x.
Definition longest nodes (x : name) (n : nat) : Prop :=
  chain nodes n x /\ forall m, chain nodes m x -> m <= n.

Lemma longest_unique nodes x n m : longest nodes x n -> longest nodes x m -> n = m.
Proof. intros [H1 H2] [H3 H4]. specialize (H2 _ H3). specialize (H4 _ H1). lia. Qed.

Lemma longest_dep nodes x d n m : ldep nodes x d -> longest nodes x n -> longest nodes d m -> m < n.
Proof. intros Hd [_ Hx] [Hm _]. apply (Hx (S m)). by eapply chain_S. Qed.

Lemma longest_below nodes x n : (forall d, d ∈ tnames nodes -> exists k, longest nodes d k) ->
  longest nodes x (S n) -> exists d, longest nodes d n.
Proof.
  intros Htot [Hc Hmax]. inversion Hc as [|n' x' d Hd Hch]; subst.
  assert (Hdn : d ∈ tnames nodes) by (by destruct Hd as (_ & _ & _ & _ & ?)).
  exists d. destruct (Htot d Hdn) as (k & Hk1 & Hk2).
  assert (k = n) as <-; [|done]. specialize (Hk2 _ Hch).
  specialize (Hmax (S k) ltac:(by eapply chain_S)). lia.
Qed.

Lemma max_list_ge l n : n ∈ l -> n <= max_list l.
Proof. induction l as [|a l IH]; intros Hn; [by apply elem_of_nil in Hn|].
  change (max_list (a :: l)) with (max a (max_list l)). apply elem_of_cons in Hn as [->|Hn]; [lia|]. specialize (IH Hn). lia.
Qed.
Lemma max_list_in l : l <> [] -> max_list l ∈ l.
Proof.
  induction l as [|a l IH]; intros Hne; [done|]. change (max_list (a :: l)) with (max a (max_list l)). destruct l as [|b l].
  - change (max_list []) with 0. rewrite Nat.max_0_r. by left.
  - specialize (IH ltac:(done)). destruct (Nat.max_spec a (max_list (b :: l))) as [[_ ->]|[_ ->]]; [by right|by left].
Qed.

Section Levels.
Variable sorted : list tnode.
Hypothesis Hnames : NoDup (tnames sorted).
Hypothesis Hord : forall l1 n l2, sorted = l1 ++ n :: l2 ->
  forall d, d ∈ local_deps sorted n -> d ∈ tnames l1.

Lemma map_fst_fmap {A B} (l : list (A * B)) : map fst l = l.*1.
Proof. done. Qed.

Lemma levels_from_ok rest : forall done_ levels,
  sorted = done_ ++ rest -> map fst levels = tnames done_ ->
  (forall x n, (x, n) ∈ levels -> longest sorted x n) ->
  exists out, levels_from (tnames sorted) levels rest = Some out /\
    map fst out = tnames sorted /\ forall x n, (x, n) ∈ out -> longest sorted x n.
Proof.
  induction rest as [|nd rest IH]; intros done_ levels Heq Hfst Hlev; cbn [levels_from].
  - rewrite app_nil_r in Heq. subst done_. by exists levels.
  - assert (Hnd : nd ∈ sorted) by (rewrite Heq; apply elem_of_app; right; by left).
    assert (Hlk : forall d, d ∈ tnames done_ -> exists k, (list_to_map levels : gmap name nat) !! d = Some k /\ (d, k) ∈ levels).
    { intros d Hd. rewrite <-Hfst, map_fst_fmap in Hd. apply elem_of_list_fmap in Hd as ([d' k] & -> & Hin). exists k.
      split; [|done]. apply elem_of_list_to_map_1; [|done]. rewrite <-map_fst_fmap, Hfst.
      rewrite Heq, tnames_app in Hnames. by apply NoDup_app in Hnames as [? _]. }
    assert (Hld : forall d, ldep sorted (tn_name nd) d <-> d ∈ local_deps sorted nd).
    { intros d. unfold local_deps. rewrite elem_of_list_filter. split.
      - intros (m & Hm & Hmn & ? & ?). by rewrite (name_inj sorted Hnames nd m Hnd Hm (eq_sym Hmn)).
      - intros [? ?]. by exists nd. }
    assert (Hmap : exists ls, mapM (fun d => (list_to_map levels : gmap name nat) !! d) (local_deps sorted nd) = Some ls /\
              (forall d, d ∈ local_deps sorted nd -> exists k, k ∈ ls /\ longest sorted d k) /\
              (forall k, k ∈ ls -> exists d, d ∈ local_deps sorted nd /\ longest sorted d k)).
    { specialize (Hord _ _ _ Heq). clear Hld. induction (local_deps sorted nd) as [|d l IHl].
      - exists []. split_and!; [done| |]; by intros ? ?%elem_of_nil.
      - destruct IHl as (ls & Hls & H1 & H2). { intros d' Hd'. apply Hord. by right. }
        destruct (Hlk d) as (k & Hk & Hin). { apply Hord. by left. }
        exists (k :: ls). split_and!.
        + cbn. rewrite Hk. cbn. cbn in Hls. by rewrite Hls.
        + intros d' [->|Hd']%elem_of_cons; [exists k; split; [by left|by apply Hlev]|].
          destruct (H1 d' Hd') as (k' & ? & ?). exists k'. split; [by right|done].
        + intros k' [->|Hk']%elem_of_cons; [exists d; split; [by left|by apply Hlev]|].
          destruct (H2 k' Hk') as (d' & ? & ?). exists d'. split; [by right|done]. }
    destruct Hmap as (ls & Hls & H1 & H2). unfold local_deps in Hls at 1. rewrite Hls.
    assert (Hnn : tn_name nd ∈ tnames sorted) by (apply tnames_elem; by exists nd).
    destruct ls as [|k ls].
    + apply (IH (done_ ++ [nd])).
      * by rewrite <-app_assoc.
      * by rewrite map_app, tnames_app, Hfst.
      * intros x n [Hin|Hin]%elem_of_app; [by apply Hlev|]. apply elem_of_list_singleton in Hin as [= -> ->].
        split; [by apply chain_0|]. intros m Hm. destruct Hm as [|m x d Hd Hch]; [lia|]. exfalso.
        apply Hld in Hd. destruct (H1 d Hd) as (? & ?%elem_of_nil & _). done.
    + apply (IH (done_ ++ [nd])).
      * by rewrite <-app_assoc.
      * by rewrite map_app, tnames_app, Hfst.
      * intros x n [Hin|Hin]%elem_of_app; [by apply Hlev|]. apply elem_of_list_singleton in Hin as [= -> ->].
        split.
        -- destruct (H2 _ (max_list_in (k :: ls) ltac:(done))) as (d & Hd & [Hc _]).
           eapply chain_S; [by apply Hld|done].
        -- intros m Hm. inversion Hm as [|m' x d Hd Hch]; subst; [lia|]. apply Hld in Hd.
           destruct (H1 d Hd) as (k' & Hk' & [_ Hmax]). specialize (Hmax _ Hch).
           pose proof (max_list_ge _ _ Hk') as Hge. change (max_list (k :: ls)) with (max k (max_list ls)) in Hge. lia.
Qed.

Lemma levels_ok : exists levels, get_node_levels sorted = Some levels /\
  map fst levels = tnames sorted /\ forall x n, (x, n) ∈ levels -> longest sorted x n.
Proof. apply (levels_from_ok sorted [] []); [done|done|]. by intros x n ?%elem_of_nil. Qed.
End Levels.

Lemma down_closed_range (l : list nat) : NoDup l -> (forall n, S n ∈ l -> n ∈ l) ->
  forall n, n ∈ l <-> n < length l.
Proof.
  intros Hnd Hdc.
  assert (Hle : forall n m, n ∈ l -> m <= n -> m ∈ l).
  { intros n m Hn. induction n as [|n IH]; intros Hm; [by replace m with 0 by lia|].
    destruct (decide (m = S n)) as [->|]; [done|]. apply IH; [by apply Hdc|lia]. }
  intros n. split.
  - intros Hn. assert (Hsub : length (seq 0 (S n)) <= length l).
    { apply submseteq_length, NoDup_submseteq; [apply NoDup_seq|]. intros m Hm%elem_of_seq. apply (Hle n); [done|lia]. }
    rewrite seq_length in Hsub. lia.
  - intros Hn. destruct (decide (n ∈ l)) as [?|Hno]; [done|]. exfalso.
    assert (Hsub : length l <= length (seq 0 n)).
    { apply submseteq_length, NoDup_submseteq; [done|]. intros m Hm. apply elem_of_seq. split; [lia|].
      destruct (decide (m < n)); [lia|]. exfalso. apply Hno, (Hle m); [done|lia]. }
    rewrite seq_length in Hsub. lia.
Qed.

Section Groups.
Variable nodes : list tnode.
Hypothesis Hnames : NoDup (tnames nodes).
Hypothesis Hdeps : forall n, n ∈ nodes -> NoDup (tn_deps n).
Hypothesis Hac : forall x, ~ tc (ldep nodes) x x.

Lemma topo_acyclic : exists out, topologically_sort_nodes nodes = Some out /\ Permutation out nodes /\
  forall l1 n l2, out = l1 ++ n :: l2 -> forall d, d ∈ tn_deps n -> d ∈ tnames nodes -> d ∈ tnames l1.
Proof.
  destruct (topo_ok nodes Hnames Hdeps) as (out & Heq & Hnd & Hsub & Hord & _).
  exists out. split_and!; [done| |].
  - apply NoDup_Permutation.
    + unfold tnames in Hnd. by apply NoDup_fmap_1 in Hnd.
    + by apply nodes_nodup.
    + intros n. split; [apply Hsub|]. intros Hn. apply (topo_cycles nodes Hnames Hdeps out Heq n Hn).
      intros (z & _ & Hz). by eapply Hac.
  - intros l1 n l2 Hl d Hd Hdn. eapply Hord; [done|]. by apply elem_of_list_filter.
Qed.

Lemma ldep_perm out : Permutation out nodes -> forall x d, ldep out x d <-> ldep nodes x d.
Proof.
  intros Hp x d. assert (Hin : forall n, n ∈ out <-> n ∈ nodes) by (intros n; by rewrite Hp).
  assert (Hd : d ∈ tnames out <-> d ∈ tnames nodes).
  { rewrite !tnames_elem. by setoid_rewrite Hin. }
  unfold ldep. setoid_rewrite Hin. by setoid_rewrite Hd.
Qed.

Lemma chain_perm out : Permutation out nodes -> forall n x, chain out n x <-> chain nodes n x.
Proof.
  intros Hp. assert (Hin : forall x, x ∈ tnames out <-> x ∈ tnames nodes).
  { intros x. rewrite !tnames_elem. by setoid_rewrite Hp. }
  intros n x. split; induction 1 as [x Hx|n x d Hd _ IH]; try (apply chain_0; by apply Hin);
    (eapply chain_S; [by apply (ldep_perm out Hp)|done]).
Qed.

Lemma groups_ok : exists groups, group_nodes_by_level nodes = Some groups /\
  (forall i x, (exists l, groups !! i = Some l /\ x ∈ l) <-> longest nodes x i) /\
  (forall x, x ∈ tnames nodes -> exists i, longest nodes x i) /\
  (forall i l, groups !! i = Some l -> NoDup l /\ l <> []).
Proof.
  destruct topo_acyclic as (out & Hout & Hperm & Hord).
  assert (Hnames' : NoDup (tnames out)). { unfold tnames. by rewrite Hperm. }
  destruct (levels_ok out Hnames') as (levels & Hlev & Hfst & Hlong).
  { intros l1 n l2 Heq d [Hd1 Hd2]%elem_of_list_filter. eapply Hord; [done|done|].
    apply tnames_elem in Hd1 as (m & Hm & <-). apply tnames_elem. exists m. split; [by rewrite <-Hperm|done]. }
  unfold group_nodes_by_level. rewrite Hout, Hlev.
  eexists. split; [done|].
  assert (Hlong' : forall x n, (x, n) ∈ levels -> longest nodes x n).
  { intros x n Hin. destruct (Hlong x n Hin) as [H1 H2]. split; [by apply (chain_perm out)|].
    intros m Hm. apply H2. by apply (chain_perm out). }
  assert (Hall : forall x, x ∈ tnames nodes -> exists n, (x, n) ∈ levels).
  { intros x Hx. assert (Hx' : x ∈ tnames out). { unfold tnames in *. by rewrite Hperm. }
    rewrite <-Hfst, map_fst_fmap in Hx'. apply elem_of_list_fmap in Hx' as ([x' n] & -> & Hin). by exists n. }
  assert (Hin_iff : forall x n, (x, n) ∈ levels <-> longest nodes x n).
  { intros x n. split; [apply Hlong'|]. intros Hl. destruct (Hall x) as (m & Hm).
    { destruct Hl as [Hc _]. destruct Hc as [x Hx|k x d (nd & Hnd & <- & _)]; [done|]. apply tnames_elem. by exists nd. }
    by rewrite (longest_unique _ _ _ _ Hl (Hlong' _ _ Hm)). }
  set (L := remove_dups (map snd levels)).
  assert (HL : forall n, n ∈ L <-> n < length L).
  { apply down_closed_range; [apply NoDup_remove_dups|]. intros n Hn.
    assert (HLin : forall k, k ∈ L <-> exists x, longest nodes x k).
    { intros k. unfold L. rewrite elem_of_remove_dups.
      change (map snd levels) with (levels.*2). rewrite elem_of_list_fmap. split.
      - intros ([x k'] & -> & Hin). exists x. by apply Hin_iff.
      - intros (x & Hx). exists (x, k). split; [done|by apply Hin_iff]. }
    apply HLin in Hn as (x & Hx). apply HLin. eapply longest_below; [|done].
    intros d Hd. destruct (Hall d Hd) as (k & Hk). exists k. by apply Hlong'. }
  assert (HLin : forall k, k ∈ L <-> exists x, longest nodes x k).
  { intros k. unfold L. rewrite elem_of_remove_dups.
    change (map snd levels) with (levels.*2). rewrite elem_of_list_fmap. split.
    - intros ([x k'] & -> & Hin). exists x. by apply Hin_iff.
    - intros (x & Hx). exists (x, k). split; [done|by apply Hin_iff]. }
  set (grp := fun i => map fst (filter (fun p : name * nat => p.2 = i) levels)).
  assert (Hgrp : forall i x, x ∈ grp i <-> longest nodes x i).
  { intros i x. unfold grp. rewrite map_fst_fmap, elem_of_list_fmap. rewrite <-Hin_iff. split.
    - intros ([x' n] & -> & Hin). apply elem_of_list_filter in Hin as [Hn Hin]. cbn in *. by subst.
    - intros Hin. exists (x, i). split; [done|]. by apply elem_of_list_filter. }
  assert (Hlk : forall i l, map grp (seq 0 (length L)) !! i = Some l <-> i < length L /\ l = grp i).
  { intros i l. change (map grp (seq 0 (length L))) with (grp <$> seq 0 (length L)).
    rewrite list_lookup_fmap, fmap_Some. split.
    - intros (k & Hk & ->). apply lookup_seq in Hk as [-> ?]. done.
    - intros [? ->]. exists i. split; [|done]. apply lookup_seq. lia. }
  split_and!.
  - intros i x. split.
    + intros (l & Hl & Hx). apply Hlk in Hl as [_ ->]. by apply Hgrp.
    + intros Hl. exists (grp i). split; [|by apply Hgrp]. apply Hlk. split; [|done]. apply HL, HLin. by exists x.
  - intros x Hx. destruct (Hall x Hx) as (n & Hn). exists n. by apply Hlong'.
  - intros i l Hl. apply Hlk in Hl as [Hi ->]. split.
    + unfold grp. apply nodup_map_filter. by rewrite Hfst.
    + apply HL, HLin in Hi as (x & Hx). apply Hgrp in Hx. intros Heq. rewrite Heq in Hx. by apply elem_of_nil in Hx.
Qed.
End Groups.
