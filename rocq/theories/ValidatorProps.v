(** C72: the arguments of @check_output are checked as documented. *)
From Coq Require Import QArith.
From stdpp Require Import pretty.
From Verif Require Import Base Dict NodeModel NodeSpec NodeProofs PipeSpec PipeProofs CheckModel CheckProofs CheckProps Strings GraphModel ValidatorModel ValidatorSpec ValidatorProofs.
Local Open Scope Q_scope.

Lemma le_compat_r a x y : x == y -> le a (Fin x) -> le a (Fin y).
Proof. intros E. destruct a; cbn [le]; [by rewrite E|done|done|done]. Qed.
Lemma le_compat_l x y b : x == y -> le (Fin x) b -> le (Fin y) b.
Proof. intros E. destruct b; cbn [le]; [by rewrite E|done|done|done]. Qed.

Section C72.
Context {D Ty O : Type}.
Notation pyval := (pyval D O).
Variable str_le : string -> string -> bool.
Variable issubdtype : D -> Ty -> bool.
Variable isinstance : pyval -> Ty -> bool.
Variable fdiv : nat -> nat -> Q.
Notation passing := (passing str_le issubdtype isinstance fdiv).
Notation asks := (asks (fun d t => issubdtype d t = true) (fun v t => isinstance v t = true)).
Notation resolve := (resolve_default_validators str_le (Ty := Ty)).
Notation new := (new str_le (Ty := Ty)).

Lemma first_class_in cls t key c : first_class cls t key = Ok c -> c ∈ cls /\ key = vc_arg c /\ applies_to c t = Ok true.
Proof.
  induction cls as [|d cls IH]; cbn; [done|]. destruct (decide _) as [->|].
  - destruct (applies_to d t) as [[]|] eqn:Ha; intros H.
    + injection H as <-. split_and!; [by left|done|done].
    + apply IH in H as (? & ? & ?). split_and!; [by right|done|done].
    + done.
  - intros H. apply IH in H as (? & ? & ?). split_and!; [by right|done|done].
Qed.
Lemma chained_iff k1 lo k x k2 hi : exists b, chained str_le (ANum k1 lo) (ANum k x) (ANum k2 hi) = Ok b /\ (b = true <-> le lo x /\ le x hi).
Proof.
  exists (num_le lo x && num_le x hi). rewrite andb_true_iff, !num_le_iff. split; [|done]. unfold chained. cbn [atom_le]. by destruct (num_le lo x).
Qed.
Lemma between_all k1 lo k2 hi cs : (forall c, c ∈ cs -> exists k x, c = CVal (ANum k x)) ->
  exists bs, emap (between str_le (ANum k1 lo) (ANum k2 hi)) cs = Ok (map Some bs) /\
  (Forall (fun b => b = true) bs <-> forall k x, CVal (ANum k x) ∈ cs -> le lo x /\ le x hi).
Proof.
  induction cs as [|c cs IH]; intros H.
  - exists []. split; [done|]. split; [intros _ k x Hx; by apply elem_of_nil in Hx|intros _; constructor].
  - destruct (H c) as (k & x & ->); [by left|]. destruct IH as (bs & E & Hb); [intros; apply H; by right|].
    exists ((num_le lo x && num_le x hi) :: bs). split; [cbn [emap between atom_le]; by rewrite E|].
    rewrite Forall_cons, Hb, andb_true_iff, !num_le_iff. split.
    + intros [H1 H2] k' x' Hx. apply elem_of_cons in Hx as [Hx | Hx]; [by injection Hx as -> ->|by apply (H2 k')].
    + intros Hx. split; [apply (Hx k); by left|]. intros k' x' Hi. apply (Hx k'). by right.
Qed.
Lemma values_all l cs : count false (map (fun c => Some (isin l c || isna c)) cs) = 0%nat <->
  forall c, c ∈ cs -> missing c \/ exists a w, c = CVal a /\ w ∈ l /\ equal a w.
Proof.
  rewrite <- (map_map (fun c => isin l c || isna c) Some), count_false, Forall_fmap, Forall_forall.
  apply forall_proper. intros c. cbn. rewrite orb_true_iff, isna_iff. split; intros H Hc; specialize (H Hc).
  - destruct H as [H | H]; [|by left]. right. destruct c as [a| |]; cbn in H; [|done|done]. apply existsb_exists in H as (w & Hw & He).
    exists a, w. split_and!; [done|by apply elem_of_list_In|by apply atom_eq_iff].
  - destruct H as [H | (a & w & -> & Hw & He)]; [by right|]. left. cbn. apply existsb_exists. exists w. split; [by apply elem_of_list_In|by apply atom_eq_iff].
Qed.

(** The validator that one argument resolves to decides what the argument asks. *)
Lemma decides t imp key a v c vo applies holds :
  (forall i j, (0 < j)%nat -> fdiv i j == nat_q i / nat_q j) ->
  first_class available t key = Ok c -> new c imp a = Ok vo -> of_type t v -> asks key a applies holds -> applies v ->
  exists b, passing vo v = Ok b /\ (b = true <-> holds v).
Proof.
  intros Hdiv Hc Hn Hty Ha Happ.
  assert (made : forall c' a', match level imp with Ok f => Ok (VObj c' f a') | Err e => Err e end = Ok vo -> exists f, vo = VObj c' f a').
  { intros c' a' H. destruct (level imp) as [f|]; [|done]. injection H as <-. by exists f. }
  destruct Ha as [k1 lo k2 hi|l Hl|k q| |k1 lo k2 hi|k s|b|s|l|s|l|ty].
  - (* range *)
    assert (Hcs : (c = RangeSeries /\ ot_series t = true) \/ (c = RangePrimitives /\ ot_series t = false)).
    { destruct t as [[] [] [] ? ?]; vm_compute in Hc; try done; injection Hc as <-; cbn; tauto. }
    destruct Happ as [Hv Hnum]. destruct Hty as [-> | [T1 T2]]; [by destruct Hv as [(? & ?)|(? & ? & ?)]|].
    destruct Hcs as [[-> Ht]|[-> Ht]]; cbn [new] in Hn; apply made in Hn as [f ->]; unfold passing, unpack; cbn [vo_class vo_arg iter].
    + destruct (T1 Ht) as (d & cs & ->). destruct (between_all k1 lo k2 hi cs) as (bs & -> & Hb); [intros c Hi; apply Hnum; by constructor|].
      eexists. split; [done|]. rewrite bool_decide_eq_true, count_false, Hb. split.
      * intros H k x Hi. inversion Hi; subst. by apply (H k).
      * intros H k x Hi. apply (H k). by constructor.
    + destruct Hv as [(x & ->)|(d & cs & ->)]; [|by destruct (T2 Ht d cs)]. destruct (Hnum (CVal x)) as (k & y & Hx); [constructor|]. injection Hx as ->.
      destruct (chained_iff k1 lo k y k2 hi) as (b & -> & Hb). exists b. split; [done|]. rewrite Hb. split.
      * intros H k' x Hi. inversion Hi; by subst.
      * intros H. apply (H k). constructor.
  - (* values_in *)
    assert (Hcs : (c = ValuesSeries /\ ot_series t = true) \/ (c = ValuesPrimitives /\ ot_series t = false)).
    { destruct t as [[] [] [] [] ?]; vm_compute in Hc; try done; injection Hc as <-; cbn; tauto. }
    destruct Hty as [-> | [T1 T2]]; [by destruct Happ as [(? & ?)|(? & ? & ?)]|].
    assert (Hvo : exists f, vo = VObj c f (GSeq l)).
    { apply made. destruct Hcs as [[-> _]|[-> _]]; cbn [new iter] in Hn; by destruct (level imp). }
    destruct Hvo as [f ->]. destruct Hcs as [[-> Ht]|[-> Ht]]; cbn [ValidatorModel.passing vo_class vo_arg].
    + destruct (T1 Ht) as (d & cs & ->). eexists. split; [done|]. rewrite bool_decide_eq_true, values_all. split.
      * intros H c Hi. inversion Hi; subst. by apply H.
      * intros H c Hi. apply H. by constructor.
    + destruct Happ as [(x & ->)|(d & cs & ->)]; [|by destruct (T2 Ht d cs)]. eexists. split; [done|]. rewrite existsb_exists. split.
      * intros (w & Hw%elem_of_list_In & He). exists w. split; [done|]. apply atom_same_iff in He; [done|]. intros k y ->. by apply (Hl k).
      * intros (w & Hw & He). exists w. split; [by apply elem_of_list_In|]. apply atom_same_iff; [|done]. intros k y ->. by apply (Hl k).
  - (* max_fraction_nans *)
    assert (c = MaxFractionNans) as -> by (by apply first_class_in in Hc as (_ & Hk & _); destruct c).
    destruct Happ as (d & cs & -> & _).
    assert (Hvo : exists f, vo = VObj MaxFractionNans f (GAtom (ANum k (Fin q))) /\ 0 <= q).
    { cbn [new] in Hn. destruct (level imp) as [f|]; [|done]. destruct (chained_iff KInt (Fin 0) k (Fin q) KInt (Fin 1)) as (b & Hch & Hb). rewrite Hch in Hn.
      destruct b; [|done]. injection Hn as <-. exists f. split; [done|]. by apply Hb. }
    destruct Hvo as (f & -> & Hq0). cbn [ValidatorModel.passing vo_class vo_arg]. cbv zeta. eexists. split; [done|]. rewrite num_le_iff, isna_filter. cbn [le]. split.
    + intros H. exists d, cs. split; [done|]. destruct cs as [|c cs]; [cbn; unfold nat_q; cbn; by rewrite Qmult_0_r|]. set (n := length (c :: cs)) in *.
      assert (Hn0 : (0 < n)%nat) by (subst n; cbn; lia). rewrite bool_decide_true in H by done. rewrite Hdiv in H by done.
      apply (Qmult_le_r _ _ (nat_q n)) in H; [|by apply nat_q_pos]. pose proof (nat_q_pos n Hn0) as Hp. rewrite (Qmult_comm (_ / _)), Qmult_div_r in H; [done|].
      intros Hz. rewrite Hz in Hp. by apply Qlt_irrefl in Hp.
    + intros (d' & cs' & [= <- <-] & H). destruct cs as [|c cs]; [by rewrite bool_decide_false by (cbn; lia)|]. set (n := length (c :: cs)) in *.
      assert (Hn0 : (0 < n)%nat) by (subst n; cbn; lia). rewrite bool_decide_true by done. rewrite Hdiv by done. pose proof (nat_q_pos n Hn0) as Hp.
      by apply Qle_shift_div_r.
  - (* allow_nans *)
    assert (c = AllowNaNs) as -> by (by apply first_class_in in Hc as (_ & Hk & _); destruct c).
    destruct Happ as (d & cs & -> & _). cbn [new truthy num_eq Qeq_bool negb] in Hn. apply made in Hn as [f ->].
    cbn [ValidatorModel.passing vo_class vo_arg]. cbv zeta. eexists. split; [done|]. rewrite num_le_iff, isna_filter. cbn [le]. split.
    + intros H. exists d, cs. split; [done|]. apply Forall_forall. intros c Hi Hm.
      assert (Hl : (0 < length cs)%nat) by (destruct cs; [by apply elem_of_nil in Hi|cbn; lia]). rewrite bool_decide_true in H by done. rewrite Hdiv in H by done.
      assert (Hf : (0 < length (filter missing cs))%nat).
      { destruct (filter missing cs) as [|x l'] eqn:Ef; [|cbn; lia]. exfalso. apply (elem_of_nil c). rewrite <- Ef. by apply elem_of_list_filter. }
      apply (Qlt_not_le 0 (nat_q (length (filter missing cs)) / nat_q (length cs))); [|done]. apply Qlt_shift_div_l; [by apply nat_q_pos|]. rewrite Qmult_0_l. by apply nat_q_pos.
    + intros (d' & cs' & [= <- <-] & H). assert (Ef : filter missing cs = []).
      { destruct (filter missing cs) as [|x l'] eqn:Ef; [done|]. assert (Hi : x ∈ filter missing cs) by (rewrite Ef; by left).
        apply elem_of_list_filter in Hi as [Hm Hi]. rewrite Forall_forall in H. by destruct (H x Hi). }
      rewrite Ef. destruct (bool_decide_reflect (0 < length cs)%nat) as [Hl|]; [|done]. rewrite Hdiv by done. unfold Qdiv, nat_q at 1. cbn [length Z.of_nat]. change (inject_Z 0) with 0. by rewrite Qmult_0_l.
  - (* mean_in_range *)
    assert (c = MeanInRange) as -> by (by apply first_class_in in Hc as (_ & Hk & _); destruct c).
    destruct Happ as (d & cs & -> & qs & Hqs). cbn [new] in Hn. apply made in Hn as [f ->]. unfold passing, unpack. cbn [vo_class vo_arg iter]. rewrite (numbers_finite _ _ Hqs).
    destruct (chained_iff k1 lo KFloat (mean (map Fin qs)) k2 hi) as (b & -> & Hb). exists b. split; [done|]. rewrite Hb.
    destruct (decide (qs = [])) as [->|Hne].
    + cbn. split; [intros [H _]; by destruct lo|]. intros (d' & cs' & [= <- <-] & qs & m & Hqs' & [Hm _] & _). by rewrite (finite_cells_fun _ _ _ Hqs' Hqs) in Hm.
    + rewrite mean_finite by done. split.
      * intros H. exists d, cs. split; [done|]. exists qs, (average qs). split; [done|]. split; [by apply average_is|done].
      * intros (d' & cs' & [= <- <-] & qs' & m & Hqs' & Hm & H). rewrite (finite_cells_fun _ _ _ Hqs' Hqs) in Hm. apply average_mean in Hm; [|done].
        destruct H as [H1 H2]. split; [by apply (le_compat_r lo m)|by apply (le_compat_l m _ hi)].
  - (* max_standard_dev *)
    assert (c = MaxStandardDev) as -> by (by apply first_class_in in Hc as (_ & Hk & _); destruct c).
    destruct Happ as (d & cs & -> & qs & Hqs & Hl). cbn [new] in Hn. apply made in Hn as [f ->]. cbn [ValidatorModel.passing vo_class vo_arg]. rewrite (numbers_finite _ _ Hqs).
    eexists. split; [done|]. unfold std_le. destruct (variance_finite qs Hl) as (w & -> & Hw & Hu). rewrite andb_true_iff, !Qle_bool_iff. split.
    + intros [H1 H2]. exists d, cs. split; [done|]. exists qs, w. split; [done|]. split; [done|]. done.
    + intros (d' & cs' & [= <- <-] & qs' & m & Hqs' & Hm & H1 & H2). rewrite (finite_cells_fun _ _ _ Hqs' Hqs) in Hm. apply Hu in Hm. split; [done|]. by rewrite <- Hm.
  - (* allow_none *)
    assert (c = AllowNone) as -> by (by apply first_class_in in Hc as (_ & Hk & _); destruct c).
    cbn [new] in Hn. apply made in Hn as [f ->]. cbn [ValidatorModel.passing vo_class vo_arg]. eexists. split; [done|]. destruct b; cbn.
    + split; [by left|done].
    + split; [intros H; right; by destruct v|]. intros [?|H]; [done|]. by destruct v.
  - (* contains *)
    assert (c = StrContains) as -> by (by apply first_class_in in Hc as (_ & Hk & _); destruct c).
    apply (made StrContains (GSeq (map AStr [s]))) in Hn as [f ->]. destruct Happ as [u Hu]. unfold text in Hu |- *. subst v. cbn [ValidatorModel.passing vo_class vo_arg iter].
    rewrite emap_strings. eexists. split; [done|]. cbn. rewrite andb_true_r. unfold id. rewrite contains_iff. split.
    + intros H. by exists u.
    + by intros (u' & [= <-] & H).
  - assert (c = StrContains) as -> by (by apply first_class_in in Hc as (_ & Hk & _); destruct c).
    apply (made StrContains (GSeq (map AStr l))) in Hn as [f ->]. destruct Happ as [u Hu]. unfold text in Hu |- *. subst v. cbn [ValidatorModel.passing vo_class vo_arg iter].
    rewrite emap_strings. eexists. split; [done|]. rewrite forallb_forall. split.
    + intros H. exists u. split; [done|]. intros s Hs. apply contains_iff. apply (H (str_contains s u)). apply in_map_iff. exists s. split; [done|by apply elem_of_list_In].
    + intros (u' & [= <-] & H) b Hb. apply in_map_iff in Hb as (s & <- & Hs%elem_of_list_In). by apply contains_iff, H.
  - (* does_not_contain *)
    assert (c = StrDoesNotContain) as -> by (by apply first_class_in in Hc as (_ & Hk & _); destruct c).
    apply (made StrDoesNotContain (GSeq (map AStr [s]))) in Hn as [f ->]. destruct Happ as [u Hu]. unfold text in Hu |- *. subst v. cbn [ValidatorModel.passing vo_class vo_arg iter].
    rewrite emap_strings. eexists. split; [done|]. cbn. rewrite andb_true_r, negb_true_iff, <- not_true_iff_false, contains_iff. split.
    + intros H. by exists u.
    + by intros (u' & [= <-] & H).
  - assert (c = StrDoesNotContain) as -> by (by apply first_class_in in Hc as (_ & Hk & _); destruct c).
    apply (made StrDoesNotContain (GSeq (map AStr l))) in Hn as [f ->]. destruct Happ as [u Hu]. unfold text in Hu |- *. subst v. cbn [ValidatorModel.passing vo_class vo_arg iter].
    rewrite emap_strings. eexists. split; [done|]. rewrite forallb_forall. split.
    + intros H. exists u. split; [done|]. intros s Hs Hi%contains_iff. assert (Hf : negb (str_contains s u) = true); [|by rewrite Hi in Hf].
      apply H, in_map_iff. exists s. split; [done|by apply elem_of_list_In].
    + intros (u' & [= <-] & H) b Hb. apply in_map_iff in Hb as (s & <- & Hs%elem_of_list_In). apply negb_true_iff, not_true_iff_false. rewrite contains_iff. by apply H.
  - (* data_type *)
    assert (Hcs : (c = TypeSeries /\ ot_series t = true) \/ (c = TypePrimitives /\ ot_series t = false)).
    { destruct t as [[] [] [] ? []]; vm_compute in Hc; try done; injection Hc as <-; cbn; tauto. }
    destruct Hty as [-> | [T1 T2]]; [done|].
    destruct Hcs as [[-> Ht]|[-> Ht]]; cbn [new] in Hn; apply made in Hn as [f ->]; cbn [ValidatorModel.passing vo_class vo_arg].
    + destruct (T1 Ht) as (d & cs & ->). eexists. split; [done|]. done.
    + eexists. split; [done|]. destruct v as [|x|d cs|o|r]; try done. by destruct (T2 Ht d cs).
Qed.

Lemma new_facts c imp a vo : new c imp a = Ok vo -> vo_class vo = c /\ level imp = Ok (vo_fail vo).
Proof.
  unfold ValidatorModel.new. destruct (level imp) as [f|e] eqn:El.
  - destruct c; try (intros H; by injection H as <-).
    + destruct (truthy a); [done|]. intros H; by injection H as <-.
    + destruct (iter a); [|done]. intros H; by injection H as <-.
    + destruct (iter a); [|done]. intros H; by injection H as <-.
    + destruct a; try done. destruct (chained _ _ _ _) as [[]|]; [|done|done]. intros H; by injection H as <-.
  - destruct c; try done. by destruct (truthy a).
Qed.
Lemma resolve_iff t imp cls kw vs : resolve t imp cls kw = Ok vs <->
  Forall2 (fun ka vo => exists c, first_class cls t ka.1 = Ok c /\ new c imp ka.2 = Ok vo) kw vs.
Proof.
  revert vs. induction kw as [|[key a] kw IH]; intros vs; cbn.
  - split; [intros H; injection H as <-; constructor|]. intros H. by inversion H.
  - destruct (first_class cls t key) as [c|] eqn:Ec; cbn.
    + destruct (new c imp a) as [vo|] eqn:En.
      * destruct (resolve t imp cls kw) as [vs'|] eqn:Er.
        -- split.
           ++ intros H. injection H as <-. constructor; [exists c; by cbn; rewrite Ec, En|]. by apply IH.
           ++ intros H. inversion H as [|? vo' ? vs'' (c' & H1 & H2) H3]; subst. cbn in H1, H2. rewrite Ec in H1. injection H1 as <-. rewrite En in H2. injection H2 as <-.
              apply IH in H3. by injection H3 as ->.
        -- split; [done|]. intros H. inversion H as [|? vo' ? vs'' _ H3]; subst. by apply IH in H3.
      * split; [done|]. intros H. inversion H as [|? vo' ? vs'' (c' & H1 & H2) H3]; subst. cbn in H1, H2. rewrite Ec in H1. injection H1 as <-. by rewrite En in H2.
    + split; [done|]. intros H. inversion H as [|? vo' ? vs'' (c' & H1 & H2) H3]; subst. cbn in H1. by rewrite Ec in H1.
Qed.
Lemma resolve_names t imp cls kw vs : resolve t imp cls kw = Ok vs -> map (fun vo => vc_arg (vo_class vo)) vs = dkeys kw.
Proof.
  intros H%resolve_iff. induction H as [|[key a] vo kw vs (c & H1 & H2) HF IH]; [done|]. cbn. rewrite IH. f_equal.
  apply new_facts in H2 as [-> _]. cbn in H1. by apply first_class_in in H1 as (_ & -> & _).
Qed.

Local Opaque first_class ValidatorModel.new ValidatorModel.passing.
Section Decorator.
Context {T : Type}.
Variable result_type : T.
Variable ot : T -> otype.
Notation node := (pnode pyval perr T).
Notation check_default := (check_output_default str_le issubdtype isinstance fdiv result_type ot).
Notation as_validator := (as_validator str_le issubdtype isinstance fdiv).

Lemma check_names kw imp (n : node) vs : resolve (ot (pn_type n)) imp available kw = Ok vs ->
  NoDup (map pn_name (check_output result_type result_passes (map as_validator vs) n)).
Proof.
  intros Hr. apply C44_names.
  - intros v w k Hv Hw. apply elem_of_list_fmap in Hv as (v' & -> & _). apply elem_of_list_fmap in Hw as (w' & -> & _). cbn.
    intros E. assert (C : forallb (fun c => forallb (fun d => negb (String.prefix (vc_name d ++ "_") (vc_name c))) available) available = true) by by vm_compute.
    assert (A : forall c, In c available) by (intros []; vm_compute; tauto).
    rewrite forallb_forall in C. specialize (C (vo_class v') (A _)). rewrite forallb_forall in C. specialize (C (vo_class w') (A _)). apply negb_true_iff, not_true_iff_false in C.
    apply C, prefix_iff. exists (pretty k). rewrite E. rewrite <- (app_assoc_s (vc_name (vo_class w'))). done.
  - intros v Hv. apply elem_of_list_fmap in Hv as (v' & -> & _). cbn. unfold vc_name. by destruct (vo_class v').
Qed.

(** The decorated function has the value that the function returns, unless the importance is "fail" and some argument asks for more. *)
Theorem C72_value ns env imp kw n out v conds :
  (forall i j, (0 < j)%nat -> fdiv i j == nat_q i / nat_q j) ->
  (forall y n, dget ns y = Some n -> NoDup (dkeys (pn_inputs n))) ->
  check_default imp kw n = Ok out -> (forall m, m ∈ out -> dget ns (pn_name m) = Some m) ->
  of_type (ot (pn_type n)) v -> Forall2 (fun ka ah => asks ka.1 ka.2 ah.1 ah.2 /\ ah.1 v) kw conds ->
  value ns env (pn_name n) v <->
  (exists m, args ns env (pn_inputs n) m /\ pn_call n (kwargs (pn_inputs n) m) = Ok v) /\ (imp = Some "fail" -> Forall (fun ah => ah.2 v) conds).
Proof.
  intros Hdiv W Hout Hg Hty Hk. unfold check_output_default in Hout. destruct (resolve _ _ _ _) as [vs|] eqn:Hr; [|done]. injection Hout as <-.
  pose proof (check_names _ _ _ _ Hr) as ND. rewrite (C44_value result_type result_passes ns env n _ v W Hg ND). apply resolve_iff in Hr. split.
  - intros (m & rs & Hm & Hc & HF). split; [by exists m|]. intros ->. cbn in Hr. clear -Hr HF Hk Hty Hdiv. revert rs conds HF Hk.
    induction Hr as [|[key a] vo kw vs (c & Hc & Hn) Hr IH]; intros rs conds HF Hk.
    + inversion Hk. constructor.
    + inversion HF as [|? r ? rs' [Hv Hp] HF']; subst. inversion Hk as [|? [ap ho] ? conds' [Ha Happ] Hk']; subst. constructor; [|by apply (IH rs')].
      destruct (decides _ _ _ _ v c vo ap ho Hdiv Hc Hn Hty Ha Happ) as (b & Hb & Hi). cbn in *. rewrite Hb in Hv. injection Hv as <-. apply Hi. cbn in Hp. apply Hp.
      apply new_facts in Hn as [_ Hl]. cbn in Hl. by injection Hl as <-.
  - intros [(m & Hm & Hc) Hf].
    assert (G : exists rs, Forall2 (fun vd r => vd_validate vd v = Ok r /\ (vd_fail vd = true -> result_passes r = true)) (map as_validator vs) rs).
    { clear -Hr Hk Hty Hdiv Hf. revert conds Hk Hf.
      induction Hr as [|[key a] vo kw vs (c & Hc & Hn) Hr IH]; intros conds Hk Hf; [exists []; constructor|].
      inversion Hk as [|? [ap ho] ? conds' [Ha Happ] Hk']; subst. destruct (IH conds') as [rs Hrs]; [done|intros H; by apply Hf, Forall_cons in H as [_ ?]|].
      destruct (decides _ _ _ _ v c vo ap ho Hdiv Hc Hn Hty Ha Happ) as (b & Hb & Hi). exists (VResult b :: rs). cbn. constructor; [|done]. cbn. rewrite Hb. split; [done|].
      intros Hfl. apply Hi. apply new_facts in Hn as [_ Hl]. rewrite Hfl in Hl. assert (imp = Some "fail") as E.
      { unfold level in Hl. destruct imp as [i|]; cbn in Hl; [|done]. destruct (decide (i = "warn")); [done|]. by destruct (decide (i = "fail")) as [->|]. }
      apply Hf, Forall_cons in E as [? _]. done. }
    destruct G as [rs Hrs]. by exists m, rs.
Qed.

(** When something is not as asked and the importance is "fail", DataValidationError is raised with the arguments that are not met. *)
Theorem C72_error ns env kw n out w m0 conds :
  (forall i j, (0 < j)%nat -> fdiv i j == nat_q i / nat_q j) ->
  (forall y n, dget ns y = Some n -> NoDup (dkeys (pn_inputs n))) ->
  check_default (Some "fail") kw n = Ok out -> (forall m, m ∈ out -> dget ns (pn_name m) = Some m) ->
  args ns env (pn_inputs n) m0 -> pn_call n (kwargs (pn_inputs n) m0) = Ok w ->
  of_type (ot (pn_type n)) w -> Forall2 (fun ka ah => asks ka.1 ka.2 ah.1 ah.2 /\ ah.1 w) kw conds -> ~ Forall (fun ah => ah.2 w) conds ->
  exists fin bs, dget ns (pn_name n) = Some fin /\ (exists m, args ns env (pn_inputs fin) m) /\ Forall2 (fun ah b => b = true <-> ah.2 w) conds bs /\
    forall m, args ns env (pn_inputs fin) m -> pn_call fin (kwargs (pn_inputs fin) m) =
      Err (NValidation (map (fun kb => (kb.1 ++ "_validator")%string) (filter (fun kb => kb.2 = false) (zip (dkeys kw) bs)))).
Proof.
  intros Hdiv W Hout Hg Hm0 Hcall Hty Hk Hbad. unfold check_output_default in Hout. destruct (resolve _ _ _ _) as [vs|] eqn:Hr; [|done]. injection Hout as <-.
  pose proof (check_names _ _ _ _ Hr) as ND. cbn in Hr. pose proof (resolve_names _ _ _ _ _ Hr) as Hnames. apply resolve_iff in Hr.
  assert (G : exists bs, Forall2 (fun vd r => vd_validate vd w = Ok r) (map as_validator vs) (map VResult bs) /\ Forall2 (fun ah b => b = true <-> ah.2 w) conds bs /\
    Forall (fun vo => vo_fail vo = true) vs).
  { clear -Hr Hk Hty Hdiv. revert conds Hk. induction Hr as [|[key a] vo kw vs (c & Hc & Hn) Hr IH]; intros conds Hk.
    - inversion Hk. exists []. split; [constructor|]. split; constructor.
    - inversion Hk as [|? [ap ho] ? conds' [Ha Happ] Hk']; subst. destruct (IH _ Hk') as (bs & H1 & H2 & H3).
      destruct (decides _ _ _ _ w c vo ap ho Hdiv Hc Hn Hty Ha Happ) as (b & Hb & Hi). exists (b :: bs). cbn. split; [constructor; [cbn; by rewrite Hb|done]|].
      split; [constructor; done|]. constructor; [|done]. apply new_facts in Hn as [_ Hl]. cbn in Hl. by injection Hl as <-. }
  destruct G as (bs & H1 & H2 & H3). destruct (C44_error result_type result_passes ns env n _ m0 w _ W Hg ND Hm0 Hcall H1) as (fin & Hfin & Hex & Hall).
  exists fin, bs. split; [done|]. split; [done|]. split; [done|]. intros m Hm. rewrite (Hall m Hm). cbv zeta. clear Hall Hex.
  assert (E : map (fun vr : validator pyval perr * pyval => vd_name vr.1) (filter (fun vr => vd_fail vr.1 = true /\ result_passes vr.2 = false) (zip (map as_validator vs) (map VResult bs)))
    = map (fun kb => (kb.1 ++ "_validator")%string) (filter (fun kb : name * bool => kb.2 = false) (zip (dkeys kw) bs))).
  { rewrite <- Hnames. clear -H3. revert bs. induction H3 as [|vo vs Hf H3 IH]; intros [|b bs]; [done|done|done|]. cbn [map zip zip_with]. rewrite !filter_cons. cbn.
    destruct b; [rewrite !decide_False by naive_solver; apply IH|]. rewrite !decide_True by done. cbn. f_equal. apply IH. }
  destruct (decide _) as [Hnil|]; [|by rewrite E]. exfalso. rewrite Hnil in E. apply Hbad. symmetry in E. apply fmap_nil_inv in E.
  assert (Hl : length (dkeys kw) = length bs) by (apply Forall2_length in H2, Hk; unfold dkeys; rewrite fmap_length; lia).
  clear -E H2 Hl. revert bs H2 E Hl. generalize (dkeys kw). intros l. revert conds. induction l as [|x l IH]; intros conds [|b bs] H2 E Hl; try done.
  - inversion H2. constructor.
  - inversion H2 as [|[ap ho] ? conds' ? Hb H2']; subst. cbn [zip zip_with] in E. rewrite filter_cons in E. cbn in E. destruct b; [|by rewrite decide_True in E].
    rewrite decide_False in E by done. constructor; [by apply Hb|]. apply (IH _ bs); [done|done|]. by injection Hl.
Qed.
End Decorator.
Local Transparent first_class ValidatorModel.new ValidatorModel.passing.

(** Which arguments are accepted when the function's return type is a class. *)
Theorem C72_accepts t imp kw : ot_class t = true -> (forall key a, (key, a) ∈ kw -> exists ap ho, asks key a ap ho) ->
  (exists vs, resolve t imp available kw = Ok vs) <->
  (kw = [] \/ imp ∈ ["warn"; "fail"]) /\ (forall key, key ∈ dkeys kw -> supported t key) /\
  forall k q, ("max_fraction_nans", GAtom (ANum k (Fin q))) ∈ kw -> 0 <= q /\ q <= 1.
Proof.
  intros Ht. assert (S1 : forall key, (exists c, first_class available t key = Ok c) <-> supported t key).
  { intros key. split.
    - intros [c (_ & -> & Ha)%first_class_in]. unfold supported. destruct t as [cl s r su st]. cbn in Ht. subst cl. unfold applies_to, issubclass in Ha. cbn in *.
      destruct c; cbn in *; try (injection Ha as Ha); try apply orb_true_iff in Ha; set_solver.
    - intros H. unfold supported in H. destruct t as [cl s r su st]. cbn in Ht, H. subst cl.
      destruct H as [->|[[H ->]|[[H ->]|[[-> H]|[[-> H]|[-> H]]]]]].
      + by eexists.
      + repeat (apply elem_of_cons in H as [-> | H]; [by eexists|]). by apply elem_of_nil in H.
      + repeat (apply elem_of_cons in H as [-> | H]; [by eexists|]). by apply elem_of_nil in H.
      + destruct s, r; try (by eexists); naive_solver.
      + destruct s, r, su; try (by eexists); naive_solver.
      + destruct s, r, st; try (by eexists); naive_solver. }
  assert (S2 : forall c key a ap ho, asks key a ap ho -> key = vc_arg c -> (exists vo, new c imp a = Ok vo) <->
    imp ∈ ["warn"; "fail"] /\ forall k q, key = "max_fraction_nans" -> a = GAtom (ANum k (Fin q)) -> 0 <= q /\ q <= 1).
  { assert (L : forall (a : arg Ty) c, (exists vo, match level imp with Ok f => Ok (VObj c f a) | Err e => Err e end = Ok vo) <-> imp ∈ ["warn"; "fail"]).
    { intros a c. unfold level. destruct (decide (imp = "warn")) as [->|H1]; [split; [intros _; by left|intros _; by eexists]|].
      destruct (decide (imp = "fail")) as [->|H2]; [split; [intros _; right; by left|intros _; by eexists]|].
      split; [by intros [? ?]|]. intros H. apply elem_of_cons in H as [H|H]; [by destruct (H1 H)|]. apply elem_of_list_singleton in H. by destruct (H2 H). }
    intros c key a ap ho Ha Hk. destruct Ha; destruct c; try done; unfold ValidatorModel.new; cbn [truthy num_eq iter].
    all: try (rewrite L; split; [intros Hi; split; [exact Hi|intros k' q' E1; discriminate E1]|intros [Hi _]; exact Hi]).
    all: try (rewrite <- (L (GSeq l) ValuesSeries); destruct (level imp); (split; [intros [vo Hv]; split; [try discriminate Hv; by eexists|intros k' q' E1; discriminate E1]|intros [[vo Hv] _]; try discriminate Hv; by eexists])).
    - rewrite <- (L (GAtom (ANum k (Fin q))) MaxFractionNans). destruct (level imp) as [f|] eqn:El; [|split; [by intros [? ?]|by intros [[? ?] _]]].
      destruct (chained_iff KInt (Fin 0) k (Fin q) KInt (Fin 1)) as (b & -> & Hb). cbn in Hb. destruct b.
      + split; [|intros _; by eexists]. intros _. split; [by eexists|]. intros k' q' _ [= <- <-]. by apply Hb.
      + split; [by intros [? ?]|]. intros [_ H]. assert (false = true) by (apply Hb; by apply (H k q)). done.
    - change (negb (Qeq_bool 0 0)) with false. cbn [negb]. cbv iota. rewrite L. split; [intros Hi; split; [exact Hi|intros k' q' E1; discriminate E1]|intros [Hi _]; exact Hi]. }
  intros Hk. induction kw as [|[key a] kw IH].
  - split; [|intros _; by exists []]. intros _. split; [by left|]. split; [intros key H; by apply elem_of_nil in H|intros k q H; by apply elem_of_nil in H].
  - destruct (Hk key a) as (ap & ho & Ha); [by left|]. assert (IH' := IH (fun key a H => Hk key a (elem_of_list_further _ _ _ H))). clear IH. split.
    + intros [vs Hr%resolve_iff]. inversion Hr as [|? vo ? vs' (c & Hc & Hn) Hr']; subst. cbn [fst snd] in Hc, Hn.
      destruct (proj1 IH') as (_ & H1 & H2); [exists vs'; by apply resolve_iff|].
      destruct (proj1 (S2 c key a ap ho Ha (proj1 (proj2 (first_class_in _ _ _ _ Hc))))) as [H3 H4]; [by eexists|].
      split; [by right|]. split.
      * intros key' H. cbn in H. apply elem_of_cons in H as [->|H]; [apply S1; by eexists|by apply H1].
      * intros k q H. apply elem_of_cons in H as [H|H]; [injection H as <- <-; by apply (H4 k q)|by apply (H2 k)].
    + intros ([?|Hi] & H1 & H2); [done|]. destruct (proj2 IH') as [vs Hvs].
      { split; [by right|]. split; [intros key' H; apply H1; by right|intros k q H; apply (H2 k); by right]. }
      destruct (proj2 (S1 key)) as [c Hc]; [apply H1; by left|].
      destruct (proj2 (S2 c key a ap ho Ha (proj1 (proj2 (first_class_in _ _ _ _ Hc))))) as [vo Hvo].
      { split; [done|]. intros k q -> ->. apply (H2 k). by left. }
      exists (vo :: vs). apply resolve_iff. constructor; [by exists c|by apply resolve_iff].
Qed.

(** With a division that rounds monotonically, a fraction of missing cells within the limit passes. *)
Theorem C72_rounding k q c f d cs : (forall i j, (0 < j)%nat -> nat_q i <= q * nat_q j -> fdiv i j <= q) -> 0 <= q ->
  c = MaxFractionNans \/ c = AllowNaNs -> nat_q (length (filter missing cs)) <= q * nat_q (length cs) ->
  passing (VObj c f (GAtom (ANum k (Fin q)))) (VSeries d cs) = Ok true.
Proof.
  intros Hr Hq Hc H. assert (G : num_le (Fin (if bool_decide (0 < length cs)%nat then fdiv (length (filter (fun c => isna c = true) cs)) (length cs) else 0)) (Fin q) = true).
  { apply num_le_iff. rewrite isna_filter. cbn. destruct (bool_decide_reflect (0 < length cs)%nat) as [Hl|Hl]; [by apply Hr|done]. }
  destruct Hc as [-> | ->]; cbn [ValidatorModel.passing vo_class vo_arg]; cbv zeta; by rewrite G.
Qed.
End C72.
Print Assumptions C72_value.
Print Assumptions C72_error.
Print Assumptions C72_accepts.
Print Assumptions C72_rounding.

(** ** Example: a function that returns its argument, a series *)
Definition xval := pyval string unit.
Definition xdiv (i j : nat) : Q := nat_q i / nat_q j.
Definition xsub (d t : string) : bool := bool_decide (d = t).
Definition xinst (v : xval) (t : string) : bool := match v with VAtom (AStr _) => bool_decide (t = "str") | _ => false end.
Notation xcheck := (check_output_default (T := otype) String.leb xsub xinst xdiv (OType true false false false false) id).
Notation xpassing := (passing (Ty := string) String.leb xsub xinst xdiv).
Notation xasks := (asks (fun d t => xsub d t = true) (fun v t => xinst v t = true)).
Definition series_type := OType true true false false false.
Definition xf : pnode xval perr otype := from_fn "f" series_type [("x", (series_type, REQUIRED))] (fun kw => match kw !! "x" with Some v => Ok v | None => Err TypeError end).
Definition int (z : Z) : atom := ANum KInt (Fin (inject_Z z)).
Definition xkw : dict (arg string) := [("values_in", GSeq [int 1; int 2]); ("max_fraction_nans", GAtom (ANum KFloat (Fin (1 # 2))))].
Definition xns : dict (pnode xval perr otype) := match xcheck (Some "fail") xkw xf with Ok out => map (fun n => (pn_name n, n)) out | Err _ => [] end.
Example ex_names : dkeys xns = ["f_values_in_validator"; "f_max_fraction_nans_validator"; "f"; "f_raw"].
Proof. by vm_compute. Qed.
Definition missing_cell := CVal (ANum KFloat (NaN 0)).
Definition xgood : xval := VSeries "int" [CVal (int 1); missing_cell; CVal (int 2)].
Definition xbad : xval := VSeries "int" [CVal (int 1); missing_cell; CVal (int 3)].
Definition xconds : list ((xval -> Prop) * (xval -> Prop)) :=
  [(is_value, fun v => match v with
        | VAtom a => exists w, w ∈ [int 1; int 2] /\ equal a w
        | _ => forall c, entry v c -> missing c \/ exists a w, c = CVal a /\ w ∈ [int 1; int 2] /\ equal a w
        end); (series_of (fun _ => True), series_of (fun cs => nat_q (length (filter missing cs)) <= (1 # 2) * nat_q (length cs)))].
Lemma xconds_ask v : is_value v -> series_of (fun _ => True) v -> Forall2 (fun ka ah => xasks ka.1 ka.2 ah.1 ah.2 /\ ah.1 v) xkw xconds.
Proof.
  intros H1 H2. constructor; [|constructor; [|constructor]]; (split; [|done]).
  - apply asks_values. intros k x Hx. repeat (apply elem_of_cons in Hx as [Hx | Hx]; [injection Hx as -> ->; by intros [i Hi]|]). by apply elem_of_nil in Hx.
  - apply asks_fraction.
Qed.
Lemma nodes_graph {V E T} (nodes : list (pnode V E T)) : NoDup (map pn_name nodes) ->
  forall m, m ∈ nodes -> dget (map (fun n => (pn_name n, n)) nodes) (pn_name m) = Some m.
Proof.
  intros N m Hm. apply elem_dget; [|apply elem_of_list_fmap; by exists m].
  unfold dkeys. change (@fmap list _ ?A ?B ?f ?l) with (map f l). by rewrite map_map.
Qed.
Lemma xns_graph : (forall y n, dget xns y = Some n -> NoDup (dkeys (pn_inputs n))) /\
  exists out, xcheck (Some "fail") xkw xf = Ok out /\ forall m, m ∈ out -> dget xns (pn_name m) = Some m.
Proof.
  split.
  - intros y n Hy. apply dget_elem in Hy. assert (C : forallb (fun kn => bool_decide (NoDup (dkeys (pn_inputs kn.2)))) xns = true) by by vm_compute.
    rewrite forallb_forall in C. apply elem_of_list_In, C in Hy. by apply bool_decide_eq_true in Hy.
  - unfold xns. set (r := xcheck (Some "fail") xkw xf). assert (C : match r with Ok out => bool_decide (NoDup (map pn_name out)) | Err _ => false end = true) by by vm_compute.
    destruct r as [out|]; [|done]. apply bool_decide_eq_true in C. exists out. split; [done|]. by apply nodes_graph.
Qed.
Lemma xargs v : args xns {["x" := v]} (pn_inputs xf) {["x" := v]}.
Proof.
  split.
  - intros k w Hk. apply lookup_singleton_Some in Hk as [<- <-]. split; [by left|by apply value_input].
  - intros k t dt Hk Hm. apply elem_of_list_singleton in Hk as [= -> -> ->]. by vm_compute in Hm.
Qed.
(** The first series passes; the other one is refused with the name of the validator. *)
Example ex_check : value xns {["x" := xgood]} "f" xgood /\ (forall v, ~ value xns {["x" := xbad]} "f" v) /\
  exists fin, dget xns "f" = Some fin /\ exists m, args xns {["x" := xbad]} (pn_inputs fin) m /\
    pn_call fin (kwargs (pn_inputs fin) m) = Err (NValidation ["values_in_validator"]).
Proof.
  destruct xns_graph as (W & out & Hout & Hg).
  assert (Hdiv : forall i j, (0 < j)%nat -> xdiv i j == nat_q i / nat_q j) by done.
  assert (T : forall d cs, of_type (id series_type) (VSeries d cs : xval)) by (intros d cs; right; split; [intros _; by eexists _, _|done]).
  assert (K : forall d cs, Forall2 (fun ka ah => xasks ka.1 ka.2 ah.1 ah.2 /\ ah.1 (VSeries d cs)) xkw xconds).
  { intros d cs. apply xconds_ask; [right; by eexists _, _|by eexists _, _]. }
  split.
  - apply (C72_value String.leb xsub xinst xdiv _ id xns {["x" := xgood]} (Some "fail") xkw xf out xgood xconds Hdiv W Hout Hg (T _ _) (K _ _)).
    split; [eexists; split; [apply xargs|by vm_compute]|]. intros _. constructor; [|constructor; [|constructor]].
    + intros c Hc. inversion Hc; subst. repeat match goal with H : _ ∈ _ :: _ |- _ => apply elem_of_cons in H as [-> | H] end.
      * right. exists (int 1), (int 1). split_and!; [done|by left|by vm_compute].
      * left. by exists 0%nat.
      * right. exists (int 2), (int 2). split_and!; [done|right; by left|by vm_compute].
      * match goal with H : _ ∈ [] |- _ => by apply elem_of_nil in H end.
    + exists "int", [CVal (int 1); missing_cell; CVal (int 2)]. split; [done|]. by vm_compute.
  - assert (B1 : ~ (forall c, entry xbad c -> missing c \/ exists a w, c = CVal a /\ w ∈ [int 1; int 2] /\ equal a w)).
    { intros H. destruct (H (CVal (int 3))) as [H'|(a & w & [= <-] & Hw & He)]; [constructor; right; right; by left|by destruct H'|].
      repeat (apply elem_of_cons in Hw as [-> | Hw]; [by vm_compute in He; destruct He|]). by apply elem_of_nil in Hw. }
    assert (B2 : series_of (D := string) (O := unit) (fun cs => nat_q (length (filter missing cs)) <= (1 # 2) * nat_q (length cs)) xbad).
    { eexists _, _. split; [done|]. by vm_compute. }
    destruct (C72_error String.leb xsub xinst xdiv _ id xns {["x" := xbad]} xkw xf out xbad {["x" := xbad]} xconds Hdiv W Hout Hg (xargs xbad)) as (fin & bs & Hfin & [m Hm] & Hbs & Hall);
      [by vm_compute|apply T|apply K|by intros [H _]%Forall_cons|].
    inversion Hbs as [|? b1 ? bs1 H1 Hbs1]; subst. inversion Hbs1 as [|? b2 ? bs2 H2 Hbs2]; subst. inversion Hbs2; subst.
    destruct b1; [by destruct B1; apply H1|]. destruct b2; [|by destruct (proj2 H2 B2)].
    split.
    + intros v Hv. apply (value_node_iff _ _ _ _ _ Hfin) in Hv as (m' & Hm' & Hc). by rewrite (Hall m' Hm') in Hc.
    + exists fin. split; [done|]. exists m. split; [done|]. exact (Hall m Hm).
Qed.

(** ** Refutations *)
(** The example in the docstring of @check_output and in decorators.md, [data_in_range=(0, 100)], is not accepted. *)
Theorem C72_docstring_refuted : xcheck (Some "warn") [("data_type", GType "int64"); ("data_in_range", GSeq [int 0; int 100])] xf = Err ValueError.
Proof. by vm_compute. Qed.
(** Missing cells of a nullable type are within every range, those of others within none. *)
Theorem C72_nullable_refuted : let v := VObj RangeSeries true (GSeq [int 0; int 1]) in
  xpassing v (VSeries "Int64" [CVal (int 1); CNA]) = Ok true /\ xpassing v (VSeries "float64" [CVal (int 1); missing_cell]) = Ok false.
Proof. by vm_compute. Qed.
(** A series of one number has a standard deviation that is not below any limit. *)
Theorem C72_single_refuted : forall m q, xpassing (VObj MaxStandardDev true (GAtom (ANum KFloat m))) (VSeries "float64" [CVal (ANum KFloat (Fin q))]) = Ok false.
Proof. by intros []. Qed.
(** For a return type that is no class, such as List[int], TypeError is raised instead of the error that explains what is wrong. *)
Theorem C72_generic_refuted : let f t := from_fn (E := perr) "f" t [] (fun _ => Ok (VNone : xval)) in let kw := [("range", GSeq [int 0; int 1])] in
  xcheck (Some "warn") kw (f (OType false false false false false)) = Err TypeError /\ xcheck (Some "warn") kw (f (OType true false false false false)) = Err ValueError.
Proof. by vm_compute. Qed.
(** A check of importance "warn" makes the function fail when the validator raises: here the function returns None. *)
Theorem C72_warn_refuted : exists kw n ns env, (forall y n, dget ns y = Some n -> NoDup (dkeys (pn_inputs n))) /\
  (exists out, xcheck (Some "warn") kw n = Ok out /\ forall m, m ∈ out -> dget ns (pn_name m) = Some m) /\
  pn_call n [] = Ok VNone /\ forall v, ~ value ns env (pn_name n) v.
Proof.
  set (n := from_fn (E := perr) "g" (OType true false false true true) [] (fun _ => Ok (VNone : xval))).
  exists [("contains", GAtom (AStr "a"))], n.
  set (r := xcheck (Some "warn") [("contains", GAtom (AStr "a"))] n).
  assert (C : match r with Ok out => forallb (fun m => bool_decide (NoDup (dkeys (pn_inputs m)))) out && bool_decide (NoDup (map pn_name out)) | Err _ => false end = true) by by vm_compute.
  destruct r as [out|] eqn:Hr; [|done]. apply andb_true_iff in C as [C1 C2]. apply bool_decide_eq_true in C2. rewrite forallb_forall in C1.
  set (ns := map (fun n => (pn_name n, n)) out). exists ns, ∅.
  assert (W : forall y n, dget ns y = Some n -> NoDup (dkeys (pn_inputs n))).
  { intros y m Hy. apply dget_elem, elem_of_list_fmap in Hy as (m' & [= -> ->] & Hm). apply elem_of_list_In, C1 in Hm. by apply bool_decide_eq_true in Hm. }
  assert (G : forall m, m ∈ out -> dget ns (pn_name m) = Some m).
  { by apply nodes_graph. }
  split; [done|]. split; [by exists out|]. split; [done|]. intros v Hv.
  assert (Hv' : r = Ok (check_output (OType true false false false false) result_passes [as_validator String.leb xsub xinst xdiv (VObj StrContains false (GSeq [AStr "a"]))] n)) by reflexivity.
  rewrite Hr in Hv'. injection Hv' as ->.
  apply (C44_value _ _ ns ∅ n _ v W G C2) in Hv as (m & rs & _ & Hc & HF). vm_compute in Hc. injection Hc as <-.
  inversion HF as [|? r0 ? ? [H _] _]; subst. by vm_compute in H.
Qed.
(** A string given for [values_in] stands for its characters. *)
Theorem C72_values_string_refuted : exists vo, new (Ty := string) String.leb ValuesPrimitives "fail" (GAtom (AStr "ab")) = Ok vo /\
  xpassing vo (VAtom (AStr "ab")) = Ok false /\ xpassing vo (VAtom (AStr "a")) = Ok true.
Proof. eexists. split; [reflexivity|]. by vm_compute. Qed.
Print Assumptions C72_docstring_refuted.
Print Assumptions C72_nullable_refuted.
Print Assumptions C72_single_refuted.
Print Assumptions C72_generic_refuted.
Print Assumptions C72_warn_refuted.
Print Assumptions C72_values_string_refuted.
