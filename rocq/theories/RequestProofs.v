From Coq Require Import Ascii.
From stdpp Require Import pretty sorting.
From Verif Require Import Base Dict Strings ConfigModel ConfigProofs RequestModel RequestSpec.

Global Instance le_total : Total le.
Proof. intros a b. apply String.leb_total. Qed.

Section Request.
Context (names : gmap nat name) (modules : list string) (shown : string).
Notation value := (convert_output_value names modules shown).
Notation collect := (collect names modules shown).
Notation convert := (convert_output_values names modules shown).

Definition vals (o : obj) : list string := match value o with Ok (v, _) => truthy v | Err _ => [] end.
Definition errs (o : obj) : list string := match value o with Ok (_, e) => truthy e | Err _ => [] end.
Definition nameable (o : obj) : Prop := forall m, o <> OCallable m.

Lemma value_plain o : nameable o -> exists v e, value o = Ok (v, e).
Proof. intros H. destruct o as [s|n|i m|m|s]; cbn; [eauto..| |by destruct (H m)|eauto]. case_decide; eauto. Qed.
Lemma collect_eq os vs es : Forall nameable os -> collect os vs es = Ok (vs ++ concat (map vals os), es ++ concat (map errs os)).
Proof.
  revert vs es. induction os as [|o os IH]; intros vs es H; cbn [RequestModel.collect map concat].
  { by rewrite !app_nil_r. }
  apply Forall_cons in H as [Ho H]. destruct (value_plain o Ho) as (v & e & E). 
  assert (vals o = truthy v) as -> by (unfold vals; by rewrite E). assert (errs o = truthy e) as -> by (unfold errs; by rewrite E).
  rewrite E. rewrite IH by done. by rewrite !(assoc_L (++)).
Qed.
Lemma collect_err os vs es : ~ Forall nameable os -> collect os vs es = Err RAttribute.
Proof.
  revert vs es. induction os as [|o os IH]; intros vs es H; [by destruct H|]. cbn.
  destruct o as [s|n|i m|m|s]; cbn.
  - apply IH. intros F. apply H. by constructor.
  - apply IH. intros F. apply H. by constructor.
  - case_decide; (apply IH; intros F; apply H; by constructor).
  - done.
  - apply IH. intros F. apply H. by constructor.
Qed.
Lemma plain_dec os : Forall nameable os \/ ~ Forall nameable os.
Proof.
  induction os as [|o os [IH|IH]]; [by left| |right; by intros [_ ?]%Forall_cons].
  destruct o as [s|n|i m|m|s]; try (by left; constructor). right. intros [H _]%Forall_cons. by apply (H m).
Qed.
Lemma asks_vals o s : asks names modules o s -> s <> ""%string -> vals o = [s] /\ errs o = [].
Proof.
  intros H Hs. unfold vals, errs. destruct H as [s|s|i m s Hm Hi]; cbn; [by rewrite decide_False|by rewrite decide_False|].
  rewrite decide_True by done. unfold fn_name. rewrite Hi. cbn. by rewrite decide_False.
Qed.
Lemma errs_func i m : errs (OFunc i m) = if decide (m ∈ modules) then [] else [foreign shown m (fn_name names i)].
Proof. unfold errs. cbn [convert_output_value]. by case_decide. Qed.
Lemma errs_other s : errs (OOther s) = [unusable s].
Proof. done. Qed.
Lemma errs_refused o e : named names o -> e ∈ errs o <-> refused names modules shown o e.
Proof.
  intros Hn. destruct o as [s|n|i m|m|s].
  - split; [by intros ?%elem_of_nil|by inversion 1].
  - split; [by intros ?%elem_of_nil|by inversion 1].
  - destruct (Hn i m eq_refl) as [s Hs]. rewrite errs_func. unfold fn_name. rewrite Hs. cbn [default from_option]. case_decide.
    + split; [by intros ?%elem_of_nil|by inversion 1].
    + unfold foreign. rewrite elem_of_list_singleton. split; [intros ->; by constructor|]. inversion 1; subst. simplify_eq. done.
  - split; [by intros ?%elem_of_nil|by inversion 1].
  - rewrite errs_other, elem_of_list_singleton. split; [intros ->; constructor|]. by inversion 1.
Qed.
Lemma errs_one o : errs o = [] \/ exists e, errs o = [e].
Proof.
  destruct o as [s|n|i m|m|s]; [by left..| |by left|right; eauto]. rewrite errs_func. case_decide; [by left|right; eauto].
Qed.
Lemma convert_eq os : Forall nameable os ->
  convert os = if decide (concat (map errs os) = []) then Ok (concat (map vals os)) else Err (RValue (message (merge_sort le (concat (map errs os))))).
Proof. intros H. unfold RequestModel.convert_output_values. by rewrite collect_eq. Qed.
Lemma convert_ok os vs : convert os = Ok vs -> Forall nameable os /\ concat (map errs os) = [] /\ vs = concat (map vals os).
Proof.
  destruct (plain_dec os) as [H|H]; [|unfold RequestModel.convert_output_values; by rewrite collect_err].
  rewrite convert_eq by done. case_decide; [|done]. by intros [= <-].
Qed.
Lemma concat_nil {A} (l : list (list A)) : concat l = [] <-> Forall (fun x => x = []) l.
Proof.
  induction l as [|x l IH]; cbn; [by split|]. rewrite Forall_cons, <- IH. split; [apply app_nil|by intros [-> ->]].
Qed.
Lemma concat_perm {A B} (f : A -> list B) l l' : l ≡ₚ l' -> concat (map f l) ≡ₚ concat (map f l').
Proof.
  induction 1; cbn; [done|by f_equiv| |by etrans]. rewrite !(assoc_L (++)). f_equiv. apply Permutation_app_comm.
Qed.
Lemma convert_one i m s : names !! i = Some s -> m ∈ modules -> s <> ""%string -> convert [OFunc i m] = Ok [s].
Proof.
  intros E Hm Hs. destruct (asks_vals (OFunc i m) s ltac:(by constructor) Hs) as [A B].
  rewrite convert_eq by (constructor; [done|constructor]). cbn [map concat]. rewrite A, B. by rewrite decide_True.
Qed.
End Request.

Section Names.
Context {V P : Type} (eqv : V -> V -> bool) (inv : V -> list V -> bool) (none pfalse : V).
Notation config := (gmap name V).
Notation func := (func (V := V) (P := P)).
Notation resolve_fn := (resolve_fn eqv inv none pfalse).
Notation add_functions := (add_functions (P := P) eqv inv none pfalse).
Notation build := (build (P := P) eqv inv none pfalse).
Notation later := (later (P := P) eqv inv none pfalse).

Lemma resolve_fixed c ds t : (forall d, d ∈ ds -> renamed d t = t) -> (resolve_fn c ds t).1 = t.
Proof.
  induction ds as [|d ds IH]; intros H; [done|]. cbn. destruct (ConfigModel.resolves _ _ _ _ _); [|done].
  rewrite (H d) by left. apply IH. intros; apply H; by right.
Qed.
(** What is called so that its decorators leave it keeps its name. *)
Lemma add_functions_fixed c i t gs st acc :
  st !! i = Some t -> (forall g : func, g ∈ gs -> f_id g = i -> forall d, d ∈ f_decs g -> renamed d t = t) ->
  (add_functions c gs st acc).1 !! i = Some t.
Proof.
  revert st acc. induction gs as [|g gs IH]; intros st acc Hi H; [done|]. cbn.
  destruct (resolve_fn c (f_decs g) (default ""%string (st !! f_id g))) as [nm inc] eqn:R.
  assert (Hi' : <[f_id g := nm]> st !! i = Some t).
  { destruct (decide (f_id g = i)) as [<-|N]; [|by rewrite lookup_insert_ne].
    rewrite lookup_insert. rewrite Hi in R. cbn in R. f_equal.
    pose proof (resolve_fixed c (f_decs g) t (H g ltac:(left) eq_refl)) as E. by rewrite R in E. }
  destruct inc; [destruct (add_nodes c (f_gen g nm c) acc); [done|]|]; (apply IH; [done|]; intros; eapply H; [right|..]; done).
Qed.
Lemma build_fixed c i t gs st : st !! i = Some t -> (forall g : func, g ∈ gs -> f_id g = i -> forall d, d ∈ f_decs g -> renamed d t = t) ->
  (build c gs st).1 !! i = Some t.
Proof. intros Hi H. apply add_functions_fixed; [done|]. intros g [_ Hg]%elem_of_list_filter. by apply H. Qed.
Lemma later_fixed i t bs st : st !! i = Some t ->
  (forall b, b ∈ bs -> forall g : func, g ∈ b.2 -> f_id g = i -> forall d, d ∈ f_decs g -> renamed d t = t) ->
  later bs st !! i = Some t.
Proof.
  revert st. induction bs as [|b bs IH]; intros st Hi H; [done|]. cbn. apply IH.
  - apply build_fixed; [done|]. apply H. left.
  - intros b' Hb. apply H. by right.
Qed.
(** The names after a build that succeeded *)
Lemma add_functions_names c gs st acc st' nodes (f : func) :
  NoDup (map f_id gs) -> f ∈ gs -> add_functions c gs st acc = (st', inr nodes) ->
  st' !! f_id f = Some (resolve_fn c (f_decs f) (default ""%string (st !! f_id f))).1.
Proof.
  revert st acc. induction gs as [|g gs IH]; intros st acc N Hf H; [by apply elem_of_nil in Hf|]. cbn in N, H.
  apply NoDup_cons in N as [N1 N2].
  destruct (resolve_fn c (f_decs g) (default ""%string (st !! f_id g))) as [nm inc] eqn:R.
  apply elem_of_cons in Hf as [->|Hf].
  - rewrite R. cbn.
    assert (K : forall hs st acc, f_id g ∉ map f_id hs -> (add_functions c hs st acc).1 !! f_id g = st !! f_id g).
    { clear. induction hs as [|h hs IH]; intros st acc Hn; [done|]. cbn in *. apply not_elem_of_cons in Hn as [H1 H2].
      destruct (resolve_fn c (f_decs h) (default ""%string (st !! f_id h))) as [nm inc].
      assert (E : <[f_id h := nm]> st !! f_id g = st !! f_id g) by by rewrite lookup_insert_ne.
      destruct inc; [destruct (add_nodes c (f_gen h nm c) acc); [done|]|]; by rewrite IH. }
    destruct inc; [destruct (add_nodes c (f_gen g nm c) acc); [done|]|];
      (match type of H with ?e = _ => replace st' with (e.1) by by rewrite H end; rewrite K by done; apply lookup_insert).
  - assert (f_id f <> f_id g). { intros E. apply N1. rewrite <- E. apply elem_of_list_fmap. eauto. }
    destruct inc; [destruct (add_nodes c (f_gen g nm c) acc); [done|]|];
      (eapply IH in H; [|done..]; by rewrite lookup_insert_ne in H).
Qed.
Lemma build_names c gs st st' nodes (f : func) :
  NoDup (map f_id gs) -> f ∈ gs -> hidden (default ""%string (st !! f_id f)) = false -> build c gs st = (st', inr nodes) ->
  st' !! f_id f = Some (resolve_fn c (f_decs f) (default ""%string (st !! f_id f))).1.
Proof.
  intros N Hf Hh H. eapply add_functions_names; [| |exact H].
  - clear -N. induction gs as [|g gs IH]; [constructor|]. cbn in N. apply NoDup_cons in N as [I1 I2].
    rewrite filter_cons. case_decide; [|by apply IH]. cbn. apply NoDup_cons. split; [|by apply IH].
    intros X. apply I1. apply elem_of_list_fmap in X as (h & E & Hg). apply elem_of_list_filter in Hg as [_ Hg].
    apply elem_of_list_fmap. by exists h.
  - apply elem_of_list_filter. split; [by rewrite Hh|done].
Qed.
Lemma resolve_called c (f : func) n nm : called f n nm -> (forall d, d ∈ f_decs f -> resolves eqv inv none (cd_res d) c = true) ->
  resolve_fn c (f_decs f) n = (nm, true) /\ forall d, d ∈ f_decs f -> renamed d nm = nm.
Proof.
  assert (G : forall ds, (forall d, d ∈ ds -> resolves eqv inv none (cd_res d) c = true) -> (forall d, d ∈ ds -> renamed d nm = nm) ->
    resolve_fn c ds nm = (nm, true)).
  { induction ds as [|d ds IH]; intros A B; [done|]. cbn. rewrite filter_irrelevant, (A d) by left. rewrite (B d) by left.
    apply IH; intros; [apply A|apply B]; by right. }
  assert (G2 : forall ds, ds <> [] -> (forall d, d ∈ ds -> resolves eqv inv none (cd_res d) c = true) ->
     (forall d, d ∈ ds -> renamed d n = nm /\ renamed d nm = nm) -> resolve_fn c ds n = (nm, true)).
  { intros [|d ds] Hn A B; [done|]. cbn. rewrite filter_irrelevant, (A d) by left. rewrite (proj1 (B d ltac:(left))).
    apply G; intros; [apply A|apply B]; by right. }
  intros Hc A. destruct Hc as [E|x s Hn T En Hx Hs|x Hn T].
  - rewrite E. split; [done|]. by intros d ?%elem_of_nil.
  - assert (B : forall d, d ∈ f_decs f -> renamed d n = x /\ renamed d x = x).
    { intros d Hd. unfold renamed. rewrite (T d Hd). split; [rewrite En|].
      - apply sanitize_suffix. intros (p & q & E). by apply (Hs p q).
      - apply sanitize_id. intros (p & q & E). by apply (Hx p q). }
    split; [by apply G2|]. intros d Hd. by apply B.
  - assert (B : forall d, d ∈ f_decs f -> renamed d n = x /\ renamed d x = x) by (intros d Hd; unfold renamed; by rewrite (T d Hd)).
    split; [by apply G2|]. intros d Hd. by apply B.
Qed.
End Names.
