From Verif Require Import Base Dict RegistryModel RegistrySpec.

Section Proofs.
Context {T : Type} `{EqDecision T}.
Notation proc := (proc T).
Variable exts : string -> ext T.
Notation import_module := (import_module exts).
Notation load_extension := (load_extension exts).
Notation init_loop := (init_loop exts).

Definition registered (t : dict (T * option T)) (regs : list (string * (T * option T))) : dict (T * option T) := foldl (fun t r => dset t r.1 r.2) t regs.
Lemma register_all_eq regs (p : proc) : register_all regs p = set_types (registered (p_types p) regs) p.
Proof.
  unfold register_all, registered. revert p. induction regs as [|[n [d c]] regs IH]; intros p; [by destruct p|]. cbn. rewrite IH. done.
Qed.
Lemma registered_app t a b : registered t (a ++ b) = registered (registered t a) b.
Proof. apply foldl_app. Qed.
Lemma registered_none t regs n : (forall v, (n, v) ∉ regs) -> dget (registered t regs) n = dget t n.
Proof.
  unfold registered. revert t. induction regs as [|[m v] regs IH]; intros t H; [done|]. cbn. rewrite IH.
  - apply dget_dset_ne. intros ->. apply (H v). left.
  - intros w Hw. apply (H w). by right.
Qed.
Lemma registered_last t regs n v : last_for n regs v -> dget (registered t regs) n = Some v.
Proof.
  intros Hl. revert t. induction Hl as [v regs Hn|[m w] v regs _ IH]; intros t; cbn.
  - fold (registered (dset t n v) regs). rewrite registered_none by done. apply dget_dset_eq.
  - apply IH.
Qed.
Lemma last_exists n regs v : (n, v) ∈ regs -> exists w, last_for (T := T) n regs w.
Proof.
  revert v. induction regs as [|[m u] l IH]; intros x Hx; [by apply elem_of_nil in Hx|].
  destruct (decide (n ∈ map fst l)) as [Hm|Hm].
  - apply elem_of_list_fmap in Hm as ([m' y] & Heq & Hy). cbn in Heq. subst m'. destruct (IH y Hy) as [w0 ?]. exists w0. by constructor.
  - apply elem_of_cons in Hx as [[= <- <-]|Hx].
    + exists x. constructor. intros w Hw. apply Hm. apply elem_of_list_fmap. by exists (n, w).
    + destruct Hm. apply elem_of_list_fmap. by exists (n, x).
Qed.

Definition soft (e : ext T) : Prop := loadable e \/ not_installed e.
Lemma load_soft n (p : proc) : soft (exts n) ->
  exists r, load_extension n p = (r, if decide (n ∈ p_loaded p) then p else
     let q := set_types (registered (p_types p) (e_regs (exts n))) p in
     match e_raises (exts n) with None => set_loaded (p_loaded p ++ [n]) q | Some _ => q end) /\
   (n ∉ p_loaded p \/ loadable (exts n) -> r = Ok tt \/ r = Err XNotImplemented \/ r = Err XImport) /\ (r = Ok tt \/ r = Err XNotImplemented \/ r = Err XImport \/ (n ∈ p_loaded p /\ r = Err XAssertion)).
Proof.
  intros Hs. unfold RegistryModel.load_extension, RegistryModel.import_module. case_decide as Hl.
  - destruct (e_friendly (exts n)) eqn:Ef; [|eexists; split; [done|]; split; auto].
    destruct (e_register (exts n)) eqn:E1; cbn; [|eexists; split; [done|]; split; [intros [?|[_ Hx]]; [done|]; destruct (Hx Ef) as (? & _); congruence|auto 6]].
    destruct (e_get (exts n)) eqn:E2; cbn; [|eexists; split; [done|]; split; [intros [?|[_ Hx]]; [done|]; destruct (Hx Ef) as (_ & ? & _); congruence|auto 6]].
    destruct (e_fill (exts n)) eqn:E3; cbn; [|eexists; split; [done|]; split; [intros [?|[_ Hx]]; [done|]; destruct (Hx Ef) as (_ & _ & ?); congruence|auto 6]].
    eexists; split; [done|]; split; auto.
  - rewrite register_all_eq. destruct Hs as [[Hr Hx]|[Hr|Hr]]; rewrite Hr; [|eexists; split; [done|]; split; auto..].
    destruct (e_friendly (exts n)); [|eexists; split; [done|]; split; auto]. destruct (Hx eq_refl) as (-> & -> & ->). eexists; split; [done|]; split; auto.
Qed.
Definition fresh_names (p : proc) (names : list string) : list string := filter (fun n => n ∉ p_loaded p) names.
Lemma init_loop_soft names (p : proc) : NoDup names -> disabled p = false -> (forall n, n ∈ names -> soft (exts n)) -> (forall n, n ∈ p_loaded p -> loadable (exts n)) ->
  exists p', init_loop names p = (Ok tt, p') /\ p_env p' = p_env p /\ p_file p' = p_file p /\ p_init p' = p_init p /\
    (forall n, n ∈ p_loaded p' <-> n ∈ p_loaded p \/ (n ∈ names /\ loadable (exts n))) /\
    p_types p' = registered (p_types p) (concat (map (fun n => e_regs (exts n)) (fresh_names p names))).
Proof.
  revert p. induction names as [|n names IH]; intros p Hnd Hd Hs Hl.
  { exists p. split_and!; try done. intros n. split; [by left|]. by intros [?|[?%elem_of_nil _]]. }
  apply NoDup_cons in Hnd as [Hn Hnd]. cbn [RegistryModel.init_loop]. rewrite Hd.
  destruct (load_soft n p (Hs n ltac:(left))) as (r & -> & Hr & _).
  set (q := if decide (n ∈ p_loaded p) then p else _).
  assert (Hr' : r = Ok tt \/ r = Err XNotImplemented \/ r = Err XImport).
  { apply Hr. destruct (decide (n ∈ p_loaded p)); [right; by apply Hl|by left]. }
  assert (Hq : p_env q = p_env p /\ p_file q = p_file p /\ p_init q = p_init p /\ (forall m, m ∈ p_loaded q <-> m ∈ p_loaded p \/ (m = n /\ loadable (exts n))) /\
     p_types q = registered (p_types p) (if decide (n ∈ p_loaded p) then [] else e_regs (exts n))).
  { unfold q. case_decide as Hin.
    - split_and!; try done. intros m. split; [by left|]. by intros [?|[-> _]].
    - destruct (e_raises (exts n)) eqn:Er; cbn; split_and!; try done; intros m.
      + split; [by left|]. intros [?|[_ [Hc _]]]; [done|]. congruence.
      + rewrite elem_of_app, elem_of_list_singleton. split; [|intros [?|[-> _]]; auto].
        intros [?| ->]; [by left|]. right. split; [done|]. destruct (Hs n ltac:(left)) as [?|[?|?]]; [done|congruence..]. }
  destruct Hq as (Q1 & Q2 & Q3 & Q4 & Q5).
  destruct (IH q Hnd) as (p' & E & P1 & P2 & P3 & P4 & P5).
  { unfold disabled in *. by rewrite Q1. }
  { intros m Hm. apply Hs. by right. }
  { intros m [?|[-> ?]]%Q4; [by apply Hl|done]. }
  exists p'. split; [by destruct Hr' as [-> | [-> | ->]]|]. split_and!; [congruence..| |].
  - intros m. rewrite P4, Q4, elem_of_cons. split; [intros [[?|[-> ?]]|[? ?]]; auto|]. intros [?|[[-> |?] ?]]; auto.
  - rewrite P5, Q5. rewrite <- registered_app. f_equal. unfold fresh_names. rewrite filter_cons.
    assert (Hf : filter (fun m => m ∉ p_loaded q) names = filter (fun m => m ∉ p_loaded p) names).
    { clear -Hn Q4. induction names as [|m ns IH]; [done|]. apply not_elem_of_cons in Hn as [H1 H2]. rewrite !filter_cons, IH by done.
      assert (Hi : m ∉ p_loaded q <-> m ∉ p_loaded p) by (rewrite Q4; split; [tauto|intros ? [?|[-> _]]; done]).
      destruct (decide (m ∉ p_loaded q)), (decide (m ∉ p_loaded p)); tauto. }
    rewrite Hf. destruct (decide (n ∈ p_loaded p)) as [Hin|Hin].
    + rewrite decide_False by (intros Hx; by apply Hx). done.
    + rewrite decide_True by done. done.
Qed.
Lemma init_loop_disabled names (p : proc) : disabled p = true -> init_loop names p = (Ok tt, p).
Proof. intros Hd. induction names as [|n names IH]; [done|]. cbn. by rewrite Hd. Qed.

Lemma column_type_first types df (c : option T) n : first_with df types n c -> column_type_in types df = match c with Some c => Ok c | None => Err XKey end.
Proof.
  intros (b & a & -> & Hb). induction b as [|[m [d c']] b IH]; cbn.
  - by rewrite decide_True.
  - rewrite decide_False; [apply IH; intros; eapply Hb; by right|]. intros <-. by destruct (Hb m df c' ltac:(left)).
Qed.
Lemma column_type_split types (df : T) : (exists n c, first_with df types n c) \/ ((forall n d c, (n, (d, c)) ∈ types -> d <> df) /\ column_type_in types df = Err XNotImplemented).
Proof.
  induction types as [|[m [d c]] types IH]; [right; split; [|done]; by intros ? ? ? ?%elem_of_nil|]. cbn.
  case_decide as Hd; [subst d; left; exists m, c, [], types; split; [done|]; by intros ? ? ? ?%elem_of_nil|].
  destruct IH as [(n & c' & b & a & -> & Hb)|[Hn ->]].
  - left. exists n, c', ((m, (d, c)) :: b), a. split; [done|]. intros m' d' c'' [[= -> -> ->]|?]%elem_of_cons; [done|by eapply Hb].
  - right. split; [|done]. intros n d' c' [[= -> -> ->]|?]%elem_of_cons; [done|by eapply Hn].
Qed.
End Proofs.
