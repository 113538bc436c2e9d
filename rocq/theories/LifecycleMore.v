(** Lifecycle adapters: what remains true of C53 and C54. The claims as stated are refuted in [LifecycleProps]. *)
From Verif Require Import Base Dict LifecycleModel LifecycleProofs.

(** ** C53 *)
Section Reports.
Context {E V : Type}.
Variable catchable : E -> bool.
Variable pre_h : list (hev E V) -> nat -> name -> gmap name V -> option E.
Variable exec_h : list (hev E V) -> option nat -> name -> gmap name V -> res E V.
Variable post_h : list (hev E V) -> nat -> name -> gmap name V -> bool -> option E -> option V -> option E.
Variable describe : name -> gmap name V -> option E.

Definition quiet (evs : list (hev E V)) : Prop := forall a x kw s e v q, HPost a x kw s e v (Some q) ∉ evs.

(** Exceptions that derive from Exception ([catchable]) are reported truthfully: the post hooks are told of the failure with
    that very exception, they are not called after a pre hook failed with one, and the caller sees what the function did
    unless a post hook raises. Missing: exceptions outside Exception and arguments whose repr raises, for which
    this is false ([C53_node_interrupt_refuted], [C53_masked_exception_refuted]). *)
Theorem C53_node_partial pre post m tr x kw : exists evs,
  (execute_lifecycle catchable pre_h exec_h post_h describe pre post m tr x kw).1 = tr ++ evs /\
  let r := (execute_lifecycle catchable pre_h exec_h post_h describe pre post m tr x kw).2 in
  ((exists l1 a l2 e told, pre = l1 ++ a :: l2 /\ evs = pres x kw l1 ++ HPre a x kw (Some e) :: told /\
      pre_h (tr ++ pres x kw l1) a x kw = Some e /\
      (catchable e = true -> told = [] /\ (describe x kw = None -> r = Err e))) \/
   (exists r0 told, evs = pres x kw pre ++ HExec m x kw r0 :: told /\ exec_h (tr ++ pres x kw pre) m x kw = r0 /\
      (forall v, r0 = Ok v -> forall ev, ev ∈ told -> exists a q, ev = HPost a x kw true None (Some v) q) /\
      (forall e, r0 = Err e -> catchable e = true -> forall ev, ev ∈ told -> exists a q, ev = HPost a x kw false (Some e) None q) /\
      (quiet told -> length told = length post /\ (describe x kw = None -> r = r0)))).
Proof.
  unfold execute_lifecycle.
  destruct (call_all_cases (fun tr a => pre_h tr a x kw) (fun a r => HPre a x kw r) pre tr) as [->|(l1 & a & l2 & e & Hpre & -> & Hh)].
  - set (r0 := exec_h (tr ++ map (fun a => HPre a x kw None) pre) m x kw).
    set (su := match r0 with Ok _ => true | Err e => negb (catchable e) end).
    set (er := match r0 with Ok _ => None | Err e => if catchable e then Some e else None end).
    set (rv := match r0 with Ok v => Some v | Err _ => None end).
    set (ra := match r0 with Ok v => Ok v | Err e => if catchable e then Err (match describe x kw with Some e' => e' | None => e end) else Err e end).
    assert (Heq : match r0 with Ok v => (true, None, Ok v) | Err e => if catchable e then (false, Some e, Err (match describe x kw with Some e' => e' | None => e end)) else (true, None, Err e) end = (su, er, ra)).
    { subst su er ra. destruct r0 as [v|e]; [done|]. by destruct (catchable e). }
    rewrite Heq. clear Heq.
    assert (Hra : describe x kw = None -> ra = r0). { intros Hd. subst ra. destruct r0 as [v|e]; [done|]. rewrite Hd. by destruct (catchable e). }
    set (tr2 := (tr ++ map (fun a => HPre a x kw None) pre) ++ [HExec m x kw r0]).
    assert (Htold : forall told (l : list nat) (last : list (hev E V)), told = map (fun a => HPost a x kw su er rv None) l ++ last ->
      (forall ev, ev ∈ last -> exists a q, ev = HPost a x kw su er rv q) ->
      (forall v, r0 = Ok v -> forall ev, ev ∈ told -> exists a q, ev = HPost a x kw true None (Some v) q) /\
      (forall e, r0 = Err e -> catchable e = true -> forall ev, ev ∈ told -> exists a q, ev = HPost a x kw false (Some e) None q)).
    { intros told l last -> Hlast.
      assert (Hall : forall ev, ev ∈ map (fun a => HPost a x kw su er rv None) l ++ last -> exists a q, ev = HPost a x kw su er rv q).
      { intros ev Hev. apply elem_of_app in Hev as [Hev|Hev]; [|by apply Hlast]. apply elem_of_list_fmap in Hev as (a & -> & _). by exists a, None. }
      split.
      - intros v Hv ev Hev. destruct (Hall ev Hev) as (a & q & ->). exists a, q. subst su er rv. by rewrite Hv.
      - intros e He Hc ev Hev. destruct (Hall ev Hev) as (a & q & ->). exists a, q. subst su er rv. by rewrite He, Hc. }
    destruct (call_all_cases (fun tr a => post_h tr a x kw su er rv) (fun a r => HPost a x kw su er rv r) post tr2) as [->|(l1 & a & l2 & e & Hpost & -> & Hh)].
    + exists (pres x kw pre ++ HExec m x kw r0 :: map (fun a => HPost a x kw su er rv None) post). cbn [fst snd].
      split; [subst tr2; unfold pres; by rewrite <-!app_assoc|]. right. eexists r0, _. split_and!; [done|done|..].
      * eapply (Htold _ post []); [by rewrite app_nil_r|by intros ev ?%elem_of_nil].
      * eapply (Htold _ post []); [by rewrite app_nil_r|by intros ev ?%elem_of_nil].
      * intros _. rewrite map_length. done.
    + exists (pres x kw pre ++ HExec m x kw r0 :: map (fun a => HPost a x kw su er rv None) l1 ++ [HPost a x kw su er rv (Some e)]). cbn [fst snd].
      split; [subst tr2; unfold pres; by rewrite <-!app_assoc|]. right. eexists r0, _. split_and!; [done|done|..].
      * eapply (Htold _ l1 [_]); [done|]. intros ev ->%elem_of_list_singleton. by exists a, (Some e).
      * eapply (Htold _ l1 [_]); [done|]. intros ev ->%elem_of_list_singleton. by exists a, (Some e).
      * intros Hq. exfalso. apply (Hq a x kw su er rv e). apply elem_of_app. right. by left.
  - destruct (catchable e) eqn:Hc; cbn [fst snd].
    + eexists. split; [done|]. left. exists l1, a, l2, e, []. split_and!; try done. intros _. split; [done|]. intros ->. done.
    + destruct (call_all_cases (fun tr a => post_h tr a x kw true None None) (fun a r => HPost a x kw true None None r) post
        (tr ++ map (fun a => HPre a x kw None) l1 ++ [HPre a x kw (Some e)])) as [->|(k1 & b & k2 & e' & Hpost & -> & _)]; cbn [fst snd].
      * eexists. split; [by rewrite <-app_assoc|]. left. eexists l1, a, l2, e, _. split_and!; [done|by rewrite <-app_assoc|done|congruence].
      * eexists. split; [by rewrite <-app_assoc|]. left. eexists l1, a, l2, e, _. split_and!; [done|by rewrite <-app_assoc|done|congruence].
Qed.
End Reports.
Print Assumptions C53_node_partial.

Section RunReports.
Context {E V R T : Type}.
Variable catchable : E -> bool.
Variable pre_h : list (gev E V R T) -> nat -> option E.
Variable post_h : list (gev E V R T) -> nat -> bool -> option E -> option (V + R) -> option E.
Variable raw : list T * res E V.
Variable build : option (V -> res E R).
Notation run pre post := (driver_execute catchable pre_h post_h raw build pre post).
(** What the run without its hooks ends with. *)
Definition outcome : res E (V + R) :=
  match raw.2 with
  | Err e => Err e
  | Ok v => match build with None => Ok (inl v) | Some b => match b v with Ok o => Ok (inr o) | Err e => Err e end end
  end.

(** The same for the hooks around a run; they are not called at all when a pre hook raises. *)
Theorem C53_run_partial pre post :
  (forall a s er out q, GPost a s er out q ∈ (run pre post).1 ->
     (forall v, outcome = Ok v -> s = true /\ er = None /\ out = Some v) /\
     (forall e, outcome = Err e -> catchable e = true -> s = false /\ er = Some e) /\
     (forall b e, GPre b (Some e) ∉ (run pre post).1)) /\
  ((forall b e, GPre b (Some e) ∉ (run pre post).1) -> (forall a s er out e, GPost a s er out (Some e) ∉ (run pre post).1) ->
     (run pre post).2 = outcome).
Proof.
  unfold driver_execute.
  destruct (gcall_all_cases pre_h GPre pre []) as [->|(l1 & a & l2 & e & Hpre & -> & _)].
  2:{ cbn. split.
      - intros b s er out q H. apply elem_of_app in H as [H|H]; [by apply elem_of_list_fmap in H as (? & ? & _)|]. by apply elem_of_list_singleton in H.
      - intros H _. exfalso. apply (H a e). apply elem_of_app. right. by left. }
  cbn [app].
  set (tr0 := map (fun a => GPre a None) pre : list (gev E V R T)).
  assert (Hgo : forall (mid : list (gev E V R T)) out su er,
    (forall b s er out q, GPost b s er out q ∉ tr0 ++ mid) -> (forall b e, GPre b (Some e) ∉ tr0 ++ mid) ->
    (forall v, outcome = Ok v -> su = true /\ er = None /\ out = Some v) ->
    (forall e, outcome = Err e -> catchable e = true -> su = false /\ er = Some e) ->
    let res := gcall_all (fun tr a => post_h tr a su er out) (fun a r => GPost a su er out r) (tr0 ++ mid) post in
    let all := (match res.2 with Some e => (res.1, Err e) | None => (res.1, outcome) end) in
    (forall a s er out q, GPost a s er out q ∈ all.1 ->
       (forall v, outcome = Ok v -> s = true /\ er = None /\ out = Some v) /\
       (forall e, outcome = Err e -> catchable e = true -> s = false /\ er = Some e) /\
       (forall b e, GPre b (Some e) ∉ all.1)) /\
    ((forall b e, GPre b (Some e) ∉ all.1) -> (forall a s er out e, GPost a s er out (Some e) ∉ all.1) -> all.2 = outcome)).
  { intros mid out su er Hnp Hnpre Hok Herr. cbn zeta.
    destruct (gcall_all_cases (fun tr a => post_h tr a su er out) (fun a r => GPost a su er out r) post (tr0 ++ mid))
      as [->|(l1 & a & l2 & e & Hp & -> & _)]; cbn [fst snd].
    - split; [|done]. intros b s er' out' q H. apply elem_of_app in H as [H|H]; [by apply Hnp in H|].
      apply elem_of_list_fmap in H as (c & [= -> -> -> -> ->] & _). split_and!; [done..|].
      intros b' e' H. apply elem_of_app in H as [H|H]; [by apply Hnpre in H|]. by apply elem_of_list_fmap in H as (? & ? & _).
    - assert (Hin : forall ev, ev ∈ map (fun a => GPost a su er out None) l1 ++ [GPost a su er out (Some e)] -> exists b q, ev = GPost (R := R) (T := T) b su er out q).
      { intros ev H. apply elem_of_app in H as [H|H]; [apply elem_of_list_fmap in H as (c & -> & _); by exists c, None|]. apply elem_of_list_singleton in H as ->. by exists a, (Some e). }
      split.
      + intros b s er' out' q H. apply elem_of_app in H as [H|H]; [by apply Hnp in H|]. apply Hin in H as (c & q' & [= -> -> -> -> ->]).
        split_and!; [done..|]. intros b' e' H. apply elem_of_app in H as [H|H]; [by apply Hnpre in H|]. by apply Hin in H as (? & ? & ?).
      + intros _ H. exfalso. apply (H a su er out e). apply elem_of_app. right. apply elem_of_app. right. by left. }
  assert (H0 : forall mid : list (gev E V R T), (forall b s er out q, GPost b s er out q ∉ mid) -> (forall b e, GPre b (Some e) ∉ mid) ->
    (forall b s er out q, GPost b s er out q ∉ tr0 ++ mid) /\ (forall b e, GPre b (Some e) ∉ tr0 ++ mid)).
  { intros mid H1 H2. split.
    - intros b s er out q H. apply elem_of_app in H as [H|H]; [by apply elem_of_list_fmap in H as (? & ? & _)|by apply H1 in H].
    - intros b e H. apply elem_of_app in H as [H|H]; [by apply elem_of_list_fmap in H as (? & ? & _)|by apply H2 in H]. }
  assert (Hm1 : (forall b s er out q, GPost b s er out q ∉ tr0 ++ [GInner raw.1]) /\ (forall b e, GPre b (Some e) ∉ tr0 ++ [GInner raw.1])).
  { apply H0; [intros b s er out q H|intros b e H]; by apply elem_of_list_singleton in H. }
  assert (Hm2 : forall rb, (forall b s er out q, GPost b s er out q ∉ tr0 ++ [GInner raw.1; GBuild rb]) /\ (forall b e, GPre b (Some e) ∉ tr0 ++ [GInner raw.1; GBuild rb])).
  { intros rb. apply H0; [intros b s er out q H|intros b e H]; apply elem_of_cons in H as [H|H]; try done; by apply elem_of_list_singleton in H. }
  destruct (raw.2) as [v|e] eqn:Hr.
  - destruct build as [b|] eqn:Hb.
    + destruct (b v) as [o|e] eqn:Hbv.
      * assert (Ho : outcome = Ok (inr o)) by (unfold outcome; by rewrite Hr, Hb, Hbv).
        specialize (Hgo [GInner raw.1; GBuild (Ok o)] (Some (inr o)) true None (proj1 (Hm2 _)) (proj2 (Hm2 _))).
        rewrite Ho in Hgo. cbn zeta in Hgo. rewrite Ho, <-app_assoc. cbn [app].
        destruct (gcall_all _ _ _ post) as [tr3 [e|]]; apply Hgo; (done || naive_solver).
      * assert (Ho : outcome = Err e) by (unfold outcome; by rewrite Hr, Hb, Hbv).
        specialize (Hgo [GInner raw.1; GBuild (Err e)] (Some (inl v)) (negb (catchable e)) (if catchable e then Some e else None) (proj1 (Hm2 _)) (proj2 (Hm2 _))).
        rewrite Ho in Hgo. cbn zeta in Hgo. rewrite Ho, <-app_assoc. cbn [app].
        assert (Hsw : (if catchable e then (false, Some e) else (true, None)) = (negb (catchable e), if catchable e then Some e else None)) by (by destruct (catchable e)).
        rewrite Hsw. destruct (gcall_all _ _ _ post) as [tr3 [e'|]]; apply Hgo; try done; intros e1 [= <-] Hc; by rewrite Hc.
    + assert (Ho : outcome = Ok (inl v)) by (unfold outcome; by rewrite Hr, Hb).
      specialize (Hgo [GInner raw.1] (Some (inl v)) true None (proj1 Hm1) (proj2 Hm1)).
      rewrite Ho in Hgo. cbn zeta in Hgo. rewrite Ho.
      destruct (gcall_all _ _ _ post) as [tr3 [e|]]; apply Hgo; (done || naive_solver).
  - assert (Ho : outcome = Err e) by (unfold outcome; by rewrite Hr).
    specialize (Hgo [GInner raw.1] None (negb (catchable e)) (if catchable e then Some e else None) (proj1 Hm1) (proj2 Hm1)).
    rewrite Ho in Hgo. cbn zeta in Hgo. rewrite Ho.
    assert (Hsw : (if catchable e then (false, Some e) else (true, None)) = (negb (catchable e), if catchable e then Some e else None)) by (by destruct (catchable e)).
    rewrite Hsw. destruct (gcall_all _ _ _ post) as [tr3 [e'|]]; apply Hgo; try done; intros e1 [= <-] Hc; by rewrite Hc.
Qed.
End RunReports.
Print Assumptions C53_run_partial.

(** A function and a run that fail with an exception deriving from Exception, while others do not derive from it. *)
Example C53_nonvacuous :
  let catchable e := negb (String.eqb e "KeyboardInterrupt") in
  execute_lifecycle (E:=string) (V:=nat) catchable (fun _ _ _ _ => None) (fun _ _ _ _ => Err "boom") (fun _ _ _ _ _ _ _ => None)
    (fun _ _ => None) [1] [1; 2] None [] "x" ∅
    = ([HPre 1 "x" ∅ None; HExec None "x" ∅ (Err "boom"); HPost 1 "x" ∅ false (Some "boom") None None; HPost 2 "x" ∅ false (Some "boom") None None], Err "boom") /\
  driver_execute (E:=string) (V:=nat) (R:=nat) (T:=nat) catchable (fun _ _ => None) (fun _ _ _ _ _ => None) ([], Err "boom") None [] [1]
    = ([GInner []; GPost 1 false (Some "boom") None None], Err "boom").
Proof. split; vm_compute; reflexivity. Qed.

(** ** C54 *)
Section Equals.
Lemma py_in_eq a l : py_in a l = true <-> exists b, b ∈ l /\ ad_eq a = ad_eq b.
Proof.
  unfold py_in. rewrite existsb_exists. split; intros (b & Hb & He); exists b.
  - split; [by apply elem_of_list_In|by apply Nat.eqb_eq].
  - split; [by apply elem_of_list_In|by apply Nat.eqb_eq].
Qed.
Lemma get_add_hook m a h h' : dlist (dget (add_hook m a h) h') =
  if decide (h' = h) then (if py_in a (dlist (dget m h)) then dlist (dget m h) else dlist (dget m h) ++ [a]) else dlist (dget m h').
Proof.
  unfold add_hook. destruct (py_in a (dlist (dget m h))) eqn:Hp; [by case_decide; subst|].
  rewrite dget_dset. by case_decide.
Qed.
Lemma get_add_hooks a hs h' : forall m, dlist (dget (foldl (fun m h => add_hook m a h) m hs) h') =
  if decide (h' ∈ hs) then (if py_in a (dlist (dget m h')) then dlist (dget m h') else dlist (dget m h') ++ [a]) else dlist (dget m h').
Proof.
  assert (Hself : forall l, py_in a (l ++ [a]) = true).
  { intros l. apply py_in_eq. exists a. split; [|done]. apply elem_of_app. right. by left. }
  induction hs as [|h hs IH]; intros m; cbn [foldl].
  - rewrite decide_False by apply not_elem_of_nil. done.
  - rewrite IH, get_add_hook. destruct (decide (h' = h)) as [->|Hne].
    + rewrite (decide_True (P := h ∈ h :: hs)) by (by left). destruct (py_in a (dlist (dget m h))) eqn:Hp.
      * rewrite Hp. by case_decide.
      * rewrite Hself. by case_decide.
    + destruct (decide (h' ∈ hs)) as [Hin|Hin].
      * by rewrite decide_True by (by right).
      * rewrite decide_False; [done|]. rewrite elem_of_cons. naive_solver.
Qed.
(** The first of the adapters with the hook that are equal to it. *)
Definition first_equal (l : list adapter) (h : string) (a : adapter) : Prop :=
  exists l1 l2, l = l1 ++ a :: l2 /\ h ∈ ad_hooks a /\ forall b, b ∈ l1 -> h ∈ ad_hooks b -> ad_eq b <> ad_eq a.
Lemma hooks_first l h : NoDup (map ad_eq (dlist (dget (lifecycle_hooks l) h))) /\
  (forall a, a ∈ dlist (dget (lifecycle_hooks l) h) <-> first_equal l h a) /\
  (forall b, b ∈ l -> h ∈ ad_hooks b -> exists a, a ∈ dlist (dget (lifecycle_hooks l) h) /\ ad_eq a = ad_eq b).
Proof.
  induction l as [|c l (IHn & IHe & IHc)] using rev_ind.
  - cbn. split_and!; [constructor| |by intros b ?%elem_of_nil]. intros a. split; [by intros ?%elem_of_nil|]. intros ([|? ?] & l2 & ? & _); done.
  - assert (Hget : dlist (dget (lifecycle_hooks (l ++ [c])) h) =
      if decide (h ∈ ad_hooks c) then (if py_in c (dlist (dget (lifecycle_hooks l) h)) then dlist (dget (lifecycle_hooks l) h) else dlist (dget (lifecycle_hooks l) h) ++ [c])
      else dlist (dget (lifecycle_hooks l) h)).
    { unfold lifecycle_hooks at 1. rewrite foldl_app. apply get_add_hooks. }
    rewrite Hget. set (old := dlist (dget (lifecycle_hooks l) h)) in *. clearbody old. clear Hget.
    assert (Hkeep : forall a, a ∈ old -> first_equal (l ++ [c]) h a).
    { intros a Ha. apply IHe in Ha as (l1 & l2 & -> & Hh & Hb). exists l1, (l2 ++ [c]). split_and!; [|done|done]. by rewrite <-app_assoc. }
    assert (Hback : forall a, first_equal (l ++ [c]) h a -> a ∈ old \/ (a = c /\ h ∈ ad_hooks c /\ py_in c old = false)).
    { intros a (l1 & l2 & Heq & Hh & Hb). destruct l2 as [|d l2 _] using rev_ind.
      - apply app_inj_tail in Heq as [-> ->]. right. split_and!; [done|done|]. apply not_true_iff_false. rewrite py_in_eq.
        intros (b & Hb1 & He). apply IHe in Hb1 as (k1 & k2 & -> & Hhb & _). apply (Hb b); [|done|done]. apply elem_of_app. right. by left.
      - left. rewrite app_comm_cons, app_assoc in Heq. apply app_inj_tail in Heq as [-> _]. apply IHe. by exists l1, l2. }
    destruct (decide (h ∈ ad_hooks c)) as [Hh|Hh].
    + destruct (py_in c old) eqn:Hp.
      * split_and!; [done| |].
        -- intros a. split; [apply Hkeep|]. intros Hf. apply Hback in Hf as [?|(-> & _ & ?)]; [done|congruence].
        -- intros b Hb Hhb. apply elem_of_app in Hb as [Hb|Hb]; [by apply IHc|]. apply elem_of_list_singleton in Hb as ->.
           apply py_in_eq in Hp as (a & Ha & He). by exists a.
      * split_and!.
        -- rewrite map_app. apply NoDup_app. split_and!; [done| |by apply NoDup_singleton].
           intros k Hk Hk'. cbn in Hk'. apply elem_of_list_singleton in Hk' as ->. apply elem_of_list_fmap in Hk as (a & He & Ha).
           apply not_true_iff_false in Hp. apply Hp. apply py_in_eq. by exists a.
        -- intros a. rewrite elem_of_app, elem_of_list_singleton. split.
           ++ intros [Ha| ->]; [by apply Hkeep|]. exists l, []. split_and!; [done|done|]. intros b Hb Hhb He.
              destruct (IHc b Hb Hhb) as (a & Ha & Hae). apply not_true_iff_false in Hp. apply Hp. apply py_in_eq. exists a. split; [done|congruence].
           ++ intros Hf. apply Hback in Hf as [?|(-> & _ & _)]; [by left|by right].
        -- intros b Hb Hhb. apply elem_of_app in Hb as [Hb|Hb].
           ++ destruct (IHc b Hb Hhb) as (a & Ha & He). exists a. split; [|done]. apply elem_of_app. by left.
           ++ apply elem_of_list_singleton in Hb as ->. exists c. split; [|done]. apply elem_of_app. right. by left.
    + split_and!; [done| |].
      * intros a. split; [apply Hkeep|]. intros Hf. apply Hback in Hf as [?|(-> & ? & _)]; done.
      * intros b Hb Hhb. apply elem_of_app in Hb as [Hb|Hb]; [by apply IHc|]. by apply elem_of_list_singleton in Hb as ->.
Qed.
Lemma earlier {A} (l1 l2 m1 m2 : list A) a b : l1 ++ a :: l2 = m1 ++ b :: m2 -> a ∉ m1 -> a <> b -> b ∈ l1.
Proof.
  revert m1. induction l1 as [|c l1 IH]; intros [|d m1] Heq Hn Hab; cbn in Heq.
  - congruence.
  - injection Heq as <- _. exfalso. apply Hn. by left.
  - injection Heq as -> _. by left.
  - injection Heq as <- Heq. right. eapply IH; [done| |done]. intros H. apply Hn. by right.
Qed.
Lemma first_unique l h a : (forall a b, a ∈ l -> b ∈ l -> ad_id a = ad_id b -> a = b) ->
  first_equal (uniqify [] l) h a <-> first_equal l h a.
Proof.
  intros Hid. assert (Hin := uniq_in l Hid). assert (Hnd := uniq_nodup l).
  split.
  - intros (u1 & u2 & Hu & Hh & Hb).
    assert (Ha : a ∈ l) by (apply Hin; rewrite Hu; apply elem_of_app; right; by left).
    apply elem_of_list_split_l in Ha as (l1 & l2 & Hl & Hfirst). exists l1, l2. split_and!; [done|done|].
    intros b Hbl Hhb He. assert (Hba : b <> a) by (intros ->; done).
    assert (Hbu : b ∈ uniqify [] l). { apply Hin. rewrite Hl. apply elem_of_app. by left. }
    rewrite Hu in Hbu. apply elem_of_app in Hbu as [Hbu|Hbu]; [by apply (Hb b)|].
    apply elem_of_cons in Hbu as [?|Hbu]; [done|].
    destruct (uniqify_order l [] l (reflexivity l) u1 a u2 b Hu Hbu) as (k1 & k2 & Hk & Hbk).
    apply Hbk. rewrite Hl in Hk. clear -Hk Hbl Hfirst. revert k1 Hk. induction l1 as [|c l1 IH]; intros k1 Hk; [by apply elem_of_nil in Hbl|].
    destruct k1 as [|d k1]; cbn in Hk; injection Hk as -> Hk; [exfalso; apply Hfirst; by left|].
    apply elem_of_cons in Hbl as [->|Hbl]; [by left|right]. eapply IH; [|done|done]. intros H. apply Hfirst. by right.
  - intros (l1 & l2 & Hl & Hh & Hb).
    assert (Ha : a ∈ uniqify [] l) by (apply Hin; rewrite Hl; apply elem_of_app; right; by left).
    apply elem_of_list_split in Ha as (u1 & u2 & Hu). exists u1, u2. split_and!; [done|done|].
    intros b Hbu Hhb He. apply elem_of_list_split in Hbu as (v1 & v2 & ->).
    rewrite Hu in Hnd. assert (Hba : a <> b).
    { intros <-. apply NoDup_app in Hnd as (_ & Hd & _). apply (Hd a); [apply elem_of_app; right; by left|by left]. }
    destruct (uniqify_order l [] l (reflexivity l) v1 b (v2 ++ a :: u2) a) as (k1 & k2 & Hk & Hak).
    + by rewrite Hu, <-app_assoc.
    + apply elem_of_app. right. by left.
    + apply (Hb b); [|done|done]. rewrite Hl in Hk. by eapply earlier.
Qed.
End Equals.

(** Of adapters that compare equal, exactly the first one that has the hook is called; so an adapter is called unless an
    earlier one with the hook is equal to it. Missing: the others, see [C54_equal_adapters_refuted]. *)
Theorem C54_first_of_equals_partial (l : list adapter) (s : adapter_set) (h : string) :
  (forall a b, a ∈ l -> b ∈ l -> ad_id a = ad_id b -> a = b) -> make_set l = Some s ->
  NoDup (map ad_eq (hooks_of s h)) /\
  (forall a, a ∈ hooks_of s h <-> exists l1 l2, l = l1 ++ a :: l2 /\ h ∈ ad_hooks a /\
     forall b, b ∈ l1 -> h ∈ ad_hooks b -> ad_eq b <> ad_eq a) /\
  (forall b, b ∈ l -> h ∈ ad_hooks b -> exists a, a ∈ hooks_of s h /\ ad_eq a = ad_eq b).
Proof.
  intros Hid. unfold make_set. destruct (existsb _ _); [done|]. intros [= <-]. unfold hooks_of. cbn [as_hooks].
  destruct (hooks_first (uniqify [] l) h) as (H1 & H2 & H3). split_and!; [done| |].
  - intros a. rewrite H2. by apply first_unique.
  - intros b Hb Hh. apply H3; [|done]. by apply uniq_in.
Qed.
Print Assumptions C54_first_of_equals_partial.
Example C54_nonvacuous : exists s, make_set [Adapter 1 7 ["pre"] []; Adapter 2 8 ["pre"; "post"] []; Adapter 3 7 ["pre"; "post"] []] = Some s /\
  map ad_id (hooks_of s "pre") = [1; 2] /\ map ad_id (hooks_of s "post") = [2; 3].
Proof. eexists. split; [vm_compute; reflexivity|]. by vm_compute. Qed.
