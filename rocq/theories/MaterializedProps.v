(** C96: results stored with savers and loaders. *)
From Coq Require Import Ascii.
From Verif Require Import Base MaterializedModel MaterializedSpec.

Lemma no_dots_cons c s : no_dots (String c s) -> c <> "."%char /\ no_dots s.
Proof. intros H. split; [intros ->; by apply (H "" s)|]. intros a b ->. by apply (H (String c a) b). Qed.
Lemma stem_same s : no_dots s -> stem s = s.
Proof.
  intros H. unfold stem. assert (Hn : before_dot s = None); [|by rewrite Hn]. induction s as [|c s IH]; [done|]. apply no_dots_cons in H as [Hc H]. cbn. rewrite IH by done. by rewrite decide_False.
Qed.
Lemma dotted_inj a b x y : no_dots a -> no_dots b -> (a ++ "." ++ x)%string = (b ++ "." ++ y)%string -> a = b.
Proof.
  revert b. induction a as [|c a IH]; intros [|d b] Ha Hb E; [done| | |].
  - injection E as E _. apply no_dots_cons in Hb as [Hb _]. congruence.
  - injection E as E _. apply no_dots_cons in Ha as [Ha _]. congruence.
  - injection E as -> E. apply no_dots_cons in Ha as [_ Ha]. apply no_dots_cons in Hb as [_ Hb]. by rewrite (IH b Ha Hb E).
Qed.
Lemma path_dots dv (a : adapter) : no_dots dv -> materialized_path dv a = (dv ++ "." ++ ad_name a)%string.
Proof. intros H. unfold materialized_path. by rewrite stem_same. Qed.
Lemma path_ne dv dv' (a : adapter) : no_dots dv -> no_dots dv' -> materialized_path dv a <> dv'.
Proof. intros H H' E. rewrite path_dots in E by done. by apply (H' dv (ad_name a)). Qed.

Section Props.
Context {V : Type} (loads : V -> option V) (format : string -> V -> option V).
Notation gives := (gives format). Notation fine := (fine loads format). Notation steps := (steps V loads format). Notation get := (get V loads).
Definition good (s : gmap string (content V)) (dv : string) (r : option V) : Prop :=
  match r with
  | None => s !! dv = None
  | Some w => (s !! dv = Some (CVal w) /\ loads w = None) \/ exists a, s !! dv = Some (CLoader (ad_name a) (materialized_path dv a)) /\ s !! materialized_path dv a = Some (CData (ad_name a) w)
  end.
Lemma good_get s dv r : good s dv r -> get dv s = Ok r /\ exists_ V dv s = bool_decide (is_Some r).
Proof.
  unfold good, MaterializedModel.get, load_file, exists_. destruct r as [w|].
  - intros [[-> Hn]|(a & -> & E)]; [by rewrite Hn|]. rewrite E. rewrite decide_True by done. done.
  - intros ->. done.
Qed.
Lemma good_other s s' dv r : no_dots dv -> good s dv r -> s' !! dv = s !! dv -> (forall a, s' !! materialized_path dv a = s !! materialized_path dv a) -> good s' dv r.
Proof. intros Hd Hg E Ea. unfold good in *. destruct r; rewrite E; [|done]. destruct Hg as [Hg|(a & H1 & H2)]; [by left|]. right. exists a. by rewrite Ea. Qed.
Lemma load_never path (s : gmap string (content V)) v e : load_file V loads path s = Ok (Some (v, e)) -> e = None.
Proof. unfold load_file. destruct (s !! path) as [[w|fmt p| |]|]; [destruct (loads w); by intros [= _ <-]| |done..]. destruct (s !! p) as [[| |fmt' w|]|]; [done..| |done|done]. destruct (decide _); [by intros [= _ <-]|done]. Qed.
Lemma expire_same now paths (s : gmap string (content V)) : (expire V loads now paths s).2 = s.
Proof. induction paths as [|p paths IH]; [done|]. cbn. destruct (load_file V loads p s) as [[[v e]|]|] eqn:E; [|done|done]. by rewrite (load_never _ _ _ _ E). Qed.
Lemma gives_good ops dv : no_dots dv -> (forall o, o ∈ ops -> fine o) -> forall r, gives dv ops r -> good (steps ops ∅) dv r.
Proof.
  intros Hd Hf r H. unfold MaterializedModel.steps. induction H as [|ops v sv ld w Hc|ops|ops|ops r now H IH|ops r dv' v sv ld Hne H IH|ops r dv' Hne H IH]; [done|rewrite foldl_app; cbn [foldl]..].
  - assert (Hf' : fine (OSet dv v sv ld)) by (apply Hf, elem_of_app; right; by left). cbn [step]. destruct sv as [sv|], ld as [ld|]; try done; cbn [set].
    + destruct Hf' as (_ & H1 & H2 & Hn & [w' Hw]). cbn in Hc. rewrite H1, H2. cbn [andb]. rewrite Hc. cbn [snd]. right. exists sv. rewrite lookup_insert. split; [by rewrite Hn|].
      rewrite lookup_insert_ne; [by rewrite lookup_insert|]. intros E. by apply (path_ne dv dv sv).
    + destruct Hf' as [_ Hl]. cbn in Hc. subst w. cbn [snd]. left. split; [by rewrite lookup_insert|done].
  - cbn [step]. unfold delete_one, good. by rewrite lookup_delete.
  - cbn [step]. unfold delete_all, good. done.
  - cbn [step]. unfold delete_expired. rewrite expire_same. apply IH. intros o Ho. apply Hf. apply elem_of_app. by left.
  - assert (Hs : good (foldl (fun s o => step V loads format o s) ∅ ops) dv r) by (apply IH; intros o Ho; apply Hf, elem_of_app; by left).
    assert (Hf' : fine (OSet dv' v sv ld)) by (apply Hf, elem_of_app; right; by left). cbn [step]. destruct sv as [sv|], ld as [ld|]; try done; cbn [set].
    + destruct Hf' as (Hd' & H1 & H2 & Hn & [w' Hw]). rewrite H1, H2, Hw. cbn [andb snd]. eapply good_other; [done|done| |].
      * rewrite lookup_insert_ne by done. rewrite lookup_insert_ne; [done|]. by apply path_ne.
      * intros a. rewrite lookup_insert_ne by (intros E; by apply (path_ne dv dv' a)). rewrite lookup_insert_ne; [done|]. rewrite !path_dots by done. intros E. apply Hne. by eapply dotted_inj.
    + destruct Hf' as [Hd' _]. cbn [snd]. eapply good_other; [done|done|by rewrite lookup_insert_ne|]. intros a. rewrite lookup_insert_ne; [done|]. intros E. by apply (path_ne dv dv' a).
  - assert (Hs : good (foldl (fun s o => step V loads format o s) ∅ ops) dv r) by (apply IH; intros o Ho; apply Hf, elem_of_app; by left).
    assert (Hd' : fine (ODelete dv')) by (apply Hf, elem_of_app; right; by left). cbn in Hd'. cbn [step]. unfold delete_one. eapply good_other; [done|done|by rewrite lookup_delete_ne|].
    intros a. rewrite lookup_delete_ne; [done|]. intros E. by apply (path_ne dv dv' a).
Qed.
(** After any operations as the caching adapter performs them, a data version gives what the last of them left. *)
Theorem C96_store_partial ops dv r : no_dots dv -> (forall o, o ∈ ops -> fine o) -> gives dv ops r -> get dv (steps ops ∅) = Ok r /\ exists_ V dv (steps ops ∅) = bool_decide (is_Some r).
Proof. intros Hd Hf Hg. apply good_get. by apply gives_good. Qed.
(** There is always one such answer. *)
Theorem C96_answer ops dv : (forall o, o ∈ ops -> fine o) -> exists r, gives dv ops r.
Proof.
  induction ops as [|o ops IH] using rev_ind; intros Hf; [exists None; constructor|]. destruct IH as [r Hr]; [intros o' Ho; apply Hf, elem_of_app; by left|].
  assert (Ho : fine o) by (apply Hf, elem_of_app; right; by left). destruct o as [dv' v sv ld|dv'| |now].
  - destruct (decide (dv' = dv)) as [->|Hne]; [|exists r; by apply g_other_set]. destruct sv as [sv|].
    + destruct ld as [ld|]; [|done]. destruct Ho as (_ & _ & _ & _ & [w Hw]). exists (Some w). by apply g_set.
    + exists (Some v). by apply g_set.
  - destruct (decide (dv' = dv)) as [->|Hne]; [exists None; apply g_delete|exists r; by apply g_other_delete].
  - exists None. apply g_delete_all.
  - exists r. by apply g_expire.
Qed.
(** A saver without loader, or one that takes no path, is refused and changes nothing. *)
Theorem C96_refused dv v sv ld (s : gmap string (content V)) : (is_Some sv /\ ld = None) \/ (sv = None /\ is_Some ld) \/ (exists a b, sv = Some a /\ ld = Some b /\ (ad_takes a = false \/ ad_takes b = false)) ->
  set V format dv v sv ld s = (Err RValue, s).
Proof.
  intros [[[a ->] ->]|[[-> [b ->]]|(a & b & -> & -> & Ht)]]; [done..|]. cbn. destruct Ht as [->| ->]; [done|]. by rewrite andb_false_r.
Qed.
(** Nothing is ever removed as expired, whatever is in the store. *)
Theorem C96_expired now (s : gmap string (content V)) : (delete_expired V loads now s).2 = s.
Proof. apply expire_same. Qed.
End Props.

(** ** Examples: numbers; 7 is a loader of 70; "json" adds 1000 to numbers from 100 on (as for tuples) and fails for 13 *)
Definition loads1 (n : nat) : option nat := if decide (n = 7) then Some 70 else None.
Definition format1 (fmt : string) (n : nat) : option nat := if decide (n = 13) then None else if decide (100 <= n) then Some (n + 1000) else Some n.
Definition json : adapter := Adapter "json" true.
Definition ops1 : list (op nat) := [OSet "a" 1 None None; OSet "b" 200 (Some json) (Some json); OSet "a" 3 (Some json) (Some json); OExpire 5; ODelete "c"].
Example C96_store_case : (forall o, o ∈ ops1 -> fine loads1 format1 o) /\ no_dots "a" /\ gives format1 "a" ops1 (Some 3) /\ gives format1 "b" ops1 (Some 1200).
Proof.
  assert (Hn : forall c, c <> "."%char -> no_dots (String c "")). { intros c Hc [|x [|y a]] b [=]; congruence. }
  split; [|split; [by apply Hn|split]].
  - intros o Ho. unfold ops1 in Ho. repeat (apply elem_of_cons in Ho as [->|Ho]; [cbn; repeat split; try (by apply Hn); by eexists|]). by apply elem_of_nil in Ho.
  - apply (g_other_delete _ _ [_; _; _; _]); [done|]. apply (g_expire _ _ [_; _; _]). by apply (g_set _ _ [_; _]).
  - apply (g_other_delete _ _ [_; _; _; _]); [done|]. apply (g_expire _ _ [_; _; _]). apply (g_other_set _ _ [_; _]); [done|]. by apply (g_set _ _ [_]).
Qed.
Notation steps1 := (steps nat loads1 format1).
Example C96_store_run : get nat loads1 "a" (steps1 ops1 ∅) = Ok (Some 3) /\ get nat loads1 "b" (steps1 ops1 ∅) = Ok (Some 1200).
Proof. by vm_compute. Qed.

(** That a result that exists can be retrieved: if a saver's file is gone, it exists and None is retrieved *)
Theorem C96_exists_refuted : exists s : gmap string (content nat), exists_ nat "a" s = true /\ get nat loads1 "a" s = Ok None /\ s = delete "a.json" (steps1 [OSet "a" 1 (Some json) (Some json)] ∅).
Proof. exists (delete "a.json" (steps1 [OSet "a" 1 (Some json) (Some json)] ∅)). by vm_compute. Qed.
(** That a result deleted is gone: the saver's file stays *)
Theorem C96_deleted_refuted : exists s : gmap string (content nat), s = steps1 [OSet "a" 1 (Some json) (Some json); ODelete "a"] ∅ /\ s !! "a.json" = Some (CData "json" 1).
Proof. eexists. split; [done|]. by vm_compute. Qed.
(** That a failing save leaves the result that was there: it can no longer be retrieved *)
Theorem C96_failed_refuted : exists s : gmap string (content nat), get nat loads1 "a" s = Ok (Some 1) /\ (set nat format1 "a" 13 (Some json) (Some json) s).1 = Err RSave /\
  exists_ nat "a" (set nat format1 "a" 13 (Some json) (Some json) s).2 = true /\ get nat loads1 "a" (set nat format1 "a" 13 (Some json) (Some json) s).2 = Err RLoad.
Proof. exists (steps1 [OSet "a" 1 (Some json) (Some json)] ∅). by vm_compute. Qed.
(** That a value stored without saver comes back: of a loader, the data it loads come back *)
Theorem C96_loader_refuted : exists v w, get nat loads1 "a" (steps1 [OSet "a" v None None] ∅) = Ok (Some w) /\ w <> v.
Proof. exists 7, 70. split; [by vm_compute|done]. Qed.
(** That data versions do not disturb each other: those that differ after a dot share their saver's file *)
Theorem C96_dots_refuted : exists dv dv' : string, dv <> dv' /\ get nat loads1 dv (steps1 [OSet dv 1 (Some json) (Some json); OSet dv' 2 (Some json) (Some json)] ∅) = Ok (Some 2).
Proof. exists "v.1", "v.2". split; [done|]. by vm_compute. Qed.
(** That expired results can be removed from every store: with a saver's file there is an exception *)
Theorem C96_expire_refuted : exists ops, (forall o, o ∈ ops -> fine loads1 format1 o) /\ (delete_expired nat loads1 0 (steps1 ops ∅)).1 = false.
Proof.
  exists [OSet "a" 1 (Some json) (Some json)]. split; [|by vm_compute]. intros o Ho. apply elem_of_list_singleton in Ho as ->. cbn. repeat split; [|by eexists]. intros [|x [|y a]] b [=].
Qed.

Print Assumptions C96_store_partial.
Print Assumptions C96_answer.
Print Assumptions C96_refused.
Print Assumptions C96_expired.
Print Assumptions C96_exists_refuted.
Print Assumptions C96_deleted_refuted.
Print Assumptions C96_failed_refuted.
Print Assumptions C96_loader_refuted.
Print Assumptions C96_dots_refuted.
Print Assumptions C96_expire_refuted.
