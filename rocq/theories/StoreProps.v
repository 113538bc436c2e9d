(** Theorems about the metadata and result stores (C35, C36). *)
From Verif Require Import Base Dict StoreModel StoreSpec StoreProofs.

Section Props.
Variable decodable : ckey -> bool.
Notation mem ops := (exec (mem_step decodable) mem_empty ops).
Notation sq ops := (exec (sq_step decodable) sq_empty ops).

(** ** C35: the metadata stores behave like a map *)

(** After any operations, failed ones included, the in-memory store answers get, exists, len
    and get_run_ids as the map from each key to the data version last set. *)
Theorem C35_memory ops o : asks o = true -> (forall r, o <> OpRun r) ->
  answers (latest ops) ops o (mem_step decodable (mem ops).1 o).2.
Proof. intros A H. apply mem_answers; [done|]. intros r E. by destruct (H r E). Qed.

(** ... and get_run lists the keys set for a run, while all of them exist. *)
Theorem C35_memory_runs_partial ops r : orderly decodable ops ->
  (forall k, k ∈ set_in ops r -> latest ops k <> None) ->
  answers (latest ops) ops (OpRun r) (mem_step decodable (mem ops).1 (OpRun r)).2.
Proof. intros O H. apply mem_answers; [done|]. intros r' [= <-]. done. Qed.

(** The SQLite store, unless emptied with delete_all, answers as the map from each key to the
    data version FIRST set since its deletion. *)
Theorem C35_sqlite_partial ops o :
  (forall x, x ∈ ops -> match x with OpSet k _ _ b => b || decodable k = true | OpDeleteAll => False | _ => True end) ->
  asks o = true ->
  (forall r, o = OpRun r -> forall k, k ∈ set_in ops r -> first_set ops k <> None) ->
  answers (first_set ops) ops o (sq_step decodable (sq ops).1 o).2.
Proof. intros K. by apply sq_answers. Qed.

(** Both stores give the same answers to every sequence of operations in which no key is
    given another data version, nothing missing is deleted, and nothing is asked about runs
    with deleted keys. *)
Theorem C35_agree_partial ops : orderly decodable ops -> consistent ops -> (mem ops).2 = (sq ops).2.
Proof. apply stores_agree. Qed.

(** ** C36: persisting and loading *)

(** [InMemoryMetadataStore.persist_to] an empty store, if no recorded key has been deleted:
    the target, in memory or SQLite, answers every question as the source does. *)
Theorem C36_persist_metadata_partial ops : orderly decodable ops ->
  (forall r k, k ∈ set_in ops r -> latest ops k <> None) ->
  exists L, persist_ops (mem ops).1 = (L, true) /\
    forall o, asks o = true ->
      (mem_step decodable (mem L).1 o).2 = (mem_step decodable (mem ops).1 o).2 /\
      (sq_step decodable (sq L).1 o).2 = (mem_step decodable (mem ops).1 o).2.
Proof. apply persist_ok. Qed.

(** [InMemoryMetadataStore.load_from] a SQLite store: the new store answers every question as
    the source does. *)
Theorem C36_load_metadata_partial ops o : orderly decodable ops -> asks o = true ->
  (mem_step decodable (mem (load_ops (sq ops).1)).1 o).2 = (sq_step decodable (sq ops).1 o).2.
Proof. apply load_ok. Qed.
End Props.

(** Results: [persist_to] copies every result; *)
Theorem C36_persist_results {V} (none : V) (s : gmap dver V) d :
  r_exists (r_persist s ∅) d = r_exists s d /\ r_get none (r_persist s ∅) d = r_get none s d.
Proof. unfold r_exists, r_get. by rewrite r_persist_ok. Qed.
(** [load_from] copies those of the given data versions that exist. *)
Theorem C36_load_results_partial {V} (none : V) (s : gmap dver V) vs d :
  (forall d, d ∈ vs -> r_exists s d = true) -> d ∈ vs ->
  r_exists (r_load none s vs) d = r_exists s d /\ r_get none (r_load none s vs) d = r_get none s d.
Proof.
  intros H Hd. rewrite (H d Hd). unfold r_exists, r_get at 1. rewrite r_load_ok, decide_True by done. done.
Qed.

(** ** Non-vacuity *)
Definition ok (_ : string) := true.
Definition session : list op :=
  [OpInit "r1"; OpSet "k1" "d1" "r1" true; OpSet "k2" "d2" "r1" true; OpGet "k1"; OpInit "r2";
   OpSet "k1" "d1" "r2" true; OpExists "k3"; OpSet "k3" "d3" "r2" false; OpLen; OpRunIds; OpRun "r1";
   OpInit "r3"; OpSet "k4" "d4" "r3" true; OpDelete "k4"; OpGet "k4"; OpExists "k4"; OpRun "r2"; OpRun "r4"].

(** Checkers for the two conditions on sequences. *)
Definition ord_step (pre : list op) (o : op) : bool :=
  match o with
  | OpInit r => bool_decide (r ∉ started pre)
  | OpSet _ _ r _ => bool_decide (r ∈ started pre)
  | OpDeleteAll => false
  | _ => true
  end.
Definition con_step (pre : list op) (o : op) : bool :=
  match o with
  | OpSet k d _ _ => bool_decide (latest pre k = None) || bool_decide (latest pre k = Some d)
  | OpDelete k => bool_decide (latest pre k <> None)
  | OpRun r => forallb (fun k => bool_decide (latest pre k <> None)) (set_in pre r)
  | _ => true
  end.
Fixpoint every (f : list op -> op -> bool) (pre l : list op) : bool :=
  match l with [] => true | o :: l' => f pre o && every f (pre ++ [o]) l' end.
Lemma every_split f pre l : every f pre l = true ->
  forall a o b, l = a ++ o :: b -> f (pre ++ a) o = true.
Proof.
  revert pre. induction l as [|x l IH]; intros pre H a o b E; [by destruct a|].
  cbn in H. apply andb_true_iff in H as [H1 H2]. destruct a as [|y a]; cbn in E; injection E as -> ->.
  - by rewrite app_nil_r.
  - specialize (IH _ H2 a o b eq_refl). by rewrite <- app_assoc in IH.
Qed.
Lemma orderly_ok l : every ord_step [] l = true -> orderly ok l.
Proof.
  intros H a o b E. specialize (every_split _ [] l H a o b E) as S; cbn [app] in S; destruct o; cbn in S; try done.
  - by apply bool_decide_eq_true in S.
  - by apply bool_decide_eq_true in S.
Qed.
Lemma consistent_ok l : every con_step [] l = true -> consistent l.
Proof.
  intros H a o b E. specialize (every_split _ [] l H a o b E) as S; cbn [app] in S; destruct o; cbn in S; try done.
  - apply orb_true_iff in S as [S|S]; apply bool_decide_eq_true in S; auto.
  - by apply bool_decide_eq_true in S.
  - intros k Hk. rewrite forallb_forall in S. specialize (S k). rewrite bool_decide_eq_true in S.
    apply S. by apply elem_of_list_In.
Qed.
Example session_good : orderly ok session /\ consistent session.
Proof. split; [apply orderly_ok|apply consistent_ok]; by vm_compute. Qed.
Example session_answers :
  (exec (mem_step ok) mem_empty session).2 =
  [OUnit; OUnit; OUnit; OVer (Some "d1"); OUnit; OUnit; OBool false; OUnit; ONat 3; OIds ["r1"; "r2"];
   ORun [("k1", "d1"); ("k2", "d2")]; OUnit; OUnit; OUnit; OVer None; OBool false;
   ORun [("k1", "d1"); ("k3", "d3")]; OErr EIndex].
Proof. by vm_compute. Qed.
Example session_agrees : (exec (mem_step ok) mem_empty session).2 = (exec (sq_step ok) sq_empty session).2.
Proof. apply C35_agree_partial; apply session_good. Qed.

(** A store without deleted keys is persisted, and loaded again. *)
Definition kept : list op :=
  [OpInit "r1"; OpSet "k1" "d1" "r1" true; OpSet "k2" "d2" "r1" true; OpInit "r2"; OpSet "k1" "d9" "r2" true; OpInit "r3"].
Example kept_orderly : orderly ok kept /\ forall r k, k ∈ set_in kept r -> latest kept k <> None.
Proof.
  split.
  - apply orderly_ok; by vm_compute.
  - intros r k. unfold set_in, kept. cbn [omap list_omap].
    repeat case_decide; cbn; rewrite ?elem_of_cons, ?elem_of_nil; intros X;
      destruct_or?; subst; try done; by vm_compute.
Qed.
Example kept_persisted :
  persist_ops (exec (mem_step ok) mem_empty kept).1 =
  ([OpInit "r1"; OpInit "r2"; OpInit "r3"; OpSet "k1" "d9" "r1" false; OpSet "k2" "d2" "r1" false; OpSet "k1" "d9" "r2" false], true).
Proof. by vm_compute. Qed.
Example results_loaded :
  r_get 0 (r_load 0 {["d1" := 1; "d2" := 2]} ["d1"; "d2"]) "d2" = 2.
Proof. by vm_compute. Qed.

(** ** Where the stores do not behave like one map *)

(** Setting a key again (a RECOMPUTE node whose result changed): the in-memory store keeps
    the new data version, SQLite the old one. *)
Theorem C35_overwrite_refuted : exists ops,
  orderly ok ops /\ (exec (mem_step ok) mem_empty ops).2 <> (exec (sq_step ok) sq_empty ops).2 /\
  last (exec (mem_step ok) mem_empty ops).2 = Some (OVer (Some "new")) /\
  last (exec (sq_step ok) sq_empty ops).2 = Some (OVer (Some "old")).
Proof.
  exists [OpInit "r1"; OpSet "k" "old" "r1" true; OpSet "k" "new" "r1" true; OpGet "k"].
  split_and!; [apply orderly_ok; by vm_compute|by vm_compute..].
Qed.
(** Deleting a missing key: KeyError in memory, nothing in SQLite. *)
Theorem C35_delete_missing_refuted : exists ops,
  orderly ok ops /\ (exec (mem_step ok) mem_empty ops).2 = [OErr EKey] /\ (exec (sq_step ok) sq_empty ops).2 = [OUnit].
Proof.
  exists [OpDelete "k"]. split_and!; [apply orderly_ok; by vm_compute|by vm_compute..].
Qed.
(** Asking for a run after one of its keys was deleted: KeyError in memory; SQLite leaves the
    key out. *)
Theorem C35_run_after_delete_refuted : exists ops,
  orderly ok ops /\ consistent ops /\
  (mem_step ok (exec (mem_step ok) mem_empty ops).1 (OpRun "r1")).2 = OErr EKey /\
  (sq_step ok (exec (sq_step ok) sq_empty ops).1 (OpRun "r1")).2 = ORun [].
Proof. exists [OpInit "r1"; OpSet "k" "d" "r1" true; OpDelete "k"].
  split_and!; [apply orderly_ok|apply consistent_ok|..]; by vm_compute. Qed.
(** After delete_all the in-memory store is an empty map; with SQLite every later operation
    raises, as the tables are not created again. *)
Theorem C35_delete_all_refuted :
  (forall k, (mem_step ok (exec (mem_step ok) mem_empty [OpDeleteAll]).1 (OpGet k)).2 = OVer None) /\
  forall ops, ~ In OpDeleteAll ops ->
    Forall (fun a => a = OErr ENoTable) (exec (sq_step ok) (exec (sq_step ok) sq_empty [OpDeleteAll]).1 ops).2.
Proof.
  split; [done|]. intros ops H.
  assert (X : (exec (sq_step ok) sq_empty [OpDeleteAll]).1 = SqStore false ∅ [] []) by done. rewrite X; clear X.
  induction ops as [|o ops IH]; [by constructor|].
  assert (E : sq_step ok (SqStore false ∅ [] []) o = (SqStore false ∅ [] [], OErr ENoTable)).
  { destruct o; try done; [by destruct decoded|exfalso; apply H; by left]. }
  cbn [exec]. rewrite E. specialize (IH (fun Y => H (or_intror Y))).
  destruct (exec _ _ ops) as [s l]. cbn [snd]. by constructor.
Qed.

(** Persisting after a key of some run was deleted raises KeyError; the remaining keys are
    not persisted. *)
Theorem C36_persist_deleted_refuted : exists ops,
  orderly ok ops /\ consistent ops /\
  (persist_ops (exec (mem_step ok) mem_empty ops).1).2 = false /\
  (mem_step ok (exec (mem_step ok) mem_empty ops).1 (OpGet "k2")).2 = OVer (Some "d2") /\
  (sq_step ok (exec (sq_step ok) sq_empty (persist_ops (exec (mem_step ok) mem_empty ops).1).1).1 (OpGet "k2")).2 = OVer None.
Proof.
  exists [OpInit "r1"; OpSet "k1" "d1" "r1" true; OpSet "k2" "d2" "r1" true; OpDelete "k1"].
  split_and!; [apply orderly_ok|apply consistent_ok|..]; by vm_compute.
Qed.
(** Data versions set for a run that was never started are lost by loading. *)
Theorem C36_load_unstarted_refuted : exists ops,
  (sq_step ok (exec (sq_step ok) sq_empty ops).1 (OpGet "k1")).2 = OVer (Some "d1") /\
  (mem_step ok (exec (mem_step ok) mem_empty (load_ops (exec (sq_step ok) sq_empty ops).1)).1 (OpGet "k1")).2 = OVer None.
Proof. exists [OpSet "k1" "d1" "r1" true]. split_and!; by vm_compute. Qed.
(** A data version without a result is loaded as the result None, which then exists. *)
Theorem C36_load_missing_result_refuted : exists (s : gmap dver nat) vs d,
  d ∈ vs /\ r_exists s d = false /\ r_exists (r_load 0 s vs) d = true.
Proof. exists ∅, ["d"], "d". split_and!; [by left|by vm_compute..]. Qed.

Print Assumptions C35_memory.
Print Assumptions C35_memory_runs_partial.
Print Assumptions C35_sqlite_partial.
Print Assumptions C35_agree_partial.
Print Assumptions C36_persist_metadata_partial.
Print Assumptions C36_load_metadata_partial.
Print Assumptions C36_persist_results.
Print Assumptions C36_load_results_partial.
Print Assumptions C35_overwrite_refuted.
Print Assumptions C35_delete_missing_refuted.
Print Assumptions C35_run_after_delete_refuted.
Print Assumptions C35_delete_all_refuted.
Print Assumptions C36_persist_deleted_refuted.
Print Assumptions C36_load_unstarted_refuted.
Print Assumptions C36_load_missing_result_refuted.
