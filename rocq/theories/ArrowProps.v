(** C76: what the comparison of schemas says, and when the validator stops or warns. *)
From Verif Require Import Base Dict NodeModel DecorModel DecorProofs ArrowModel ArrowSpec ArrowProofs.

(** *** Equality *)
Theorem C76_diff cs cf s t : diff_schemas cs cf s t = Ok [] <-> same_schema (cs || cf) s t.
Proof. apply diff_same. Qed.

(** *** What the diff says of the columns *)
Theorem C76_columns cs cf s t : wf_schema s -> wf_schema t -> apart cf s t -> ~ same_schema (cs || cf) s t ->
  exists d, diff_schemas cs cf s t = Ok d /\ NoDup (dkeys d) /\ forall k, k <> metadata_field ->
    (forall f, column_of s k f -> (forall g, ~ column_of t k g) -> dget d k = Some (PDiff ADDED (field_json f))) /\
    (forall g, column_of t k g -> (forall f, ~ column_of s k f) -> dget d k = Some (PDiff REMOVED (field_json g))) /\
    ((forall f, ~ column_of s k f) -> (forall g, ~ column_of t k g) -> dget d k = None) /\
    (forall f g, column_of s k f -> column_of t k g ->
       ((forall a, ~ differs a f g) -> dget d k = Some (PDiff EQUAL (field_json f))) /\
       (forall a, differs a f g -> exists fd x, dget d k = Some (PDiff UNEQUAL (PDict fd)) /\ dget fd a = Some (PDiff UNEQUAL x)) /\
       (forall a fd x, dget d k = Some (PDiff UNEQUAL (PDict fd)) -> dget fd a = Some (PDiff UNEQUAL x) -> differs a f g)).
Proof.
  intros Hs Ht Ha Hne. destruct (diff_ok cs cf s t Hs Ht Ha Hne) as (d & Hd & Hn & Hg). exists d. split_and!; [done..|]. intros k Hk.
  assert (Hdk : dget d k = centry cf s t k) by (rewrite Hg; unfold dentry; by rewrite decide_False). unfold centry in Hdk. split_and!.
  - intros f Hf Hnone. rewrite (column_find s k f Hs Hf), (proj2 (column_none t k) Hnone) in Hdk. done.
  - intros g Hgc Hnone. rewrite (column_find t k g Ht Hgc), (proj2 (column_none s k) Hnone) in Hdk. done.
  - intros H1 H2. rewrite (proj2 (column_none s k) H1), (proj2 (column_none t k) H2) in Hdk. done.
  - intros f g Hf Hgc. rewrite (column_find s k f Hs Hf), (column_find t k g Ht Hgc) in Hdk.
    assert (Hnm : f_name f = f_name g) by (destruct Hf as [_ ->], Hgc as [_ ->]; done). rewrite Hdk. unfold differs in *. split_and!.
    + intros Hno. rewrite decide_True; [done|]. split_and!; apply dec_stable; intros Hx; [apply (Hno "type")|apply (Hno "nullable")|apply (Hno "metadata")]; naive_solver.
    + intros a Hdf. rewrite decide_False by naive_solver. destruct (proj1 (fdiff_differs cf f g a Hnm) Hdf) as [x Hx]. by exists (fdiff cf f g), x.
    + intros a fd x Hfd Hx. destruct (decide _); [done|]. injection Hfd as <-. eapply fdiff_differs; [done|by eexists].
Qed.

(** *** What people are shown. In full this would hold without [tame]; the refutations below are what it excludes. *)
Theorem C76_readable_partial cs cf s t : wf_schema s -> wf_schema t -> tame cs cf s t -> ~ same_schema (cs || cf) s t ->
  exists d m, diff_schemas cs cf s t = Ok d /\ readable (PDict d) = Ok m /\ shows (Keys (schema_report cf s t)) (PDict m).
Proof. intros Hs Ht Htame Hne. destruct (report_ok cs cf s t Hs Ht Htame Hne) as (d & m & Hd & _ & Hm & Hsh). by exists d, m. Qed.

(** *** The validator *)
(** A node with a reference: nothing happens when the schema is the same. *)
Theorem C76_accepts st n s v ref : st_check st = true -> v_files v !! schema_path n = Some ref -> same_schema (st_cs st || st_cf st) s ref ->
  exists v', after_node st n s v = Ok v' /\ v_files v' = v_files v /\ v_warned v' = v_warned v /\ v_diffs v' = v_diffs v /\ dget (v_schemas v') n = Some s.
Proof. intros Hc Hf Hs. eexists. split; [by eapply after_same|]. split_and!; [done..|]. cbn. apply dget_dset_eq. Qed.
(** With importance "fail" the run goes on only then. *)
Theorem C76_fail st n s v ref : st_check st = true -> st_fail st = true -> v_files v !! schema_path n = Some ref ->
  (exists v', after_node st n s v = Ok v') <-> same_schema (st_cs st || st_cf st) s ref.
Proof. apply after_fail. Qed.
(** What differs is told, in the exception or the warning. *)
Theorem C76_told_partial st n s v ref : st_check st = true -> v_files v !! schema_path n = Some ref -> wf_schema s -> wf_schema ref -> tame (st_cs st) (st_cf st) s ref ->
  ~ same_schema (st_cs st || st_cf st) s ref ->
  exists m, shows (Keys (schema_report (st_cf st) s ref)) (PDict m) /\
    if st_fail st then after_node st n s v = Err (XRuntime m)
    else exists v', after_node st n s v = Ok v' /\ v_files v' = v_files v /\ v_warned v' = v_warned v ++ [(n, m)].
Proof.
  intros Hc Hf Hs Ht Htame Hne. destruct (after_warn st n s v ref Hc Hf Hs Ht Htame Hne) as (d & m & Hsh & Ha). exists m. split; [done|]. rewrite Ha.
  destruct (st_fail st); [done|]. by eexists.
Qed.
(** A node without: its schema becomes the reference, or the run stops. *)
Theorem C76_saves st n s v :
  (st_check st = false \/ (v_files v !! schema_path n = None /\ st_must_exist st = false) ->
     exists v', after_node st n s v = Ok v' /\ v_files v' = <[schema_path n := s]> (v_files v) /\ v_warned v' = v_warned v) /\
  (st_check st = true -> v_files v !! schema_path n = None -> st_must_exist st = true -> after_node st n s v = Err XFile).
Proof.
  unfold after_node. cbn [v_files v_schemas v_diffs v_warned]. split.
  - intros [-> |[-> ->]]; cbn [negb]; [by eexists|]. destruct (st_check st); cbn [negb]; by eexists.
  - intros -> -> ->. done.
Qed.
(** Over runs: a first run makes the references; a second that gives the same schemas leaves all as it is; with "fail" no other
    ends. *)
Theorem C76_runs st ns v v1 ns2 : st_check st = true -> st_must_exist st = false -> NoDup (map (fun ns => schema_path ns.1) ns) ->
  (forall n s, (n, s) ∈ ns -> v_files v !! schema_path n = None) -> run_nodes st ns v = Ok v1 -> map fst ns2 = map fst ns ->
  v_warned v1 = v_warned v /\
  ((forall n s s', (n, s) ∈ ns -> (n, s') ∈ ns2 -> same_schema (st_cs st || st_cf st) s' s) ->
     exists v2, run_nodes st ns2 v1 = Ok v2 /\ v_files v2 = v_files v1 /\ v_warned v2 = v_warned v1) /\
  (st_fail st = true -> (exists v2, run_nodes st ns2 v1 = Ok v2) -> forall n s s', (n, s) ∈ ns -> (n, s') ∈ ns2 -> same_schema (st_cs st || st_cf st) s' s).
Proof.
  intros Hc Hm Hn Hf Hr Hfst. destruct (run_saved st ns v Hc Hm Hn Hf) as (v1' & Hr' & Hw & _ & Hall). assert (v1' = v1) as -> by congruence. split; [done|].
  assert (H2 : forall n s', (n, s') ∈ ns2 -> exists s, (n, s) ∈ ns).
  { intros n s' Hin. assert (Hn' : n ∈ map fst ns) by (rewrite <- Hfst; apply elem_of_list_fmap; by exists (n, s')). apply elem_of_list_fmap in Hn' as ([n0 s] & -> & Hin'). by exists s. }
  split.
  - intros Hsame. destruct (run_same st ns2 v1 Hc) as (v2 & ? & ? & ? & _); [|by exists v2]. intros n s' Hin. destruct (H2 n s' Hin) as [s Hs]. exists s. split; [by apply Hall|by eapply Hsame].
  - intros Hfl Hok n s s' Hin Hin'. destruct (proj1 (run_fail st ns2 v1 Hc Hfl ltac:(intros n0 s0 H0; destruct (H2 n0 s0 H0) as [s1 Hs1]; by exists s1; apply Hall)) Hok n s' Hin') as (ref & Href & Hs).
    rewrite (Hall n s Hin) in Href. injection Href as <-. done.
Qed.
(** References are never changed by checking. *)
Theorem C76_kept st ns v v' p ref : st_check st = true -> v_files v !! p = Some ref -> run_nodes st ns v = Ok v' -> v_files v' !! p = Some ref.
Proof. apply run_files. Qed.
(** Nodes have their own files, when their names have no dots. *)
Theorem C76_paths_partial n n' : has_dot n = false -> has_dot n' = false -> schema_path n = schema_path n' -> n = n'.
Proof. apply path_inj. Qed.

(** *** A case *)
Definition fld n t : field := Field n t true ∅.
Definition old : schema := Schema [fld "id" "int64"; Field "x" "double" true {["unit" := "m"]}; fld "gone" "string"] {["version" := "1"]}.
Definition new : schema := Schema [fld "id" "int64"; Field "x" "float" true {["unit" := "km"]}; fld "come" "string"] {["version" := "2"]}.
Lemma wf_of s : bool_decide (NoDup (map f_name (s_fields s))) = true -> forallb (fun f => negb (bool_decide (f_name f = metadata_field)) && negb (bool_decide (f_type f = ""))) (s_fields s) = true -> wf_schema s.
Proof.
  intros H1%bool_decide_eq_true H2. rewrite forallb_forall in H2. split_and!; [done| |].
  - intros (f & Hf & Hin%elem_of_list_In)%elem_of_list_fmap. apply H2 in Hin. apply andb_true_iff in Hin as [Hin _]. by rewrite bool_decide_eq_true_2 in Hin.
  - apply Forall_forall. intros f Hin%elem_of_list_In Hf. apply H2 in Hin. apply andb_true_iff in Hin as [_ Hin]. by rewrite bool_decide_eq_true_2 in Hin.
Qed.
Example C76_wf : wf_schema old /\ wf_schema new.
Proof. split; apply wf_of; by vm_compute. Qed.
Lemma showable_of k (v w : string) : k <> metadata_field -> v <> "" -> showable ({[k := v]} : meta) {[k := w]}.
Proof.
  intros Hk Hv. split_and!; [by rewrite lookup_singleton_ne..|]. intros k' v' w' H1%lookup_singleton_Some _ _. by destruct H1 as [_ <-].
Qed.
Example C76_tame : tame false false new old /\ tame true false new old /\ ~ same_schema false new old /\ ~ same_schema true new old /\ apart false new old.
Proof.
  assert (Ht : forall cs, tame cs false new old).
  { intros cs. split_and!; [by apply showable_of|done| |].
    - intros _. right. split_and!; vm_compute; congruence.
    - intros k f g [Hf <-] [Hg Hk]. unfold new, old in Hf, Hg. cbn [s_fields] in Hf, Hg. rewrite !elem_of_cons in Hf, Hg.
      destruct Hf as [-> |[-> |[-> |Hf%elem_of_nil]]], Hg as [-> |[-> |[-> |Hg%elem_of_nil]]]; done. }
  assert (Hs : forall md, ~ same_schema md new old).
  { intros md H%schema_equals_iff. destruct md; by vm_compute in H. }
  split_and!; [apply Ht|apply Ht|apply Hs|apply Hs|done].
Qed.
Example C76_shown : match diff_schemas true false new old with Ok d => readable (PDict d) | Err e => Err e end =
  Ok [("come", PStr "+"); ("gone", PStr "-"); ("__metadata", PDict [("version", PDict [("cur", PStr "2"); ("ref", PStr "1")])]);
      ("x", PDict [("type", PDict [("cur", PStr "float"); ("ref", PStr "double")]);
                   ("metadata", PDict [("cur", PDict [("unit", PStr "km")]); ("ref", PDict [("unit", PStr "m")])])])].
Proof. by vm_compute. Qed.
(** With the metadata of columns compared. *)
Definition same_version : schema := Schema (s_fields new) (s_meta old).
Example C76_tame_fields : tame true true same_version old /\ wf_schema same_version /\ ~ same_schema true same_version old /\ apart true same_version old.
Proof.
  split_and!.
  - split_and!; [by apply showable_of|by left|done|].
    intros k f g [Hf <-] [Hg Hk]. unfold same_version, new, old in Hf, Hg. cbn [s_fields] in Hf, Hg. rewrite !elem_of_cons in Hf, Hg.
    destruct Hf as [-> |[-> |[-> |Hf%elem_of_nil]]], Hg as [-> |[-> |[-> |Hg%elem_of_nil]]]; try done.
    split; [done|]. intros _. split_and!; [by apply showable_of|done|done].
  - apply wf_of; by vm_compute.
  - intros H%schema_equals_iff. by vm_compute in H.
  - by left.
Qed.
(** Two runs. *)
Definition defaults : settings := Settings true false false false false.
Definition failing : settings := Settings true false true false false.
Definition empty : vstate := VState ∅ [] [] [].
Definition first_run : list (name * schema) := [("raw", old); ("clean", new)].
Example C76_first : NoDup (map (fun ns => schema_path ns.1) first_run) /\ (forall n s, (n, s) ∈ first_run -> v_files empty !! schema_path n = None) /\
  exists v1, run_nodes failing first_run empty = Ok v1 /\ v_files v1 !! "raw.schema" = Some old /\ v_files v1 !! "clean.schema" = Some new /\
    (exists v2, run_nodes failing first_run v1 = Ok v2) /\ (exists m, run_nodes failing [("raw", old); ("clean", old)] v1 = Err (XRuntime m)).
Proof.
  split_and!.
  - apply (bool_decide_unpack _). vm_compute. exact I.
  - done.
  - eexists. split; [vm_compute; reflexivity|]. split; [vm_compute; reflexivity|]. split; [vm_compute; reflexivity|]. split; eexists; vm_compute; reflexivity.
Qed.

(** *** What it does not say *)
(** By default the metadata of the schema are not compared; but when they did not change (the same version of the function) and a
    column did, there is no warning but an AttributeError. *)
Theorem C76_same_version_refuted : wf_schema same_version /\ wf_schema old /\ ~ same_schema false same_version old /\
  exists v, v_files v !! schema_path "raw" = Some old /\ after_node defaults "raw" same_version v = Err XAttribute.
Proof.
  split_and!; [apply wf_of; by vm_compute..| |].
  - intros H%schema_equals_iff. by vm_compute in H.
  - exists (VState {["raw.schema" := old]} [] [] []). split; vm_compute; reflexivity.
Qed.
(** When the metadata of columns are compared and the version changed, a KeyError. *)
Definition new_version : schema := Schema (s_fields old) {["version" := "2"]}.
Theorem C76_field_metadata_refuted : wf_schema new_version /\ wf_schema old /\ s_fields new_version = s_fields old /\
  diff_schemas false true new_version old = Err XKeyError /\ diff_schemas true true new_version old = Err XKeyError.
Proof. split_and!; [apply wf_of; by vm_compute..|done|vm_compute; reflexivity|vm_compute; reflexivity]. Qed.
(** A column that is no longer nullable: an AttributeError. *)
Definition nullable_x (b : bool) : schema := Schema [Field "x" "int64" b ∅] ∅.
Theorem C76_not_null_refuted : exists d, diff_schemas true false (nullable_x false) (nullable_x true) = Ok d /\ readable (PDict d) = Err XAttribute /\
  exists d' m, diff_schemas true false (nullable_x true) (nullable_x false) = Ok d' /\ readable (PDict d') = Ok m.
Proof. eexists. split_and!; [vm_compute; reflexivity|vm_compute; reflexivity|]. eexists _, _. split; vm_compute; reflexivity. Qed.
(** The columns in another order: schemas that differ and a report that is empty. *)
Theorem C76_order_refuted : exists s t d, wf_schema s /\ wf_schema t /\ ~ same_schema true s t /\ diff_schemas true false s t = Ok d /\ d <> [] /\ readable (PDict d) = Ok [].
Proof.
  exists (Schema [fld "a" "int64"; fld "b" "int64"] ∅), (Schema [fld "b" "int64"; fld "a" "int64"] ∅). eexists. split_and!; [apply wf_of; by vm_compute..| | | |].
  - intros H%schema_equals_iff. by vm_compute in H.
  - vm_compute; reflexivity.
  - done.
  - vm_compute; reflexivity.
Qed.
(** Nodes of one namespace share a file: a first run of two nodes already compares one with the other. *)
Theorem C76_namespaced_refuted : schema_path "sub.raw" = schema_path "sub.clean" /\
  exists m, run_nodes (Settings true false true true false) [("sub.raw", old); ("sub.clean", new)] empty = Err (XRuntime m).
Proof. split; [by vm_compute|]. eexists. vm_compute. reflexivity. Qed.
(** A column "__metadata" that changes cannot be told from metadata. *)
Theorem C76_metadata_column_refuted : exists d, diff_schemas true false (Schema [fld "__metadata" "int64"] ∅) (Schema [fld "__metadata" "double"] ∅) = Ok d /\
  readable (PDict d) = Ok [("__metadata", PDict [("type", PDict [("cur", PStr "int64"); ("ref", PStr "double")])])].
Proof. eexists. split; vm_compute; reflexivity. Qed.
(** A key "cur" of the metadata of a column: the report has values that are not JSON. *)
Definition with_cur (v : string) : schema := Schema [Field "x" "int64" true {["cur" := v]}] ∅.
Theorem C76_cur_refuted : exists v, v_files v !! schema_path "raw" = Some (with_cur "a") /\ after_node (Settings true false false true true) "raw" (with_cur "b") v = Err XJson.
Proof. exists (VState {["raw.schema" := with_cur "a"]} [] [] []). split; vm_compute; reflexivity. Qed.
(** A reference without metadata (not saved by the validator), by default: an AttributeError. *)
Theorem C76_foreign_reference_refuted : exists d, diff_schemas false false new (Schema (s_fields old) ∅) = Ok d /\ readable (PDict d) = Err XAttribute.
Proof. eexists. split; vm_compute; reflexivity. Qed.

Print Assumptions C76_diff.
Print Assumptions C76_columns.
Print Assumptions C76_readable_partial.
Print Assumptions C76_accepts.
Print Assumptions C76_fail.
Print Assumptions C76_told_partial.
Print Assumptions C76_saves.
Print Assumptions C76_runs.
Print Assumptions C76_kept.
Print Assumptions C76_paths_partial.
Print Assumptions C76_same_version_refuted.
Print Assumptions C76_field_metadata_refuted.
Print Assumptions C76_not_null_refuted.
Print Assumptions C76_order_refuted.
Print Assumptions C76_namespaced_refuted.
Print Assumptions C76_metadata_column_refuted.
Print Assumptions C76_cur_refuted.
Print Assumptions C76_foreign_reference_refuted.
