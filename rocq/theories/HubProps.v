(** C84: dataflows that are downloaded are those of the hub; nothing is overwritten unasked; what is
    there is listed. *)
From Coq Require Import Ascii ZArith.
From stdpp Require Import pretty gmap.
From Verif Require Import Base Dict Strings GraphModel HubModel ValidatorSpec ValidatorProofs HubSpec HubProofs.

(** ** Versions *)
(** "latest" is the first commit that the hub names. *)
Theorem C84_latest h d u text sha : commits h (user_of u) d = (200, text) -> names_commit text sha -> latest_commit h d u = Ok sha.
Proof.
  intros H (pre & post & -> & Hl & Hfirst). unfold latest_commit. rewrite H. rewrite decide_False by lia.
  rewrite after_first by done. by rewrite until_lacks.
Qed.
Theorem C84_no_commit h d u text : commits h (user_of u) d = (200, text) -> (exists sha, latest_commit h d u = Ok sha) <-> exists a b, text = a +:+ "[commit::" +:+ b.
Proof.
  intros H. unfold latest_commit. rewrite H. rewrite decide_False by lia. split.
  - intros [sha Hs]. destruct (after "[commit::" text) as [c|] eqn:E; [|done].
    clear -E. revert E. induction text as [|x text IH]; cbn [after].
    + done.
    + destruct (String.prefix "[commit::" (String x text)) eqn:Ep; intros E.
      * apply prefix_split in Ep as [r ->]. by exists "", r.
      * destruct (IH E) as (a & b & ->). by exists (String x a), b.
  - intros (a & b & Ht). destruct (after "[commit::" text) as [c|] eqn:E; [by eexists|].
    exfalso. by eapply after_none.
Qed.
Example latest_example : names_commit "x[commit::abc][commit::def]" "abc" /\ names_commit "[commit::abc]" "abc".
Proof.
  split.
  - exists "x", "[commit::def]". split; [done|]. split; [repeat split; done|]. intros a b H. destruct a as [|c a]; [done|]. cbn. lia.
  - exists "", "". split; [done|]. split; [repeat split; done|]. intros. cbn. lia.
Qed.
(** Whatever the answer, if the server fails it is an error and no commit. *)
Theorem C84_latest_failed h d u status text : commits h (user_of u) d = (status, text) -> status <> 200 -> latest_commit h d u = Err (EStatus status).
Proof. intros H Hs. unfold latest_commit. rewrite H. by rewrite decide_True. Qed.
Example C84_latest_failed_example : exists h, commits h (user_of None) "d" = (500, "[commit::abcd]") /\ latest_commit h "d" None = Err (EStatus 500).
Proof. by exists (Hub (fun _ _ => (500, "[commit::abcd]")) (fun _ _ _ _ => (404, ""))). Qed.
(** An answer that is cut short loses a character. *)
Theorem C84_cut_refuted : exists h, commits h None "d" = (200, "[commit::abcd") /\ latest_commit h "d" None = Ok "abc".
Proof. by exists (Hub (fun _ _ => (200, "[commit::abcd")) (fun _ _ _ _ => (404, ""))). Qed.

Section Props.
Variable folder : path.
Notation local_path := (local_path folder).

(** ** Pulling *)
(** Once it succeeds the files are those of the hub, of the version that was asked for. *)
Theorem C84_pulled h d u version o fs fs' : pull_module folder h d u version o fs = (Ok tt, fs') ->
  exists v, resolve h d u version = Ok v /\ (version <> "latest" -> v = version) /\
    forall f, f ∈ h_files -> exists t, files h v (user_of u) d f = (200, t) /\ fs' !! (local_path v (user_of u) d ++ [f]) = Some (EFile t).
Proof.
  unfold pull_module. intros H. destruct (resolve h d u version) as [v|e] eqn:Er; [|done]. exists v. split; [done|]. split.
  { intros Hne. unfold resolve in Er. rewrite decide_False in Er by done. by simplify_eq. }
  intros f Hf. destruct (pull_ok_inv folder h v (user_of u) d o fs) as (_ & Hm & E); [by rewrite H|].
  rewrite E in H. pose proof (fetch_ok folder h v (user_of u) d h_files (makedirs fs (local_path v (user_of u) d)).2 h_files_nodup) as Hok.
  rewrite H in Hok. by apply Hok.
Qed.
(** Nothing but these files is changed, whatever comes of it; all that is new besides are the
    directories they are in. *)
Theorem C84_elsewhere h d u version o fs v q : resolve h d u version = Ok v -> (forall f, f ∈ h_files -> q <> local_path v (user_of u) d ++ [f]) ->
  (forall e, fs !! q = Some e -> (pull_module folder h d u version o fs).2 !! q = Some e) /\
  (forall e, (pull_module folder h d u version o fs).2 !! q = Some e -> fs !! q = Some e \/ (q `prefix_of` local_path v (user_of u) d /\ e = EDir)).
Proof. intros Hr Hq. unfold pull_module. rewrite Hr. by apply pull_other. Qed.
(** Without [overwrite] no file is changed at all. *)
Theorem C84_no_overwrite h d u version fs q e : closed fs -> fs !! q = Some e -> (pull_module folder h d u version false fs).2 !! q = Some e.
Proof.
  intros Hc Hq. unfold pull_module. destruct (resolve h d u version) as [v|]; [|done]. by apply pull_keeps.
Qed.
Theorem C84_closed h d u version o fs : closed fs -> closed (pull_module folder h d u version o fs).2.
Proof. intros Hc. unfold pull_module. destruct (resolve h d u version) as [v|]; [|done]. by apply pull_closed. Qed.

(** ** Importing *)
(** The module is that of the file, which is the local one if there is and that of the hub otherwise
    or if it is to be overwritten. *)
Theorem C84_imported h d u version o fs loaded src v fs' loaded' : import_module folder h d u version o fs loaded = (Ok (src, v), fs', loaded') ->
  resolve h d u version = Ok v /\
  fs' !! (local_path v (user_of u) d ++ ["__init__.py"]) = Some (EFile src) /\
  dget loaded' d = Some (Some v) /\
  (o = false -> forall e, fs !! (local_path v (user_of u) d ++ ["__init__.py"]) = Some e -> e = EFile src /\ fs' = fs) /\
  (o = true \/ fs !! (local_path v (user_of u) d ++ ["__init__.py"]) = None -> files h v (user_of u) d "__init__.py" = (200, src)).
Proof.
  unfold import_module. destruct (resolve h d u version) as [w|] eqn:Er; [|done]. cbv zeta.
  set (file := local_path w (user_of u) d ++ ["__init__.py"]).
  destruct (if negb (fexists fs file) || o then pull folder h w (user_of u) d o fs else (Ok tt, fs)) as [r fs1] eqn:Ep. intros H.
  destruct r as [[]|e]; [|done].
  assert (w = v /\ fs1 = fs' /\ fs1 !! file = Some (EFile src) /\ loaded' = dset loaded d (Some v)) as (-> & -> & Hfile & ->).
  { destruct (dget loaded d) as [[w'|]|]; [|done|]; destruct (fs1 !! file) as [[|c]|] eqn:Ef; simplify_eq; done. }
  split_and!.
  - done.
  - done.
  - apply dget_dset_eq.
  - intros -> e He. unfold fexists in Ep. rewrite bool_decide_true in Ep by (by eexists). cbn in Ep. simplify_eq. unfold file in Hfile. rewrite Hfile in He. by simplify_eq.
  - intros Hor. assert (pull folder h v (user_of u) d o fs = (Ok tt, fs')) as Hpull.
    { destruct Hor as [->|Hnone]; [by rewrite orb_true_r in Ep|]. unfold fexists in Ep. rewrite bool_decide_false in Ep; [done|]. unfold file. rewrite Hnone. by intros [? ?]. }
    destruct (pull_ok_inv folder h v (user_of u) d o fs) as (_ & Hm & E); [by rewrite Hpull|].
    rewrite E in Hpull. pose proof (fetch_ok folder h v (user_of u) d h_files (makedirs fs (local_path v (user_of u) d)).2 h_files_nodup) as Hok.
    rewrite Hpull in Hok. destruct (Hok eq_refl "__init__.py") as (t & Ht & Hft); [left|]. cbn [snd] in Hft. unfold file in Hfile. rewrite Hfile in Hft. by simplify_eq.
Qed.
(** A dataflow called like a module that has no version cannot be imported. *)
Theorem C84_name_refuted h d u version o fs loaded : dget loaded d = Some None ->
  forall r, (import_module folder h d u version o fs loaded).1.1 <> Ok r.
Proof.
  intros H r. unfold import_module. destruct (resolve h d u version) as [w|]; [|done]. cbv zeta.
  destruct (if _ || _ then _ else _) as [[[]|e] fs1]; [|done]. by rewrite H.
Qed.

(** ** Listing *)
(** What is listed are the dataflows of users, each once. Missing: official ones
    ([C84_official_refuted]), the default version ([C84_default_refuted]). *)
Theorem C84_list_partial fs version user : closed fs -> folder <> [] -> version <> Some "latest" ->
  (forall c, fs !! folder <> Some (EFile c)) -> all_users folder fs version ->
  exists l, listed folder fs version user = Some l /\ NoDup l /\
    forall x, x ∈ l <-> in_folder folder fs x /\ want_ok version x.1.1 /\ want_ok user x.1.2.
Proof.
  intros Hc Hne Hv Hf Hall. unfold listed. cbv zeta.
  assert (match version with Some "latest" => Some "main" | v => v end = version) as ->.
  { destruct version as [v|]; [|done]. destruct (decide (v = "latest")) as [->|Hnl]; [done|]. clear -Hnl. repeat (destruct v as [|[[] [] [] [] [] [] [] []] v]; try done). }
  destruct (fs !! folder) as [[|c]|] eqn:E.
  - unfold fexists. rewrite bool_decide_true by (by rewrite E).
    destruct (candidates_spec folder fs version user E Hall) as (l & -> & Hnd & Hel).
    eexists. split; [done|]. split; [by apply NoDup_filter|]. intros [[ci usr] df]. rewrite elem_of_list_filter, Hel. unfold candidate, in_folder. cbn [fst snd].
    unfold isfile, user_dir. rewrite <-!(assoc_L (++)). cbn [app].
    split.
    + intros (H & (Hw & Hvi & Hd) & (Hw' & Hvi' & Hd') & [e He]). rewrite He in H. apply andb_prop in H as [H1 H2]. apply negb_true_iff in H1, H2. apply visible_hidden in H2.
      destruct e; [|done]. split_and!; done.
    + intros ((H1 & H2 & H3 & H4 & H5 & H6) & Hw & Hw'). rewrite H6. apply visible_hidden in H3. rewrite H3. split_and!; try done; by eexists.
  - by destruct (Hf c).
  - unfold fexists. rewrite bool_decide_false by (rewrite E; by intros [? ?]). exists []. split; [done|]. split; [constructor|].
    intros [[ci usr] df]. split; [by intros ?%elem_of_nil|]. intros [(_ & _ & _ & Hd & _) _].
    destruct (Hc folder ci) as [?|?]; [by eexists|done|congruence].
Qed.
(** After a dataflow of a user was pulled it is listed with those that were. *)
Theorem C84_list_pulled h v u d o fs fs' l : closed fs -> folder <> [] -> visible v -> visible u -> visible d -> (forall c, fs !! folder <> Some (EFile c)) ->
  pull folder h v (Some u) d o fs = (Ok tt, fs') -> listed folder fs None None = Some l ->
  exists l', listed folder fs' None None = Some l' /\ NoDup l' /\ forall x, x ∈ l' <-> x ∈ l \/ x = (v, u, d).
Proof.
  intros Hc Hne Hvv Hvu Hvd Hf Hp Hl.
  assert (all_users folder fs None) as Hall.
  { unfold listed in Hl. cbv zeta in Hl. unfold fexists in Hl. destruct (fs !! folder) as [e|] eqn:E.
    - rewrite bool_decide_true in Hl by done. destruct (candidates folder fs None None) as [l0|] eqn:E'; [|done]. by apply candidates_users in E' as [_ ?].
    - intros ci _ _ Hd. destruct (Hc folder ci) as [?|?]; [by eexists|done|congruence]. }
  destruct (pull_ok_inv folder h v (Some u) d o fs) as (_ & Hm & E); [by rewrite Hp|]. rewrite Hp in E.
  assert (closed fs') as Hc'. { pose proof (pull_closed folder h v (Some u) d o fs Hc) as H. by rewrite Hp in H. }
  assert (forall q, q <> [] -> q `prefix_of` local_path v (Some u) d -> fs' !! q = Some EDir) as Hdirs.
  { intros q Hq Hpre. assert (fs' = (fs', Ok tt : res err unit).1) as -> by done.
    pose proof (fetch_dir folder h v (Some u) d h_files (makedirs fs (local_path v (Some u) d)).2 q (makedirs_dirs fs _ Hm q Hq Hpre)) as H. rewrite <-E in H. done. }
  assert (forall q, (forall f, f ∈ h_files -> q <> local_path v (Some u) d ++ [f]) -> fs' !! q = Some EDir <-> fs !! q = Some EDir \/ (q <> [] /\ q `prefix_of` local_path v (Some u) d)) as Hq.
  { intros q Hq. destruct (pull_other folder h v (Some u) d o fs q Hq) as [H1 H2]. rewrite Hp in H1, H2. cbn [snd] in H1, H2. split.
    - intros H. destruct (H2 _ H) as [?|[Hpre _]]; [by left|]. destruct (decide (q = [])) as [->|Hnil]; [|by right].
      left. assert ((fetch folder h v (Some u) d h_files (makedirs fs (local_path v (Some u) d)).2).2 !! [] = Some EDir) as H' by (by rewrite <-E).
      rewrite fetch_other in H' by (intros f _ Hx; by destruct (local_path v (Some u) d)). apply makedirs_new in H' as [?|[? _]]; done.
    - intros [H|[? ?]]; [by apply H1|by apply Hdirs]. }
  assert (forall l2, length l2 <> 8 -> forall f, f ∈ h_files -> folder ++ l2 <> local_path v (Some u) d ++ [f]) as Hlen.
  { intros l2 Hl2 f _ Heq. apply (f_equal length) in Heq. unfold HubModel.local_path in Heq. rewrite !app_length in Heq. cbn in Heq. lia. }
  assert (forall l2, folder ++ l2 `prefix_of` local_path v (Some u) d <-> l2 `prefix_of` [v; "contrib"; "hamilton"; "contrib"; "user"; u; d]) as Hpre.
  { intros l2. unfold HubModel.local_path. cbn [app]. split.
    - intros H. by apply prefix_app_inv in H.
    - intros H. by apply prefix_app. }
  assert (forall c, fs' !! folder <> Some (EFile c)) as Hf'.
  { intros c H. rewrite Hdirs in H; [done|done|]. pose proof (proj2 (Hpre []) (prefix_nil _)) as Hx. by rewrite app_nil_r in Hx. }
  assert (all_users folder fs' None) as Hall'.
  { intros ci Hvi _ Hd. apply Hq; [by apply Hlen|]. apply Hq in Hd; [|by apply Hlen]. destruct Hd as [Hd|[_ Hd]]; [left; by apply Hall|].
    right. split; [by destruct folder|]. apply Hpre in Hd. apply Hpre. apply prefix_cons_inv_1 in Hd as ->. by exists [u; d]. }
  destruct (C84_list_partial fs None None Hc Hne ltac:(done) Hf Hall) as (l0 & Hl0 & _ & Hel). rewrite Hl in Hl0. simplify_eq.
  destruct (C84_list_partial fs' None None Hc' Hne ltac:(done) Hf' Hall') as (l' & Hl' & Hnd & Hel'). exists l'. split; [done|]. split; [done|].
  intros [[ci usr] df]. rewrite Hel', Hel. unfold in_folder. cbn [fst snd].
  rewrite !Hq by (by apply Hlen). rewrite !Hpre.
  assert (forall l2, folder ++ l2 <> [] <-> True) as Hnn. { intros l2. split; [done|]. intros _ H. by destruct folder. }
  rewrite !Hnn.
  assert (want_ok None ci /\ want_ok None usr) as [Hw1 Hw2] by done.
  split.
  - intros [(H1 & H2 & H3 & H4 & H5 & H6) _]. destruct H6 as [H6|[_ H6]].
    + left. split; [|done]. assert (fs !! (folder ++ [ci; "contrib"; "hamilton"; "contrib"; "user"; usr]) = Some EDir) as Hu.
      { destruct (Hc (folder ++ [ci; "contrib"; "hamilton"; "contrib"; "user"; usr]) df) as [Hx|Hx]; [rewrite <-(assoc_L (++)); by eexists|by apply Hnn in Hx|done]. }
      assert (forall l2 n, is_Some (fs !! (folder ++ (l2 ++ [n]))) -> fs !! (folder ++ l2) = Some EDir) as Hup.
      { intros l2 n H. rewrite (assoc_L (++)) in H. destruct (Hc _ _ H) as [Hx|Hx]; [by apply Hnn in Hx|done]. }
      split_and!; [done..| |done|done].
      assert (fs !! (folder ++ [ci; "contrib"; "hamilton"; "contrib"; "user"]) = Some EDir) as U1 by (apply (Hup _ usr); cbn [app]; by eexists).
      assert (fs !! (folder ++ [ci; "contrib"; "hamilton"; "contrib"]) = Some EDir) as U2 by (apply (Hup _ "user"); cbn [app]; by eexists).
      assert (fs !! (folder ++ [ci; "contrib"; "hamilton"]) = Some EDir) as U3 by (apply (Hup _ "contrib"); cbn [app]; by eexists).
      assert (fs !! (folder ++ [ci; "contrib"]) = Some EDir) as U4 by (apply (Hup _ "hamilton"); cbn [app]; by eexists).
      apply (Hup _ "contrib"); cbn [app]; by eexists.
    + right. destruct H6 as [r Hr]. by simplify_list_eq.
  - intros [[(H1 & H2 & H3 & H4 & H5 & H6) _]|Heq].
    + split_and!; try done; by left.
    + simplify_eq. split_and!; try done; right; split; try done.
      * by eexists [_; _; _; _; _; _].
      * by eexists [_].
Qed.
(** What is found are the dataflows with a file that has the words. *)
Theorem C84_find fs query version user : fs !! folder = Some EDir -> all_users folder fs version ->
  exists l, find folder fs query version user = Some l /\ NoDup l /\
    forall ci usr df, (ci, usr, df) ∈ l <->
      candidate folder fs version user (ci, usr, df) /\
      exists below file c, fs !! (folder ++ [ci; "contrib"; "hamilton"; "contrib"; "user"; usr; df] ++ below ++ [file]) = Some (EFile c) /\
        searched file = true /\ exists a b, c = a +:+ query +:+ b.
Proof.
  intros H Hall. unfold find, fexists. rewrite bool_decide_true by (by rewrite H).
  destruct (candidates_spec folder fs version user H Hall) as (l & -> & Hnd & Hel). eexists. split; [done|]. split; [by apply NoDup_filter|].
  intros ci usr df. rewrite elem_of_list_filter, Hel. rewrite (and_comm (matches _ _ _ _ = true)). apply and_iff_compat_l.
  unfold matches. rewrite existsb_exists. unfold user_dir. cbn [fst snd]. rewrite <-(assoc_L (++)). cbn [app]. split.
  - intros ([q e] & Hin & Hq). apply elem_of_list_In, elem_of_map_to_list in Hin. cbn [fst snd] in Hq.
    destruct (under _ q) as [[|n ns]|] eqn:E; [done| |done]. destruct e as [|c]; [done|]. apply andb_prop in Hq as [Hs Hq]. apply contains_iff in Hq.
    apply under_some in E as ->. destruct (exists_last (l := n :: ns)) as (below & file & Heq); [done|]. rewrite Heq in *.
    exists below, file, c. rewrite last_last in Hs. split; [|done]. rewrite <-(assoc_L (++)) in Hin. exact Hin.
  - intros (below & file & c & Hc & Hs & Hq). exists (folder ++ [ci; "contrib"; "hamilton"; "contrib"; "user"; usr; df] ++ below ++ [file], EFile c).
    split; [by apply elem_of_list_In, elem_of_map_to_list|]. cbn [fst snd].
    rewrite (proj2 (under_some (folder ++ [ci; "contrib"; "hamilton"; "contrib"; "user"; usr; df]) _ (below ++ [file]))) by (by rewrite <-(assoc_L (++))).
    destruct (below ++ [file]) as [|n ns] eqn:E; [by destruct below|]. rewrite <-E, last_last, Hs. by apply contains_iff.
Qed.

(** ** Requirements *)
(** Missing: requirements with a version ([C84_requirements_refuted]), unless all of =, < and > are
    in the line. *)
Theorem C84_requirements_partial installed lines names : Forall2 requires lines names ->
  (forall l n, (l, n) ∈ zip lines names -> l = n \/ (~ lacks "="%char l /\ ~ lacks "<"%char l /\ ~ lacks ">"%char l)) ->
  satisfied installed lines = true <-> forall n, n ∈ names -> installed n = true.
Proof.
  intros H Hok. unfold satisfied. rewrite forallb_forall.
  assert (Forall2 (fun l n => package_name l = n) lines names) as Hn.
  { apply Forall2_same_length_lookup_2; [by eapply Forall2_length|]. intros i l n Hl Hnn.
    pose proof (Forall2_lookup_lr _ _ _ _ _ _ H Hl Hnn) as (Hne & (N1 & N2 & N3) & Hr).
    assert ((l, n) ∈ zip lines names) as Hz. { apply elem_of_list_lookup. exists i. apply lookup_zip_with_Some. by exists l, n. }
    unfold package_name, version_marker. destruct (decide (l = n)) as [->|Hln].
    - by rewrite (find_char_none "="%char).
    - destruct (Hok _ _ Hz) as [?|(M1 & M2 & M3)]; [done|]. destruct Hr as [?|(a & rest & -> & Ha)]; [done|].
      assert (forall c, ~ lacks c (n +:+ String a rest) -> exists k, find_char c (n +:+ String a rest) = Some k) as Hsome.
      { intros c. generalize (n +:+ String a rest). induction s as [|y s IH]; [done|]. intros Hc. cbn in Hc |- *. destruct (decide (y = c)); [by eexists|].
        destruct IH as [k ->]; [tauto|]. by eexists. }
      destruct (Hsome _ M1) as [k1 E1], (Hsome _ M2) as [k2 E2], (Hsome _ M3) as [k3 E3]. rewrite E1, E2, E3.
      pose proof (find_char_app_ge _ _ _ _ N1 E1). pose proof (find_char_app_ge _ _ _ _ N2 E2). pose proof (find_char_app_ge _ _ _ _ N3 E3).
      assert (Nat.min k1 (Nat.min k2 k3) = String.length n) as Hmin.
      { destruct Ha as [Ha|[Ha|Ha]]; rewrite Ha in E1, E2, E3; [rewrite find_char_lacks in E1 by done|rewrite find_char_lacks in E2 by done|rewrite find_char_lacks in E3 by done]; simplify_eq; lia. }
      cbv zeta. rewrite Hmin. rewrite decide_True; [apply stake_app|]. destruct n; [done|]. cbn. lia. }
  split.
  - intros Hall n Hin. apply elem_of_list_lookup in Hin as [i Hi]. destruct (Forall2_lookup_r _ _ _ _ _ Hn Hi) as (l & Hl & <-).
    apply Hall. apply elem_of_list_In. by eapply elem_of_list_lookup_2.
  - intros Hall l Hin. apply elem_of_list_In, elem_of_list_lookup in Hin as [i Hi]. destruct (Forall2_lookup_l _ _ _ _ _ Hn Hi) as (n & Hni & ->).
    apply Hall. by eapply elem_of_list_lookup_2.
Qed.

(** ** Copying and clearing *)
Theorem C84_copied fs src name dest o renamed fs' : copy fs src name dest o renamed = (Ok tt, fs') ->
  exists c, fs !! src = Some (EFile c) /\ fs' !! (dest ++ [default name (user_of renamed)] ++ ["__init__.py"]) = Some (EFile c).
Proof.
  unfold copy. destruct (fs !! src) as [e|] eqn:Es; [|done]. cbv zeta. rewrite (assoc_L (++)).
  destruct (if fexists fs _ then _ else _) as [[[]|x] fs1]; [|done]. destruct (_ && _); [done|]. case_decide; [done|]. destruct e as [|c]; [done|].
  intros H'. exists c. split; [done|]. pose proof (write_ok fs1 ((dest ++ [default name (user_of renamed)]) ++ ["__init__.py"]) c) as Hw. rewrite H' in Hw. by apply Hw.
Qed.
Theorem C84_copy_keeps fs src name dest o renamed q e : fs !! q = Some e ->
  o = false \/ q <> dest ++ [default name (user_of renamed)] ++ ["__init__.py"] -> (copy fs src name dest o renamed).2 !! q = Some e.
Proof.
  intros Hq Ho. unfold copy. destruct (fs !! src) as [x|] eqn:Es; [|done]. cbv zeta. rewrite (assoc_L (++)) in Ho.
  set (dst := dest ++ [default name (user_of renamed)]) in *.
  assert ((if fexists fs dst then (Ok tt, fs) else makedirs fs dst).2 !! q = Some e) as Hk by (destruct (fexists fs dst); [done|by apply mkdirs_keep]).
  destruct (if fexists fs dst then _ else _) as [[[]|y] fs1]; cbn [snd] in Hk; [|done].
  destruct (fexists fs1 (dst ++ ["__init__.py"])) eqn:Ex; cbn [andb].
  - destruct o; cbn [negb]; [|done]. case_decide; [done|]. destruct x as [|c]; [done|]. rewrite write_other; [done|]. by destruct Ho.
  - case_decide; [done|]. destruct x as [|c]; [done|]. rewrite write_other; [done|]. intros ->.
    unfold fexists in Ex. apply bool_decide_eq_false in Ex. apply Ex. by eexists.
Qed.
(** Clearing removes what is in the folder and nothing else. *)
Theorem C84_cleared fs q : closed fs -> folder <> [] -> clear_storage folder fs !! q = if decide (folder `prefix_of` q) then None else fs !! q.
Proof.
  intros Hc Hne. unfold clear_storage, fexists, rmtree. case_bool_decide as He.
  - case_decide as Hp.
    + apply map_filter_lookup_None. right. intros x Hx Hn. cbn in Hn. destruct Hp as [r ->]. rewrite (proj2 (under_some folder _ r) eq_refl) in Hn. done.
    + destruct (fs !! q) as [e|] eqn:E.
      * apply map_filter_lookup_Some. split; [done|]. cbn. destruct (under folder q) as [r|] eqn:Eu; [|done]. apply under_some in Eu as ->. exfalso. apply Hp. by exists r.
      * apply map_filter_lookup_None. by left.
  - case_decide as Hp; [|done]. destruct Hp as [r ->]. destruct (fs !! (folder ++ r)) as [e|] eqn:E; [|done]. exfalso.
    revert e E. induction r as [|n r IH] using rev_ind; intros e E.
    + rewrite app_nil_r in E. apply He. by eexists.
    + rewrite (assoc_L (++)) in E. destruct (Hc (folder ++ r) n) as [Hx|Hx]; [by eexists|by destruct folder|]. by eapply IH.
Qed.
End Props.

(** ** The commit of a branch *)
(** If only one branch is asked for, the answer is that of the server to this call or to an earlier
    one that ended less than a minute ago. Missing: several branches ([C84_branch_refuted]). *)
Theorem C84_branch_partial cs i c v : (forall a b, a ∈ cs -> b ∈ cs -> rc_branch a = rc_branch b) ->
  cs !! i = Some c -> resolve_calls None cs !! i = Some (Ok v) ->
  exists j c', j <= i /\ cs !! j = Some c' /\ rc_branch c' = rc_branch c /\ rc_answer c' = Ok v /\ (j = i \/ (rc_before c < rc_after c' + minute)%Z).
Proof.
  intros Hb Hc Hr.
  assert (forall past cs' cache, past ++ cs' = cs ->
    (forall t w, cache = Some (t, w) -> exists j c', past !! j = Some c' /\ rc_answer c' = Ok w /\ rc_after c' = t) ->
    forall k, length past + k = i -> resolve_calls cache cs' !! k = Some (Ok v) ->
    exists j c', j <= i /\ cs !! j = Some c' /\ rc_answer c' = Ok v /\ (j = i \/ (rc_before c < rc_after c' + minute)%Z)) as Hgo.
  { clear Hr. intros past cs'. revert past. induction cs' as [|d cs' IH]; intros past cache Happ Hcache k Hk Hr; [done|].
    cbn in Hr. destruct (resolve_call cache d) as [r cache'] eqn:E.
    assert (forall w, rc_answer d = Ok w -> cs !! length past = Some d) as Hd. { intros w _. by rewrite <-Happ, list_lookup_middle. }
    destruct k as [|k].
    - cbn in Hr. injection Hr as ->. rewrite Nat.add_0_r in Hk. subst i cs.
      assert (d = c) as ->. { rewrite list_lookup_middle in Hc by done. by simplify_eq. }
      unfold resolve_call in E. destruct cache as [[t w]|].
      + case_decide as Ht.
        * simplify_eq. destruct (Hcache _ _ eq_refl) as (j & c' & Hj & Ha & <-). exists j, c'. pose proof (lookup_lt_Some _ _ _ Hj).
          split_and!; [lia|by apply lookup_app_l_Some|done|by right].
        * destruct (rc_answer c) as [w'|] eqn:Ea; simplify_eq. exists (length past), c. split_and!; [lia|by eapply Hd|done|by left; lia].
      + destruct (rc_answer c) as [w'|] eqn:Ea; simplify_eq. exists (length past), c. split_and!; [lia|by eapply Hd|done|by left; lia].
    - cbn in Hr. apply (IH (past ++ [d]) cache') with (k := k); [by rewrite <-(assoc_L (++))| |rewrite app_length; cbn; lia|done].
      intros t w ->. unfold resolve_call in E.
      assert (forall t0 w0, cache = Some (t0, w0) -> exists j c', (past ++ [d]) !! j = Some c' /\ rc_answer c' = Ok w0 /\ rc_after c' = t0) as Hold.
      { intros t0 w0 H0. destruct (Hcache _ _ H0) as (j & c' & Hj & ?). exists j, c'. split; [by apply lookup_app_l_Some|done]. }
      assert (forall w0, rc_answer d = Ok w0 -> exists j c', (past ++ [d]) !! j = Some c' /\ rc_answer c' = Ok w0 /\ rc_after c' = rc_after d) as Hnew.
      { intros w0 H0. exists (length past), d. by rewrite list_lookup_middle. }
      destruct cache as [[t0 w0]|].
      + case_decide; [simplify_eq; by apply Hold|]. destruct (rc_answer d) as [w'|] eqn:Ea; simplify_eq; [by apply Hnew|by apply Hold].
      + destruct (rc_answer d) as [w'|] eqn:Ea; simplify_eq. by apply Hnew. }
  destruct (Hgo [] cs None eq_refl) with (k := i) as (j & c' & Hj & Hc' & Ha & Hor); [done|done|done|].
  exists j, c'. split_and!; [done|done| |done|done]. apply Hb; by eapply elem_of_list_lookup_2.
Qed.
Definition sec : Z := 1000000000.
Example branch_example : resolve_calls None [RCall "main" 0 (Ok "a") sec; RCall "main" (60 * sec) (Ok "b") (61 * sec); RCall "main" (62 * sec) (Err 403) 0; RCall "main" (63 * sec) (Ok "c") (64 * sec)]
  = [Ok "a"; Ok "a"; Err 403; Ok "c"].
Proof. vm_compute. done. Qed.
(** The branch is not looked at. *)
Theorem C84_branch_refuted : exists cs, resolve_calls None cs = [Ok "of main"; Ok "of main"] /\
  cs = [RCall "main" 0 (Ok "of main") sec; RCall "dev" (2 * sec) (Ok "of dev") (3 * sec)].
Proof. eexists. split; [|done]. vm_compute. done. Qed.

(** ** Examples *)
Definition home : path := ["home"; ".hamilton"; "dataflows"].
Definition full : hub := Hub (fun _ _ => (200, "[commit::c1]")) (fun v _ d f => (200, (d +:+ "/" +:+ f +:+ "@" +:+ v))).
(** a hub without the last of the files, and one that is down *)
Definition short : hub := Hub (fun _ _ => (200, "[commit::c1]")) (fun v _ d f => if decide (f = "tags.json") then (404, "") else (200, (d +:+ "/" +:+ f +:+ "@" +:+ v))).
Definition down : hub := Hub (fun _ _ => (200, "[commit::c1]")) (fun _ _ _ _ => (503, "")).
Definition pulled : res err unit * fsys := pull_module home full "d" (Some "ann") "latest" false ∅.
Definition pulled2 : res err unit * fsys := pull_module home full "e" (Some "bob") "c0" false pulled.2.
Example pull_example :
  pulled.1 = Ok tt /\ pulled2.1 = Ok tt /\
  pulled2.2 !! (home ++ ["c1"; "contrib"; "hamilton"; "contrib"; "user"; "ann"; "d"; "tags.json"]) = Some (EFile "d/tags.json@c1") /\
  (pull_module home full "d" (Some "ann") "c1" false pulled2.2).1 = Err EExists /\
  (import_module home full "d" (Some "ann") "latest" false pulled2.2 [("d", Some "c0")]).1.1 = Ok ("d/__init__.py@c1", "c1") /\
  listed home pulled2.2 None (Some "bob") = Some [("c0", "bob", "e")] /\
  (length <$> listed home pulled2.2 None None) = Some 2 /\
  find home pulled2.2 "e/READ" None None = Some [("c0", "bob", "e")].
Proof. split_and!; vm_compute; done. Qed.
Example closed_example : closed ∅ /\ closed pulled.2 /\ closed pulled2.2.
Proof.
  assert (closed ∅) as H0 by (intros p n [e He]; by rewrite lookup_empty in He).
  split; [done|]. assert (closed pulled.2) by (by apply C84_closed). split; [done|]. by apply C84_closed.
Qed.
Example copy_example : let fs' := copy pulled.2 (home ++ ["c1"; "contrib"; "hamilton"; "contrib"; "user"; "ann"; "d"; "__init__.py"]) "d" ["work"] false (Some "mine") in
  fs'.1 = Ok tt /\ fs'.2 !! ["work"; "mine"; "__init__.py"] = Some (EFile "d/__init__.py@c1") /\
  (copy fs'.2 (home ++ ["c1"; "contrib"; "hamilton"; "contrib"; "user"; "ann"; "d"; "__init__.py"]) "d" ["work"] false (Some "mine")).1 = Err EExists.
Proof. vm_compute. done. Qed.
Example find_example : pulled2.2 !! home = Some EDir /\ all_users home pulled2.2 None.
Proof.
  split; [vm_compute; done|].
  destruct (candidates home pulled2.2 None None) as [l|] eqn:E; [by apply candidates_users in E as [_ ?]|].
  exfalso. revert E. vm_compute. done.
Qed.
Example requirements_example : requires "pandas" "pandas" /\ requires "numpy>=1,<2" "numpy" /\
  satisfied (fun p => bool_decide (p ∈ ["pandas"; "numpy"])) ["pandas"; "numpy>=1,<2"] = true /\
  satisfied (fun p => bool_decide (p ∈ ["numpy"])) ["pandas"; "numpy>=1,<2"] = false.
Proof.
  split_and!; try done.
  - split; [done|]. split; [repeat split; done|]. by left.
  - split; [done|]. split; [repeat split; done|]. right. exists ">"%char, "=1,<2". split; [done|]. by right; right.
Qed.
(** A requirement with a version is never met. *)
Theorem C84_requirements_refuted : exists line, requires line "pandas" /\ satisfied (fun p => bool_decide (p = "pandas")) [line] = false.
Proof.
  exists "pandas>=1.0". split; [|done]. split; [done|]. split; [repeat split; done|]. right. exists ">"%char, "=1.0". split; [done|]. by right; right.
Qed.
(** A download that was interrupted cannot be repeated; what is there of it is imported as if it were
    complete, or stands in the way. *)
Theorem C84_retry_refuted :
  (let half := pull_module home short "d" (Some "ann") "latest" false ∅ in
   half.1 = Err (ENotFound "tags.json") /\ (pull_module home full "d" (Some "ann") "latest" false half.2).1 = Err EExists /\
   (import_module home full "d" (Some "ann") "latest" false half.2 []).1.1 = Ok ("d/__init__.py@c1", "c1")) /\
  (let none := pull_module home down "d" (Some "ann") "latest" false ∅ in
   none.1 = Err (EStatus 503) /\ (import_module home full "d" (Some "ann") "latest" false none.2 []).1.1 = Err EExists /\
   listed home none.2 None None = Some [("c1", "ann", "d")]).
Proof. vm_compute. done. Qed.
(** Once an official dataflow of a version was pulled, nothing can be listed or found. *)
Theorem C84_official_refuted :
  let fs := pull_module home full "d" None "c2" false pulled2.2 in
  fs.1 = Ok tt /\ listed home fs.2 None None = None /\ find home fs.2 "d" None None = None.
Proof. split_and!; vm_compute; done. Qed.
(** By default what is listed are the dataflows of a version called main, where nothing is pulled to. *)
Theorem C84_default_refuted : pulled.1 = Ok tt /\ listed home pulled.2 (Some "latest") None = Some [].
Proof. split_and!; vm_compute; done. Qed.

Print Assumptions C84_latest.
Print Assumptions C84_no_commit.
Print Assumptions C84_cut_refuted.
Print Assumptions C84_pulled.
Print Assumptions C84_elsewhere.
Print Assumptions C84_no_overwrite.
Print Assumptions C84_closed.
Print Assumptions C84_imported.
Print Assumptions C84_name_refuted.
Print Assumptions C84_list_partial.
Print Assumptions C84_list_pulled.
Print Assumptions C84_find.
Print Assumptions C84_requirements_partial.
Print Assumptions C84_copied.
Print Assumptions C84_copy_keeps.
Print Assumptions C84_cleared.
Print Assumptions C84_branch_partial.
Print Assumptions C84_branch_refuted.
Print Assumptions C84_requirements_refuted.
Print Assumptions C84_retry_refuted.
Print Assumptions C84_official_refuted.
Print Assumptions C84_default_refuted.
Print Assumptions C84_latest_failed.
