(** C64: CacheAdapter. *)
From Coq Require Import Ascii.
From Verif Require Import Base Strings ExecModel ExecSpec ExecProofs ExecResults ExecProps ShelfModel ShelfSpec ShelfProofs.

(** ** With the adapter executions return what they return without it *)
(** Any number of adapter objects one after the other share a file; each serves any requests. An execution that
    returns, returns what it returns without the adapter; when everything can be pickled and every function has a source,
    executions also fail alike. *)
Theorem C64_transparent_partial {V E} (pickle : V -> option string) (unpickle : string -> res E V) digest none is_none pickle_error source_error
    (U : list (request V E)) (ls : list (list name * list (request V E))) shelf log :
  pickles_ok pickle unpickle none is_none -> digest_ok digest ->
  graphs_ok U -> sources_identify U -> (forall l, l ∈ ls -> one_source l.2 /\ forall rq, rq ∈ l.2 -> rq ∈ U) ->
  shelf_ok pickle unpickle digest none U shelf ->
  Forall2 (fun l answers => Forall2 (fun rq a =>
      (forall out tr, a = Answer out tr -> plain rq = Answer out tr) /\
      (nothing_unpicklable pickle -> all_sourced U -> a = plain rq)) l.2 answers)
    ls (lifetimes pickle unpickle digest none is_none pickle_error source_error shelf log ls).2.
Proof.
  intros Hpk Hdg HU Hid Hls Hs.
  by apply (lifetimes_ok pickle unpickle digest none is_none pickle_error source_error Hpk Hdg U HU Hid).
Qed.
Print Assumptions C64_transparent_partial.

(** ** Executing again loads *)
(** After an execution that returned, and whatever adapter objects with the file did since, an adapter object
    invokes in an execution of the same request only functions of variables that it is told not to cache and functions that
    return None. *)
Theorem C64_second_execution_loads_partial {V E} (pickle : V -> option string) (unpickle : string -> res E V) digest none is_none pickle_error source_error
    (U : list (request V E)) (rq : request V E) ls shelf vars log out tr :
  pickles_ok pickle unpickle none is_none -> digest_ok digest ->
  graphs_ok U -> sources_identify U -> all_sourced U -> nothing_unpicklable pickle ->
  shelf_ok pickle unpickle digest none U shelf ->
  rq ∈ U -> (forall l, l ∈ ls -> one_source l.2 /\ forall rq, rq ∈ l.2 -> rq ∈ U) ->
  let exec := shelf_execute pickle unpickle digest none is_none pickle_error source_error rq in
  let first := exec (SState shelf ∅ vars log) in
  let since := (lifetimes pickle unpickle digest none is_none pickle_error source_error (ss_shelf first.1) (ss_log first.1) ls).1 in
  first.2 = Answer out tr ->
  exists new, ss_log (exec (SState since.1 ∅ vars since.2)).1 = since.2 ++ new /\
    forall x, x ∈ new -> (vars <> [] /\ x ∉ vars) \/ exists kw, Call x kw (Ok none) ∈ tr.
Proof.
  intros Hpk Hdg HU Hid Hsrc Hpick Hs Hrq Hls exec first since Hf.
  assert (Hsub : forall r, r ∈ [rq] -> r ∈ U) by (intros r Hr; by apply elem_of_list_singleton in Hr as ->).
  assert (Hone : one_source [rq]).
  { intros r1 r2 x H1 H2. apply elem_of_list_singleton in H1 as ->. by apply elem_of_list_singleton in H2 as ->. }
  assert (Hinit : forall sh lg, shelf_ok pickle unpickle digest none U sh -> sinv pickle unpickle digest none U [rq] (SState sh ∅ vars lg)).
  { intros sh lg Hsh. constructor; [done|]. intros x h Hx. cbn in Hx. by rewrite lookup_empty in Hx. }
  destruct (exec_ok pickle unpickle digest none is_none pickle_error source_error Hpk Hdg U [rq] HU Hsub Hid Hone rq _
    ltac:(by left) (Hinit shelf log Hs)) as ([Hsh1 _] & _).
  destruct (lifetimes_ok pickle unpickle digest none is_none pickle_error source_error Hpk Hdg U HU Hid ls
    (ss_shelf first.1) (ss_log first.1) Hls Hsh1) as (Hsh2 & Hgr & _).
  destruct (second_execution pickle unpickle digest none is_none pickle_error source_error Hpk Hdg U [rq] HU Hsub Hid Hone rq
    (SState shelf ∅ vars log) out tr (SState since.1 ∅ vars since.2) ltac:(by left) (Hinit shelf log Hs) Hf Hsrc Hpick) as (new & Hl & Hnew).
  - by apply Hinit.
  - done.
  - unfold before_graph. by destruct vars.
  - exists new. split; [done|]. intros x Hx. destruct (Hnew x Hx) as [[nd Hg] [Hv|Hn]]; [|by right].
    unfold before_graph in Hv. destruct vars as [|v vars']; [|by left].
    destruct Hv. cbn. apply elem_of_list_fmap. exists (x, nd). split; [done|]. by apply elem_of_map_to_list.
Qed.
Print Assumptions C64_second_execution_loads_partial.

(** ** A small project *)
(** Values are numbers or None. Pickles and digests that can be told apart. *)
Fixpoint sh_unary (n : nat) : string := match n with O => "." | S n => String "1" (sh_unary n) end.
Definition sh_pickle (v : option nat) : option string := Some (match v with None => "N" | Some n => String "I" (sh_unary n) end).
Fixpoint sh_ununary (s : string) : nat := match s with String "1" s' => S (sh_ununary s') | _ => O end.
Definition sh_unpickle (s : string) : res string (option nat) :=
  match s with String "I" s' => Ok (Some (sh_ununary s')) | String "N" "" => Ok None | _ => Err "UnpicklingError" end.
Fixpoint sh_digest (s : string) : string := match s with EmptyString => "." | String c s' => String "x" (String c (sh_digest s')) end.
Definition sh_is_none (v : option nat) : bool := match v with None => true | _ => false end.

Lemma sh_pickles_ok : pickles_ok sh_pickle sh_unpickle None sh_is_none.
Proof.
  assert (Hu : forall n m a b, sh_unary n +:+ a = sh_unary m +:+ b -> n = m /\ a = b).
  { induction n as [|n IH]; intros [|m] a b; cbn; rewrite ?append_cons; intros Heq; try discriminate.
    - by injection Heq.
    - injection Heq as Heq. by destruct (IH _ _ _ Heq) as [-> ->]. }
  constructor.
  - intros [n|] [m|] p q a b [= <-] [= <-] Heq; rewrite !append_cons in Heq; try discriminate.
    + injection Heq as Heq. by destruct (Hu _ _ _ _ Heq) as [-> ->].
    + by injection Heq.
  - by intros [n|].
  - intros [n|] p [= <-]; cbn; [|done]. do 2 f_equal. by induction n as [|n IH]; cbn; [|rewrite IH].
  - by intros [n|].
Qed.
Lemma sh_digest_ok : digest_ok sh_digest.
Proof.
  assert (Hp : forall s t a b, sh_digest s +:+ a = sh_digest t +:+ b -> s = t /\ a = b).
  { induction s as [|c s IH]; intros [|d t] a b; cbn; rewrite ?append_cons; intros Heq; try discriminate.
    - by injection Heq.
    - injection Heq as -> Heq. by destruct (IH _ _ _ Heq) as [-> ->]. }
  constructor.
  - intros s t Heq. apply (Hp s t "" ""). by rewrite Heq.
  - intros s t a b Heq. by destruct (Hp s t a b Heq) as [-> ->].
Qed.

(** [b(a)] in two versions and [c(b)], which may return None. *)
Definition sh_graph : graph := 
  list_to_map [ ("a", Node true [] ["b"]); ("b", Node false [("a", REQUIRED)] ["c"]); ("c", Node false [("b", REQUIRED)] []) ].
Definition sh_fn (dep : name) (f : nat -> option nat) (kw : gmap name (option nat)) : res string (option nat) :=
  match kw !! dep with Some (Some n) => Ok (f n) | _ => Err "TypeError" end.
Definition sh_fns (version : nat) (x : name) : callable (option nat) string :=
  if decide (x = "b") then
    match version with O => CFn (Some "a + 1") (sh_fn "a" (fun n => Some (n + 1)))
    | _ => CFn (Some "a + 2") (sh_fn "a" (fun n => Some (n + 2))) end
  else if decide (x = "c") then CFn (Some "b * 10") (sh_fn "b" (fun n => if decide (n = 9) then None else Some (n * 10)))
  else CFn None (fun _ => Err "no function").
Definition sh_request (version a : nat) (final : list name) : request (option nat) string :=
  Request sh_graph (sh_fns version) ∅ {[ "a" := Some a ]} ∅ final.
Definition sh_U : list (request (option nat) string) := [sh_request 0 4 ["c"]; sh_request 1 4 ["c"]; sh_request 0 8 ["b"; "c"]; sh_request 1 4 ["b"]].
Definition sh_lifetimes := lifetimes sh_pickle sh_unpickle sh_digest None sh_is_none "PicklingError" "OSError".
Definition sh_execute := shelf_execute sh_pickle sh_unpickle sh_digest None sh_is_none "PicklingError" "OSError".

Definition sh_outs (a : answer (option nat) string) : list (option (option nat)) := match a with Answer out _ => out.*2 | _ => [] end.
Lemma sh_graphs_ok : graphs_ok sh_U.
Proof.
  intros rq Hrq. assert (rq_graph rq = sh_graph) as ->.
  { repeat (apply elem_of_cons in Hrq as [-> |Hrq]; [done|]). by apply elem_of_nil in Hrq. }
  split; [by apply wf_graphb_ok; vm_compute|]. apply (rankedb_acyclic (rank_in ["a"; "b"; "c"])). by vm_compute.
Qed.
Lemma sh_in_U rq : rq ∈ sh_U -> rq_graph rq = sh_graph /\ exists version, version < 2 /\ rq_fns rq = sh_fns version.
Proof.
  intros Hrq. unfold sh_U in Hrq.
  repeat (apply elem_of_cons in Hrq as [-> |Hrq]; [split; [done|]; (exists 0; split; [lia|reflexivity]) || (exists 1; split; [lia|reflexivity])|]).
  by apply elem_of_nil in Hrq.
Qed.

Lemma sh_node x nd : sh_graph !! x = Some nd -> nd_ext nd = false ->
  (x = "b" /\ nd_deps nd = [("a", REQUIRED)]) \/ (x = "c" /\ nd_deps nd = [("b", REQUIRED)]).
Proof.
  intros Hg He. apply elem_of_list_to_map_2 in Hg.
  repeat (apply elem_of_cons in Hg as [[= -> ->]|Hg]; [by auto|]). by apply elem_of_nil in Hg.
Qed.
(** With one required argument the call is determined by the value. *)
Lemma sh_one_arg f nd1 nd2 d kw1 kw2 : nd_deps nd1 = [(d, REQUIRED)] -> nd_deps nd2 = [(d, REQUIRED)] ->
  arguments nd1 kw1 -> arguments nd2 kw2 -> values nd1 kw1 = values nd2 kw2 -> sh_fn d f kw1 = sh_fn d f kw2.
Proof.
  intros H1 H2 [_ Ha1] [_ Ha2]. unfold values, dep_names, sh_fn. rewrite H1, H2. cbn.
  destruct (Ha1 d) as [v ->]; [rewrite H1; by left|]. destruct (Ha2 d) as [w ->]; [rewrite H2; by left|].
  by intros [= ->].
Qed.
Lemma sh_source version x s : source_of (sh_fns version x) = Some s ->
  (x = "b" /\ ((version = 0 /\ s = "a + 1") \/ (version <> 0 /\ s = "a + 2"))) \/ (x = "c" /\ s = "b * 10").
Proof.
  unfold sh_fns. destruct (decide (x = "b")) as [->|]; [destruct version; cbn; intros [= <-]; auto|].
  destruct (decide (x = "c")) as [->|]; cbn; [intros [= <-]; auto|done].
Qed.
Lemma sh_identify : sources_identify sh_U.
Proof.
  intros rq1 rq2 x1 x2 nd1 nd2 kw1 kw2 s Hin1 Hin2 Hg1 Hg2 Hs1 Hs2 Ha1 Ha2 Hv.
  destruct (sh_in_U _ Hin1) as (Hgr1 & v1 & _ & Hf1). destruct (sh_in_U _ Hin2) as (Hgr2 & v2 & _ & Hf2).
  rewrite Hgr1 in Hg1. rewrite Hgr2 in Hg2. rewrite Hf1 in *. rewrite Hf2 in *. clear Hf1 Hf2 Hgr1 Hgr2.
  assert (He : forall version x nd, sh_graph !! x = Some nd -> is_Some (source_of (sh_fns version x)) -> nd_ext nd = false).
  { intros version x nd Hg [s' Hs']. apply elem_of_list_to_map_2 in Hg.
    repeat (apply elem_of_cons in Hg as [[= -> ->]|Hg]; [done|]). by apply elem_of_nil in Hg. }
  assert (He1 := He _ _ _ Hg1 (ex_intro _ s Hs1)). assert (He2 := He _ _ _ Hg2 (ex_intro _ s Hs2)).
  destruct (sh_node _ _ Hg1 He1) as [[-> Hd1]|[-> Hd1]]; destruct (sh_node _ _ Hg2 He2) as [[-> Hd2]|[-> Hd2]];
    destruct (sh_source _ _ _ Hs1) as [[Hx1 Hw1]|[Hx1 Hw1]]; try discriminate Hx1;
    destruct (sh_source _ _ _ Hs2) as [[Hx2 Hw2]|[Hx2 Hw2]]; try discriminate Hx2.
  - destruct Hw1 as [[-> ->]|[Hn1 ->]]; destruct Hw2 as [[-> Hw2]|[Hn2 Hw2]]; try discriminate Hw2.
    + exact (sh_one_arg (fun n => Some (n + 1)) nd1 nd2 "a" kw1 kw2 Hd1 Hd2 Ha1 Ha2 Hv).
    + destruct v1, v2; try lia. exact (sh_one_arg (fun n => Some (n + 2)) nd1 nd2 "a" kw1 kw2 Hd1 Hd2 Ha1 Ha2 Hv).
  - exfalso. subst s. by destruct Hw1 as [[_ ?]|[_ ?]].
  - exfalso. subst s. by destruct Hw2 as [[_ ?]|[_ ?]].
  - exact (sh_one_arg (fun n => if decide (n = 9) then None else Some (n * 10)) nd1 nd2 "b" kw1 kw2 Hd1 Hd2 Ha1 Ha2 Hv).
Qed.
Lemma sh_sourced : all_sourced sh_U.
Proof.
  intros rq x nd Hin Hg He. destruct (sh_in_U _ Hin) as (Hgr & v & _ & ->). rewrite Hgr in Hg.
  destruct (sh_node _ _ Hg He) as [[-> _]|[-> _]]; destruct v; by eexists.
Qed.
Lemma sh_shelf_empty : shelf_ok sh_pickle sh_unpickle sh_digest None sh_U ∅.
Proof. intros s vals k b _ Hb. by rewrite lookup_empty in Hb. Qed.

(** Two versions in two lives: the second computes [b] again and [c], whose argument has changed; executing the first version
    again loads. For [a] 8 the function of [c] returns None and is invoked again. *)
Definition sh_history : list (list name * list (request (option nat) string)) :=
  [([], [sh_request 0 4 ["c"]]); (["b"; "c"], [sh_request 1 4 ["c"]]); ([], [sh_request 0 4 ["c"]; sh_request 0 8 ["b"; "c"]; sh_request 0 8 ["b"; "c"]])].
Example sh_history_runs :
  let r := sh_lifetimes ∅ [] sh_history in
  map sh_outs <$> r.2 = [[[Some (Some 50)]]; [[Some (Some 60)]]; [[Some (Some 50)]; [Some (Some 9); Some None]; [Some (Some 9); Some None]]] /\
  r.1.2 = ["b"; "c"; "b"; "c"; "b"; "c"; "c"].
Proof. split; by vm_compute. Qed.
Example sh_history_meets :
  pickles_ok sh_pickle sh_unpickle None sh_is_none /\ digest_ok sh_digest /\ graphs_ok sh_U /\ sources_identify sh_U /\
  (forall l, l ∈ sh_history -> one_source l.2 /\ forall rq, rq ∈ l.2 -> rq ∈ sh_U) /\
  shelf_ok sh_pickle sh_unpickle sh_digest None sh_U ∅ /\ all_sourced sh_U /\ nothing_unpicklable sh_pickle.
Proof.
  split_and!; [apply sh_pickles_ok|apply sh_digest_ok|apply sh_graphs_ok|apply sh_identify| |apply sh_shelf_empty|apply sh_sourced|].
  - intros l Hl. unfold sh_history in Hl. split.
    + intros r1 r2 x H1 H2.
      repeat (apply elem_of_cons in Hl as [-> |Hl]; [cbn [snd] in *;
        repeat (apply elem_of_cons in H1 as [-> |H1]; [repeat (apply elem_of_cons in H2 as [-> |H2]; [done|]); by apply elem_of_nil in H2|]);
        by apply elem_of_nil in H1|]).
      by apply elem_of_nil in Hl.
    + intros r1 H1.
      repeat (apply elem_of_cons in Hl as [-> |Hl]; [cbn [snd] in *;
        repeat (apply elem_of_cons in H1 as [-> |H1]; [unfold sh_U; repeat ((by apply elem_of_list_here) || apply elem_of_list_further)|]);
        by apply elem_of_nil in H1|]).
      by apply elem_of_nil in Hl.
  - intros v. by eexists.
Qed.

Example sh_second_case : sh_request 0 4 ["c"] ∈ sh_U /\
  exists out tr, (sh_execute (sh_request 0 4 ["c"]) (SState ∅ ∅ ["c"] [])).2 = Answer out tr /\
    out = [("c", Some (Some 50))] /\
    let first := sh_execute (sh_request 0 4 ["c"]) (SState ∅ ∅ ["c"] []) in
    let since := (sh_lifetimes (ss_shelf first.1) (ss_log first.1) sh_history).1 in
    ss_log (sh_execute (sh_request 0 4 ["c"]) (SState since.1 ∅ ["c"] since.2)).1 = since.2 ++ ["b"].
Proof. split; [by left|]. eexists. eexists. split; [vm_compute; reflexivity|]. split; by vm_compute. Qed.

(** ** What does not hold *)
(** Nodes made by decorators share their source: [extract_columns] (function_modifiers/expanders.py 672-681) gives all columns
    the same function up to a default value, and all get the value of the first. *)
Definition sh_extract : request (option nat) string :=
  Request (list_to_map [ ("df", Node true [] ["x"; "y"]); ("x", Node false [("df", REQUIRED)] []); ("y", Node false [("df", REQUIRED)] []) ])
    (fun col => CFn (Some "def extractor_fn") (sh_fn "df" (fun n => Some (if decide (col = "x") then n else n + 100))))
    ∅ {[ "df" := Some 3 ]} ∅ ["x"; "y"].
Theorem C64_extracted_columns_refuted :
  exists rq, rq = sh_extract /\
    sh_outs (plain rq) = [Some (Some 3); Some (Some 103)] /\
    sh_outs (sh_execute rq (SState ∅ ∅ [] [])).2 = [Some (Some 3); Some (Some 3)].
Proof. exists sh_extract. split_and!; by vm_compute. Qed.
Print Assumptions C64_extracted_columns_refuted.

(** [parameterize] (expanders.py 174, 272) makes partials of one function; neither the literals nor the decorated
    function are part of the key. *)
Definition sh_param : request (option nat) string :=
  let fn (f : nat -> nat -> nat) := CFn (Some "def replacement_function") (fun kw =>
    match kw !! "a", kw !! "k" with Some (Some n), Some (Some m) => Ok (Some (f n m)) | _, _ => Err "TypeError" end) in
  Request (list_to_map [ ("a", Node true [] ["x"; "y"; "z"]); ("x", Node false [("a", REQUIRED)] []);
                         ("y", Node false [("a", REQUIRED)] []); ("z", Node false [("a", REQUIRED)] []) ])
    (fun n => if decide (n = "x") then CPartial (fn Nat.add) {[ "k" := Some 1 ]}
              else if decide (n = "y") then CPartial (fn Nat.add) {[ "k" := Some 2 ]}
              else CPartial (fn Nat.mul) {[ "k" := Some 5 ]})
    ∅ {[ "a" := Some 3 ]} ∅ ["x"; "y"; "z"].
Theorem C64_parameterized_refuted :
  exists rq, rq = sh_param /\
    sh_outs (plain rq) = [Some (Some 4); Some (Some 5); Some (Some 15)] /\
    sh_outs (sh_execute rq (SState ∅ ∅ [] [])).2 = [Some (Some 4); Some (Some 4); Some (Some 4)].
Proof. exists sh_param. split_and!; by vm_compute. Qed.
Print Assumptions C64_parameterized_refuted.

(** The key does not say which arguments were given: with optional arguments [p] and [q], executing with [p] and then
    with [q] gives the value for [p]. *)
Definition sh_optional (inputs : gmap name (option nat)) : request (option nat) string :=
  Request (list_to_map [ ("p", Node true [] ["f"]); ("q", Node true [] ["f"]); ("f", Node false [("p", OPTIONAL); ("q", OPTIONAL)] []) ])
    (fun _ => CFn (Some "10 * p + q") (fun kw => Ok (Some (10 * default 0 (mjoin (kw !! "p")) + default 0 (mjoin (kw !! "q"))))))
    ∅ inputs ∅ ["f"].
Theorem C64_optional_arguments_refuted :
  exists rqs, rqs = [sh_optional {[ "p" := Some 1 ]}; sh_optional {[ "q" := Some 1 ]}] /\
    sh_outs ∘ plain <$> rqs = [[Some (Some 10)]; [Some (Some 1)]] /\
    map sh_outs <$> (sh_lifetimes ∅ [] [([], rqs)]).2 = [[[Some (Some 10)]; [Some (Some 10)]]].
Proof. eexists. split_and!; [done|by vm_compute..]. Qed.
Print Assumptions C64_optional_arguments_refuted.

(** An adapter object that serves two versions of a function (without [one_source]) files a value it has loaded for one version
    under the other: [used_nodes_hash] is never cleared. *)
Theorem C64_two_versions_refuted :
  exists ls, ls = [([], [sh_request 1 4 ["b"]]); ([], [sh_request 0 8 ["b"]; sh_request 1 4 ["b"]; sh_request 0 4 ["b"]])] /\
    sources_identify (concat ls.*2) /\
    sh_outs ∘ plain <$> [sh_request 0 8 ["b"]; sh_request 1 4 ["b"]; sh_request 0 4 ["b"]] = [[Some (Some 9)]; [Some (Some 6)]; [Some (Some 5)]] /\
    map sh_outs <$> (sh_lifetimes ∅ [] ls).2 = [[[Some (Some 6)]]; [[Some (Some 9)]; [Some (Some 6)]; [Some (Some 6)]]].
Proof.
  eexists. split; [reflexivity|]. split; [|split; by vm_compute].
  assert (Hin : forall rq, rq ∈ concat [([] : list name, [sh_request 1 4 ["b"]]); ([], [sh_request 0 8 ["b"]; sh_request 1 4 ["b"]; sh_request 0 4 ["b"]])].*2 ->
    exists rq', rq' ∈ sh_U /\ rq_graph rq' = rq_graph rq /\ rq_fns rq' = rq_fns rq).
  { cbn. intros rq Hrq.
    repeat (apply elem_of_cons in Hrq as [-> |Hrq]; [
      (exists (sh_request 0 4 ["c"]); split_and!; [by left|done|reflexivity]) ||
      (exists (sh_request 1 4 ["c"]); split_and!; [by right; left|done|reflexivity])|]).
    by apply elem_of_nil in Hrq. }
  intros rq1 rq2 x1 x2 nd1 nd2 kw1 kw2 s H1 H2.
  destruct (Hin _ H1) as (r1 & Hr1 & <- & <-). destruct (Hin _ H2) as (r2 & Hr2 & <- & <-). by apply sh_identify.
Qed.
Print Assumptions C64_two_versions_refuted.

(** With arguments or results that cannot be pickled executions fail that succeed without the adapter. *)
Theorem C64_unpicklable_refuted :
  exists (pickle : option nat -> option string) rq, rq = sh_request 0 4 ["c"] /\
    sh_outs (plain rq) = [Some (Some 50)] /\
    exists e tr, (shelf_execute pickle sh_unpickle sh_digest None sh_is_none "PicklingError" "OSError" rq (SState ∅ ∅ [] [])).2 = Failed e tr.
Proof. exists (fun _ => None). eexists. split_and!; [done|by vm_compute|]. eexists. eexists. by vm_compute. Qed.
Print Assumptions C64_unpicklable_refuted.

(** Without [cache_vars] all nodes of the first graph that is executed are cached, but not those of other graphs. *)
Definition sh_other : request (option nat) string :=
  Request (list_to_map [ ("a", Node true [] ["e"]); ("e", Node false [("a", REQUIRED)] []) ])
    (fun _ => CFn (Some "a + 7") (sh_fn "a" (fun n => Some (n + 7)))) ∅ {[ "a" := Some 4 ]} ∅ ["e"].
Theorem C64_first_graph_decides_refuted :
  exists ls, ls = [([], [sh_request 0 4 ["c"]; sh_other; sh_other; sh_request 0 4 ["c"]])] /\
    (sh_lifetimes ∅ [] ls).1.2 = ["b"; "c"; "e"; "e"].
Proof. eexists. split; [done|by vm_compute]. Qed.
Print Assumptions C64_first_graph_decides_refuted.
