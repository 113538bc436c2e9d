(** Transparency of the cache (C32) and cache hits of repeated executions (C33). *)
From Coq Require Import Ascii.
From stdpp Require Import pretty.
From Verif Require Import Base Dict Strings ExecModel ExecSpec ExecResults ExecProps
  CacheKeyModel CacheToy FingerprintModel CacheModel CacheSpec CacheProofs.

(** ** Concrete values *)
Inductive tv := TInt (n : nat) | TPair (a b : nat) | TOpaque (n : nat).
Global Instance tv_eq_dec : EqDecision tv.
Proof. solve_decision. Defined.
Definition toy_hash (v : tv) : string :=
  match v with
  | TInt n => String "i"%char (pretty n)
  | TPair a b => String "p"%char (pretty a +:+ String "."%char (pretty b))
  | TOpaque _ => UNHASHABLE
  end.
Definition toy_uuid (n : nat) : string := pretty n.
Definition toy_head (v : tv) : option tv := match v with TPair a _ => Some (TInt a) | _ => None end.

Lemma pretty_no_comma (i : nat) : lacks ","%char (pretty i).
Proof. apply pretty_lacks. intros y. unfold pretty_N_char. by repeat case_match. Qed.
Lemma toy_versions : versions_ok toy_hash toy_uuid toy_compress.
Proof.
  constructor.
  - intros [n|a b|n] [m|c d|m]; cbn; intros H Hu; try done.
    + injection H as H. by apply (inj (pretty : nat -> string)) in H as ->.
    + injection H as H. apply split_unique in H as [H1 H2]; [|apply pretty_no_dot..].
      by apply (inj (pretty : nat -> string)) in H1 as ->; apply (inj (pretty : nat -> string)) in H2 as ->.
  - intros [n|a b|n]; cbn.
    + split; [done|apply pretty_no_comma].
    + split; [done|]. apply lacks_app. split; [apply pretty_no_comma|]. split; [done|apply pretty_no_comma].
    + by apply (bool_decide_unpack _); vm_compute.
  - intros [n|a b|m] n'; cbn; done.
  - intros [n|a b|m] n'; cbn; try done.
  - intros m n. apply (inj (pretty : nat -> string)).
  - apply pretty_no_comma.
  - exists toy_decompress. apply toy_left.
  - apply toy_dash.
Qed.

(** A driver over the functions [code]; the code version of every node is [cv]. *)
Definition toy_code (x cv : string) (kw : gmap name tv) : res string tv :=
  match x, cv, kw !! "a", kw !! "b", kw !! "k" with
  | "b", "v1", Some (TInt n), _, _ => Ok (TInt (n + 1))
  | "b", _, Some (TInt n), _, _ => Ok (TInt (n + 2))
  | "c", _, _, Some (TInt n), Some (TInt k) => Ok (TPair n k)
  | "c", _, _, Some (TInt n), None => Ok (TPair n 7)
  | "o", _, Some (TInt n), _, _ => Ok (TOpaque n)
  | "o", _, Some (TOpaque n), _, _ => Ok (TInt n)
  | "five", _, _, _, _ => Ok (TInt 5)
  | _, _, _, _, _ => Err "boom"
  end.

Definition toy_graph : graph :=
  list_to_map
    [ ("a", Node true [] ["b"; "o"]);
      ("k", Node true [] ["c"]);
      ("b", Node false [("a", REQUIRED)] ["c"]);
      ("c", Node false [("b", REQUIRED); ("k", OPTIONAL)] []);
      ("o", Node false [("a", REQUIRED)] []);
      ("five", Node false [] []) ].
Definition toy_env (cv : name -> string) (beh : name -> behavior) (loaders savers : gset name) : cenv tv string :=
  CEnv toy_graph (fun x kw => toy_code (safe_name x) (cv x) kw)
    (fun x => if decide (x = "c") then <["k" := TInt 7]> ∅ else ∅) cv
    (fun x => Some (beh x)) loaders savers.
Definition toy_request cv beh a fv : request :=
  Request (toy_env cv beh ∅ ∅) ∅ (<["a" := a]> ∅) ∅ fv.

(** One name of the toy dataflow. *)
Lemma toy_names x nd : toy_graph !! x = Some nd ->
  x ∈ ["a"; "k"; "b"; "c"; "o"; "five"].
Proof. intros H. apply elem_of_list_to_map_2 in H. set_solver. Qed.
Lemma toy_edge x d : edge toy_graph x d -> d ∈ ["a"; "b"; "k"].
Proof.
  intros (nd & H & Hd). apply elem_of_list_to_map_2 in H. cbn in H.
  repeat (apply elem_of_cons in H as [[= -> ->]|H]; [cbn in Hd; set_solver|]). by apply elem_of_nil in H.
Qed.

Lemma toy_request_ok cv beh a fv : beh "a" <> IGNORE -> beh "b" <> IGNORE -> beh "k" <> IGNORE ->
  request_ok toy_head toy_code (toy_request cv beh a fv).
Proof.
  intros Ha Hb Hk. constructor; cbn [rq_env rq_inputs toy_request toy_env ce_graph ce_call ce_defaults ce_beh ce_code ce_savers ce_loaders].
  - apply wf_graphb_ok. vm_compute. reflexivity.
  - apply (rankedb_acyclic (rank_in ["a"; "k"; "five"; "b"; "c"; "o"])). vm_compute. reflexivity.
  - done.
  - intros x kw. destruct (decide (x = "c")) as [->|Hne]; [|by rewrite (right_id_L ∅ (∪))].
    change (safe_name "c") with "c". unfold toy_code.
    assert (Hu : forall d, (kw ∪ <["k" := TInt 7]> ∅) !! d = match kw !! d with Some v => Some v | None => (<["k" := TInt 7]> ∅ : gmap name tv) !! d end).
    { intros d. rewrite lookup_union. destruct (kw !! d); cbn.
      - by destruct (<["k":=TInt 7]> ∅ !! d).
      - by destruct (<["k":=TInt 7]> ∅ !! d). }
    rewrite !Hu. change ((<["k" := TInt 7]> ∅ : gmap name tv) !! "a") with (@None tv).
    change ((<["k" := TInt 7]> ∅ : gmap name tv) !! "b") with (@None tv).
    change ((<["k" := TInt 7]> ∅ : gmap name tv) !! "k") with (Some (TInt 7)).
    by destruct (kw !! "b") as [[]|], (kw !! "k") as [[]|], (kw !! "a") as [[]|].
  - intros x nd d Hg [v Hd]. destruct (decide (x = "c")) as [->|]; [|by rewrite lookup_empty in Hd].
    apply lookup_insert_Some in Hd as [[<- _]|[_ Hd]]; [|by rewrite lookup_empty in Hd].
    vm_compute in Hg. injection Hg as <-. cbn. set_solver.
  - intros x _. by eexists.
  - intros x d He. apply toy_edge in He. intros [= Hi].
    repeat (apply elem_of_cons in He as [->|He]; [done|]). by apply elem_of_nil in He.
  - intros x _. apply not_elem_of_empty.
  - intros x kw v Hx. by apply elem_of_empty in Hx.
  - intros x nd [v Hx] Hg. apply lookup_insert_Some in Hx as [[<- _]|[_ Hx]]; [|by rewrite lookup_empty in Hx].
    vm_compute in Hg. by injection Hg as <-.
  - intros x d He. apply toy_edge in He.
    repeat (apply elem_of_cons in He as [->|He]; [by apply (bool_decide_unpack _); vm_compute|]). by apply elem_of_nil in He.
Qed.

(** ** C32 *)

(** Full claim: a cache shared by any sequence of executions never changes what an execution
    returns. Proved for every history of executions (of different dataflows, code versions,
    caching behaviours, inputs, overrides and requests) and deletions in both stores, with the
    overwriting metadata store as well as with the one that ignores a second write; answers,
    exceptions and the whole sequence of node results are equal.
    Missing (see [request_ok]; each refuted below): inputs with the name of a function, data
    savers, data loaders that load tuples, dependents of IGNOREd nodes, and values that are
    not told apart by their fingerprint. *)
Theorem C32_transparent_partial {V E} (hash : V -> string) uuid head compress overwrite code (acts : list (@action V E)) :
  versions_ok hash uuid compress ->
  (forall rq, rq ∈ requests_of acts -> request_ok head code rq) ->
  (session hash uuid head compress overwrite empty_cache acts).2 = map plain_execute (requests_of acts).
Proof. intros Hv Hall. by apply (session_transparent _ _ _ _ _ code Hv acts empty_cache ∅ (sinv_empty _ _ _ _)). Qed.
Print Assumptions C32_transparent_partial.

Definition mixed (x : name) : behavior :=
  if decide (x = "b") then RECOMPUTE else if decide (x = "five") then IGNORE else if decide (x = "o") then DISABLE else DEFAULT.
Definition toy_acts : list action :=
  [ AExec (toy_request (fun _ => "v1") (fun _ => DEFAULT) (TInt 1) ["c"; "o"]);
    AExec (toy_request (fun _ => "v2") (fun _ => DEFAULT) (TInt 1) ["c"]);
    ADelAllRes;
    AExec (toy_request (fun _ => "v1") mixed (TInt 2) ["c"; "five"; "o"]);
    ADelMeta "x";
    AExec (toy_request (fun _ => "v1") (fun _ => DEFAULT) (TInt 1) ["c"; "o"]) ].
Example C32_nonvacuous :
  versions_ok toy_hash toy_uuid toy_compress /\
  (forall rq, rq ∈ requests_of toy_acts -> request_ok toy_head toy_code rq) /\
  map (fun a => match a with Answer out _ => Some out | _ => None end)
    (session toy_hash toy_uuid toy_head toy_compress false empty_cache toy_acts).2
  = [ Some [("c", Some (TPair 2 7)); ("o", Some (TOpaque 1))]; Some [("c", Some (TPair 3 7))];
      Some [("c", Some (TPair 3 7)); ("five", Some (TInt 5)); ("o", Some (TOpaque 2))];
      Some [("c", Some (TPair 2 7)); ("o", Some (TOpaque 1))] ].
Proof.
  split_and!.
  - apply toy_versions.
  - intros rq Hin. cbn in Hin.
    repeat (apply elem_of_cons in Hin as [->|Hin]; [by apply toy_request_ok|]). by apply elem_of_nil in Hin.
  - by vm_compute.
Qed.

(** The answers of a history, and what the same executions return without cache. *)
Definition out_of {V E} (a : answer V E) : option (list (name * option V)) :=
  match a with Answer out _ => Some out | _ => None end.
Definition with_cache (acts : list (@action tv string)) :=
  map out_of (session toy_hash toy_uuid toy_head toy_compress true empty_cache acts).2.
Definition without_cache (acts : list (@action tv string)) := map out_of (map plain_execute (requests_of acts)).

(** An input with the name of a function. Without cache it is ignored; with a cache its data
    version is taken for the one of the function's result, and any stored value with that
    version is returned. *)
Theorem C32_input_names_function_refuted : exists acts,
  without_cache acts = [Some [("five", Some (TInt 5))]; Some [("b", Some (TInt 2))]] /\
  with_cache acts = [Some [("five", Some (TInt 5))]; Some [("b", Some (TInt 5))]].
Proof.
  exists [ AExec (toy_request (fun _ => "v1") (fun _ => DEFAULT) (TInt 1) ["five"]);
           AExec (Request (toy_env (fun _ => "v1") (fun _ => DEFAULT) ∅ ∅) ∅ (<["b" := TInt 5]> (<["a" := TInt 1]> ∅)) ∅ ["b"]) ].
  by vm_compute.
Qed.
Print Assumptions C32_input_names_function_refuted.

(** A data loader whose data is a tuple: the node with the data is itself listed among the data
    loaders, and only the first component of the tuple comes out. *)
Theorem C32_loader_tuple_refuted : exists acts,
  without_cache acts = [Some [("c", Some (TPair 2 7))]] /\ with_cache acts = [Some [("c", Some (TInt 2))]].
Proof.
  exists [ AExec (Request (toy_env (fun _ => "v1") (fun _ => DEFAULT) {["c"]} ∅) ∅ (<["a" := TInt 1]> ∅) ∅ ["c"]) ].
  by vm_compute.
Qed.
Print Assumptions C32_loader_tuple_refuted.

(** Data savers: all metadata of a saver is stored under one data version, so that a cache hit
    returns the metadata of the first save. *)
Theorem C32_saver_refuted : exists acts,
  without_cache acts = [Some [("b", Some (TInt 2))]; Some [("b", Some (TInt 3))]; Some [("b", Some (TInt 3))]] /\
  with_cache acts = [Some [("b", Some (TInt 2))]; Some [("b", Some (TInt 3))]; Some [("b", Some (TInt 2))]].
Proof.
  pose (rq n := Request (toy_env (fun _ => "v1") (fun _ => DEFAULT) ∅ {["b"]}) ∅ (<["a" := TInt n]> ∅) ∅ ["b"]).
  exists [AExec (rq 1); AExec (rq 2); AExec (rq 2)]. by vm_compute.
Qed.
Print Assumptions C32_saver_refuted.

(** A dependency that is IGNOREd (as documented): the result for another value comes out. *)
Theorem C32_ignored_dependency_refuted : exists acts,
  without_cache acts = [Some [("b", Some (TInt 2))]; Some [("b", Some (TInt 3))]] /\
  with_cache acts = [Some [("b", Some (TInt 2))]; Some [("b", Some (TInt 2))]].
Proof.
  pose (rq n := toy_request (fun _ => "v1") (fun x => if decide (x = "a") then IGNORE else DEFAULT) (TInt n) ["b"]).
  exists [AExec (rq 1); AExec (rq 2)]. by vm_compute.
Qed.
Print Assumptions C32_ignored_dependency_refuted.

(** With the fingerprints of fingerprinting.py: a function that returns its argument, called
    with two values of the same fingerprint, returns the first one twice. *)
Definition id_graph : graph := list_to_map [("p", Node true [] ["f"]); ("f", Node false [("p", REQUIRED)] [])].
Definition id_request (v : val) : @request val string :=
  Request (CEnv id_graph (fun _ kw => match kw !! "p" with Some v => Ok v | None => Err "missing" end)
             (fun _ => ∅) (fun _ => "v1") (fun _ => Some DEFAULT) ∅ ∅) ∅ (<["p" := v]> ∅) ∅ ["f"].
Definition id_with_cache vs :=
  map out_of (session (hash_value toy_md5 toy_sha 6 0) toy_uuid (fun _ => None) toy_compress true empty_cache
    (map (fun v => AExec (id_request v)) vs)).2.
Theorem C32_fingerprint_collisions_refuted : exists v w, v <> w /\
  (exists x y, v = VInt x /\ w = VStr y) /\
  map out_of (map plain_execute (map id_request [v; w])) = [Some [("f", Some v)]; Some [("f", Some w)]] /\
  id_with_cache [v; w] = [Some [("f", Some v)]; Some [("f", Some v)]].
Proof. exists (VInt 1), (VStr "1"). split_and!; [done|by eexists _, _|by vm_compute..]. Qed.
Print Assumptions C32_fingerprint_collisions_refuted.
Theorem C32_nested_unhashable_refuted : exists v w, v <> w /\
  map out_of (map plain_execute (map id_request [v; w])) = [Some [("f", Some v)]; Some [("f", Some w)]] /\
  id_with_cache [v; w] = [Some [("f", Some v)]; Some [("f", Some v)]].
Proof. exists (VSeq false [VOpaque "o1"]), (VSeq false [VOpaque "o2"]). split_and!; [done|by vm_compute..]. Qed.
Print Assumptions C32_nested_unhashable_refuted.

(** ** C33 *)

(** After any history, an execution with default behaviours that succeeds, repeated at once,
    invokes no function, provided that all values have fingerprints. *)
Theorem C33_repeated_execution {V E} (hash : V -> string) uuid head compress overwrite code (acts : list (@action V E)) rq out tr :
  versions_ok hash uuid compress ->
  (forall rq, rq ∈ requests_of acts -> request_ok head code rq) ->
  request_ok head code rq -> all_default rq -> hashable_run hash rq ->
  plain_execute rq = Answer out tr ->
  let st := (session hash uuid head compress overwrite empty_cache acts).1 in
  let st1 := (cached_execute hash uuid head compress overwrite st rq).1 in
  cs_log (cached_execute hash uuid head compress overwrite st1 rq).1 = cs_log st1.
Proof.
  intros Hv Hall Hok Hdef Hh Hans st st1.
  destruct (session_transparent _ _ _ _ overwrite code Hv acts empty_cache ∅ (sinv_empty _ _ _ _) Hall) as (_ & [M Hs] & _).
  by eapply (repeated _ _ _ _ _ code Hv st M rq out tr).
Qed.
Print Assumptions C33_repeated_execution.

(** More generally: a function that was called and returned in an execution [rq] is not
    invoked with the same arguments (default values included) and the same code version in any
    later execution [rq'], whatever executions happen in between. *)
Theorem C33_never_again {V E} (hash : V -> string) uuid head compress overwrite code (acts acts' : list (@action V E)) rq rq' :
  versions_ok hash uuid compress ->
  (forall rq, rq ∈ requests_of acts -> request_ok head code rq) ->
  (forall rq, rq ∈ requests_of acts' -> request_ok head code rq) -> no_deletions acts' ->
  request_ok head code rq -> all_default rq -> hashable_run hash rq ->
  request_ok head code rq' -> all_default rq' -> hashable_run hash rq' ->
  let st := (session hash uuid head compress overwrite empty_cache acts).1 in
  let st1 := (cached_execute hash uuid head compress overwrite st rq).1 in
  let st2 := (session hash uuid head compress overwrite st1 acts').1 in
  let st3 := (cached_execute hash uuid head compress overwrite st2 rq').1 in
  exists new, cs_log st3 = cs_log st2 ++ new /\
    forall x kw v, Call x kw (Ok v) ∈ trace_of (plain_execute rq) ->
      ce_code (rq_env rq') x = ce_code (rq_env rq) x ->
      (x, kw ∪ ce_defaults (rq_env rq) x) ∉ new.
Proof.
  intros Hv Hall Hall' Hnd Hok Hdef Hh Hok' Hdef' Hh' st st1 st2 st3.
  destruct (session_transparent _ _ _ _ overwrite code Hv acts empty_cache ∅ (sinv_empty _ _ _ _) Hall) as (_ & [M Hs] & _).
  destruct (never_again _ _ _ _ overwrite code Hv st M rq acts' rq' Hs Hok Hdef Hh Hall' Hnd Hok' Hdef' Hh') as (new & ? & _ & ?).
  by exists new.
Qed.
Print Assumptions C33_never_again.

(** What is in the log: every invocation, with its arguments. *)
Definition toy_log (acts : list (@action tv string)) : list (name * list (name * tv)) :=
  map (fun p => (p.1, map_to_list p.2)) (cs_log (session toy_hash toy_uuid toy_head toy_compress true empty_cache acts).1).
Definition toy_rq n fv := toy_request (fun _ => "v1") (fun _ => DEFAULT) (TInt n) fv.
Example C33_nonvacuous :
  request_ok toy_head toy_code (toy_rq 1 ["c"]) /\ all_default (toy_rq 1 ["c"]) /\
  hashable_run toy_hash (toy_rq 1 ["c"]) /\
  out_of (plain_execute (toy_rq 1 ["c"])) = Some [("c", Some (TPair 2 7))] /\
  toy_log [AExec (toy_rq 1 ["c"])] = [("b", [("a", TInt 1)]); ("c", [("b", TInt 2); ("k", TInt 7)])] /\
  toy_log [AExec (toy_rq 1 ["c"]); AExec (toy_rq 1 ["c"])] = [("b", [("a", TInt 1)]); ("c", [("b", TInt 2); ("k", TInt 7)])].
Proof.
  split_and!.
  - by apply toy_request_ok.
  - done.
  - constructor.
    + intros d v [H|[H|H]]; cbn in H; [|by rewrite lookup_empty in H..].
      apply lookup_insert_Some in H as [[_ <-]|[_ H]]; [done|by rewrite lookup_empty in H].
    + intros x d v _ H. cbn in H. destruct (decide (x = "c")); [|by rewrite lookup_empty in H].
      apply lookup_insert_Some in H as [[_ <-]|[_ H]]; [done|by rewrite lookup_empty in H].
    + intros x kw v Hin.
      assert (HF : Forall (fun ev : event tv (cexn string) => match ev with Call _ _ (Ok v) => toy_hash v <> UNHASHABLE | _ => True end)
          (trace_of (plain_execute (toy_rq 1 ["c"])))).
      { vm_compute. repeat (apply List.Forall_cons; [done|]). apply List.Forall_nil. }
      by apply (proj1 (Forall_forall _ _) HF (Call x kw (Ok v)) Hin).
  - by vm_compute.
  - by vm_compute.
  - by vm_compute.
Qed.

(** An input without fingerprint gets a new data version every time: functions that take it
    as an argument are invoked again. *)
Theorem C33_unhashable_input_refuted : exists rq,
  request_ok toy_head toy_code rq /\ all_default rq /\
  out_of (plain_execute rq) = Some [("o", Some (TInt 3))] /\
  toy_log [AExec rq] = [("o", [("a", TOpaque 3)])] /\
  toy_log [AExec rq; AExec rq] = [("o", [("a", TOpaque 3)]); ("o", [("a", TOpaque 3)])].
Proof.
  exists (toy_request (fun _ => "v1") (fun _ => DEFAULT) (TOpaque 3) ["o"]).
  split_and!; [by apply toy_request_ok|done|by vm_compute..].
Qed.
Print Assumptions C33_unhashable_input_refuted.

(** A result without fingerprint, after its deletion from the result store, with the metadata
    store that ignores a second write (SQLite): the stale data version stays under the cache
    key, and the function is invoked in every later execution. *)
Theorem C33_unhashable_result_refuted : exists rq,
  request_ok toy_head toy_code rq /\ all_default rq /\
  out_of (plain_execute rq) = Some [("o", Some (TOpaque 1))] /\
  let log overwrite acts := map fst (cs_log (session toy_hash toy_uuid toy_head toy_compress overwrite empty_cache acts).1) in
  log false [AExec rq; AExec rq] = ["o"] /\
  log false [AExec rq; ADelAllRes; AExec rq; AExec rq; AExec rq] = ["o"; "o"; "o"; "o"] /\
  log true [AExec rq; ADelAllRes; AExec rq; AExec rq; AExec rq] = ["o"; "o"].
Proof. exists (toy_rq 1 ["o"]). split_and!; [by apply toy_request_ok|done|by vm_compute..]. Qed.
Print Assumptions C33_unhashable_result_refuted.
