(** C89: the events the OpenLineage adapter sends tell of runs, and of what nodes save and load. *)
From Coq Require Import Ascii.
From Verif Require Import Base Strings GraphModel LineageModel LineageSpec LineageProofs.

Section Props.
Variable accepts : event -> bool.
Variable namespace job_name : string.
Variable graph_version : list string -> string.
Notation post := (post_node_execute accepts namespace job_name).
Notation exec := (execute accepts namespace job_name graph_version).
Notation mat := (materialize accepts namespace job_name graph_version).

(** Whatever the client, the graph and the nodes do, execute adds to what was sent the events of this
    run, under its identifier, in order: its start, those of nodes, at most one end. *)
Theorem C89_order l run p : exists es, snd (exec l run p) = l ++ es /\ in_order es /\ Forall (about run namespace job_name) es.
Proof. apply execute_in_order. Qed.

(** Where the client takes events, sources can be read and metadata is complete, a run comes to what it
    comes to without the adapter, and what is sent is its start, what its nodes that returned saved and
    loaded, one event each and in order, and its end. *)
Theorem C89_execute l run p vs r : (forall e, accepts e = true) -> readable (pl_graph p) -> plain p vs r -> all_complete vs ->
  exists s mid fin, exec l run p = (r, l ++ s :: mid ++ [fin]) /\ ev_kind s = START /\ tells namespace job_name run vs mid /\ is_end fin /\ ev_inputs fin = [] /\ ev_outputs fin = [].
Proof. intros Ha Hg Hp Hc. destruct (execute_all accepts namespace job_name graph_version Ha l run p vs r Hg Hp Hc) as (ss & mid & fin & H & _ & Ht & _ & He & Hi & Ho & _). by exists (start namespace job_name graph_version run p ss), mid, fin. Qed.

(** The start names what was asked for and given, and carries the source of each node that has one. *)
Theorem C89_start l run p vs r : (forall e, accepts e = true) -> readable (pl_graph p) -> plain p vs r -> all_complete vs ->
  exists ss rest, snd (exec l run p) =
      l ++ Event START run [RHamilton (graph_version (map fst (pl_graph p))) (pl_final p) (default [] (pl_inputs p)) (default [] (pl_overrides p))] namespace job_name [JSource ss; JType] [] [] :: rest /\
    Forall2 (fun xs xo => fst xs = fst xo /\ match snd xo with Some t => snd xs = SText t | None => snd xs = SNone end) (pl_graph p) ss.
Proof.
  intros Ha Hg Hp Hc. destruct (execute_all accepts namespace job_name graph_version Ha l run p vs r Hg Hp Hc) as (ss & mid & fin & H & Hs & _).
  destruct (sources_readable _ Hg) as (ss' & Es & H2). exists ss, (mid ++ [fin]). rewrite H. split; [done|]. congruence.
Qed.

(** The end says COMPLETE if the run returned, and FAIL with the error if an exception was raised that
    is of the class Exception and that Python takes for true. Missing: other exceptions, see
    [C89_interrupt_refuted] and [C89_falsy_refuted]. *)
Theorem C89_verdict_partial l run p vs r : (forall e, accepts e = true) -> readable (pl_graph p) -> plain p vs r -> all_complete vs ->
  exists es fin, exec l run p = (r, l ++ es ++ [fin]) /\
    (r = Ok tt -> ev_kind fin = COMPLETE /\ ev_run_facets fin = []) /\
    (forall e, r = Err e -> is_exception e = true -> truthy e = true -> ev_kind fin = FAIL /\ ev_run_facets fin = [RError e]).
Proof.
  intros Ha Hg Hp Hc. destruct (execute_all accepts namespace job_name graph_version Ha l run p vs r Hg Hp Hc) as (ss & mid & fin & H & _ & _ & _ & _ & _ & _ & H1 & H2).
  by exists (start namespace job_name graph_version run p ss :: mid), fin.
Qed.

(** materialize sends what execute sends, once there is a graph and it is valid. *)
Theorem C89_materialize l run p vs r : (forall e, accepts e = true) -> readable (pl_graph p) -> plain p vs r -> all_complete vs ->
  mat l run None None p = exec l run p.
Proof. intros Ha. by apply materialize_all. Qed.

(** A node that failed, and one that saved or loaded nothing about which metadata is known, is not told
    of and its hook does not fail. *)
Theorem C89_quiet l run n v : (forall m, ~ saves n v m /\ ~ loads n v m) -> forall b, post l run n b v = (Ok tt, l).
Proof. intros H []; [by apply post_quiet|done]. Qed.
Theorem C89_failed l run n v : post l run n false v = (Ok tt, l).
Proof. done. Qed.

Hypothesis all : forall e, accepts e = true.

(** A file that was saved is named by its path, with the ending as format and the node as source. *)
Theorem C89_saved_file l run n path m : ln_saver n = true -> m_file m = Some (Some path) -> complete m ->
  exists d, post l run n true (VDict m) = (Ok tt, l ++ [Event RUNNING run [] namespace job_name [] [] [d]]) /\
    ds_namespace d = namespace /\ ds_name d = Some path /\ ds_source d = Some (ln_name n, path) /\ schema m (ds_schema d) /\
    (forall f, ends_in path f -> ds_format d = Some f) /\ (lacks "."%char path -> ds_format d = Some "unknown").
Proof.
  intros Hs Hf Hc. destruct (output_written namespace m n Hc) as (d & Ed & Hd). exists d.
  assert (Hn : m <> no_meta) by (intros ->; done).
  rewrite (post_saved accepts namespace job_name l run n (VDict m) m d); [|done|done]. rewrite emit_all by done. split; [done|].
  inversion Hd as [path' f s Hf' Hsch Hfmt| |]; subst; try congruence. rewrite Hf in Hf'. injection Hf' as <-. do 4 (split; [done|]). cbn [ds_format]. split.
  - intros f' Hf'. destruct Hfmt as [He|[Hl _]]; [f_equal; by eapply ends_unique|].
    destruct Hf' as [_ [a ->]]. apply lacks_app in Hl as [_ Hl]. change (lacks "." (String "." f')) in Hl. by destruct Hl.
  - intros Hl. destruct Hfmt as [[_ [a ->]]|[_ ->]]; [|done]. apply lacks_app in Hl as [_ Hl]. change (lacks "." (String "." f)) in Hl. by destruct Hl.
Qed.

(** A file that was loaded has its path as uri; its name is that of the node, without ".loader" and what
    follows. Missing: its name is not the file's and its format is unknown for loaders made of functions,
    see [C89_file_refuted] and [C89_format_refuted]. *)
Theorem C89_loaded_file_partial l run n x path m : ln_loader n = true -> ln_metadata n = true -> m_file m = Some (Some path) -> complete m ->
  exists d y, post l run n true (VTuple [x; VDict m]) = (Ok tt, l ++ [Event RUNNING run [] namespace job_name [] [d] []]) /\
    ds_namespace d = namespace /\ ds_name d = Some y /\ ds_source d = Some (y, path) /\ schema m (ds_schema d) /\
    (leads ".loader" (ln_name n) y \/ (~ within ".loader" (ln_name n) /\ y = ln_name n)).
Proof.
  intros H1 H2 Hf Hc. destruct (input_read namespace m n Hc) as (d & q & Ed & Hd).
  assert (Hn : m <> no_meta) by (intros ->; done).
  assert (Hl : loads n (VTuple [x; VDict m]) m) by (do 2 (split; [done|]); split; [by exists x|done]).
  inversion Hd as [path' y f s Hf' Hsch Hname Hfmt| |]; subst; try congruence. rewrite Hf in Hf'. injection Hf' as <-.
  eexists _, y. rewrite (post_loaded accepts namespace job_name l run n _ m _ _ Hl Ed), emit_all by done. by do 5 (split; [done|]).
Qed.

(** A table saved by one node and loaded, by its name, by another is the same dataset. *)
Theorem C89_table l run l' run' n n' x t : ~ within "SELECT" t -> ln_saver n = true -> ln_loader n' = true -> ln_metadata n' = true ->
  exists d, post l run n true (VDict (get_sql_metadata t)) = (Ok tt, l ++ [Event RUNNING run [] namespace job_name [] [] [d]]) /\
    post l' run' n' true (VTuple [x; VDict (get_sql_metadata t)]) = (Ok tt, l' ++ [Event RUNNING run' [] namespace job_name [JSql None] [d] []]) /\
    ds_namespace d = namespace /\ ds_name d = Some t.
Proof.
  intros Ht H1 H2 H3. exists (Dataset namespace (Some t) None None None). apply contains_not in Ht.
  assert (Em : get_sql_metadata t = Meta None (Some (Val t, Null)) None false) by (unfold get_sql_metadata; by rewrite Ht).
  rewrite Em. split; [|split; [|done]].
  - rewrite (post_saved accepts namespace job_name l run n _ (Meta None (Some (Val t, Null)) None false) (Dataset namespace (Some t) None None None)); [by apply emit_all|done|done].
  - rewrite (post_loaded accepts namespace job_name l' run' n' _ (Meta None (Some (Val t, Null)) None false) (Dataset namespace (Some t) None None None) [JSql None]); [by apply emit_all| |done].
    do 2 (split; [done|]). split; [by exists x|done].
Qed.
(** A query is told as it was. *)
Theorem C89_query l run n x q : within "SELECT" q -> ln_loader n = true -> ln_metadata n = true ->
  exists d, post l run n true (VTuple [x; VDict (get_sql_metadata q)]) = (Ok tt, l ++ [Event RUNNING run [] namespace job_name [JSql (Some q)] [d] []]).
Proof.
  intros Ht H2 H3. exists (Dataset namespace None None None None). apply contains_within in Ht.
  assert (Em : get_sql_metadata q = Meta None (Some (Null, Val q)) None false) by (unfold get_sql_metadata; by rewrite Ht).
  rewrite Em, (post_loaded accepts namespace job_name l run n _ (Meta None (Some (Null, Val q)) None false) (Dataset namespace None None None None) [JSql (Some q)]); [by apply emit_all| |done].
  do 2 (split; [done|]). split; [by exists x|done].
Qed.
End Props.

(** The metadata of files, tables, and frames with columns is complete. *)
Theorem C89_metadata path q cs ts : complete (get_file_metadata path) /\ complete (get_sql_metadata q) /\
  complete (get_dataframe_metadata (Frame (Some cs) (Some ts))) /\ complete (get_file_and_dataframe_metadata path (Frame (Some cs) (Some ts))).
Proof.
  split_and!; (split; [done|]); (split; [cbn; try done; intros _ t q' [= <- <-]; by destruct (str_contains "SELECT" q)|]);
    intros ? ? [= <- <-]; cbn; eauto.
Qed.
(** The schema has the columns with their types, in order. *)
Theorem C89_schema path cs ts : length cs = length ts -> forall s, schema (get_file_and_dataframe_metadata path (Frame (Some cs) (Some ts))) s ->
  exists fs, s = Some fs /\ map fst fs = cs /\ map snd fs = ts.
Proof.
  intros Hl [fs|] H; [|done]. destruct H as (cs' & ts' & [= <- <-] & ->). exists (zip cs ts). split; [done|].
  split; [by apply fst_zip; rewrite Hl|by apply snd_zip; rewrite Hl].
Qed.

(** ** A case *)
Definition ex_plan (ns : list (lnode * outcome)) (b : res lerr unit) : plan :=
  Plan [("raw.loader", SText "def raw()"); ("raw", SText "def raw()"); ("total", SText "def total(raw)"); ("limit", SNone)] ["total"; "save"] (Some ["limit"]) None None ns b.
Definition ex_load : lnode := LNode "raw.loader" false true true.
Definition ex_select : lnode := LNode "raw" false true false.
Definition ex_total : lnode := LNode "total" false false false.
Definition ex_save : lnode := LNode "save" true false false.
Definition ex_frame : frame := Frame (Some ["a"; "b"]) (Some ["int64"; "object"]).
Definition ex_nodes : list (lnode * outcome) :=
  [(ex_load, Returns (VTuple [VOther; VDict (get_file_and_dataframe_metadata "in.csv" ex_frame)]));
   (ex_select, Returns VOther); (ex_total, Returns VOther); (ex_save, Returns (VDict (get_file_metadata "out/total.parquet")))].
Definition ex_values : list (lnode * value) :=
  [(ex_load, VTuple [VOther; VDict (get_file_and_dataframe_metadata "in.csv" ex_frame)]);
   (ex_select, VOther); (ex_total, VOther); (ex_save, VDict (get_file_metadata "out/total.parquet"))].
Definition ok : event -> bool := fun _ => true.
Example C89_case : readable (pl_graph (ex_plan ex_nodes (Ok tt))) /\ plain (ex_plan ex_nodes (Ok tt)) ex_values (Ok tt) /\ all_complete ex_values.
Proof.
  split; [|split].
  - intros x Hx. by repeat (apply elem_of_cons in Hx as [Hx|Hx]; [done|]); apply elem_of_nil in Hx.
  - apply (plain_build (ex_plan ex_nodes (Ok tt))); [done|]. repeat constructor.
  - intros n v m Hin Hm. repeat (apply elem_of_cons in Hin as [Hin|Hin]; [injection Hin as -> ->; destruct Hm as [(? & He & ?)|(? & ? & [? He] & ?)]; try done|]); try (by apply elem_of_nil in Hin).
    + injection He as <- <-. destruct (C89_metadata "in.csv" "" ["a"; "b"] ["int64"; "object"]) as (_ & _ & _ & H'). exact H'.
    + injection He as <-. apply (C89_metadata "out/total.parquet" "" [] []).
Qed.
Example C89_case_events : map (fun e => (ev_kind e, map ds_name (ev_inputs e), map ds_name (ev_outputs e))) (snd (execute ok "ns" "job" (fun _ => "v") [] "r1" (ex_plan ex_nodes (Ok tt)))) =
  [(START, [], []); (RUNNING, [Some "raw"], []); (RUNNING, [], [Some "out/total.parquet"]); (COMPLETE, [], [])].
Proof. vm_compute. reflexivity. Qed.
Example C89_case_table : ~ within "SELECT" "users" /\ within "SELECT" "SELECT * FROM users".
Proof. split; [by apply contains_not|]. by exists "", " * FROM users". Qed.
Example C89_case_quiet : forall m, ~ saves ex_total (VDict (get_file_metadata "f")) m /\ ~ loads ex_total (VDict (get_file_metadata "f")) m.
Proof. intros m. split; by intros [? ?]. Qed.

(** ** Refuted *)
(** That a file one node wrote and another read is one dataset: the first is named by its path, the
    second by the node that read it. *)
Theorem C89_file_refuted : exists n n' x path, ln_saver n = true /\ ln_loader n' = true /\ ln_metadata n' = true /\
  forall l run, exists d d',
    snd (post_node_execute ok "ns" "job" l run n true (VDict (get_file_metadata path))) = l ++ [Event RUNNING run [] "ns" "job" [] [] [d]] /\
    snd (post_node_execute ok "ns" "job" l run n' true (VTuple [x; VDict (get_file_metadata path)])) = l ++ [Event RUNNING run [] "ns" "job" [] [d'] []] /\
    ds_name d <> ds_name d'.
Proof.
  exists ex_save, ex_load, VOther, "data.csv". do 3 (split; [done|]). intros l run.
  exists (Dataset "ns" (Some "data.csv") (Some "csv") (Some ("save", "data.csv")) None), (Dataset "ns" (Some "raw") (Some "unknown") (Some ("raw", "data.csv")) None). split; [done|]. split; done.
Qed.
(** That the format of a file that was loaded is its ending: whether there is a dot is looked for in the
    name of the node, so it is unknown, or is the whole path of a file without ending. *)
Theorem C89_format_refuted : (exists n path, ends_in path "csv" /\ exists d q, create_input_dataset "ns" (get_file_metadata path) n = Ok ([d], q) /\ ds_format d = Some "unknown") /\
  exists n path, lacks "."%char path /\ exists d q, create_input_dataset "ns" (get_file_metadata path) n = Ok ([d], q) /\ ds_format d = Some path.
Proof.
  split.
  - exists ex_load, "data.csv". split; [split; [vm_compute; repeat split; discriminate|by exists "data"]|]. eexists _, _. split; [vm_compute; reflexivity|done].
  - exists (LNode "load_data.raw" false true true), "/data/raw". split; [vm_compute; repeat split; discriminate|]. eexists _, _. split; [vm_compute; reflexivity|done].
Qed.
(** That a query is told as a query, whatever its letters, and its dataset has a name. *)
Theorem C89_select_refuted : (exists q, exists d, create_input_dataset "ns" (get_sql_metadata q) ex_load = Ok ([d], [JSql None]) /\ q = "select a from t" /\ ds_name d = Some q) /\
  exists q d, create_input_dataset "ns" (get_sql_metadata q) ex_load = Ok ([d], [JSql (Some q)]) /\ q = "SELECT a FROM t" /\ ds_name d = None.
Proof. split; [exists "select a from t"|exists "SELECT a FROM t"]; eexists; (split; [vm_compute; reflexivity|done]). Qed.
(** That the adapter does not change what runs come to: not where metadata is of something without
    columns, as a series, ... *)
Theorem C89_series_refuted : exists p vs, readable (pl_graph p) /\ plain p vs (Ok tt) /\
  (exists n, (n, VDict (get_dataframe_metadata (Frame None None))) ∈ vs) /\ fst (execute ok "ns" "job" (fun _ => "v") [] "r1" p) = Err EType.
Proof.
  exists (ex_plan [(ex_save, Returns (VDict (get_dataframe_metadata (Frame None None))))] (Ok tt)), [(ex_save, VDict (get_dataframe_metadata (Frame None None)))].
  split; [apply C89_case|]. split; [apply (plain_build (ex_plan _ (Ok tt))); [done|]; repeat constructor|]. split; [|done]. exists ex_save. by left.
Qed.
(** ... nor where the source of a function cannot be read: nothing is executed nor sent, ... *)
Theorem C89_source_refuted : exists p vs, plain p vs (Ok tt) /\ all_complete vs /\ execute ok "ns" "job" (fun _ => "v") [] "r1" p = (Err ESource, []).
Proof.
  exists (Plan [("a", SUnavailable)] ["a"] None None None [(ex_total, Returns VOther)] (Ok tt)), [(ex_total, VOther)].
  split; [apply (plain_build (Plan _ _ _ _ _ _ (Ok tt))); [done|]; repeat constructor|]. split; [|done].
  intros n v m Hin Hm. apply elem_of_list_singleton in Hin as [= -> ->]. by destruct Hm as [(? & ? & ?)|(? & ? & [? ?] & ?)].
Qed.
(** ... nor where the client fails. *)
Theorem C89_client_refuted : exists p vs, readable (pl_graph p) /\ plain p vs (Ok tt) /\ all_complete vs /\
  fst (execute (fun e => bool_decide (ev_kind e <> COMPLETE)) "ns" "job" (fun _ => "v") [] "r1" p) = Err EClient.
Proof. exists (ex_plan ex_nodes (Ok tt)), ex_values. split; [apply C89_case|]. split; [apply C89_case|]. split; [apply C89_case|]. vm_compute. reflexivity. Qed.
(** That the end is COMPLETE only if the run returned: not if it was interrupted, ... *)
Theorem C89_interrupt_refuted : exists p vs es fin, readable (pl_graph p) /\ plain p vs (Err EInterrupt) /\ all_complete vs /\
  execute ok "ns" "job" (fun _ => "v") [] "r1" p = (Err EInterrupt, es ++ [fin]) /\ ev_kind fin = COMPLETE.
Proof.
  exists (ex_plan [(ex_total, Raises EInterrupt)] (Ok tt)), [], [start "ns" "job" (fun _ => "v") "r1" (ex_plan [] (Ok tt)) [("raw.loader", Some "def raw()"); ("raw", Some "def raw()"); ("total", Some "def total(raw)"); ("limit", None)]],
    (Event COMPLETE "r1" [] "ns" "job" [] [] []).
  split; [apply C89_case|]. split; [apply plain_raises; [done|constructor]|]. split; [intros n v m Hin; by apply elem_of_nil in Hin|]. split; [vm_compute; reflexivity|done].
Qed.
(** ... nor if the exception is one Python takes for false. *)
Theorem C89_falsy_refuted : exists p vs e es fin, readable (pl_graph p) /\ is_exception e = true /\ plain p vs (Err e) /\
  execute ok "ns" "job" (fun _ => "v") [] "r1" p = (Err e, es ++ [fin]) /\ ev_kind fin = COMPLETE.
Proof.
  exists (ex_plan [(ex_total, Raises (EUser "no rows" false))] (Ok tt)), [], (EUser "no rows" false), [start "ns" "job" (fun _ => "v") "r1" (ex_plan [] (Ok tt)) [("raw.loader", Some "def raw()"); ("raw", Some "def raw()"); ("total", Some "def total(raw)"); ("limit", None)]],
    (Event COMPLETE "r1" [] "ns" "job" [] [] []).
  split; [apply C89_case|]. split; [done|]. split; [apply plain_raises; [done|constructor]|]. split; [vm_compute; reflexivity|done].
Qed.
(** That what materialize sends begins with a start: a graph that is not valid is told of as a failed run
    that never started, ... *)
Theorem C89_started_refuted : exists e p, is_exception e = true /\
  snd (materialize ok "ns" "job" (fun _ => "v") [] "r1" None (Some e) p) = [Event FAIL "r1" [RError e] "ns" "job" [] [] []].
Proof. exists (EUser "invalid" true), (ex_plan [] (Ok tt)). done. Qed.
(** ... and that it raises what is wrong: if nothing is asked for it is an UnboundLocalError. *)
Theorem C89_unbound_refuted accepts ns job gv l run e late p : materialize accepts ns job gv l run (Some e) late p = (Err EUnbound, l).
Proof. done. Qed.

Print Assumptions C89_order.
Print Assumptions C89_execute.
Print Assumptions C89_start.
Print Assumptions C89_verdict_partial.
Print Assumptions C89_materialize.
Print Assumptions C89_quiet.
Print Assumptions C89_failed.
Print Assumptions C89_saved_file.
Print Assumptions C89_loaded_file_partial.
Print Assumptions C89_table.
Print Assumptions C89_query.
Print Assumptions C89_metadata.
Print Assumptions C89_schema.
Print Assumptions C89_file_refuted.
Print Assumptions C89_format_refuted.
Print Assumptions C89_select_refuted.
Print Assumptions C89_series_refuted.
Print Assumptions C89_source_refuted.
Print Assumptions C89_client_refuted.
Print Assumptions C89_interrupt_refuted.
Print Assumptions C89_falsy_refuted.
Print Assumptions C89_started_refuted.
Print Assumptions C89_unbound_refuted.
