(** C83: telemetry can be switched off, stops by itself, tells nothing of the user's code and
    changes nothing. *)
From Coq Require Import Ascii.
From stdpp Require Import pretty.
From Verif Require Import Base Dict Strings TelemModel TelemSpec TelemProofs.

(** The environment variable decides if it says yes or no, then the file, then the default. *)
Theorem C83_flag d cfg env :
  (forall s b, env = Some s -> says s b -> flag d cfg env = b) /\
  (says_nothing env -> forall s b, cfg = Some s -> says s b -> flag d cfg env = b) /\
  (says_nothing env -> says_nothing cfg -> flag d cfg env = d).
Proof.
  unfold flag. cbv zeta. split_and!.
  - intros s b -> H. apply says_iff in H. by rewrite H.
  - intros Henv s b -> H. apply says_iff in H. rewrite H. cbn. destruct env as [e|]; [|done].
    by rewrite (proj1 (says_nothing_iff _) Henv e eq_refl).
  - intros Henv Hcfg.
    assert (match cfg with Some s => default d (getboolean s) | None => d end = d) as ->.
    { destruct cfg as [s|]; [|done]. by rewrite (proj1 (says_nothing_iff _) Hcfg s eq_refl). }
    destruct env as [e|]; [|done]. by rewrite (proj1 (says_nothing_iff _) Henv e eq_refl).
Qed.
Example flag_example : says "False" false /\ flag true (Some "yes") (Some "False") = false /\ says_nothing None /\ flag true (Some "OFF") None = false.
Proof.
  split_and!; [|done| |done].
  - by apply says_iff.
  - by intros s b.
Qed.
(** A value that cannot be read leaves it enabled. *)
Theorem C83_unreadable_refuted : exists env, env = "disabled" /\ flag true None (Some env) = true /\ flag true (Some env) None = true.
Proof. by exists "disabled". Qed.

(** From the call of [disable_telemetry] on nothing is sent, whatever other threads are up to. *)
Theorem C83_disabled atomic on progs st ts i ops st' t' r st2 ts2 :
  tsteps atomic (fresh on, starts progs) (st, ts) ->
  ts !! i = Some (Thread None (ODisable :: ops)) ->
  tstep atomic st (Thread None (ODisable :: ops)) = Some (st', t', r) ->
  tsteps atomic (st', <[i := t']> ts) (st2, ts2) ->
  t_sent st2 = t_sent st.
Proof.
  intros _ _ Ht H. cbn in Ht. simplify_eq. by apply off_invariant in H as [_ H].
Qed.
(** If it is off from the start nothing is ever sent. *)
Theorem C83_off atomic progs st ts : tsteps atomic (fresh false, starts progs) (st, ts) -> t_sent st = [].
Proof. intros H. by apply off_invariant in H as [_ H]. Qed.
(** At most ten events are sent by what asks first. Missing: what does not ask
    ([C83_dataflows_refuted]), increments that are not atomic ([C83_races_refuted]). *)
Theorem C83_at_most_ten_partial on progs st ts : tsteps true (fresh on, starts progs) (st, ts) -> length (asked st) <= 10.
Proof. apply at_most_ten. Qed.
(** Nothing is sent that was not asked for, nor more often. *)
Theorem C83_only atomic on progs st ts : tsteps atomic (fresh on, starts progs) (st, ts) -> t_sent st ⊆+ all_events progs.
Proof. apply only_asked_for. Qed.
(** It is the calls that are counted: a thread on its own that asks [again] more times for each
    call sends the events of its first calls. *)
Theorem C83_first_calls atomic again es st : tsteps atomic (fresh true, starts [map (OGated again) es]) (st, [Thread None []]) ->
  t_sent st = map (pair true) (omap id (take (10 / S again) es)).
Proof. apply the_first_ten. Qed.

(** ** Examples *)
Definition fn (k : nat) : option event := Some (EFunction (pretty k)).
(** Seven calls each by two threads, of which the second asks twice, and one that disables it in
    between *)
Definition busy : list (list op) := [map (OGated 0) (map fn (seq 0 7)); map (OGated 1) (map fn (seq 7 7)); [ODisable]].
Definition turns : list nat := concat (repeat [0; 1; 1] 9).
Example busy_example :
  let c := play true turns (fresh true) (starts busy) in
  map snd (t_sent c.1) = [EFunction "7"; EFunction "0"; EFunction "8"] /\
  let c' := play true (2 :: turns ++ turns ++ turns) c.1 c.2 in
  t_sent c'.1 = t_sent c.1 /\ t_on c'.1 = false /\
  let c'' := play true (turns ++ turns ++ turns) c.1 c.2 in
  length (asked c''.1) = 6.
Proof. vm_compute. done. Qed.
Example busy_steps : tsteps true (fresh true, starts busy) (play true turns (fresh true) (starts busy)) /\
  (play true turns (fresh true) (starts busy)).2 !! 2 = Some (Thread None [ODisable]).
Proof. split; [apply play_tsteps|]. vm_compute. done. Qed.
(** Twelve calls, the third of which makes no event: nine events; five from an [AsyncDriver] *)
Definition twelve : list (option event) := map fn [0; 1] ++ [None] ++ map fn (seq 3 9).
Example twelve_example :
  (play true (repeat 0 100) (fresh true) (starts [map (OGated 0) twelve])).2 = [Thread None []] /\
  length (t_sent (play true (repeat 0 100) (fresh true) (starts [map (OGated 0) twelve])).1) = 9 /\
  length (t_sent (play true (repeat 0 100) (fresh true) (starts [map (OGated 1) (map fn (seq 0 12))])).1) = 5.
Proof. vm_compute. done. Qed.

(** Functions of [hamilton.dataflows] do not ask: any number of events *)
Theorem C83_dataflows_refuted : forall n, exists progs st ts, tsteps true (fresh true, starts progs) (st, ts) /\ length (t_sent st) = n.
Proof.
  intros n. exists [repeat (OFree (EDataflow "inspect")) n].
  assert (forall k c l, exists st ts, tsteps true (TState true c l, [Thread None (repeat (OFree (EDataflow "inspect")) k)]) (st, ts) /\ length (t_sent st) = length l + k) as H.
  { induction k as [|k IH]; intros c l; [do 2 eexists; split; [constructor|]; cbn; lia|].
    destruct (IH c (l ++ [(false, EDataflow "inspect")])) as (st & ts & Hs & Hl). exists st, ts. split.
    - eapply (tsteps_step _ _ _ 0); [done|cbn; done|]. exact Hs.
    - rewrite Hl, app_length. cbn. lia. }
  destruct (H n 0 []) as (st & ts & Hs & Hl). by exists st, ts.
Qed.
(** If the counter is read and written in two steps, a thread that is held up in between takes all
    counting back: eleven and more *)
Theorem C83_races_refuted : exists progs sched, let c := play false sched (fresh true) (starts progs) in
  tsteps false (fresh true, starts progs) c /\ length (asked c.1) = 20.
Proof.
  exists [[OGated 0 (fn 0)]; map (OGated 0) (map fn (seq 1 30))], (repeat 0 3 ++ repeat 1 60 ++ repeat 0 3 ++ repeat 1 200). cbv zeta. split; [apply play_tsteps|].
  vm_compute. done.
Qed.

(** ** What is told *)
(** Two programs that differ only in names and values that are the user's send the same. Missing:
    user code near something called hamilton ([C83_traceback_refuted]); executors of the user
    ([C83_executor_refuted]). *)
Theorem C83_start_partial {V W} root (b : built V) (b' : built W) :
  built_alike root b b' -> b_executor b = b_executor b' -> apart root (b_error b) -> apart root (b_error b') -> start_event b = start_event b'.
Proof.
  intros [Hn Hm Hc Hd Ha Hr He] Hx Hap Hap'. unfold start_event. rewrite Hx. destruct (b_executor b') as [x|]; [|done]. f_equal.
  rewrite Hm, Hc, (adapter_names_alike _ _ Ha), (builder_alike _ _ Ha), Hr, (error_alike_ok _ _ _ He Hap Hap').
  unfold same_size in Hn. destruct (b_nodes b) as [ns|], (b_nodes b') as [ns'|]; cbn in Hn; try done.
  injection Hn as Hn. by rewrite Hn, (count_alike _ _ Hd).
Qed.
Theorem C83_end_partial {V W} root (r : ran V) (r' : ran W) : ran_alike root r r' -> apart root (r_error r) -> apart root (r_error r') -> end_event r = end_event r'.
Proof.
  intros [Hs Hf Hi Ho Hr He] Hap Hap'. unfold end_event. cbv zeta. rewrite Hs, Hf, Hr, (error_alike_ok _ _ _ He Hap Hap').
  unfold same_size in *. destruct (r_overrides r) as [o|], (r_overrides r') as [o'|]; cbn in Ho; try done.
  injection Ho as Ho. rewrite Ho. destruct (r_inputs r) as [i|], (r_inputs r') as [i'|]; cbn in Hi; try done. by injection Hi as ->.
Qed.
Definition root : list string := [""; "usr"; "site-packages"; "hamilton"].
Definition own (file : string) (line : nat) (f : string) : frame := Frame (root ++ [file]) line f.
Definition mine (user file f : string) : frame := Frame [""; "home"; user; "work"; file] 3 f.
Definition dflt : obj := Obj "hamilton.driver" "DefaultGraphExecutor".
Definition built1 : built nat := Built (Some ["a"; "b"]) ["m"] [("k", 1)] [Obj "hamilton.function_modifiers.metadata" "tag"; Obj "m" "secret_decorator"]
  [Adapter (Obj "hamilton.base" "DefaultAdapter") None; Adapter (Obj "m" "Secret") (Some BDict)] "id" None (Some dflt).
Definition built2 : built bool := Built (Some ["x"; "y"]) ["other"] [("key", true)] [Obj "hamilton.function_modifiers.metadata" "tag"; Obj "deco" "plain"]
  [Adapter (Obj "hamilton.base" "DefaultAdapter") None; Adapter (Obj "other" "Public") (Some BDict)] "id" None (Some dflt).
Definition ran1 : ran nat := Ran false ["a"] (Some [("i", 1)]) (Some []) "id" (Some [own "driver.py" 10 "execute"; mine "ann" "secret.py" "password"]).
Definition ran2 : ran bool := Ran false ["x"] (Some [("j", false)]) (Some []) "id" (Some [own "driver.py" 10 "execute"; mine "bob" "plain.py" "f"]).
Lemma mine_apart u f1 f2 : u <> "hamilton" -> f1 <> "hamilton" -> users root (mine u f1 f2) /\ ~ nearby "hamilton" (mine u f1 f2).
Proof.
  intros Hu Hf. split.
  - intros [l Hl]. done.
  - intros (before & after & H & _). cbn in H.
    assert ("hamilton" ∈ [""; "home"; u; "work"; f1]) as Hin by (rewrite H; set_solver).
    repeat (apply elem_of_cons in Hin as [Hin|Hin]; [congruence|]). by apply elem_of_nil in Hin.
Qed.
Example start_example : built_alike root built1 built2 /\ start_event built1 =
  Some (EStart 2 1 1 [("tag", 1); ("custom_decorator", 1)] ["hamilton.base.DefaultAdapter"; "custom_adapter"] "hamilton.base.DictResult" "id" None "DefaultGraphExecutor").
Proof.
  split; [|done]. split; try done.
  - constructor; [by left|]. constructor; [by right|]. constructor.
  - constructor; [split; [by left|done]|]. constructor; [split; [by right|done]|]. constructor.
  - constructor.
Qed.
Example end_example : ran_alike root ran1 ran2 /\ apart root (r_error ran1) /\ apart root (r_error ran2) /\
  end_event ran1 = Some (EEnd false 1 0 1 "id" (Some ("...hamilton/driver.py, line 10, in execute" ++ newline ++ "...<USER_CODE>..." ++ newline)%string)).
Proof.
  split_and!.
  - split; try done. constructor. constructor; [by left|]. constructor; [right; split; by apply mine_apart|]. constructor.
  - intros tb f [= <-] Hf Hu. apply elem_of_cons in Hf as [->|Hf]; [exfalso; apply Hu; by eexists|].
    apply elem_of_list_singleton in Hf as ->. by apply mine_apart.
  - intros tb f [= <-] Hf Hu. apply elem_of_cons in Hf as [->|Hf]; [exfalso; apply Hu; by eexists|].
    apply elem_of_list_singleton in Hf as ->. by apply mine_apart.
  - vm_compute. done.
Qed.
(** A user's directory called hamilton: names of their files and functions are sent. *)
Theorem C83_traceback_refuted : exists (r r' : ran nat), ran_alike root r r' /\ end_event r <> end_event r'.
Proof.
  exists (Ran false ["a"] (Some []) (Some []) "id" (Some [Frame [""; "home"; "ann"; "hamilton"; "secret.py"] 3 "password"])),
         (Ran false ["a"] (Some []) (Some []) "id" (Some [Frame [""; "home"; "ann"; "hamilton"; "plain.py"] 3 "f"])).
  split.
  - split; try done. constructor. constructor; [|constructor]. right. split; intros [l Hl]; done.
  - vm_compute. done.
Qed.
(** The name of the class of an executor is sent, whoever's it is. *)
Theorem C83_executor_refuted : exists (b b' : built nat), built_alike root b b' /\ executor_alike b b' /\ start_event b <> start_event b'.
Proof.
  exists (Built (Some []) [] [] [] [] "id" None (Some (Obj "m" "SecretExecutor"))), (Built (Some []) [] [] [] [] "id" None (Some (Obj "m" "Plain"))).
  split_and!.
  - split; try done; try constructor.
  - constructor. by right.
  - done.
Qed.

(** Hamilton's own entries are told as what they are, the last five. *)
Theorem C83_own_frames pre rest line f : "hamilton" ∉ pre -> length rest <= 3 ->
  sanitize_frame (Frame (pre ++ "hamilton" :: rest) line f) = ("..." ++ join "/" ("hamilton" :: rest) ++ ", line " ++ pretty line ++ ", in " ++ f ++ newline)%string.
Proof.
  intros Hpre Hlen. unfold sanitize_frame. cbn [f_path f_line f_fn].
  unfold last_n. rewrite app_length. cbn [length]. rewrite drop_app_le by lia. rewrite from_hamilton_some; [done|].
  intros Hin. apply elem_of_list_lookup in Hin as [i Hi]. rewrite lookup_drop in Hi. by apply elem_of_list_lookup_2 in Hi.
Qed.
Theorem C83_last_five tb a b c d e : sanitize_error (tb ++ [a; b; c; d; e]) =
  (sanitize_frame a ++ sanitize_frame b ++ sanitize_frame c ++ sanitize_frame d ++ sanitize_frame e)%string.
Proof.
  unfold sanitize_error, last_n. rewrite app_length. cbn [length]. rewrite Nat.add_sub, drop_app. cbn [foldl].
  rewrite !app_assoc_s. done.
Qed.

(** How often each decorator was used *)
Theorem C83_decorators ds n : dget (count_decorators ds) n = match uses ds n with 0 => None | S k => Some (S k) end.
Proof. unfold count_decorators. rewrite count_gen. by destruct (uses ds n). Qed.

(** Counts of what succeeded in being built *)
Theorem C83_start_counts {V} (b : built V) ns x : b_nodes b = Some ns -> b_executor b = Some x ->
  start_event b = Some (EStart (length ns) (length (b_modules b)) (length (b_config b)) (count_decorators (b_decorators b))
    (map (fun a => get_adapter_name (a_obj a)) (b_adapters b)) (get_result_builder_name (b_adapters b)) (b_run b) (sanitize_error <$> b_error b) (o_class x)).
Proof. intros Hn Hx. unfold start_event. by rewrite Hn, Hx. Qed.
(** Adapters and builders are named if they are Hamilton's, and otherwise said to be custom. *)
Lemma sprefix_split p s : String.prefix p s = true <-> exists r, s = (p ++ r)%string.
Proof.
  revert s. induction p as [|a p IH]; intros s.
  - split; [intros _; by exists s|by destruct s].
  - destruct s as [|b s]; cbn [String.prefix]; [split; [done|intros [r E]; discriminate E]|]. destruct (ascii_dec a b) as [->|N].
    + rewrite IH. split; intros [r E]; exists r; [by rewrite E|by injection E].
    + split; [done|]. intros [r E]. injection E as E _. by destruct N.
Qed.
Theorem C83_start_names {V} (b : built V) ns x : b_nodes b = Some ns -> b_executor b = Some x ->
  exists counts adapters builder error, start_event b = Some (EStart (length ns) (length (b_modules b)) (length (b_config b)) counts adapters builder (b_run b) error (o_class x)) /\
    Forall2 adapter_named (b_adapters b) adapters /\ builder_named (b_adapters b) builder.
Proof.
  intros Hn Hx. do 4 eexists. split; [by apply C83_start_counts|]. split.
  - induction (b_adapters b) as [|a l IH]; cbn [map]; constructor; [clear IH|exact IH]. unfold adapter_named, get_adapter_name.
    destruct (String.prefix "hamilton." (o_module (a_obj a))) eqn:E.
    + left. apply sprefix_split in E as [r E]. exists r. split; [exact E|reflexivity].
    + right. split; [|done]. intros r H. assert (T : String.prefix "hamilton." (o_module (a_obj a)) = true) by (apply sprefix_split; by exists r). by rewrite T in E.
  - unfold builder_named. induction (b_adapters b) as [|a l IH]; [left; by split|].
    destruct (a_builds a) as [k|] eqn:E.
    + right. exists [], a, k, l. split_and!; [done|constructor|done|]. unfold get_result_builder_name. cbn. rewrite E. unfold builder_names. destruct k; set_solver.
    + replace (get_result_builder_name (a :: l)) with (get_result_builder_name l) by (unfold get_result_builder_name; cbn; by rewrite E).
      destruct IH as [[H ->]|(l1 & a' & k & l2 & -> & H & Hk & Hin)]; [left; by split; [constructor|]|].
      right. exists (a :: l1), a', k, l2. split_and!; [done|by constructor|done..].
Qed.
(** Of downloads of official dataflows no user is told. *)
Theorem C83_download category user dataflow version : exists c u, download_event category user dataflow version = EDownload c u dataflow version /\
  (category = "DAGWORKS" -> c = "DAGWORKS" /\ u = None) /\ (category <> "DAGWORKS" -> c = "USER" /\ u = user).
Proof. unfold download_event. case_decide; do 2 eexists; (split; [done|]); split; done. Qed.
(** The constructor's failures are never told, though
    there is a place for the error: [graph_executor] is the last to be set. *)
Theorem C83_failures_refuted {V} (b : built V) : b_error b <> None -> after_failure b -> start_event b = None.
Proof. intros He Ha. unfold start_event. by rewrite (Ha He). Qed.
Example failures_example : let b : built nat := Built (Some ["a"]) ["m"] [] [] [] "id" (Some [mine "ann" "m.py" "f"]) None in b_error b <> None /\ after_failure b.
Proof. done. Qed.
(** The inputs are counted only if there are overrides, which then need inputs. *)
Theorem C83_inputs_refuted :
  (exists r : ran nat, r_inputs r = Some [("a", 1); ("b", 2)] /\ end_event r = Some (EEnd true 1 0 0 "id" None)) /\
  (exists r : ran nat, r_success r = true /\ end_event r = None).
Proof.
  split.
  - by exists (Ran true ["x"] (Some [("a", 1); ("b", 2)]) None "id" None).
  - by exists (Ran true ["x"] None (Some [("a", 1)]) "id" None).
Qed.
Theorem C83_end_counts {V} (r : ran V) i o : r_inputs r = Some i -> r_overrides r = Some o ->
  end_event r = Some (EEnd (r_success r) (length (r_finals r)) (length o) (length i) (r_run r) (sanitize_error <$> r_error r)).
Proof. intros Hi Ho. unfold end_event. by rewrite Hi, Ho. Qed.

(** ** What callers get *)
Section Results.
Context {X V : Type}.
Variable runtime_error : X.
(** The functions of drivers do what they would do without telemetry. *)
Theorem C83_same_result (e : option event) (call : tstate -> res X V * tstate) st : (captured runtime_error e (call st)).1 = (call st).1.
Proof. unfold captured. by destruct (is_telemetry_enabled (call st).2). Qed.
(** Those of dataflows, and imports of contributed ones, only as long as it is not disabled *)
Theorem C83_tracked_partial fn (call : tstate -> res X V * tstate) st : t_on st = true ->
  tracked runtime_error fn call st = call (TState true (t_count st) (t_sent st ++ [(false, EDataflow fn)])).
Proof. intros H. unfold tracked, send_event_json. by rewrite H. Qed.
Theorem C83_imports_partial e (imports : tstate -> res X V * tstate) st : t_on (imports st).2 = true ->
  (catch_import_errors runtime_error e imports st).1 = (imports st).1.
Proof.
  intros H. unfold catch_import_errors. destruct (imports st) as [[v|x] st']; [|done]. destruct e as [e|]; [|done].
  unfold send_event_json. cbn in H. by rewrite H.
Qed.
(** Once it is disabled none of them works. *)
Theorem C83_tracked_refuted fn (call : tstate -> res X V * tstate) st : t_on st = false -> (tracked runtime_error fn call st) = (Err runtime_error, st).
Proof. intros H. unfold tracked, send_event_json. by rewrite H. Qed.
Theorem C83_imports_refuted e v (imports : tstate -> res X V * tstate) st st' : imports st = (Ok v, st') -> t_on st' = false ->
  (catch_import_errors runtime_error (Some e) imports st).1 = Err runtime_error.
Proof. intros H Hoff. unfold catch_import_errors. rewrite H. unfold send_event_json. by rewrite Hoff. Qed.
End Results.
Example tracked_example : exists st : tstate, t_on st = false /\
  (tracked "RuntimeError" "list" (fun st => (Ok ["a"], st)) st).1 = Err "RuntimeError" /\
  (catch_import_errors "RuntimeError" (Some (download_event "USER" (Some "ann") "d" "v")) (fun st => (Ok 0, st)) st).1 = Err "RuntimeError" /\
  (captured "RuntimeError" (fn 0) (Ok 0, st)).1 = Ok 0.
Proof. by exists (fresh false). Qed.

(** Of the calls that are tracked, one after the other, the first ten are reported. *)
Theorem C83_captures {X V} (err : X) (es : list (option event)) (r : res X V) :
  t_sent (foldl (fun st e => (captured err e (r, st)).2) (fresh true) es) = map (pair true) (omap id (take 10 es)).
Proof.
  assert (G : forall es n sent, t_sent (foldl (fun st e => (captured err e (r, st)).2) (TState true n sent) es) = sent ++ map (pair true) (omap id (take (10 - n) es))).
  { clear es. induction es as [|e es IH]; intros n sent; [by rewrite take_nil, app_nil_r|]. cbn [foldl].
    unfold captured at 2. cbn [is_telemetry_enabled t_on t_count t_sent fst snd]. unfold is_telemetry_enabled. cbn [t_on t_count t_sent]. unfold MAX_COUNT_SESSION.
    destruct (decide (S n <= 10)) as [Hn|Hn].
    - rewrite bool_decide_true by done. replace (10 - n) with (S (10 - S n)) by lia. cbn [take].
      destruct e as [e|]; cbn [send_event_json t_on t_count t_sent omap list_omap id]; cbn; rewrite IH; [|done]. by rewrite <- (assoc_L (++)).
    - rewrite bool_decide_false by done. rewrite IH. by replace (10 - S n) with 0 by lia; replace (10 - n) with 0 by lia. }
  apply (G es 0 []).
Qed.
Example C83_names_ex : let own := Adapter (Obj "my.pkg" "Secret") None in let base := Adapter (Obj "hamilton.base" "SimplePythonGraphAdapter") (Some BDict) in
  map (fun a => get_adapter_name (a_obj a)) [own; base] = ["custom_adapter"; "hamilton.base.SimplePythonGraphAdapter"] /\ get_result_builder_name [own; base] = "hamilton.base.DictResult".
Proof. by vm_compute. Qed.

Print Assumptions C83_flag.
Print Assumptions C83_unreadable_refuted.
Print Assumptions C83_disabled.
Print Assumptions C83_off.
Print Assumptions C83_at_most_ten_partial.
Print Assumptions C83_only.
Print Assumptions C83_first_calls.
Print Assumptions C83_dataflows_refuted.
Print Assumptions C83_races_refuted.
Print Assumptions C83_start_partial.
Print Assumptions C83_end_partial.
Print Assumptions C83_traceback_refuted.
Print Assumptions C83_executor_refuted.
Print Assumptions C83_own_frames.
Print Assumptions C83_last_five.
Print Assumptions C83_decorators.
Print Assumptions C83_start_counts.
Print Assumptions C83_start_names.
Print Assumptions C83_captures.
Print Assumptions C83_download.
Print Assumptions C83_failures_refuted.
Print Assumptions C83_inputs_refuted.
Print Assumptions C83_end_counts.
Print Assumptions C83_same_result.
Print Assumptions C83_tracked_partial.
Print Assumptions C83_imports_partial.
Print Assumptions C83_tracked_refuted.
Print Assumptions C83_imports_refuted.
