(** C95: what the command line shows and when it fails. *)
From Verif Require Import Base Dict CommandModel CommandSpec.

Section Props.
Context {V M D : Type} (no_entries no_items : V) (entries : dict V -> V) (serialisable : V -> bool).
Context (build_driver : M -> V -> res string D) (version_of : D -> res string V) (diff_of : D -> M -> V -> res string V)
  (validate_execution : D -> V -> V -> V -> res string unit) (view_of : D -> res string V) (stems : M -> V).
Notation run read := (run V M D no_entries no_items entries serialisable build_driver version_of diff_of validate_execution view_of stems read).
Notation answers := (answers no_entries no_items entries build_driver version_of diff_of validate_execution view_of stems).
Notation succeeds := (succeeds no_entries no_items entries serialisable build_driver version_of diff_of validate_execution view_of stems).
Notation lines := (lines no_entries no_items entries serialisable build_driver version_of diff_of validate_execution view_of stems).
Notation config := (config no_entries).

(** ** Contexts *)
Definition value (f : dict (option V)) (k : string) (other : V) : V := match dget f k with Some (Some v) => v | _ => other end.
Lemma has_iff (f : dict (option V)) k other v : has f k other v <-> v = value f k other.
Proof. unfold has, value. destruct (dget f k) as [[w|]|]; naive_solver. Qed.
Lemma load_context_eq read n f : read n = Ok f ->
  load_context V no_entries no_items read n = Ok [(CONFIG, value f CONFIG no_entries); (FINAL_VARS, value f FINAL_VARS no_items); (INPUTS, value f INPUTS no_entries); (OVERRIDES, value f OVERRIDES no_entries)].
Proof.
  intros H. unfold load_context. rewrite H. unfold validate_context, read_context, value. cbn [map fst snd].
  assert (N : forall k, match match dget f k with Some v => v | None => None end with Some v => v | None => no_entries end = match dget f k with Some (Some v) => v | _ => no_entries end) by (intros k; by destruct (dget f k) as [[]|]).
  assert (I : forall k, match match dget f k with Some v => v | None => None end with Some v => v | None => no_items end = match dget f k with Some (Some v) => v | _ => no_items end) by (intros k; by destruct (dget f k) as [[]|]).
  rewrite (decide_False (P := CONFIG = FINAL_VARS)), (decide_True (P := FINAL_VARS = FINAL_VARS)), (decide_False (P := INPUTS = FINAL_VARS)), (decide_False (P := OVERRIDES = FINAL_VARS)) by done.
  by rewrite !N, I.
Qed.
(** A context has the four names, with the file's values, or with {} or [] where the file has none or null. *)
Theorem C95_context read n f : read n = Ok f -> exists c i o v, load_context V no_entries no_items read n = Ok [(CONFIG, c); (FINAL_VARS, v); (INPUTS, i); (OVERRIDES, o)] /\
  has f CONFIG no_entries c /\ has f FINAL_VARS no_items v /\ has f INPUTS no_entries i /\ has f OVERRIDES no_entries o.
Proof. intros H. do 4 eexists. split; [by apply load_context_eq|]. rewrite !has_iff. done. Qed.

Section Fixed.
Variables (o : options M) (file : dict (option V)) (read : nat -> res string (dict (option V))) (inv : cmd).
Hypothesis Hread : o_context o = true -> forall n, read n = Ok file.
Let f := if o_context o then Some file else None.
Notation cli := (cli V D).
Lemma config_iff v : config f v <-> v = if o_context o then value file CONFIG no_entries else no_entries.
Proof. unfold f. destruct (o_context o); cbn; [apply has_iff|done]. Qed.
Lemma config_of_eq (s : cli) : exists n, config_of V M D no_entries no_items read o s = (Ok (if o_context o then value file CONFIG no_entries else no_entries), n).
Proof. unfold config_of. destruct (o_context o) eqn:E; [|by eexists]. rewrite (load_context_eq _ _ file) by (by apply Hread). by eexists. Qed.

(** A list of commands of which the first ones answered, up to one that fails *)
Definition Out (cs : list cmd) (ok : bool) (s : cli) : Prop :=
  (exists dn rest, cs = dn ++ rest /\ lines o f inv dn (c_out s) /\ (ok = true <-> rest = []) /\ forall c r, rest = c :: r -> ~ exists v, succeeds o f inv c v) /\
  (ok = true -> exists d, c_dr s = Some d /\ build_driver (o_modules o) (if o_context o then value file CONFIG no_entries else no_entries) = Ok d).
Lemma answer_out cs c r (s : cli) : lines o f inv cs (c_out s) -> (exists d, c_dr s = Some d /\ build_driver (o_modules o) (if o_context o then value file CONFIG no_entries else no_entries) = Ok d) ->
  (forall v, answers (o_modules o) f c v <-> r = Ok v) ->
  let '(ok, s') := answer V M D serialisable o inv c r s in Out (cs ++ [c]) ok s'.
Proof.
  intros Hl Hd Hr. unfold answer. destruct r as [v|e].
  - assert (Ha : answers (o_modules o) f c v) by (by apply Hr). unfold respond. destruct (bool_decide (inv = c) || o_verbose o) eqn:Es.
    + assert (Hs : shows o inv c). { unfold shows. apply orb_true_iff in Es as [Es%bool_decide_eq_true|Es]; auto. } destruct (o_json o) eqn:Ej; [destruct (serialisable v) eqn:Ev|].
      * split; [|done]. exists (cs ++ [c]), []. rewrite app_nil_r. split; [done|]. split; [|split; [done|done]]. cbn. replace (LJson c v) with (shown_line o c v) by (unfold shown_line; by rewrite Ej). by apply l_shown.
      * split; [|done]. exists cs, [c]. split; [done|]. split; [done|]. split; [done|]. intros c' r' [= <- <-] [v' [Ha' Hs']]. apply Hr in Ha' as [= <-]. rewrite Hs' in Ev; done.
      * split; [|done]. exists (cs ++ [c]), []. rewrite app_nil_r. split; [done|]. split; [|split; [done|done]]. cbn. replace (LPlain v) with (shown_line o c v) by (unfold shown_line; by rewrite Ej). apply l_shown; [done| |done]. split; [done|]. by rewrite Ej.
    + assert (Hs : ~ shows o inv c). { apply orb_false_iff in Es as [Es%bool_decide_eq_false Es']. intros [?|?]; [done|congruence]. }
      split; [|done]. exists (cs ++ [c]), []. rewrite app_nil_r. split; [done|]. split; [|split; [done|done]]. eapply l_silent; [done| |done]. split; [exact Ha|done].
  - split; [|done]. exists cs, [c]. split; [done|]. split; [done|]. split; [done|]. intros c' r' [= <- <-] [v' [Ha' _]]. by apply Hr in Ha'.
Qed.
Lemma first_out cs c before after ok (s' : cli) : before start = (ok, s') -> Out cs ok s' ->
  (forall d, c_dr s' = Some d -> build_driver (o_modules o) (if o_context o then value file CONFIG no_entries else no_entries) = Ok d -> lines o f inv cs (c_out s') -> let '(ok', s'') := after d s' in Out (cs ++ [c]) ok' s'') ->
  let '(ok', s'') := first V D before start after in Out (cs ++ [c]) ok' s''.
Proof.
  intros Hb [(dn & rest & E & Hl & Hok & Hf) Hd] Ha. unfold first. cbn [c_dr start]. rewrite Hb. destruct ok.
  - destruct (Hd eq_refl) as (d & Ed & Bd). rewrite Ed. assert (rest = []) as -> by (by apply Hok). rewrite app_nil_r in E. subst dn. by apply Ha.
  - split; [|done]. exists dn, (rest ++ [c]). split; [by rewrite E, app_assoc|]. split; [done|]. split; [split; [done|by destruct rest]|]. intros c' r Er. destruct rest as [|c0 rest]; [by destruct Hok as [_ Hok]; specialize (Hok eq_refl)|].
    cbn in Er. injection Er as <- _. by eapply Hf.
Qed.
Notation run_build := (run_build V M D no_entries no_items serialisable build_driver stems read o inv).
Notation run_version := (run_version V M D no_entries no_items serialisable build_driver version_of stems read o inv).
Lemma build_out : let '(ok, s') := run_build start in Out [CBuild] ok s'.
Proof.
  unfold CommandModel.run_build. destruct (config_of_eq start) as [n ->]. destruct (build_driver _ _) as [d|e] eqn:Eb.
  - pose proof (answer_out [] CBuild (Ok (stems (o_modules o))) (Cli (Some d) n [])) as H. cbn [app] in H. apply H; [constructor|by exists d|]. intros v. split.
    + by inversion 1.
    + intros [= <-]. by eapply a_build; [apply config_iff|].
  - split; [|done]. exists [], [CBuild]. split; [done|]. split; [constructor|]. split; [done|]. intros c r [= <- <-] [v [Ha _]]. inversion Ha as [cfg d Hc Hb| | | |]; subst. apply config_iff in Hc. rewrite Hc, Eb in Hb. done.
Qed.
Lemma one_answer d (r : res string V) c (P : D -> V -> Prop) : build_driver (o_modules o) (if o_context o then value file CONFIG no_entries else no_entries) = Ok d ->
  (forall v, P d v <-> r = Ok v) -> (forall v, answers (o_modules o) f c v <-> exists cfg d, config f cfg /\ build_driver (o_modules o) cfg = Ok d /\ P d v) -> forall v, answers (o_modules o) f c v <-> r = Ok v.
Proof.
  intros Hb HP Ha v. rewrite Ha. split.
  - intros (cfg & d' & Hc & Hd & Hp). apply config_iff in Hc. subst cfg. rewrite Hb in Hd. injection Hd as <-. by apply HP.
  - intros Hr. do 2 eexists. split; [by apply config_iff|]. split; [exact Hb|]. by apply HP.
Qed.
Lemma version_out : let '(ok, s') := run_version start in Out [CBuild; CVersion] ok s'.
Proof.
  pose proof build_out as Hb. destruct (run_build start) as [ok s'] eqn:E. unfold CommandModel.run_version. apply (first_out [CBuild] CVersion _ _ ok s' E Hb). intros d Hd Hbd Hl.
  apply answer_out; [done|by exists d|]. eapply (one_answer d _ _ (fun d v => version_of d = Ok v)); [done|done|]. intros v. split; [inversion 1; subst; eauto 6|]. intros (cfg & d' & ? & ? & ?). by eapply a_version.
Qed.
Definition run_in (c : cmd) : bool * cli :=
  match c with
  | CBuild => run_build start
  | CVersion => run_version start
  | CDiff => run_diff V M D no_entries no_items serialisable build_driver version_of diff_of stems read o inv start
  | CValidate => run_validate V M D no_entries no_items entries serialisable build_driver validate_execution stems read o inv start
  | CView => run_view V M D no_entries no_items serialisable build_driver view_of stems read o inv start
  end.
Lemma run_in_out c : (c = CValidate -> o_context o = true) -> let '(ok, s') := run_in c in Out (chain c) ok s'.
Proof.
  intros Hctx. destruct c; cbn [run_in chain].
  - apply build_out.
  - apply version_out.
  - pose proof version_out as Hb. destruct (run_version start) as [ok s'] eqn:E. unfold run_diff. apply (first_out [CBuild; CVersion] CDiff _ _ ok s' E Hb). intros d Hd Hbd Hl.
    destruct (config_of_eq s') as [n ->]. apply answer_out; [done|by exists d|]. intros v. split.
    + inversion 1 as [| |cfg d' v' Hc Hb' Hv| |]; subst. apply config_iff in Hc. subst cfg. rewrite Hbd in Hb'. injection Hb' as <-. done.
    + intros Hv. eapply a_diff; [by apply config_iff|exact Hbd|exact Hv].
  - pose proof build_out as Hb. destruct (run_build start) as [ok s'] eqn:E. unfold run_validate. apply (first_out [CBuild] CValidate _ _ ok s' E Hb). intros d Hd Hbd Hl.
    specialize (Hctx eq_refl). rewrite (load_context_eq _ _ file) by (by apply Hread). apply answer_out; [done|by exists d|]. intros v.
    change (entry V no_entries _ FINAL_VARS) with (value file FINAL_VARS no_items). change (entry V no_entries _ INPUTS) with (value file INPUTS no_entries). change (entry V no_entries _ OVERRIDES) with (value file OVERRIDES no_entries).
    assert (Hf : f = Some file) by (unfold f; by rewrite Hctx). rewrite Hctx in Hbd. split.
    + inversion 1 as [| | | |cfg d' file' fv i ov Hf' Hc Hb' H1 H2 H3 Hv]; subst. rewrite Hf in Hf'. injection Hf' as <-. apply config_iff in Hc. rewrite Hctx in Hc. apply has_iff in H1, H2, H3. subst. rewrite Hbd in Hb'. injection Hb' as <-. by rewrite Hv.
    + destruct (validate_execution d _ _ _) as [[]|] eqn:Ev; [|done]. intros [= <-]. eapply a_validate; [exact Hf|apply config_iff; by rewrite Hctx|exact Hbd|by apply has_iff..|exact Ev].
  - pose proof build_out as Hb. destruct (run_build start) as [ok s'] eqn:E. unfold run_view. apply (first_out [CBuild] CView _ _ ok s' E Hb). intros d Hd Hbd Hl.
    apply answer_out; [done|by exists d|]. eapply (one_answer d _ _ (fun d v => view_of d = Ok v)); [done|done|]. intros v. split; [inversion 1; subst; eauto 6|]. intros (cfg & d' & ? & ? & ?). by eapply a_view.
Qed.
Lemma run_out : (inv = CValidate -> o_context o = true) -> let '(ok, s') := run read o inv start in Out (chain inv) ok s'.
Proof. intros H. apply (run_in_out inv H). Qed.
End Fixed.

(** A command, with a context file that is always the same, shows the answers of the commands that come first (if
    verbose) and its own, up to the first that fails or cannot be shown, and leaves with code 0 exactly if none does. *)
Theorem C95_run_partial (o : options M) file read c : (o_context o = true -> forall n, read n = Ok file) -> (c = CValidate -> o_context o = true) ->
  exists dn rest, chain c = dn ++ rest /\ lines o (if o_context o then Some file else None) c dn (c_out (run read o c start).2) /\
    ((run read o c start).1 = true <-> rest = []) /\ forall c' r, rest = c' :: r -> ~ exists v, succeeds o (if o_context o then Some file else None) c c' v.
Proof. intros Hr Hc. pose proof (run_out o file read c Hr Hc) as H. destruct (run read o c start) as [ok s]. by destruct H as [H _]. Qed.
Lemma lines_quiet (o : options M) f c cs ls : o_verbose o = false -> lines o f c cs ls -> c ∉ cs -> ls = [].
Proof.
  intros Hv. induction 1 as [|c' cs v ls H IH Hs Hsh|c' cs v ls H IH Hs Hsh]; intros Hn; [done| |].
  - exfalso. destruct Hsh as [->|Hsh]; [|congruence]. apply Hn. apply elem_of_app. right. by left.
  - apply IH. intros Hin. apply Hn. apply elem_of_app. by left.
Qed.
(** Without --verbose, a command that leaves with code 0 shows its own answer and nothing else, and one that fails
    shows nothing. *)
Theorem C95_quiet_partial (o : options M) file read c : o_verbose o = false -> (o_context o = true -> forall n, read n = Ok file) -> (c = CValidate -> o_context o = true) ->
  if (run read o c start).1 then exists v, answers (o_modules o) (if o_context o then Some file else None) c v /\ c_out (run read o c start).2 = [shown_line o c v] else c_out (run read o c start).2 = [].
Proof.
  intros Hv Hr Hc. destruct (C95_run_partial o file read c Hr Hc) as (dn & rest & E & Hl & Hok & Hf).
  assert (Hch : exists pre, chain c = pre ++ [c] /\ c ∉ pre).
  { destruct c; [exists []|exists [CBuild]|exists [CBuild; CVersion]|exists [CBuild]|exists [CBuild]]; (split; [done|]); by apply (bool_decide_unpack _); vm_compute. }
  destruct Hch as (pre & Ep & Hn). destruct (run read o c start).1.
  - assert (rest = []) as -> by (by apply Hok). rewrite app_nil_r in E. subst dn. rewrite Ep in Hl. inversion Hl as [E0|c' cs v ls H Hs Hsh Ec El|c' cs v ls H Hs Hsh Ec El].
    + by destruct pre.
    + apply app_inj_tail in Ec as [-> ->]. apply (lines_quiet _ _ _ _ _ Hv) in H as ->; [|done]. exists v. split; [by destruct Hs|done].
    + apply app_inj_tail in Ec as [-> ->]. exfalso. apply Hsh. by left.
  - eapply lines_quiet; [exact Hv|exact Hl|]. destruct rest as [|c' rest]; [by destruct Hok as [_ Hok]; specialize (Hok eq_refl)|]. intros Hin.
    rewrite Ep in E. destruct (app_eq_inv _ _ _ _ E) as [(k & E1 & E2)|(k & E1 & E2)].
    + apply Hn. rewrite E1. apply elem_of_app. by left.
    + destruct k as [|x k]; [|by destruct k]. cbn in E2. rewrite app_nil_r in E1. subst dn. done.
Qed.
(** A context file that cannot be read makes every command fail, and nothing is shown. *)
Theorem C95_unreadable (o : options M) read c e : o_context o = true -> read 0 = Err e -> (run read o c start).1 = false /\ c_out (run read o c start).2 = [].
Proof.
  intros Ho He.
  assert (Hb : forall inv, run_build V M D no_entries no_items serialisable build_driver stems read o inv start = (false, Cli None 1 [])).
  { intros inv. unfold run_build, config_of. rewrite Ho. unfold load_context. cbn [c_reads start]. by rewrite He. }
  destruct c; cbn [CommandModel.run]; unfold run_version, run_diff, run_validate, run_view, first; cbn [c_dr start]; unfold run_version, first; cbn [c_dr start]; by rewrite Hb.
Qed.
End Props.

(** ** Examples: values are strings, those that begin with "<" have no JSON; a driver is its modules and configuration *)
Definition build1 (m cfg : string) : res string string := if String.prefix "bad" m then Err "no" else Ok (m ++ "+" ++ cfg)%string.
Definition entries1 (c : dict string) : string := foldr (fun kv acc => (kv.2 ++ " " ++ acc)%string) "" c.
Definition run1 := run string string string "{}" "[]" entries1 (fun v => negb (String.prefix "<" v)) build1 (fun d => Ok ("hash of " ++ d)%string) (fun d m cfg => Ok (d ++ " against " ++ m ++ "+" ++ cfg)%string)
  (fun d fv i o => if String.prefix "unknown" fv then Err "unknown" else Ok tt) (fun d => Ok "dag.png") (fun m => m).
Definition file1 : dict (option string) := [(INPUTS, Some "inputs"); (OVERRIDES, None); (CONFIG, Some "config")].
Example C95_run_case : run1 (fun _ => Ok file1) (Options false false "m" true) CValidate start = (true, Cli (Some "m+config") 2 [LPlain "config [] inputs {} "]).
Proof. by vm_compute. Qed.
Example C95_verbose_case : run1 (fun _ => Ok file1) (Options true true "m" false) CDiff start = (true, Cli (Some "m+{}") 0 [LJson CBuild "m"; LJson CVersion "hash of m+{}"; LJson CDiff "m+{} against m+{}"]).
Proof. by vm_compute. Qed.
Example C95_fails_case : run1 (fun _ => Ok [(FINAL_VARS, Some "unknown")]) (Options true false "m" true) CValidate start = (false, Cli (Some "m+{}") 2 [LPlain "m"]) /\
  run1 (fun _ => Ok file1) (Options true false "bad" true) CDiff start = (false, Cli None 1 []) /\ run1 (fun _ => Err "Received extension") (Options true false "m" true) CView start = (false, Cli None 1 []).
Proof. by vm_compute. Qed.

(** That the context validated is the one the driver was built with: the file is read twice, and a Python file may
    define something else the second time *)
Theorem C95_once_refuted : exists read s, run1 read (Options false false "m" true) CValidate start = (true, s) /\ c_dr s = Some "m+first" /\ c_out s = [LPlain "second [] {} {} "].
Proof. exists (fun n => Ok [(CONFIG, Some (if decide (n = 0) then "first" else "second"))]). eexists. by vm_compute. Qed.
(** That versions compared have the same configuration, for the same reason *)
Theorem C95_compared_refuted : exists read s, run1 read (Options false false "m" true) CDiff start = (true, s) /\ c_out s = [LPlain "m+first against m+second"].
Proof. exists (fun n => Ok [(CONFIG, Some (if decide (n = 0) then "first" else "second"))]). eexists. by vm_compute. Qed.
(** That a context that is valid is answered with code 0: with --json-out it fails, and nothing is shown, if the context
    has values without JSON *)
Theorem C95_json_refuted : exists f, (run1 (fun _ => Ok f) (Options false false "m" true) CValidate start).1 = true /\
  (run1 (fun _ => Ok f) (Options false true "m" true) CValidate start).1 = false /\ c_out (run1 (fun _ => Ok f) (Options false true "m" true) CValidate start).2 = [].
Proof. exists [(CONFIG, Some "<date>")]. by vm_compute. Qed.
(** That a command answers about its modules: a second one in the same process answers about those of the first *)
Theorem C95_again_refuted : exists s s', run1 (fun _ => Ok file1) (Options false false "m" false) CVersion start = (true, s) /\ run1 (fun _ => Ok file1) (Options false false "other" false) CVersion s = (true, s') /\
  c_out s' = [LPlain "hash of m+{}"; LPlain "hash of m+{}"].
Proof. do 2 eexists. by vm_compute. Qed.

Print Assumptions C95_context.
Print Assumptions C95_run_partial.
Print Assumptions C95_quiet_partial.
Print Assumptions C95_unreadable.
Print Assumptions C95_once_refuted.
Print Assumptions C95_compared_refuted.
Print Assumptions C95_json_refuted.
Print Assumptions C95_again_refuted.
