From Coq Require Import Ascii.
From Verif Require Import Base Strings GraphModel CacheKeyModel CacheKeyProofs ValidatorSpec ValidatorProofs LineageModel LineageSpec.

Lemma contains_within p s : str_contains p s = true <-> within p s.
Proof. rewrite contains_iff. done. Qed.
Lemma contains_not p s : str_contains p s = false <-> ~ within p s.
Proof. rewrite <- contains_within. by destruct (str_contains p s). Qed.

Lemma lacks_within c s : ~ within (String c "") s <-> lacks c s.
Proof.
  split.
  - induction s as [|a s IH]; [done|]. intros H. split.
    + intros ->. apply H. exists "", s. done.
    + apply IH. intros (x & y & ->). apply H. by exists (String a x), y.
  - intros H (a & b & ->). apply lacks_app in H as [_ H]. apply lacks_app in H as [H _]. by destruct H.
Qed.

Lemma before_leads p s : within p s -> leads p s (before p s).
Proof.
  induction s as [|c s IH]; intros Hw.
  - destruct Hw as (a & b & H). destruct a; [|done]. destruct p; [|done]. exists "". split; [done|]. cbn. lia.
  - change (before p (String c s)) with (if String.prefix p (String c s) then EmptyString else String c (before p s)).
    destruct (String.prefix p (String c s)) eqn:Hp.
    + apply prefix_iff in Hp as [b Hb]. exists b. split; [done|]. intros. cbn. lia.
    + assert (Hno : forall b, String c s <> (p ++ b)%string).
      { intros b Hb. assert (String.prefix p (String c s) = true) by (apply prefix_iff; by exists b). congruence. }
      destruct Hw as (a & b & H). destruct a as [|a0 a]; [by destruct (Hno b)|]. injection H as -> H.
      destruct IH as (b' & Hb' & Hmin); [by exists a, b|]. exists b'. split.
      { exact (f_equal (String a0) Hb'). }
      intros y b'' Hy. destruct y as [|y0 y]; [by destruct (Hno b'')|]. injection Hy as -> Hy. cbn. apply le_n_S. by eapply Hmin.
Qed.

Lemma split_app_any c s r : exists l, l <> [] /\ split c (s +:+ String c r) = l ++ split c r.
Proof.
  induction s as [|x s (l & Hl & IH)].
  - exists [""]. split; [done|]. change (split c ("" +:+ String c r)) with (if decide (c = c) then EmptyString :: split c r
      else match split c r with h :: t => String c h :: t | [] => [String c EmptyString] end). by rewrite decide_True.
  - change (split c (String x s +:+ String c r)) with (if decide (x = c) then EmptyString :: split c (s +:+ String c r)
      else match split c (s +:+ String c r) with h :: t => String x h :: t | [] => [String x EmptyString] end).
    rewrite IH. destruct (decide (x = c)).
    + exists ("" :: l). done.
    + destruct l as [|h t]; [done|]. by exists (String x h :: t).
Qed.
Lemma last_app_ne {A} (l k : list A) d : k <> [] -> List.last (l ++ k) d = List.last k d.
Proof. intros Hk. induction l as [|x l IH]; [done|]. cbn. destruct (l ++ k) eqn:E; [by destruct l|]. by rewrite <- IH. Qed.
Lemma extension_lacks s : lacks "."%char s -> extension s = s.
Proof. intros H. unfold extension. by rewrite split_lacks. Qed.
Lemma last_dot s : lacks "."%char s \/ exists a x, lacks "."%char x /\ s = (a ++ String "."%char x)%string.
Proof.
  induction s as [|c s IH]; [by left|]. destruct IH as [H|(a & x & Hx & ->)].
  - destruct (decide (c = "."%char)) as [->|Hc]; [right; by exists "", s|by left].
  - right. by exists (String c a), x.
Qed.
Lemma extension_dot a x : lacks "."%char x -> extension (a ++ String "."%char x) = x.
Proof.
  intros Hx. unfold extension. destruct (split_app_any "."%char a x) as (l & _ & ->). rewrite last_app_ne by apply split_nonempty. by rewrite split_lacks.
Qed.
Lemma extension_ends s : ends_in s (extension s) \/ (lacks "."%char s /\ extension s = s).
Proof.
  destruct (last_dot s) as [H|(a & x & Hx & ->)].
  - right. split; [done|]. by apply extension_lacks.
  - left. rewrite extension_dot by done. split; [done|]. by exists a.
Qed.
Lemma ends_unique s x y : ends_in s x -> ends_in s y -> x = y.
Proof.
  intros [Hx [a ->]] [Hy [b Hb]]. rewrite <- (extension_dot a x Hx), <- (extension_dot b y Hy). f_equal. exact Hb.
Qed.

Lemma is_empty_iff m : is_empty m = true <-> m = no_meta.
Proof. destruct m as [[?|] [?|] [?|] []]; cbn; split; intros; try done; by inversion H. Qed.

Lemma schema_complete m : complete m -> exists s, extract_schema_facet m = Ok s /\ schema m s.
Proof.
  intros (_ & _ & H). unfold extract_schema_facet, schema. destruct (m_frame m) as [[cs ts]|] eqn:E; [|by exists None].
  destruct (H cs ts eq_refl) as [[l1 ->] [l2 ->]]. exists (Some (zip l1 l2)). split; [done|]. by exists l1, l2.
Qed.

Lemma known_val {A} (f : field A) : f <> Missing -> known f (match f with Val a => Some a | _ => None end).
Proof. by destruct f. Qed.

Lemma output_written ns m n : complete m -> exists d, create_output_dataset ns m n = Ok [d] /\ written ns n m d.
Proof.
  intros Hc. destruct (schema_complete m Hc) as (s & Es & Hs). destruct Hc as (Hf & Hq & _). unfold create_output_dataset. rewrite Es.
  destruct (m_file m) as [[path|]|] eqn:Ef; [|done|].
  - eexists. split; [done|]. apply written_file; [done|done|]. destruct (str_contains "." path) eqn:Ed.
    + destruct (extension_ends path) as [|[Hl _]]; [by left|]. apply contains_within in Ed. by apply lacks_within in Hl.
    + right. split; [|done]. apply lacks_within. by apply contains_not.
  - destruct (m_sql m) as [[t q]|] eqn:E.
    + destruct (Hq eq_refl t q eq_refl) as [Ht _]. exists (Dataset ns (match t with Val t => Some t | _ => None end) None None s). split; [by destruct t|].
      eapply written_table; [done|done|by apply known_val|done].
    + eexists. split; [done|]. by apply written_else.
Qed.
Lemma input_read ns m n : complete m -> exists d q, create_input_dataset ns m n = Ok ([d], q) /\ read ns n m d q.
Proof.
  intros Hc. destruct (schema_complete m Hc) as (s & Es & Hs). destruct Hc as (Hf & Hq & _). unfold create_input_dataset. rewrite Es.
  destruct (m_file m) as [[path|]|] eqn:Ef; [|done|].
  - eexists _, _. split; [done|]. apply read_file; [done|done| |].
    + destruct (str_contains ".loader" (ln_name n)) eqn:El.
      * left. apply before_leads. by apply contains_within.
      * right. split; [|done]. by apply contains_not.
    + match goal with |- context [str_contains "." ?x] => destruct (str_contains "." x) eqn:Ed end.
      * left. split; [by apply contains_within|]. apply extension_ends.
      * right. split; [by apply contains_not|done].
  - destruct (m_sql m) as [[t q]|] eqn:E.
    + destruct (Hq eq_refl t q eq_refl) as [Ht Hq'].
      exists (Dataset ns (match t with Val t => Some t | _ => None end) None None s), [JSql (match q with Val q => Some q | _ => None end)].
      split; [by destruct t, q|]. eapply read_table; [done|done|by apply known_val|by apply known_val|done].
    + eexists _, _. split; [done|]. by apply read_else.
Qed.

Lemma moved_iff n v m b : moved n v = Some (m, b) /\ is_empty m = false <-> (b = false /\ saves n v m) \/ (b = true /\ loads n v m).
Proof.
  unfold saves, loads. pose proof (is_empty_iff m) as He. split.
  - intros [H Hm]. assert (Hn : m <> no_meta) by (intros ->; done).
    unfold moved in H. destruct (ln_saver n), v as [m'|l|]; try done; try (inversion H; subst; left; done);
    destruct l as [|x [|[m'|?|] [|? ?]]]; try done; destruct (ln_loader n), (ln_metadata n); try done; inversion H; subst; right; eauto 10.
  - intros [[-> (H1 & -> & Hn)]|[-> (H1 & H2 & [x ->] & Hn)]].
    + split; [by unfold moved; rewrite H1|]. destruct (is_empty m); tauto.
    + split; [unfold moved; rewrite H1, H2; by destruct (ln_saver n)|]. destruct (is_empty m); tauto.
Qed.
Lemma quiet n v : (forall m, ~ saves n v m /\ ~ loads n v m) -> moved n v = None \/ exists m b, moved n v = Some (m, b) /\ is_empty m = true.
Proof.
  intros H. destruct (moved n v) as [[m b]|] eqn:E; [|by left]. right. exists m, b. split; [done|].
  destruct (is_empty m) eqn:Em; [done|]. destruct (moved_iff n v m b) as [Hm _]. destruct (Hm (conj E Em)) as [[_ Hx]|[_ Hx]]; destruct (H m); done.
Qed.

Section Proofs.
Variable accepts : event -> bool.
Variable namespace job_name : string.
Variable graph_version : list string -> string.
Notation post := (post_node_execute accepts namespace job_name).
Notation exec := (execute accepts namespace job_name graph_version).
Notation mat := (materialize accepts namespace job_name graph_version).

Lemma emit_adds l e r l' : emit accepts l e = (r, l') -> (r = Ok tt /\ accepts e = true /\ l' = l ++ [e]) \/ (r = Err EClient /\ accepts e = false /\ l' = l).
Proof. unfold emit. destruct (accepts e); intros [= <- <-]; [by left|by right]. Qed.

Lemma post_quiet l run n v : (forall m, ~ saves n v m /\ ~ loads n v m) -> post l run n true v = (Ok tt, l).
Proof. intros H. unfold post_node_execute. cbn [negb]. by destruct (quiet n v H) as [->|(m & b & -> & ->)]. Qed.
Lemma post_saved l run n v m d : saves n v m -> create_output_dataset namespace m n = Ok [d] ->
  post l run n true v = emit accepts l (Event RUNNING run [] namespace job_name [] [] [d]).
Proof.
  intros H Hd. destruct (moved_iff n v m false) as [_ Hm]. destruct Hm as [E1 E2]; [by left|]. unfold post_node_execute. cbn [negb]. by rewrite E1, E2, Hd.
Qed.
Lemma post_loaded l run n v m d q : loads n v m -> create_input_dataset namespace m n = Ok ([d], q) ->
  post l run n true v = emit accepts l (Event RUNNING run [] namespace job_name q [d] []).
Proof.
  intros H Hd. destruct (moved_iff n v m true) as [_ Hm]. destruct Hm as [E1 E2]; [by left + by right|]. unfold post_node_execute. cbn [negb]. by rewrite E1, E2, Hd.
Qed.

(** Whatever happens, at most one event is added *)
Lemma post_adds l run n b v r l' : post l run n b v = (r, l') ->
  l' = l \/ exists e, l' = l ++ [e] /\ ev_kind e = RUNNING /\ about run namespace job_name e /\ accepts e = true.
Proof.
  unfold post_node_execute. intros H.
  repeat match type of H with
         | context [if ?x then _ else _] => destruct x
         | context [match ?x with _ => _ end] => destruct x
         end; try (injection H as <- <-; by left); try (injection H as <- <-; by left);
  apply emit_adds in H as [(-> & Ha & ->)|(-> & Ha & ->)]; (by left) || (right; eexists; split; [done|]; split; [done|]; split; [done|done]).
Qed.
Lemma nodes_add run ns l r l' : run_nodes accepts namespace job_name l run ns = (r, l') ->
  exists es, l' = l ++ es /\ Forall (fun e => ev_kind e = RUNNING /\ about run namespace job_name e) es.
Proof.
  revert l. induction ns as [|[n o] ns IH]; intros l H.
  - injection H as <- <-. exists []. by rewrite app_nil_r.
  - cbn [run_nodes] in H. destruct o as [v|e].
    + destruct (post l run n true v) as [r1 l1] eqn:E. pose proof (post_adds _ _ _ _ _ _ _ E) as Ha.
      assert (Hx : exists es, l1 = l ++ es /\ Forall (fun e => ev_kind e = RUNNING /\ about run namespace job_name e) es).
      { destruct Ha as [->|(e & -> & ? & ? & _)]; [exists []; by rewrite app_nil_r|]. exists [e]. split; [done|]. by apply Forall_singleton. }
      destruct Hx as (es & -> & Hes). destruct r1 as [u|e].
      * apply IH in H as (es' & -> & Hes'). exists (es ++ es'). rewrite app_assoc. split; [done|]. by apply Forall_app.
      * injection H as <- <-. by exists es.
    + destruct (post l run n (negb (is_exception e)) VOther) as [r1 l1] eqn:E. apply post_adds in E.
      assert (Hx : exists es, l1 = l ++ es /\ Forall (fun e => ev_kind e = RUNNING /\ about run namespace job_name e) es).
      { destruct E as [->|(e' & -> & ? & ? & _)]; [exists []; by rewrite app_nil_r|]. exists [e']. split; [done|]. by apply Forall_singleton. }
      destruct Hx as (es & -> & Hes). by destruct r1; injection H as <- <-; exists es.
Qed.

Lemma post_graph_adds l run b e r l' : post_graph_execute accepts namespace job_name l run b e = (r, l') ->
  exists fin, l' = l ++ fin /\ length fin <= 1 /\ Forall is_end fin /\ Forall (about run namespace job_name) fin.
Proof.
  unfold post_graph_execute. intros H.
  repeat match type of H with
         | context [if ?x then _ else _] => destruct x
         | context [match ?x with _ => _ end] => destruct x
         end; apply emit_adds in H as [(-> & Ha & ->)|(-> & Ha & ->)];
  (exists []; rewrite app_nil_r; cbn; by auto) || (eexists [_]; split; [done|]; split; [done|]; split; apply Forall_singleton; (by left) || (by right) || done).
Qed.
Lemma finish_adds run r l r' l' : finish accepts namespace job_name run (r, l) = (r', l') ->
  exists fin, l' = l ++ fin /\ length fin <= 1 /\ Forall is_end fin /\ Forall (about run namespace job_name) fin.
Proof.
  unfold finish. match goal with |- context [post_graph_execute _ _ _ ?l ?x ?b ?e] => destruct (post_graph_execute accepts namespace job_name l x b e) as [r1 l1] eqn:E end.
  apply post_graph_adds in E. by destruct r1; intros [= <- <-].
Qed.
Lemma work_adds l run p r l' : work accepts namespace job_name l run p = (r, l') ->
  exists es, l' = l ++ es /\ Forall (fun e => ev_kind e = RUNNING /\ about run namespace job_name e) es.
Proof.
  unfold work. destruct (pl_check p).
  - intros [= <- <-]. exists []. by rewrite app_nil_r.
  - destruct (run_nodes _ _ _ l run (pl_nodes p)) as [r1 l1] eqn:E. apply nodes_add in E. by destruct r1; intros [= <- <-].
Qed.
Lemma pre_adds l run p r l' : pre accepts namespace job_name graph_version l run p = (r, l') ->
  (r <> Ok tt /\ l' = l) \/ exists s, r = Ok tt /\ l' = l ++ [s] /\ ev_kind s = START /\ about run namespace job_name s /\ accepts s = true.
Proof.
  unfold pre, pre_graph_execute. destruct (sources (pl_graph p)) as [ss|e]; intros H; [|injection H as <- <-; by left].
  apply emit_adds in H as [(-> & Ha & ->)|(-> & Ha & ->)]; [right|by left]. by eexists.
Qed.

Lemma execute_in_order l run p : exists es, snd (exec l run p) = l ++ es /\ in_order es /\ Forall (about run namespace job_name) es.
Proof.
  unfold execute. destruct (pre _ _ _ _ l run p) as [r1 l1] eqn:E. apply pre_adds in E as [[Hr ->]|(s & -> & -> & Hs & Hab & _)].
  - destruct r1 as [[]|e]; [done|]. exists []. rewrite app_nil_r. split; [done|]. split; [by left|done].
  - destruct (work _ _ _ (l ++ [s]) run p) as [r2 l2] eqn:E2. apply work_adds in E2 as (mid & -> & Hmid).
    destruct (finish _ _ _ run _) as [r3 l3] eqn:E3. apply finish_adds in E3 as (fin & -> & Hl & Hend & Hfin). cbn [snd].
    exists (s :: mid ++ fin). split; [by rewrite <- !app_assoc|]. split.
    + right. exists s, mid, fin. split; [done|]. split; [done|]. split; [|done]. eapply Forall_impl; [exact Hmid|]. by intros ? [? _].
    + constructor; [done|]. apply Forall_app. split; [|done]. eapply Forall_impl; [exact Hmid|]. by intros ? [_ ?].
Qed.

Hypothesis all : forall e, accepts e = true.
Lemma emit_all l e : emit accepts l e = (Ok tt, l ++ [e]).
Proof. unfold emit. by rewrite all. Qed.

Lemma ran_tells run ns vs r l : ran ns vs r -> all_complete vs ->
  exists mid, run_nodes accepts namespace job_name l run ns = (r, l ++ mid) /\ tells namespace job_name run vs mid.
Proof.
  intros Hr. revert l. induction Hr as [|n v ns vs r Hr IH|n e ns]; intros l Hc.
  - exists []. rewrite app_nil_r. split; [done|]. constructor.
  - assert (Hc' : all_complete vs) by (intros n' v' m' Hin; apply (Hc n' v' m'); by right).
    assert (Hcase : (forall m, ~ saves n v m /\ ~ loads n v m) \/ (exists m, saves n v m) \/ exists m, loads n v m).
    { destruct (moved n v) as [[m b]|] eqn:E.
      - destruct (is_empty m) eqn:Em.
        + left. intros m'. split; intros H; [destruct (moved_iff n v m' false) as [_ Hm]|destruct (moved_iff n v m' true) as [_ Hm]];
            (destruct Hm as [E1 E2]; [by (left + right)|]); rewrite E in E1; injection E1 as -> ->; congruence.
        + right. destruct (moved_iff n v m b) as [Hm _]. destruct (Hm (conj E Em)) as [[_ H]|[_ H]]; [left|right]; by exists m.
      - left. intros m'. split; intros H; [destruct (moved_iff n v m' false) as [_ Hm]|destruct (moved_iff n v m' true) as [_ Hm]];
            (destruct Hm as [E1 E2]; [by (left + right)|]); congruence. }
    cbn [run_nodes]. destruct Hcase as [Hq|[[m Hm]|[m Hm]]].
    + rewrite post_quiet by done. destruct (IH l Hc') as (mid & -> & Ht). exists mid. split; [done|]. by constructor.
    + destruct (output_written namespace m n) as (d & Ed & Hd); [by eapply (Hc n v m); [left|left]|].
      rewrite (post_saved _ _ _ _ m d Hm Ed), emit_all. destruct (IH (l ++ [Event RUNNING run [] namespace job_name [] [] [d]]) Hc') as (mid & -> & Ht).
      eexists (_ :: mid). split; [by rewrite <- app_assoc|]. by eapply tells_saved.
    + destruct (input_read namespace m n) as (d & q & Ed & Hd); [by eapply (Hc n v m); [left|right]|].
      rewrite (post_loaded _ _ _ _ m d q Hm Ed), emit_all. destruct (IH (l ++ [Event RUNNING run [] namespace job_name q [d] []]) Hc') as (mid & -> & Ht).
      eexists (_ :: mid). split; [by rewrite <- app_assoc|]. by eapply tells_loaded.
  - exists []. rewrite app_nil_r. split; [|constructor]. cbn [run_nodes].
    replace (post l run n (negb (is_exception e)) VOther) with (@Ok lerr unit tt, l); [done|].
    unfold post_node_execute. destruct (negb (negb (is_exception e))); [done|]. unfold moved. by destruct (ln_saver n).
Qed.

Lemma plain_work run p vs r l : plain p vs r -> all_complete vs ->
  exists mid, work accepts namespace job_name l run p = (r, l ++ mid) /\ tells namespace job_name run vs mid.
Proof.
  intros [e He|vs' e He Hr|vs' He Hr] Hc; unfold work; rewrite He.
  - exists []. rewrite app_nil_r. split; [done|]. constructor.
  - destruct (ran_tells run _ _ _ l Hr Hc) as (mid & -> & Ht). by exists mid.
  - destruct (ran_tells run _ _ _ l Hr Hc) as (mid & -> & Ht). by exists mid.
Qed.

Definition start (run : string) (p : plan) (ss : list (string * option string)) : event :=
  Event START run [RHamilton (graph_version (map fst (pl_graph p))) (pl_final p) (default [] (pl_inputs p)) (default [] (pl_overrides p))] namespace job_name [JSource ss; JType] [] [].
Lemma sources_readable g : readable g -> exists ss, sources g = Ok ss /\
  Forall2 (fun xs xo => fst xs = fst xo /\ match snd xo with Some t => snd xs = SText t | None => snd xs = SNone end) g ss.
Proof.
  induction g as [|[x s] g IH]; intros H; [by exists []|]. destruct IH as (ss & Ess & Hss); [intros y Hy; apply (H y); by right|].
  cbn [sources]. destruct s as [|t|]; [| |by destruct (H x); left]; rewrite Ess; eexists; (split; [done|]); by constructor.
Qed.
Lemma sources_not g : ~ readable g -> sources g = Err ESource.
Proof.
  induction g as [|[x s] g IH]; intros H.
  - destruct H. intros y Hy. by apply elem_of_nil in Hy.
  - cbn [sources]. destruct s as [|t|]; [| |done]; rewrite IH; try done; intros Hr; apply H; intros y Hy; apply elem_of_cons in Hy as [Hy|Hy]; try done; by apply (Hr y).
Qed.

Lemma finish_all run r l : exists fin, finish accepts namespace job_name run (r, l) = (r, l ++ [fin]) /\ about run namespace job_name fin /\
  (r = Ok tt -> ev_kind fin = COMPLETE /\ ev_run_facets fin = []) /\
  (forall e, r = Err e -> is_exception e = true -> truthy e = true -> ev_kind fin = FAIL /\ ev_run_facets fin = [RError e]) /\ is_end fin /\ ev_inputs fin = [] /\ ev_outputs fin = [].
Proof.
  unfold finish, post_graph_execute. destruct r as [[]|e].
  - rewrite emit_all. eexists. split; [done|]. do 2 (split; [done|]). split; [done|]. split; [by left|done].
  - destruct (is_exception e) eqn:Ee; [destruct (truthy e) eqn:Et|]; rewrite emit_all; (eexists; split; [done|]); (split; [done|]); (split; [done|]); (split; [intros e' [= <-]; congruence || done|]); (split; [by (left + right)|done]).
Qed.

Lemma execute_all l run p vs r : readable (pl_graph p) -> plain p vs r -> all_complete vs ->
  exists ss mid fin, exec l run p = (r, l ++ start run p ss :: mid ++ [fin]) /\
    sources (pl_graph p) = Ok ss /\ tells namespace job_name run vs mid /\ about run namespace job_name fin /\ is_end fin /\ ev_inputs fin = [] /\ ev_outputs fin = [] /\
    (r = Ok tt -> ev_kind fin = COMPLETE /\ ev_run_facets fin = []) /\
    (forall e, r = Err e -> is_exception e = true -> truthy e = true -> ev_kind fin = FAIL /\ ev_run_facets fin = [RError e]).
Proof.
  intros Hg Hp Hc. destruct (sources_readable _ Hg) as (ss & Ess & _). unfold execute, pre, pre_graph_execute. rewrite Ess, emit_all. fold (start run p ss).
  destruct (plain_work run p vs r (l ++ [start run p ss]) Hp Hc) as (mid & -> & Ht).
  destruct (finish_all run r ((l ++ [start run p ss]) ++ mid)) as (fin & -> & H1 & H2 & H3 & H4 & H5 & H6).
  exists ss, mid, fin. split; [by rewrite <- !app_assoc|]. done.
Qed.
Lemma materialize_all l run p vs r : readable (pl_graph p) -> plain p vs r -> all_complete vs ->
  mat l run None None p = exec l run p.
Proof.
  intros Hg Hp Hc. destruct (sources_readable _ Hg) as (ss & Ess & _). unfold materialize, execute, pre, pre_graph_execute. by rewrite Ess, emit_all.
Qed.
End Proofs.
