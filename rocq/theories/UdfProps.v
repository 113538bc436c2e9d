(** C73: PySparkUDFGraphAdapter appends the requested columns to the one dataframe. *)
From Verif Require Import Base Dict NodeModel NodeSpec NodeProofs ExecModel ExecSpec ExecProofs ExecResults ExecMap ConfigProofs SparkModel SparkSpec SparkProofs UdfModel UdfSpec UdfProofs ExecProps.

Section Props.
Context {C U E T : Type}.
Notation V := (sval C U E).
Notation node := (pnode V E T).
Variable is_series : T -> bool.
Variable spark_type series_type : T -> bool.
Variable value_error attribute_error analysis_error : E.
Variable sort : list name -> list name.
Variable spark_apply : bool -> (list V -> res (nerr E) V) -> list C -> res (nerr E) C.
Variable lit : option U -> option C.
Variable g : graph.
Variable fns : name -> node.
Notation execute := (udf_execute is_series spark_type series_type value_error attribute_error analysis_error sort spark_apply lit g fns).
Notation column_fn := (column_fn is_series spark_type series_type value_error sort spark_apply fns).
Notation column_for := (column_for is_series spark_type series_type value_error sort spark_apply fns).
Notation no_column_for := (no_column_for is_series spark_type series_type value_error sort spark_apply fns).
Notation col_run d0 config inputs overrides fv := (default_execute (fun _ => column_fn) g (seen d0 config) (seen d0 inputs) (seen d0 overrides) fv).

Lemma execute_cases d0 config inputs overrides fv : (forall l, sort l ≡ₚ l) -> udf_request fns d0 g config inputs overrides fv ->
  match execute ustart config inputs overrides fv with
  | (s, Ok d) => s = ustart /\ dkeys d = dkeys d0 ++ filter (fun x => x ∉ dkeys d0) (firsts fv) /\
      (forall x, x ∈ dkeys d0 -> dget d x = dget d0 x) /\
      (forall x, x ∈ fv -> x ∉ dkeys d0 -> exists c, dget d x = Some c /\ column_for d0 lit g (inputs ∪ config) overrides x c) /\
      exists out tr, col_run d0 config inputs overrides fv = Answer out tr
  | (_, Err (UExec e)) => exists tr, col_run d0 config inputs overrides fv = Failed e tr
  | (_, Err (UBuild e)) => exists out tr, col_run d0 config inputs overrides fv = Answer out tr /\
      ((forall x kw r, Call x kw r ∈ tr -> cols kw = ∅) \/ exists x, x ∈ fv /\ no_column_for d0 lit g (inputs ∪ config) overrides x)
  | (_, Err UClash) => col_run d0 config inputs overrides fv = Clash
  | (_, Err UFuel) => False
  end.
Proof.
  intros SP R. pose proof (run_columns is_series spark_type series_type value_error analysis_error sort SP spark_apply g fns d0 config inputs overrides fv R) as Hcr.
  assert (Hu : seen d0 (inputs ∪ config) = seen d0 inputs ∪ seen d0 config) by apply amap_union.
  unfold udf_execute. destruct (default_execute (udf_call _ _ _ _ _ _ _ _ _) g config inputs overrides fv) as [out t|e t| |] eqn:Hrun.
  - pose proof (answer_entry is_series spark_type series_type value_error analysis_error sort SP spark_apply g fns d0 config inputs overrides fv R out t) as He.
    pose proof (run_ok is_series spark_type series_type value_error analysis_error sort spark_apply g fns d0 config inputs overrides fv R) as G.
    pose proof (call_frame is_series spark_type series_type value_error analysis_error sort SP spark_apply g fns d0 config inputs overrides fv R) as Hcf.
    rewrite Hrun in He, G, Hcf. cbn [trace_of] in G, Hcf, Hcr. rewrite Hcr in Hcf. cbn [aanswer trace_of] in Hcf, Hcr.
    pose proof (good_uinv is_series spark_type series_type value_error analysis_error sort SP spark_apply g fns d0 config inputs overrides fv R t G) as I.
    assert (Hk : dkeys (dupd [] out) = firsts fv).
    { rewrite dkeys_firsts. cbn. rewrite <- (proj1 (run_values g (ur_wf _ _ _ _ _ _ _ R) (ur_acyclic _ _ _ _ _ _ _ R) _ _ _ _ _ _ _ Hcr)), <- list_fmap_compose.
      assert (Hfst : (fst ∘ (fun p : name * option V => (p.1, shown (cur is_series spark_type series_type value_error analysis_error sort spark_apply fns d0 t) p.1 <$> p.2))) <$> out = dkeys out) by done.
      rewrite Hfst. induction (firsts (dkeys out)) as [|y l IH]; [done|]. rewrite filter_cons, decide_True by by intros ?%elem_of_nil. by rewrite IH. }
    assert (N : NoDup (dkeys (dupd [] out))) by by apply NoDup_dupd_keys, NoDup_nil_2.
    assert (Ho : forall x o, (x, o) ∈ dupd [] out -> (x, o) ∈ out) by (intros x o [?%elem_of_nil | ?]%dupd_elem; done).
    pose proof (ui_schema _ _ _ _ _ _ _ _ _ _ I) as Hs. pose proof (ui_new _ _ _ _ _ _ _ _ _ _ I) as (new & Hnew & _). pose proof (ui_nodup _ _ _ _ _ _ _ _ _ _ I) as Nc.
    unfold build_result. destruct (us_df (after _ _ _ _ _ _ _ _ ustart t)) as [d|] eqn:Ed.
    + assert (Hd : cur is_series spark_type series_type value_error analysis_error sort spark_apply fns d0 t = d) by (unfold cur; by rewrite Ed). rewrite Hd in *.
      rewrite Hs by by eexists. destruct (add_outputs analysis_error lit d (dkeys d0) (dupd [] out)) as [schema [d'|e]] eqn:Ea.
      * destruct (add_outputs_ok _ _ _ _ _ _ _ N Ea) as (-> & (l & Hl) & Hin). rewrite Hk.
        destruct (select_ok (dkeys d0 ++ filter (fun x => x ∉ dkeys d0) (firsts fv)) d') as (r & Hr & Hrk & Hrg).
        { intros x [Hx | [_ Hx]%elem_of_list_filter]%elem_of_app.
          - rewrite Hl, dkeys_app, Hnew, dkeys_app. apply elem_of_app. left. apply elem_of_app. by left.
          - rewrite <- Hk in Hx. unfold dkeys in Hx. apply elem_of_list_fmap in Hx as ([y o] & -> & Hx). by destruct (Hin _ _ Hx). }
        { apply NoDup_app. split_and!; [apply (ur_d0 _ _ _ _ _ _ _ R)|by intros x Hx [? _]%elem_of_list_filter|]. apply NoDup_filter. by rewrite <- Hk. }
        rewrite Hr. split_and!; [done|done| | |by eexists _, _].
        -- intros x Hx. rewrite Hrg by (apply elem_of_app; by left). rewrite Hl, dget_app, Hnew, dget_app. apply dget_Some_key in Hx as [c ->]. done.
        -- intros x Hx Hxd. assert (Hxk : x ∈ dkeys (dupd [] out)).
           { rewrite Hk. clear -Hx. induction fv as [|y fv' IH]; [done|]. cbn. destruct (decide (x = y)) as [-> | Hne]; [by left|]. right. apply elem_of_list_filter. split; [done|]. apply IH. by apply elem_of_cons in Hx as [? | ?]. }
           assert (Hxs : x ∈ dkeys d0 ++ filter (fun x => x ∉ dkeys d0) (firsts fv)) by (apply elem_of_app; right; apply elem_of_list_filter; by rewrite <- Hk).
           rewrite (Hrg x Hxs). unfold dkeys in Hxk. apply elem_of_list_fmap in Hxk as ([y o] & -> & Hy). cbn [fst] in *. destruct (Hin _ _ Hy) as [_ Hlit].
           destruct (He y o eq_refl (Ho _ _ Hy)) as [_ Hent]. unfold UdfSpec.column_for. cbn zeta. rewrite Hu. destruct o as [v|].
           ++ destruct Hent as [Hf Hev]. destruct v as [dd|h|u]; cbn [fits] in Hf; rewrite ?Hd in Hf.
              ** destruct Hf as (_ & Hf & _). apply dget_Some_key in Hf as [c Hc]. exists c. split; [by rewrite Hl, dget_app, Hc|]. left. cbn [shown] in Hev. by rewrite Hc in Hev.
              ** destruct (Hlit Hf) as (d2 & c & H1 & H2). exists c. split; [done|]. right. right. left. exists h, d2. split; [done|]. cbn in H1. by destruct (h d2); simplify_eq.
              ** destruct (Hlit Hf) as (d2 & c & H1 & H2). exists c. split; [done|]. right. left. exists u. split; [done|]. cbn in H1. by destruct (lit (Some u)); simplify_eq.
           ++ destruct Hent as [[Hab Hn] | ?]; [|done]. destruct (Hlit Hn) as (d2 & c & H1 & H2). exists c. split; [done|]. right. right. right. split; [done|]. cbn in H1. by destruct (lit None); simplify_eq.
      * destruct (add_outputs_err _ _ _ _ _ _ _ N Ea) as (x & o & d2 & Hx & Hxd & Hl). eexists _, _. split; [done|]. right. exists x.
        destruct (He x o eq_refl (Ho _ _ Hx)) as [Hfv Hent]. split; [done|]. unfold UdfSpec.no_column_for. cbn zeta. rewrite Hu. destruct o as [v|].
        -- destruct Hent as [Hf Hev]. destruct v as [dd|h|u]; cbn [fits] in Hf; rewrite ?Hd in Hf.
           ++ destruct Hf as (_ & ? & _). done.
           ++ right. left. cbn in Hl. destruct (h d2) as [|e'] eqn:Eh; [done|]. by exists h, d2, e'.
           ++ left. exists u. split; [done|]. cbn in Hl. by destruct (lit (Some u)).
        -- right. right. destruct Hent as [[Hab _] | Hx0]; [split; [done|]; cbn in Hl; by destruct (lit None)|]. exfalso. apply Hxd. rewrite Hnew, dkeys_app. apply elem_of_app. by left.
    + eexists _, _. split; [done|]. left. intros x kw r Hc. by eapply Hcf.
  - cbn [aanswer] in Hcr. by eexists.
  - done.
  - exfalso. revert Hrun. apply run_not_diverged; apply R.
Qed.

(** On a request as documented, and if the last call did not fail, execute returns the dataframe with the requested variables
    appended in the order of the request: each is the column that its function is of the columns it
    takes, or its value in every row; the given columns are unchanged and come first; the next call starts
    afresh. *)
Theorem C73_value d0 config inputs overrides fv s d : (forall l, sort l ≡ₚ l) -> udf_request fns d0 g config inputs overrides fv ->
  execute ustart config inputs overrides fv = (s, Ok d) ->
  s = ustart /\ dkeys d = dkeys d0 ++ filter (fun x => x ∉ dkeys d0) (firsts fv) /\
  (forall x, x ∈ dkeys d0 -> dget d x = dget d0 x) /\
  (forall x, x ∈ fv -> x ∉ dkeys d0 -> exists c, dget d x = Some c /\ column_for d0 lit g (inputs ∪ config) overrides x c).
Proof. intros SP R He. pose proof (execute_cases d0 config inputs overrides fv SP R) as H. rewrite He in H. tauto. Qed.

(** It fails like the execution of functions of columns; or else there is no column for a requested value, or no function of
    columns was called. *)
Theorem C73_error d0 config inputs overrides fv s e : (forall l, sort l ≡ₚ l) -> udf_request fns d0 g config inputs overrides fv ->
  execute ustart config inputs overrides fv = (s, Err e) ->
  match e with
  | UExec e => exists tr, col_run d0 config inputs overrides fv = Failed e tr
  | UBuild e => exists out tr, col_run d0 config inputs overrides fv = Answer out tr /\
      ((forall x kw r, Call x kw r ∈ tr -> cols kw = ∅) \/ exists x, x ∈ fv /\ no_column_for d0 lit g (inputs ∪ config) overrides x)
  | UClash => col_run d0 config inputs overrides fv = Clash
  | UFuel => False
  end.
Proof. intros SP R He. pose proof (execute_cases d0 config inputs overrides fv SP R) as H. rewrite He in H. done. Qed.

(** Otherwise it succeeds. *)
Theorem C73_succeeds d0 config inputs overrides fv out tr : (forall l, sort l ≡ₚ l) -> udf_request fns d0 g config inputs overrides fv ->
  col_run d0 config inputs overrides fv = Answer out tr ->
  (exists x kw r, Call x kw r ∈ tr /\ cols kw <> ∅) -> (forall x, x ∈ fv -> ~ no_column_for d0 lit g (inputs ∪ config) overrides x) ->
  exists d, execute ustart config inputs overrides fv = (ustart, Ok d).
Proof.
  intros SP R Hr (x & kw & r & Hc & Hk) Hn. pose proof (execute_cases d0 config inputs overrides fv SP R) as H. rewrite Hr in H.
  destruct (execute ustart config inputs overrides fv) as [s [d|[e|e| |]]].
  - exists d. destruct H as (-> & _). done.
  - by destruct H as [? ?].
  - destruct H as (out' & tr' & [= <- <-] & [Hn' | (y & Hy & Hn')]); [by destruct Hk; apply (Hn' _ _ _ Hc)|by destruct (Hn y)].
  - done.
  - done.
Qed.
End Props.
Print Assumptions C73_value.
Print Assumptions C73_error.
Print Assumptions C73_succeeds.

(** ** Examples *)
(** Functions [s a b], [m k], [t s m], [c a], [z a], [bad k] of numbers; [a], [b] and [k] are inputs. *)
Notation pv := (sval nat nat string).
Definition arg (kw : dict pv) (k : name) : nat := match dget kw k with Some (SVal u) => u | _ => 0 end.
Definition ufn (x : name) (ps : list name) (f : dict pv -> nat) : pnode pv string string :=
  PNode x "int" (map (fun p => (p, ("int", REQUIRED))) ps) (fun kw => Ok (SVal (f kw))).
Definition unodes : list (pnode pv string string) := [
  ufn "s" ["a"; "b"] (fun kw => arg kw "a" + arg kw "b");
  ufn "m" ["k"] (fun kw => arg kw "k" + 1);
  ufn "t" ["s"; "m"] (fun kw => arg kw "s" * arg kw "m");
  ufn "c" ["a"] (fun kw => arg kw "a" + 100);
  ufn "z" ["a"] (fun kw => arg kw "a" + 1000);
  ufn "bad" ["k"] (fun _ => 99)].
Definition ufns (x : name) : pnode pv string string := default (ufn x [] (fun _ => 0)) (find (fun n => bool_decide (pn_name n = x)) unodes).
Definition ugraph : graph := list_to_map [
  ("a", Node true [] ["s"; "c"; "z"]); ("b", Node true [] ["s"]); ("k", Node true [] ["m"; "bad"]);
  ("s", Node false [("a", REQUIRED); ("b", REQUIRED)] ["t"]);
  ("m", Node false [("k", REQUIRED)] ["t"]);
  ("t", Node false [("s", REQUIRED); ("m", REQUIRED)] []);
  ("c", Node false [("a", REQUIRED)] []); ("z", Node false [("a", REQUIRED)] []); ("bad", Node false [("k", REQUIRED)] [])].
Definition uapply (_ : bool) (f : list pv -> res (nerr string) pv) (cs : list nat) : res (nerr string) nat :=
  match f (map SVal cs) with Ok (SVal u) => Ok u | Ok _ => Err (NUser "not a number") | Err e => Err e end.
(** There is no literal for 99. *)
Definition ulit (o : option nat) : option nat := match o with Some 99 => None | Some u => Some u | None => Some 0 end.
Notation no := (fun _ : string => false).
Notation yes := (fun _ : string => true).
Definition uexec : ustate nat -> gmap name pv -> gmap name pv -> gmap name pv -> list name -> ustate nat * res (uexn string) (dict nat) :=
  udf_execute no yes yes "ValueError" "AttributeError" "AnalysisException" (fun l => l) uapply ulit ugraph ufns.
Definition ud0 (v : nat) : dict nat := [("a", v); ("b", 3); ("w", 7)].
Definition uin (v : nat) : gmap name pv := {["a" := SDf (ud0 v); "b" := SDf (ud0 v); "k" := SVal 10]}.
Lemma ugraph_in x nd : ugraph !! x = Some nd -> (x, nd) ∈ map_to_list ugraph.
Proof. intros H. by apply elem_of_map_to_list. Qed.
Lemma uin_gives v : gives_columns (ud0 v) (uin v).
Proof.
  intros k w Hk. unfold uin in Hk. rewrite !lookup_insert_Some, lookup_singleton_Some in Hk.
  destruct Hk as [[<- <-] | [_ [[<- <-] | [_ [<- <-]]]]].
  - intros _. split; [by left|done].
  - intros _. split; [right; by left|done].
  - intros [Hk | [d [=]]]. exfalso. by repeat (apply elem_of_cons in Hk as [? | Hk]; [done|]); apply elem_of_nil in Hk.
Qed.
Lemma urequest v fv : (forall x, x ∈ fv -> x ∈ ["a"; "b"; "k"; "s"; "m"; "t"; "c"; "z"; "bad"]) -> udf_request ufns (ud0 v) ugraph ∅ (uin v) ∅ fv.
Proof.
  intros Hfv.
  assert (Hg : forall x nd, ugraph !! x = Some nd ->
    (nd_ext nd = false -> pn_name (ufns x) = x /\ map (fun kt => (kt.1, kt.2.2)) (pn_inputs (ufns x)) = nd_deps nd) /\
    (forall k, (k, OPTIONAL) ∉ nd_deps nd) /\ (nd_ext nd = false -> x ∉ ["a"; "b"; "w"])).
  { intros x nd H. apply ugraph_in in H.
    assert (Ck : forallb (fun p : name * Base.node => (p.2.(nd_ext) || (bool_decide (pn_name (ufns p.1) = p.1) && bool_decide (map (fun kt => (kt.1, kt.2.2)) (pn_inputs (ufns p.1)) = nd_deps p.2))) &&
      forallb (fun kd : name * deptype => bool_decide (kd.2 = REQUIRED)) (nd_deps p.2) && (p.2.(nd_ext) || bool_decide (p.1 ∉ ["a"; "b"; "w"]))) (map_to_list ugraph) = true) by by vm_compute.
    rewrite forallb_forall in Ck. apply elem_of_list_In, Ck in H. cbn [fst snd] in H. clear Ck. apply andb_true_iff in H as [H H3]. apply andb_true_iff in H as [H1 H2].
    split_and!.
    - intros Hx. rewrite Hx in H1. cbn [orb] in H1. apply andb_true_iff in H1 as [C1 C2]. apply bool_decide_eq_true in C1. apply bool_decide_eq_true in C2. done.
    - intros k Hk. rewrite forallb_forall in H2. apply elem_of_list_In, H2 in Hk. by apply bool_decide_eq_true in Hk.
    - intros Hx. rewrite Hx in H3. cbn [orb] in H3. by apply bool_decide_eq_true in H3. }
  constructor.
  - apply wf_graphb_ok. by vm_compute.
  - apply (rankedb_acyclic (rank_in ["a"; "b"; "k"; "s"; "m"; "t"; "c"; "z"; "bad"])). by vm_compute.
  - intros x nd H. by apply Hg.
  - apply (bool_decide_unpack _). by vm_compute.
  - intros k w H. by rewrite lookup_empty in H.
  - apply uin_gives.
  - intros k w H. by rewrite lookup_empty in H.
  - intros x nd k H Hk. by apply (Hg x nd H) in Hk.
  - intros x nd H Hx. by apply (Hg x nd H).
  - intros x nd kw w d H Hx _ Hc. destruct (Hg x nd H) as (H1 & _). unfold ufns in Hc. destruct (find _ unodes) as [n|] eqn:Ef; cbn [default] in Hc; [|by injection Hc as <-].
    apply find_some in Ef as [Hn _]. apply elem_of_list_In in Hn. unfold unodes in Hn. repeat (apply elem_of_cons in Hn as [-> | Hn]; [by injection Hc as <-|]). by apply elem_of_nil in Hn.
  - intros x Hx. apply Hfv in Hx. repeat (apply elem_of_cons in Hx as [-> | Hx]; [eexists; by vm_compute|]). by apply elem_of_nil in Hx.
Qed.
Example ex_udf v : udf_request ufns (ud0 v) ugraph ∅ (uin v) ∅ ["t"; "m"; "a"; "t"] /\ (forall l : list name, l ≡ₚ l) /\
  uexec ustart ∅ (uin v) ∅ ["t"; "m"; "a"; "t"] = (ustart, Ok [("a", v); ("b", 3); ("w", 7); ("t", (v + 3) * 11); ("m", 11)]).
Proof.
  split_and!; [|done|by vm_compute]. apply urequest. intros x Hx. repeat (apply elem_of_cons in Hx as [-> | Hx]; [apply (bool_decide_unpack _); by vm_compute|]). by apply elem_of_nil in Hx.
Qed.

(** C73_error: the value of [bad] is no literal. *)
Example ex_udf_error : udf_request ufns (ud0 2) ugraph ∅ (uin 2) ∅ ["t"; "bad"] /\
  (uexec ustart ∅ (uin 2) ∅ ["t"; "bad"]).2 = Err (UBuild (NUser "AnalysisException")).
Proof.
  split; [|by vm_compute]. apply urequest. intros x Hx. repeat (apply elem_of_cons in Hx as [-> | Hx]; [apply (bool_decide_unpack _); by vm_compute|]). by apply elem_of_nil in Hx.
Qed.
(** C73_succeeds. *)
Notation ucolumn_fn := (column_fn no yes yes "ValueError" (fun l => l) uapply ufns).
Definition ucol_run : answer (uval nat nat string) (nerr string) :=
  default_execute (fun _ => ucolumn_fn) ugraph (seen (ud0 2) ∅) (seen (ud0 2) (uin 2)) (seen (ud0 2) ∅) ["c"; "m"].
Definition is_column_call (e : event (uval nat nat string) (nerr string)) : bool := match e with Call x kw _ => negb (bool_decide (cols kw = ∅)) | _ => false end.
Example ex_udf_succeeds : udf_request ufns (ud0 2) ugraph ∅ (uin 2) ∅ ["c"; "m"] /\ exists out tr, ucol_run = Answer out tr /\
  (exists x kw r, Call x kw r ∈ tr /\ cols kw <> ∅) /\
  (forall x, x ∈ ["c"; "m"] -> ~ no_column_for no yes yes "ValueError" (fun l => l) uapply ufns (ud0 2) ulit ugraph (uin 2 ∪ ∅) ∅ x).
Proof.
  assert (R : udf_request ufns (ud0 2) ugraph ∅ (uin 2) ∅ ["c"; "m"]).
  { apply urequest. intros x Hx. repeat (apply elem_of_cons in Hx as [-> | Hx]; [apply (bool_decide_unpack _); by vm_compute|]). by apply elem_of_nil in Hx. }
  split; [done|]. exists [("c", Some (UCol 102)); ("m", Some (UVal (SVal 11)))], (trace_of ucol_run).
  assert (Hr : ucol_run = Answer [("c", Some (UCol 102)); ("m", Some (UVal (SVal 11)))] (trace_of ucol_run)) by (vm_compute; reflexivity).
  split_and!; [done| |].
  - assert (Hx : existsb is_column_call (trace_of ucol_run) = true) by (vm_compute; reflexivity).
    apply existsb_exists in Hx as (e & He & Hc). apply elem_of_list_In in He. destruct e as [x kw r| |]; [|done|done]. exists x, kw, r. split; [done|]. cbn in Hc. by apply negb_true_iff, bool_decide_eq_false in Hc.
  - intros x Hx. unfold ucol_run in Hr at 1. destruct (run_values ugraph (ur_wf _ _ _ _ _ _ _ R) (ur_acyclic _ _ _ _ _ _ _ R) _ _ _ _ _ _ _ Hr) as [_ Hv].
    assert (Hu : forall m : gmap name pv, m ∪ ∅ = m) by (intros; by rewrite map_union_empty). 
    assert (He : seen (ud0 2) (∅ : gmap name pv) = ∅) by (vm_compute; reflexivity). rewrite He, map_union_empty in Hv.
    unfold UdfSpec.no_column_for. cbn zeta. rewrite Hu, He.
    apply elem_of_cons in Hx as [-> | Hx%elem_of_list_singleton]; [|subst x].
    + destruct (Hv "c" (Some (UCol 102))) as [[_ Hc] | [Hc _]]; [by left| |by vm_compute in Hc].
      intros [(u & Hn & _) | [(h & d & e & Hn & _) | [Hn _]]]; [| |by apply (absent_no_eval _ _ _ _ _ _ Hn Hc)]; by pose proof (eval_functional _ _ _ _ _ _ Hc _ Hn).
    + destruct (Hv "m" (Some (UVal (SVal 11)))) as [[_ Hc] | [Hc _]]; [right; by left| |by vm_compute in Hc].
      intros [(u & Hn & Hl) | [(h & d & e & Hn & _) | [Hn _]]]; [|by pose proof (eval_functional _ _ _ _ _ _ Hc _ Hn)|by apply (absent_no_eval _ _ _ _ _ _ Hn Hc)].
      pose proof (eval_functional _ _ _ _ _ _ Hc _ Hn) as [= <-]. done.
Qed.
(** The call of a function fails: [t] of these functions always does. *)
Definition ufns_fail (x : name) : pnode pv string string :=
  if decide (x = "t") then PNode "t" "int" [("s", ("int", REQUIRED)); ("m", ("int", REQUIRED))] (fun _ => Err (NUser "boom")) else ufns x.
Definition uexec_fail : ustate nat -> gmap name pv -> gmap name pv -> gmap name pv -> list name -> ustate nat * res (uexn string) (dict nat) :=
  udf_execute no yes yes "ValueError" "AttributeError" "AnalysisException" (fun l => l) uapply ulit ugraph ufns_fail.

(** ** What is not so *)
(** After a call that failed in a function, the next one, given another dataframe, computes from the dataframe of the failed one. *)
Theorem C73_stale_dataframe_refuted : exists s1 d,
  uexec_fail ustart ∅ (uin 2) ∅ ["t"] = (s1, Err (UExec (EUser (NUser "boom")))) /\
  uexec_fail s1 ∅ (uin 5) ∅ ["c"] = (ustart, Ok d) /\ dget d "a" = Some 2 /\ dget d "c" = Some 102.
Proof. exists (UState (Some [("a", 2); ("b", 3); ("w", 7); ("s", 5)]) ["a"; "b"; "w"]), [("a", 2); ("b", 3); ("w", 7); ("c", 102)]. split_and!; vm_compute; reflexivity. Qed.
(** After a call that failed in building the result, a call that would have succeeded fails. *)
Theorem C73_stale_schema_refuted : exists s1 s2,
  uexec ustart ∅ (uin 2) ∅ ["t"; "bad"] = (s1, Err (UBuild (NUser "AnalysisException"))) /\
  uexec s1 ∅ (uin 5) ∅ ["c"] = (s2, Err (UBuild (NUser "AnalysisException"))) /\
  uexec ustart ∅ (uin 5) ∅ ["c"] = (ustart, Ok [("a", 5); ("b", 3); ("w", 7); ("c", 105)]).
Proof.
  exists (UState (Some [("a", 2); ("b", 3); ("w", 7); ("s", 5); ("t", 55)]) ["a"; "b"; "w"; "t"; "bad"]),
    (UState (Some [("a", 2); ("b", 3); ("w", 7); ("s", 5); ("t", 55); ("c", 102)]) ["a"; "b"; "w"; "t"; "bad"; "c"]).
  split_and!; vm_compute; reflexivity.
Qed.
(** Of two dataframes the second is ignored. *)
Theorem C73_two_dataframes_refuted : exists d,
  uexec ustart ∅ {["a" := SDf [("a", 1); ("b", 2)]; "b" := SDf [("a", 10); ("b", 20)]]} ∅ ["s"] = (ustart, Ok d) /\ dget d "s" = Some 3.
Proof. exists [("a", 1); ("b", 2); ("s", 3)]. split; vm_compute; reflexivity. Qed.
(** A value given as an input is replaced by the column of its name. *)
Theorem C73_value_replaced_refuted : exists d,
  uexec ustart ∅ {["a" := SDf [("a", 1); ("b", 2)]; "b" := SVal 100]} ∅ ["s"] = (ustart, Ok d) /\ dget d "s" = Some 3.
Proof. exists [("a", 1); ("b", 2); ("s", 3)]. split; vm_compute; reflexivity. Qed.
(** A function with the name of a column is refused, or it replaces the column: it depends on what is requested before it. *)
Theorem C73_existing_column_refuted : exists s d, let inputs := {["a" := SDf [("a", 1); ("z", 2)]]} in
  uexec ustart ∅ inputs ∅ ["z"; "c"] = (s, Err (UExec (EUser (NUser "ValueError")))) /\
  uexec ustart ∅ inputs ∅ ["c"; "z"] = (ustart, Ok d) /\ dget d "z" = Some 1001.
Proof. exists (UState (Some [("a", 1); ("z", 2)]) ["a"; "z"]), [("a", 1); ("z", 1001); ("c", 101)]. cbv zeta. split_and!; vm_compute; reflexivity. Qed.
(** Values of the driver's side alone, or given columns alone, cannot be requested. *)
Theorem C73_no_column_refuted : exists s1 s2, uexec ustart ∅ (uin 2) ∅ ["m"] = (s1, Err (UBuild (NUser "AttributeError"))) /\
  uexec ustart ∅ (uin 2) ∅ ["a"] = (s2, Err (UBuild (NUser "AttributeError"))).
Proof. exists (UState None ["m"]), (UState None ["a"]). split; vm_compute; reflexivity. Qed.
Print Assumptions C73_stale_dataframe_refuted.
Print Assumptions C73_stale_schema_refuted.
Print Assumptions C73_two_dataframes_refuted.
Print Assumptions C73_value_replaced_refuted.
Print Assumptions C73_existing_column_refuted.
Print Assumptions C73_no_column_refuted.
