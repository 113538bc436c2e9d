(** C93: modules made of functions and of source code. *)
From Verif Require Import Base Dict GraphModel ValidatorProofs AdhocModel.

Section Props.
Context {V : Type}.

Lemma app_empty s : s = (s ++ "")%string.
Proof. induction s as [|c s IH]; [done|]. change (String c s = String c (s ++ "")%string). by rewrite <- IH. Qed.
Lemma reserved_underscore k : k ∈ reserved -> exists u, k = ("_" ++ u)%string.
Proof. intros H. apply prefix_iff. unfold reserved in H. repeat (apply elem_of_cons in H as [->|H]; [done|]). by apply elem_of_nil in H. Qed.
Lemma fill_ok name (fs : list (func V)) m : NoDup (map fn_name fs) -> (forall f, f ∈ fs -> dget m (fn_name f) = None) -> (forall f u, f ∈ fs -> fn_name f <> ("_" ++ u)%string) ->
  fill name fs m = Ok (m ++ map (fun f => (fn_name f, copy_func name f)) fs).
Proof.
  revert m. induction fs as [|f fs IH]; intros m Hnd Hm Hu; [by rewrite app_nil_r|]. cbn [map] in Hnd. apply NoDup_cons in Hnd as [Hf Hnd]. cbn [fill]. cbn [fn_name copy_func].
  assert (Hno : String.prefix "_" (fn_name f) = false). { destruct (String.prefix "_" (fn_name f)) eqn:E; [|done]. apply prefix_iff in E as [u E]. by destruct (Hu f u); [left|]. }
  assert (Ha : hasattr m (fn_name f) = false). { unfold hasattr. rewrite (Hm f) by (by left). rewrite orb_false_r. apply bool_decide_eq_false. intros Hr. apply reserved_underscore in Hr as [u Hr]. by destruct (Hu f u); [left|]. }
  rewrite Ha, Hno.
  assert (Hs : dset m (fn_name f) (copy_func name f) = m ++ [(fn_name f, copy_func name f)]).
  { pose proof (Hm f ltac:(by left)) as Hn. revert Hn. generalize (fn_name f), (copy_func name f). clear. intros k a. induction m as [|[k' a'] m IH]; cbn; [done|]. destruct (decide (k = k')); [done|]. intros Hn. by rewrite IH. }
  rewrite Hs. rewrite IH; [by rewrite <- app_assoc|done| |].
  - intros g Hg. rewrite <- Hs. rewrite dget_dset_ne; [apply Hm; by right|]. intros E. apply Hf. rewrite <- E. apply elem_of_list_fmap. by exists g.
  - intros g u Hg. apply Hu. by right.
Qed.
Lemma fill_Ok name (fs : list (func V)) m m' : fill name fs m = Ok m' -> NoDup (map fn_name fs) /\ (forall f, f ∈ fs -> dget m (fn_name f) = None) /\ (forall f u, f ∈ fs -> fn_name f <> ("_" ++ u)%string).
Proof.
  revert m. induction fs as [|f fs IH]; intros m H.
  - split; [constructor|]. split; intros f; [|intros u]; intros Hf; by apply elem_of_nil in Hf.
  - cbn [fill] in H. cbn [fn_name copy_func] in H. destruct (hasattr m (fn_name f)) eqn:Ea; [done|]. destruct (String.prefix "_" (fn_name f)) eqn:Eu; [done|].
    apply IH in H as (H1 & H2 & H3). unfold hasattr in Ea. apply orb_false_iff in Ea as [_ Ea]. split; [|split].
    + cbn. constructor; [|done]. intros Hin. apply elem_of_list_fmap in Hin as (g & Hg & Hin). specialize (H2 g Hin). rewrite <- Hg, dget_dset_eq in H2. done.
    + intros g Hg. apply elem_of_cons in Hg as [->|Hg]; [by destruct (dget m (fn_name f))|]. specialize (H2 g Hg). destruct (decide (fn_name g = fn_name f)) as [E|E]; [by rewrite E, dget_dset_eq in H2|]. by rewrite dget_dset_ne in H2.
    + intros g u Hg. apply elem_of_cons in Hg as [->|Hg]; [|by apply H3]. intros E. assert (String.prefix "_" (fn_name f) = true) by (apply prefix_iff; by exists u). congruence.
Qed.

(** Names that functions of temporary modules may have: each once, none with an underscore first. *)
Definition nameable (fs : list (func V)) : Prop := NoDup (map fn_name fs) /\ forall f u, f ∈ fs -> fn_name f <> ("_" ++ u)%string.
(** What a copy is: named as the function, with its code, defaults, annotations and attributes, and of the module *)
Definition is_copy (name : string) (f : func V) (kg : string * func V) : Prop :=
  kg.1 = fn_name f /\ fn_name kg.2 = fn_name f /\ fn_code kg.2 = fn_code f /\ fn_defaults kg.2 = fn_defaults f /\ fn_annotations kg.2 = fn_annotations f /\ fn_dict kg.2 = fn_dict f /\ fn_module kg.2 = name.
(** A temporary module is made exactly if its name is not taken and the functions' names may be used; it has a
    copy of each function under its name in the order given and nothing else, and is registered under its name
    beside all other modules. *)
Theorem C93_temporary (fs : list (func V)) name fresh s : dget (ps_modules s) (default fresh name) = None -> nameable fs ->
  exists m s', create_temporary_module fs name fresh s = (Ok m, s') /\ Forall2 (is_copy (default fresh name)) fs m /\
    (forall k, dget (ps_modules s') k = if decide (k = default fresh name) then Some m else dget (ps_modules s) k) /\ ps_files s' = ps_files s.
Proof.
  intros Hn [H1 H2]. unfold create_temporary_module. rewrite Hn. rewrite (fill_ok _ fs []); [|done|done|done]. eexists _, _. split; [done|]. split; [|split; [|done]; intros k; apply dget_dset].
  cbn [app]. clear. induction fs as [|f fs IH]; constructor; [|apply IH]. done.
Qed.
(** Otherwise nothing is registered. *)
Theorem C93_refused (fs : list (func V)) name fresh s : is_Some (dget (ps_modules s) (default fresh name)) \/ ~ nameable fs ->
  exists e, create_temporary_module fs name fresh s = (Err e, s).
Proof.
  intros H. unfold create_temporary_module. destruct (dget (ps_modules s) (default fresh name)) as [m|] eqn:E; [by eexists|].
  destruct H as [[m Hm]|H]; [done|]. destruct (fill (default fresh name) fs []) as [m|e] eqn:Ef; [|by eexists]. destruct H. apply fill_Ok in Ef as (H1 & _ & H3). by split.
Qed.
(** All functions of a temporary module are found when a driver is built of it (C51). *)
Definition as_member (f : string * func V) : member := Member f.1 true (fn_name f.2) (fn_module f.2).
Theorem C93_found (fs : list (func V)) name fresh s m s' : create_temporary_module fs name fresh s = (Ok m, s') ->
  map mb_name (find_functions (default fresh name) (map as_member m)) = map fn_name fs.
Proof.
  unfold create_temporary_module. destruct (dget (ps_modules s) (default fresh name)); [done|]. destruct (fill (default fresh name) fs []) as [m0|e] eqn:Ef; [|done]. intros [= <- <-].
  pose proof (fill_Ok _ _ _ _ Ef) as (H1 & H2 & H3). rewrite (fill_ok _ fs []) in Ef by done. injection Ef as <-. clear H1 H2. cbn [app]. unfold find_functions.
  induction fs as [|f fs IH]; [done|]. cbn [map]. rewrite filter_cons_True.
  - cbn [map]. f_equal. apply IH. intros g u Hg. apply H3. by right.
  - cbn. assert (Hno : String.prefix "_" (fn_name f) = false). { destruct (String.prefix "_" (fn_name f)) eqn:E; [|done]. apply prefix_iff in E as [u E]. by destruct (H3 f u); [left|]. }
    rewrite Hno. cbn. apply contains_iff. exists "", "". apply app_empty.
Qed.
(** Copies do what the functions do, for functions whose keyword-only parameters have no defaults. Missing:
    other functions (refuted below). *)
Theorem C93_call_partial (f : func V) name kw : (forall p, p ∈ co_kwonly (fn_code f) -> dget (fn_kwdefaults f) p = None) -> call (copy_func name f) kw = call f kw.
Proof.
  intros H. unfold call. assert (E : parameters (copy_func name f) = parameters f); [|by rewrite E]. unfold parameters. cbn. f_equal. apply map_ext_in. intros p Hp. f_equal. symmetry. apply H. by apply elem_of_list_In.
Qed.
(** They also do so where all parameters are given. *)
Lemma bind_given (ps ps' : list (string * option V)) kw : map fst ps = map fst ps' -> (forall p, p ∈ map fst ps -> is_Some (dget kw p)) -> bind_args ps kw = bind_args ps' kw.
Proof.
  revert ps'. induction ps as [|[p d] ps IH]; intros [|[p' d'] ps'] E H; cbn in E; try done. injection E as <- E. cbn [bind_args]. destruct (H p) as [v Hv]; [by left|]. rewrite Hv. rewrite (IH ps' E); [done|]. intros q Hq. apply H. by right.
Qed.
Theorem C93_given (f : func V) name kw : (forall p, p ∈ map fst (parameters f) -> is_Some (dget kw p)) -> call (copy_func name f) kw = call f kw.
Proof.
  intros H. unfold call. rewrite (bind_given (parameters f) (parameters (copy_func name f)) kw); [done| |done]. unfold parameters. rewrite !map_app. cbn. f_equal. rewrite !map_map. done.
Qed.

Variable compiles : string -> bool.
Variable exec : string -> string -> module V * option aerr.
(** Source that compiles and runs becomes a module of the name given, or a new one, and others stay; source that
    does not compile leaves everything as it was. *)
Theorem C93_source source name fresh s m : compiles source = true -> exec source (match name with Some "" | None => fresh | Some n => n end) = (m, None) ->
  exists s', module_from_source compiles exec source name fresh s = (Ok m, s') /\ ps_files s' = ps_files s /\
    forall k, dget (ps_modules s') k = if decide (k = match name with Some "" | None => fresh | Some n => n end) then Some m else dget (ps_modules s) k.
Proof. intros Hc He. unfold module_from_source. rewrite Hc. cbn [negb]. cbn zeta. rewrite He. eexists. split; [done|]. split; [done|]. intros k. apply dget_dset. Qed.
Theorem C93_syntax source name fresh (s : pstate V) : compiles source = false -> module_from_source compiles exec source name fresh s = (Err ASyntax, s).
Proof. intros Hc. unfold module_from_source. by rewrite Hc. Qed.
(** The same for modules made by way of files, whose files are gone at the end. *)
Theorem C93_file source name file s m : compiles source = true -> exec source (default file name) = (m, None) -> file ∉ ps_files s ->
  exists s', create_module compiles exec source name file s = (Ok m, s') /\ at_exit s' = at_exit s /\
    forall k, dget (ps_modules s') k = if decide (k = default file name) then Some m else dget (ps_modules s) k.
Proof.
  intros Hc He Hf. unfold create_module. rewrite Hc. cbn [negb]. cbn zeta. rewrite He. eexists. split; [done|]. split; [|intros k; apply dget_dset].
  unfold at_exit. cbn [ps_files ps_at_exit]. rewrite filter_app. rewrite (filter_cons_False _ file); [|intros H; apply H, elem_of_app; right; by left]. rewrite filter_nil, app_nil_r.
  clear He. induction (ps_files s) as [|f l IH]; [done|]. apply not_elem_of_cons in Hf as [Hne Hf]. destruct (decide (f ∈ ps_at_exit s)) as [H|H].
  - rewrite !filter_cons_False; [by apply IH|intros Hn; by apply Hn|intros Hn; apply Hn, elem_of_app; by left].
  - rewrite !filter_cons_True; [by rewrite IH|done|]. intros [Hn|Hn]%elem_of_app; [done|]. apply elem_of_list_singleton in Hn. congruence.
Qed.
End Props.

(** ** Examples *)
Definition sum (vs : list nat) : res aerr nat := Ok (fold_right plus 0 vs).
Definition plain_f : func nat := Func "total" (Code ["a"; "b"] [] sum) [5] [] 0 [] "notebook".
Definition kw_f : func nat := Func "scaled" (Code ["a"] ["by"] sum) [] [("by", 7)] 1 [] "notebook".
Definition none_yet : pstate nat := PState [("os", [])] [] [].
(** C93_temporary's and C93_refused's hypotheses are met *)
Example C93_temporary_case : nameable [plain_f; kw_f] /\ dget (ps_modules none_yet) "temp" = None.
Proof. split; [|done]. split; [by apply (bool_decide_unpack _)|]. intros f u Hf. repeat (apply elem_of_cons in Hf as [->|Hf]; [done|]). by apply elem_of_nil in Hf. Qed.
Example C93_temporary_run : create_temporary_module [plain_f; kw_f] (Some "temp") "x" none_yet =
  (Ok [("total", copy_func "temp" plain_f); ("scaled", copy_func "temp" kw_f)], PState [("os", []); ("temp", [("total", copy_func "temp" plain_f); ("scaled", copy_func "temp" kw_f)])] [] []).
Proof. by vm_compute. Qed.
Example C93_refused_case : ~ nameable [plain_f; plain_f] /\ is_Some (dget (ps_modules none_yet) "os").
Proof. split; [|by eexists]. intros [H _]. apply NoDup_cons in H as [H _]. apply H. by left. Qed.
Example C93_call_case : call (copy_func "temp" plain_f) [("a", 1)] = Ok 6 /\ call plain_f [("a", 1)] = Ok 6 /\ forall p, p ∈ co_kwonly (fn_code plain_f) -> dget (fn_kwdefaults plain_f) p = None.
Proof. split; [done|]. split; [done|]. intros p Hp. by apply elem_of_nil in Hp. Qed.
Example C93_given_case : forall p, p ∈ map fst (parameters kw_f) -> is_Some (dget [("a", 1); ("by", 2)] p).
Proof. intros p Hp. cbn in Hp. repeat (apply elem_of_cons in Hp as [->|Hp]; [by eexists|]). by apply elem_of_nil in Hp. Qed.
(** Source: "ok" defines a function, "half" defines one and fails, "bad" does not compile *)
Definition comp (s : string) : bool := negb (bool_decide (s = "bad")).
Definition ex (s n : string) : module nat * option aerr :=
  ([("total", copy_func n plain_f)], if decide (s = "half") then Some (ACode "half") else None).
Example C93_source_case : comp "ok" = true /\ ex "ok" "temp" = ([("total", copy_func "temp" plain_f)], None) /\ comp "bad" = false.
Proof. by vm_compute. Qed.
Example C93_file_case : create_module comp ex "ok" None "tmp1" none_yet = (Ok [("total", copy_func "tmp1" plain_f)], PState [("os", []); ("tmp1", [("total", copy_func "tmp1" plain_f)])] ["tmp1"] ["tmp1"]) /\
  at_exit (create_module comp ex "ok" None "tmp1" none_yet).2 = [].
Proof. by vm_compute. Qed.

(** That copies do what functions do: defaults of keyword-only parameters are lost. *)
Theorem C93_keyword_refuted : exists (f : func nat) kw m s, create_temporary_module [f] (Some "temp") "x" none_yet = (Ok m, s) /\ call f kw = Ok 8 /\ exists g, dget m (fn_name f) = Some g /\ call g kw = Err AType.
Proof. exists kw_f, [("a", 1)]. eexists _, _. split; [by vm_compute|]. split; [done|]. eexists. split; by vm_compute. Qed.
(** That the functions given are not tied to the module: annotations are one dictionary. *)
Theorem C93_annotations_refuted : exists (f : func nat) m s g, create_temporary_module [f] (Some "temp") "x" none_yet = (Ok m, s) /\ dget m (fn_name f) = Some g /\ fn_annotations g = fn_annotations f.
Proof. exists kw_f. eexists _, _, _. split; [by vm_compute|]. by split. Qed.
(** That source which fails leaves no module: half of it stays registered. *)
Theorem C93_failed_refuted : exists s m, module_from_source comp ex "half" (Some "temp") "x" none_yet = (Err (ACode "half"), s) /\ dget (ps_modules s) "temp" = Some m /\ map fst m = ["total"].
Proof. eexists _, _. split; [by vm_compute|]. by split. Qed.
(** That modules are not replaced *)
Theorem C93_replaced_refuted : exists s, dget (ps_modules none_yet) "os" = Some [] /\ (module_from_source comp ex "ok" (Some "os") "x" none_yet).2 = s /\ option_map (map fst) (dget (ps_modules s) "os") = Some ["total"].
Proof. eexists. split; [done|]. split; [done|]. by vm_compute. Qed.
(** That temporary files are removed when the interpreter ends: not if the source fails. *)
Theorem C93_left_refuted : exists s s', create_module comp ex "bad" None "tmp1" none_yet = (Err ASyntax, s) /\ at_exit s = ["tmp1"] /\ is_Some (dget (ps_modules s) "tmp1") /\
  create_module comp ex "half" None "tmp2" none_yet = (Err (ACode "half"), s') /\ at_exit s' = ["tmp2"].
Proof. eexists _, _. split; [by vm_compute|]. split; [by vm_compute|]. split; [by eexists|]. split; by vm_compute. Qed.

Print Assumptions C93_temporary.
Print Assumptions C93_refused.
Print Assumptions C93_found.
Print Assumptions C93_call_partial.
Print Assumptions C93_given.
Print Assumptions C93_source.
Print Assumptions C93_syntax.
Print Assumptions C93_file.
Print Assumptions C93_keyword_refuted.
Print Assumptions C93_annotations_refuted.
Print Assumptions C93_failed_refuted.
Print Assumptions C93_replaced_refuted.
Print Assumptions C93_left_refuted.
