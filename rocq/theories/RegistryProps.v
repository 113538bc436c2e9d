(** Theorems about extensions (C86). *)
From Verif Require Import Base Dict RegistryModel RegistrySpec RegistryProofs.

Section Props.
Context {T : Type} `{EqDecision T}.
Notation proc := (proc T).
Variable exts : string -> ext T.
Notation initialize := (initialize exts).
Notation import_hamilton := (import_hamilton exts).

Lemma filter_sublist {A} (P : A -> Prop) `{forall x, Decision (P x)} (l : list A) : filter P l `sublist_of` l.
Proof. induction l as [|x l IH]; [constructor|]. rewrite filter_cons. case_decide; by constructor. Qed.
Lemma extensions_nodup : NoDup HAMILTON_EXTENSIONS.
Proof. refine (bool_decide_unpack _ _). vm_compute. exact I. Qed.

Lemma initialize_ok (p q : proc) : init_loop exts HAMILTON_EXTENSIONS p = (Ok tt, q) -> initialize p = (Ok tt, set_init q).
Proof. unfold RegistryModel.initialize. generalize HAMILTON_EXTENSIONS. intros l E. by rewrite E. Qed.
Lemma imported (q : proc) : import_hamilton (set_init q) = (Ok tt, set_init q).
Proof. unfold RegistryModel.import_hamilton. by cbn [p_init set_init]. Qed.

(** ** Loading *)
(** If it is disabled nothing is loaded and no types are registered, whatever is installed. *)
Theorem C86_disabled (p : proc) : p_env p = Some "0" ->
  exists p', initialize p = (Ok tt, p') /\ p_loaded p' = p_loaded p /\ p_types p' = p_types p /\ p_init p' = true.
Proof.
  intros Hp. unfold RegistryModel.initialize. rewrite init_loop_disabled by (unfold disabled; by rewrite Hp). by eexists.
Qed.

(** Otherwise each extension that can be loaded is, whatever else is not installed; and the types are
    those that were last registered, or those from before. Extensions that fail in other ways are
    assumed away: see [C86_broken_refuted]. *)
Theorem C86_enabled_partial (p : proc) : p_env p <> Some "0" -> (forall n, n ∈ HAMILTON_EXTENSIONS -> loadable (exts n) \/ not_installed (exts n)) ->
  (forall n, n ∈ p_loaded p -> loadable (exts n)) ->
  exists p', initialize p = (Ok tt, p') /\ p_init p' = true /\ p_env p' = p_env p /\ p_file p' = p_file p /\
    (forall n, n ∈ p_loaded p' <-> n ∈ p_loaded p \/ (n ∈ HAMILTON_EXTENSIONS /\ loadable (exts n))) /\
    exists news, (forall n, n ∈ news <-> n ∈ HAMILTON_EXTENSIONS /\ n ∉ p_loaded p) /\ NoDup news /\ news `sublist_of` HAMILTON_EXTENSIONS /\
      let regs := concat (map (fun n => e_regs (exts n)) news) in
      (forall n v, last_for n regs v -> dget (p_types p') n = Some v) /\ (forall n, (forall v, (n, v) ∉ regs) -> dget (p_types p') n = dget (p_types p) n).
Proof.
  intros Hp Hs Hl. destruct (init_loop_soft exts HAMILTON_EXTENSIONS p extensions_nodup) as (p' & E & H1 & H2 & H3 & H4 & H5); [|done..|].
  { unfold disabled. by rewrite bool_decide_false. }
  exists (set_init p'). split_and!; [exact (initialize_ok _ _ E)|done..|]. clear E.
  exists (fresh_names p HAMILTON_EXTENSIONS). unfold fresh_names. split_and!.
  - intros n. rewrite elem_of_list_filter. tauto.
  - apply NoDup_filter, extensions_nodup.
  - apply filter_sublist.
  - cbn [p_types set_init]. rewrite H5. intros n v Hv. exact (registered_last (p_types p) _ n v Hv).
  - cbn [p_types set_init]. rewrite H5. intros n Hn. exact (registered_none (p_types p) _ n Hn).
Qed.

(** Once is enough: what is imported later loads nothing again, and a second [initialize] changes
    nothing but what extensions that are not installed register. *)
Theorem C86_again (p p' : proc) : p_env p <> Some "0" -> (forall n, n ∈ HAMILTON_EXTENSIONS -> loadable (exts n) \/ not_installed (exts n)) ->
  (forall n, n ∈ HAMILTON_EXTENSIONS -> registers_late (exts n)) -> (forall n, n ∈ p_loaded p -> loadable (exts n)) ->
  initialize p = (Ok tt, p') -> import_hamilton p' = (Ok tt, p') /\
  exists p'', initialize p' = (Ok tt, p'') /\ (forall n, n ∈ p_loaded p'' <-> n ∈ p_loaded p') /\ p_types p'' = p_types p'.
Proof.
  intros Hp Hs Hr Hl Hi.
  destruct (init_loop_soft exts HAMILTON_EXTENSIONS p extensions_nodup) as (q & E & H1 & H2 & H3 & H4 & H5); [|done..|].
  { unfold disabled. by rewrite bool_decide_false. }
  rewrite (initialize_ok _ _ E) in Hi. injection Hi as <-. split; [apply imported|].
  assert (Hl' : forall n, n ∈ p_loaded (set_init q) -> loadable (exts n)) by (cbn; intros n [?|[_ ?]]%H4; [by apply Hl|done]).
  destruct (init_loop_soft exts HAMILTON_EXTENSIONS (set_init q) extensions_nodup) as (r & E' & _ & _ & _ & K4 & K5); [|done..|].
  { unfold disabled. cbn. rewrite H1. by rewrite bool_decide_false. }
  exists (set_init r). split; [exact (initialize_ok _ _ E')|]. clear E E' Hl'. cbn [p_loaded p_types set_init] in *. split.
  - intros n. rewrite K4, H4. tauto.
  - rewrite K5. assert (Hz : concat (map (fun n => e_regs (exts n)) (fresh_names (set_init q) HAMILTON_EXTENSIONS)) = []); [|by rewrite Hz].
    assert (G : forall ns, (forall n, n ∈ ns -> e_regs (exts n) = []) -> concat (map (fun n => e_regs (exts n)) ns) = []).
    { induction ns as [|n ns IH]; intros Hn; [done|]. cbn. rewrite (Hn n) by left. apply IH. intros; apply Hn; by right. }
    apply G. intros n [Hn Hin]%elem_of_list_filter. cbn in Hn. rewrite H4 in Hn. apply Hr; [done|].
    destruct (Hs n Hin) as [?|[Hx|Hx]]; [tauto|by rewrite Hx..].
Qed.

(** ** Switching it off and on *)
(** After [hamilton-disable-autoload-extensions] importing Hamilton loads nothing in any process that
    starts later, whatever its environment; after [hamilton-enable-autoload-extensions] it is up to
    the environment again. Other options stay. *)
Theorem C86_kept_off (p : proc) env : let file := p_file (config_disable_autoload p) in
  (exists p', import_hamilton (start env file) = (Ok tt, p') /\ p_loaded p' = [] /\ p_types p' = []) /\
  (forall k, k <> OPTION -> dget file k = dget (p_file p) k).
Proof.
  intros file. assert (Hf : file = dset (p_file p) OPTION "0").
  { unfold file, config_disable_autoload, load_autoload_config. by destruct (dget (p_file p) OPTION). }
  rewrite Hf. split; [|intros k Hk; by apply dget_dset_ne].
  unfold start, load_autoload_config. cbn [p_file]. rewrite dget_dset_eq. unfold RegistryModel.import_hamilton. cbn [p_init set_env].
  destruct (C86_disabled (set_env (Some "0") (Proc env (dset (p_file p) OPTION "0") [] [] false)) eq_refl) as (p' & E & E1 & E2 & _). exists p'. by split_and!.
Qed.
Lemma dget_filter_ne {A} (d : list (string * A)) k k' : k' <> k -> dget (filter (fun kv : string * A => kv.1 <> k) d) k' = dget d k'.
Proof.
  intros Hk. induction d as [|[m v] d IH]; [done|]. rewrite filter_cons. cbn [fst]. case_decide as Hm; cbn; [by rewrite IH|].
  rewrite IH. rewrite decide_False; [done|]. intros ->. by apply Hk, dec_stable.
Qed.
Lemma dget_filter_eq {A} (d : list (string * A)) k : dget (filter (fun kv : string * A => kv.1 <> k) d) k = None.
Proof.
  induction d as [|[m v] d IH]; [done|]. rewrite filter_cons. cbn [fst]. case_decide as Hm; [|done]. cbn. rewrite decide_False; [done|]. congruence.
Qed.
Theorem C86_back_on (p : proc) env : let file := p_file (config_enable_autoload p) in
  p_env (start (T := T) env file) = env /\ (forall k, k <> OPTION -> dget file k = dget (p_file p) k).
Proof.
  intros file. assert (Hf : file = filter (fun kv => kv.1 <> OPTION) (p_file p)).
  { unfold file, config_enable_autoload, load_autoload_config. by destruct (dget (p_file p) OPTION). }
  rewrite Hf. split; [|intros k Hk; exact (dget_filter_ne (p_file p) OPTION k Hk)].
  unfold start, load_autoload_config. cbn [p_file].
  match goal with |- context [dget ?f OPTION] => assert (dget f OPTION = None) as Hn by exact (dget_filter_eq (p_file p) OPTION) end. by rewrite Hn.
Qed.
(** Within a process: off, and on again *)
Theorem C86_switch (p : proc) : let off := disable_autoload p in
  (exists p', import_hamilton (Proc (p_env off) (p_file off) (p_loaded off) (p_types off) false) = (Ok tt, p') /\ p_loaded p' = p_loaded p /\ p_types p' = p_types p) /\
  (exists p', enable_autoload off = (Ok tt, p') /\ p_env p' <> Some "0" /\ p_file p' = p_file p /\ p_loaded p' = p_loaded p /\ p_types p' = p_types p).
Proof.
  intros off. split.
  - unfold RegistryModel.import_hamilton. cbn [p_init].
    destruct (C86_disabled (Proc (p_env off) (p_file off) (p_loaded off) (p_types off) false) eq_refl) as (p' & E & E1 & E2 & _). exists p'. by split_and!.
  - cbn. eexists. by split_and!.
Qed.
(** What was disabled in the file can be enabled for one process before it imports the rest. *)
Theorem C86_reenabled env file v : dget file OPTION = Some v ->
  exists p', enable_autoload (start (T := T) env file) = (Ok tt, p') /\ p_env p' = None /\ p_file p' = file /\ p_loaded p' = [] /\ p_init p' = false.
Proof. intros Hv. unfold start, load_autoload_config. cbn [p_file]. rewrite Hv. cbn. eexists. by split_and!. Qed.

(** ** Types *)
(** The column type of a dataframe type is that of the first extension with it; there is none,
    and it says so, if no extension has it. That the extension has columns is assumed: see
    [C86_no_columns_refuted]. *)
Theorem C86_column_type_partial (p : proc) df :
  (forall c, get_column_type_from_df_type df p = Ok c <-> exists n, first_with df (p_types p) n (Some c)) /\
  (get_column_type_from_df_type df p = Err XNotImplemented <-> forall n d c, (n, (d, c)) ∈ p_types p -> d <> df).
Proof.
  unfold get_column_type_from_df_type. destruct (column_type_split (p_types p) df) as [(n & c & Hf)|[Hn E]].
  - pose proof (column_type_first _ _ _ _ Hf) as E. split.
    + intros c'. split.
      * rewrite E. destruct c as [c|]; [|done]. intros [= <-]. by exists n.
      * intros (m & Hm). by rewrite (column_type_first _ _ _ _ Hm).
    + split; [rewrite E; by destruct c|]. intros H0. destruct Hf as (b & a & Ht & _). exfalso. apply (H0 n df c); [|done].
      rewrite Ht. apply elem_of_app. right. left.
  - split; [|by split]. intros c. split; [by rewrite E|]. intros (n & b & a & Ht & _). exfalso. apply (Hn n df (Some c)); [|done].
    rewrite Ht. apply elem_of_app. right. left.
Qed.
Theorem C86_dataframe_types (p : proc) n : dget (get_registered_dataframe_types p) n = fst <$> dget (p_types p) n.
Proof.
  unfold get_registered_dataframe_types. induction (p_types p) as [|[m [d c]] t IH]; [done|]. cbn. case_decide; [done|exact IH].
Qed.
(** All column types, if all extensions have columns: see [C86_no_columns_refuted]. *)
Theorem C86_column_types_partial (p : proc) : (forall n d c, (n, (d, c)) ∈ p_types p -> c <> None) ->
  exists cs, get_registered_column_types p = Ok cs /\ forall n, dget cs n = dget (p_types p) n ≫= snd.
Proof.
  unfold get_registered_column_types. induction (p_types p) as [|[m [d c]] t IH]; intros Hc; [by exists []|].
  destruct c as [c|]; [|by destruct (Hc m d None ltac:(left))]. destruct IH as (cs & E & Hcs); [intros n d' c' Hin; by apply (Hc n d' c'); right|].
  cbn. rewrite E. eexists. split; [done|]. intros n. cbn. case_decide; [done|apply Hcs].
Qed.
End Props.

(** ** Non-vacuity: pandas and spark are installed, nothing else is; types are numbers *)
Definition pandasEx : ext nat := Ext [("pandas", (1, Some 2))] None true true true true.
Definition sparkEx : ext nat := Ext [("spark", (3, None))] None false true false false.
Definition missingEx : ext nat := Ext [] (Some XNotImplemented) true false false false.
Definition installed (n : string) : ext nat := if decide (n = "pandas") then pandasEx else if decide (n = "spark") then sparkEx else missingEx.
Example C86_installed : (forall n, n ∈ HAMILTON_EXTENSIONS -> loadable (installed n) \/ not_installed (installed n)) /\ (forall n, n ∈ HAMILTON_EXTENSIONS -> registers_late (installed n)).
Proof.
  split; intros n _; unfold installed; (case_decide; [|case_decide]).
  - left. done.
  - left. done.
  - right. by left.
  - intros Hx. by destruct Hx.
  - intros Hx. by destruct Hx.
  - done.
Qed.
Example C86_loaded : let p := (import_hamilton installed (start None [("telemetry", "no")])).2 in
  p_loaded p = ["pandas"; "spark"] /\ p_types p = [("pandas", (1, Some 2)); ("spark", (3, None))] /\ get_column_type_from_df_type 1 p = Ok 2 /\
  get_column_type_from_df_type 9 p = Err XNotImplemented /\ get_registered_dataframe_types p = [("pandas", 1); ("spark", 3)].
Proof. by vm_compute. Qed.
Example C86_off : let p := config_disable_autoload (start (T := nat) None [("telemetry", "no")]) in
  p_file p = [("telemetry", "no"); (OPTION, "0")] /\ p_loaded (import_hamilton installed (start (Some "1") (p_file p))).2 = [] /\
  p_file (config_enable_autoload p) = [("telemetry", "no")].
Proof. by vm_compute. Qed.

(** ** Refutations *)
(** A dataframe type without columns: asking for its column type does not say that there is none, as
    documented, but fails with a KeyError; asking for all column types fails, although there are. *)
Theorem C86_no_columns_refuted : exists (p : proc nat) df n,
  p = (import_hamilton installed (start None [])).2 /\ dget (p_types p) n = Some (df, None) /\ get_column_type_from_df_type df p = Err XKey /\
  (exists m d c, dget (p_types p) m = Some (d, Some c)) /\ get_registered_column_types p = Err XKey.
Proof. exists (import_hamilton installed (start None [])).2, 3, "spark". split_and!; [done|by vm_compute..|exists "pandas", 1, 2; by vm_compute|by vm_compute]. Qed.

(** One package that fails in another way when imported: Hamilton cannot be imported at all, and what
    comes later is not loaded. *)
Theorem C86_broken_refuted : exists exts : string -> ext nat, loadable (exts "pandas") /\ (forall n, n <> "numpy" -> loadable (exts n) \/ not_installed (exts n)) /\
  (import_hamilton exts (start None [])).1 = Err XOther /\ "pandas" ∉ p_loaded (import_hamilton exts (start None [])).2 /\ p_init (import_hamilton exts (start None [])).2 = false.
Proof.
  exists (fun n => if decide (n = "numpy") then Ext [] (Some XOther) false false false false else installed n).
  split_and!; [done| |by vm_compute| |by vm_compute].
  - intros n Hn. rewrite decide_False by done. unfold installed. case_decide; [by left|]. case_decide; [by left|]. right. by left.
  - refine (bool_decide_unpack _ _). vm_compute. exact I.
Qed.

(** [enable_autoload] fails if it was not disabled. *)
Theorem C86_enable_refuted : exists p : proc nat, p = start None [] /\ (enable_autoload p).1 = Err XKey.
Proof. by eexists. Qed.

(** The process that enables it in the file, and its children, stay disabled. *)
Theorem C86_same_process_refuted : exists file, let p := config_enable_autoload (start (T := nat) None file) in
  dget (p_file p) OPTION = None /\ p_env p = Some "0" /\ p_loaded (import_hamilton installed p).2 = [] /\ p_loaded (import_hamilton installed (start (p_env p) (p_file p))).2 = [].
Proof. exists [(OPTION, "0")]. by vm_compute. Qed.

(** Where the file disables it the environment of a process cannot enable it. *)
Theorem C86_environment_refuted : exists file env, env <> Some "0" /\ p_loaded (import_hamilton installed (start (T := nat) env file)).2 = [] /\
  p_loaded (import_hamilton installed (start (T := nat) env [])).2 <> [].
Proof. exists [(OPTION, "0")], (Some "1"). split_and!; by vm_compute. Qed.

(** Nothing but 0 disables it. *)
Theorem C86_words_refuted : exists v, v ∈ ["false"; "no"; "off"; "False"; "00"] /\ p_loaded (import_hamilton installed (start (T := nat) (Some v) [])).2 <> [].
Proof. exists "false". split; [left|by vm_compute]. Qed.

(** Disabling it once the decorators were imported is too late, and enabling it then does nothing until
    [initialize] is called. *)
Theorem C86_late_refuted : exists p p' : proc nat, (import_hamilton installed (start (Some "0") [])).2 = p /\ enable_autoload p = (Ok tt, p') /\
  p_loaded (import_hamilton installed p').2 = [] /\ p_loaded (initialize installed p').2 = ["pandas"; "spark"].
Proof.
  exists (import_hamilton installed (start (Some "0") [])).2, (enable_autoload (import_hamilton installed (start (Some "0") [])).2).2.
  split; [reflexivity|]. split_and!; vm_compute; reflexivity.
Qed.

Print Assumptions C86_disabled.
Print Assumptions C86_enabled_partial.
Print Assumptions C86_again.
Print Assumptions C86_kept_off.
Print Assumptions C86_back_on.
Print Assumptions C86_switch.
Print Assumptions C86_reenabled.
Print Assumptions C86_column_type_partial.
Print Assumptions C86_dataframe_types.
Print Assumptions C86_column_types_partial.
Print Assumptions C86_no_columns_refuted.
Print Assumptions C86_broken_refuted.
Print Assumptions C86_enable_refuted.
Print Assumptions C86_same_process_refuted.
Print Assumptions C86_environment_refuted.
Print Assumptions C86_words_refuted.
Print Assumptions C86_late_refuted.
