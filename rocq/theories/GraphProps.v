(** Properties C14, C15, C49, C50, C51 (graph construction). *)
From Verif Require Import Base Dict GraphModel GraphSpec GraphProofs GraphResults.

(** A concrete program: three functions, types are numbers compared for equality. *)
Definition ex_defs : list (fdef nat) :=
  [ FDef "b" 1 [("a", (0, REQUIRED))];
    FDef "c" 2 [("a", (0, REQUIRED)); ("b", (1, REQUIRED)); ("k", (7, OPTIONAL))];
    FDef "k" 7 [("c", (2, REQUIRED))] ].

Example C14_nonvacuous : exists nodes,
  create_function_graph Nat.eqb (fun _ _ => false) 99 ex_defs ["k"; "extra"] false = Ok nodes /\
  dkeys nodes = ["b"; "c"; "a"; "k"; "extra"].
Proof. eexists. split; vm_compute; reflexivity. Qed.

(** ** C14 *)
Theorem C14_graph_is_exactly_the_declared_one :
  forall (T : Type) (types_match adapter_match : T -> T -> bool) (any : T)
         (defs : list (fdef T)) (config : list name) (allow : bool) nodes,
    create_function_graph types_match adapter_match any defs config allow = Ok nodes ->
    NoDup (dkeys nodes) /\
    (* the variables: functions in effect, config keys, and parameter names *)
    (forall x, x ∈ dkeys nodes <->
       (exists d, in_effect config defs x d) \/ x ∈ config \/ exists P, takes config defs P x) /\
    (forall x n, dget nodes x = Some n ->
       (* a function depends exactly on its parameters, in order *)
       (gn_ext n = false -> exists d, in_effect config defs x d /\ gn_params n = fd_params d /\
                                      gn_deps n = (fd_params d).*1) /\
       (* everything else is an external input *)
       (gn_ext n = true -> (forall d, ~ in_effect config defs x d) /\ gn_deps n = []) /\
       (* the reverse edges are the same relation, each stored once *)
       (forall P, P ∈ gn_rdeps n <-> takes config defs P x) /\
       ((forall d, d ∈ defs -> NoDup (fd_params d).*1) -> NoDup (gn_rdeps n))).
Proof. intros. by eapply graph_nodes. Qed.
Print Assumptions C14_graph_is_exactly_the_declared_one.

(** The graphs the executor theorems quantify over include every graph that is built. *)
Theorem C14_built_graphs_are_well_formed :
  forall (T : Type) (types_match adapter_match : T -> T -> bool) (any : T)
         (defs : list (fdef T)) (config : list name) (allow : bool) nodes,
    create_function_graph types_match adapter_match any defs config allow = Ok nodes ->
    (forall d, d ∈ defs -> NoDup (fd_params d).*1) ->
    wf_graph (to_graph nodes) /\
    forall x p, edge (to_graph nodes) x p <-> takes config defs x p.
Proof. intros. split; [by eapply graph_wf|intros; by eapply graph_edge]. Qed.
Print Assumptions C14_built_graphs_are_well_formed.

(** ** C15 *)
Theorem C15_duplicates_are_rejected :
  forall (T : Type) (types_match adapter_match : T -> T -> bool) (any : T)
         (defs : list (fdef T)) (config : list name) x,
    x ∉ config -> defined_twice defs x ->
    exists y, create_function_graph types_match adapter_match any defs config false = Err (Duplicate y)
              /\ y ∉ config /\ defined_twice defs y.
Proof. intros. by eapply graph_duplicate. Qed.
Print Assumptions C15_duplicates_are_rejected.

Theorem C15_only_duplicates_are_rejected_as_such :
  forall (T : Type) (types_match adapter_match : T -> T -> bool) (any : T)
         (defs : list (fdef T)) (config : list name) allow y,
    create_function_graph types_match adapter_match any defs config allow = Err (Duplicate y) ->
    allow = false /\ y ∉ config /\ defined_twice defs y.
Proof. intros T tm am any defs config allow y H. by eapply graph_no_spurious_duplicate. Qed.
Print Assumptions C15_only_duplicates_are_rejected_as_such.

(** With overrides allowed the last definition is the one in the graph; a config key always
    replaces the function by an external input. *)
Theorem C15_last_definition_or_config_wins :
  forall (T : Type) (types_match adapter_match : T -> T -> bool) (any : T)
         (defs : list (fdef T)) (config : list name) allow nodes x,
    create_function_graph types_match adapter_match any defs config allow = Ok nodes ->
    (forall d, x ∉ config -> last_definition defs x d ->
       exists n, dget nodes x = Some n /\ gn_ext n = false /\ gn_params n = fd_params d) /\
    (x ∈ config -> exists n, dget nodes x = Some n /\ gn_ext n = true).
Proof.
  intros T tm am any defs config allow nodes x Hc.
  destruct (graph_nodes _ _ _ _ _ _ _ Hc) as (_ & Hk & Hn).
  split.
  - intros d Hx Hd. destruct (Hk x) as [_ Hk'].
    assert (Hin : x ∈ dkeys nodes) by (apply Hk'; left; by exists d).
    apply dget_Some_key in Hin as [n Hg]. destruct (Hn x n Hg) as (Hf & He & _).
    exists n. split; [done|]. destruct (gn_ext n) eqn:Hext.
    + destruct (He eq_refl) as [Hno _]. by destruct (Hno d).
    + split; [done|]. destruct (Hf eq_refl) as (d' & [_ Hd'] & -> & _).
      f_equal. apply last_def_iff in Hd, Hd'. congruence.
  - intros Hx. assert (Hin : x ∈ dkeys nodes) by (apply Hk; right; by left).
    apply dget_Some_key in Hin as [n Hg]. destruct (Hn x n Hg) as (Hf & He & _).
    exists n. split; [done|]. destruct (gn_ext n) eqn:Hext; [done|].
    destruct (Hf eq_refl) as (d' & [Hnc _] & _). done.
Qed.
Print Assumptions C15_last_definition_or_config_wins.

Definition dup_defs : list (fdef nat) :=
  [FDef "b" 1 [("a", (0, REQUIRED))]; FDef "b" 1 [("z", (0, REQUIRED))]].
Example C15_nonvacuous :
  defined_twice dup_defs "b" /\
  create_function_graph Nat.eqb (fun _ _ => false) 99 dup_defs [] false = Err (Duplicate "b") /\
  exists nodes n, create_function_graph Nat.eqb (fun _ _ => false) 99 dup_defs [] true = Ok nodes /\
    dget nodes "b" = Some n /\ gn_deps n = ["z"].
Proof.
  split; [|split; [vm_compute; reflexivity|do 2 eexists; split_and!; vm_compute; reflexivity]].
  by exists [], (FDef "b" 1 [("a", (0, REQUIRED))]), [], (FDef "b" 1 [("z", (0, REQUIRED))]), [].
Qed.

(** ** C49: a graph is built only if every function-to-function edge type-checks *)
Theorem C49_edges_are_type_checked :
  forall (T : Type) (types_match adapter_match : T -> T -> bool) (any : T)
         (defs : list (fdef T)) (config : list name) allow,
    match create_function_graph types_match adapter_match any defs config allow with
    | Ok nodes => forall P x t d, takes_typed config defs P x t -> in_effect config defs x d ->
        types_match t (fd_type d) = true \/ adapter_match t (fd_type d) = true
    | Err (EdgeTypes x) => exists P t d, takes_typed config defs P x t /\ in_effect config defs x d /\
        types_match t (fd_type d) = false /\ adapter_match t (fd_type d) = false
    | Err (InputTypes x) => (forall d, ~ in_effect config defs x d) /\
        exists P t P' t', takes_typed config defs P x t /\ takes_typed config defs P' x t' /\
          types_match t t' = false /\ types_match t' t = false /\ adapter_match t t' = false
    | Err (Duplicate x) => x ∉ config /\ defined_twice defs x
    end.
Proof. intros. apply graph_types. Qed.
Print Assumptions C49_edges_are_type_checked.

Example C49_nonvacuous :
  create_function_graph Nat.eqb (fun _ _ => false) 99
    [FDef "b" 1 []; FDef "c" 2 [("b", (5, REQUIRED))]] [] false = Err (EdgeTypes "b").
Proof. vm_compute. reflexivity. Qed.

(** ** C50: acceptance of a program depends on the order of its functions *)
(** int = 0, str = 1, float = 2; no proper subclasses. *)
Definition f_union_is := FDef "f" (TClass 0) [("x", (TUnion [0; 1], REQUIRED))].
Definition f_int := FDef "g" (TClass 0) [("x", (TClass 0, REQUIRED))].
Definition f_union_if := FDef "h" (TClass 0) [("x", (TUnion [0; 2], REQUIRED))].
Definition build_types (defs : list (fdef ty)) :=
  create_function_graph (ty_match (fun _ _ => false)) (fun _ _ => false) TAny defs [] false.

Theorem C50_order_independence_refuted :
  exists defs defs' : list (fdef ty),
    Permutation defs defs' /\
    (exists nodes, build_types defs = Ok nodes) /\ build_types defs' = Err (InputTypes "x").
Proof.
  exists [f_union_is; f_int; f_union_if], [f_union_is; f_union_if; f_int].
  split_and!.
  - do 2 constructor.
  - eexists. vm_compute. reflexivity.
  - vm_compute. reflexivity.
Qed.
Print Assumptions C50_order_independence_refuted.

(** ** C51: which functions of a module become variables *)
(** Every public function defined in the module itself is collected; private ones and
    non-functions never are. *)
Lemma prefix_self s : String.prefix s s = true.
Proof. induction s as [|c s IH]; cbn; [done|]. by destruct (Ascii.ascii_dec c c). Qed.
Theorem C51_own_functions_partial :
  forall (m : string) (members : list member) (f : member),
    (f ∈ members -> mb_function f = true -> String.prefix "_" (mb_name f) = false ->
     mb_module f = m -> f ∈ find_functions m members) /\
    (f ∈ find_functions m members -> f ∈ members /\ mb_function f = true /\
       String.prefix "_" (mb_name f) = false).
Proof.
  intros m members f. unfold find_functions. rewrite elem_of_list_filter. split.
  - intros Hin Hfn Hpub <-. split; [|done]. rewrite Hfn, Hpub. cbn. unfold is_submodule.
    destruct (mb_module f) as [|c s]; [done|]. cbn [str_contains]. by rewrite prefix_self.
  - intros [Hc Hin]. apply andb_prop in Hc as [Hc _]. apply andb_prop in Hc as [? Hp].
    split_and!; try done. by apply negb_true_iff in Hp.
Qed.
Print Assumptions C51_own_functions_partial.
Example C51_nonvacuous :
  find_functions "app" [Member "f" true "f" "app"; Member "_g" true "_g" "app"; Member "np" false "np" "numpy"]
  = [Member "f" true "f" "app"].
Proof. vm_compute. reflexivity. Qed.

(** Full statement (false): only functions of the module or of a submodule are collected.
    Witness: module [data] importing [connect] from the unrelated module [my_database]. *)
Theorem C51_only_own_functions_refuted :
  exists (m : string) (members : list member) (f : member),
    f ∈ find_functions m members /\ mb_module f <> m /\
    String.prefix (m ++ ".") (mb_module f) = false.
Proof.
  exists "data", [Member "connect" true "connect" "my_database"], (Member "connect" true "connect" "my_database").
  split_and!; [vm_compute; by left|done|vm_compute; reflexivity].
Qed.
Print Assumptions C51_only_own_functions_refuted.
