(** C50: what remains true about the order of the functions of a program. The claim itself is refuted in [GraphProps]. *)
From Verif Require Import Base Dict GraphModel GraphSpec GraphProofs GraphResults GraphProps OrderProofs.

(** A program is accepted in every order of its functions if and only if no name is defined twice, every function accepts the
    functions it takes, and any two functions that share an input accept one annotation for the other, whichever comes first. *)
Theorem C50_every_order (T : Type) (types_match adapter_match : T -> T -> bool) (any : T) (defs : list (fdef T)) (config : list name) :
  (forall t, types_match t t = true) -> (forall d, d ∈ defs -> NoDup (fd_params d).*1) ->
  (forall defs', Permutation defs defs' -> exists g, create_function_graph types_match adapter_match any defs' config false = Ok g) <->
  (forall x, x ∉ config -> ~ defined_twice defs x) /\
  (forall P x t d, takes_typed config defs P x t -> in_effect config defs x d ->
     types_match t (fd_type d) = true \/ adapter_match t (fd_type d) = true) /\
  (forall P Q x t u, P <> Q -> takes_typed config defs P x t -> takes_typed config defs Q x u ->
     (forall d, ~ in_effect config defs x d) ->
     types_match u t = true \/ adapter_match u t = true \/ types_match t u = true).
Proof. intros Hr Hnd. by apply every_order. Qed.
Print Assumptions C50_every_order.

(** So the order is irrelevant as long as functions that share an input have annotations one of which accepts the other.
    Missing: any annotations; that is false, [C50_order_independence_refuted]. *)
Theorem C50_order_irrelevant_partial (T : Type) (types_match adapter_match : T -> T -> bool) (any : T) (defs defs' : list (fdef T)) (config : list name) :
  (forall t, types_match t t = true) -> (forall d, d ∈ defs -> NoDup (fd_params d).*1) ->
  (forall P Q x t u, takes_typed config defs P x t -> takes_typed config defs Q x u -> (forall d, ~ in_effect config defs x d) ->
     types_match u t = true \/ types_match t u = true) ->
  Permutation defs defs' ->
  (exists g, create_function_graph types_match adapter_match any defs config false = Ok g) <->
  (exists g, create_function_graph types_match adapter_match any defs' config false = Ok g).
Proof.
  intros Hr Hnd Hshare Hp.
  assert (Hone : forall l g, create_function_graph types_match adapter_match any l config false = Ok g -> forall x, x ∉ config -> ~ defined_twice l x).
  { intros l g Hg x Hx Htw. destruct (graph_duplicate types_match adapter_match any config l x Hx Htw) as (y & Hd & _). congruence. }
  assert (Hgo : forall l l', Permutation l l' -> (forall d, d ∈ l -> NoDup (fd_params d).*1) ->
    (forall P Q x t u, takes_typed config l P x t -> takes_typed config l Q x u -> (forall d, ~ in_effect config l x d) -> types_match u t = true \/ types_match t u = true) ->
    (exists g, create_function_graph types_match adapter_match any l config false = Ok g) -> exists g, create_function_graph types_match adapter_match any l' config false = Ok g).
  { intros l l' Hll Hndl Hsh [g Hg]. apply (proj2 (every_order types_match adapter_match any Hr config l Hndl)); [|done]. split_and!.
    - by eapply Hone.
    - pose proof (graph_types types_match adapter_match any config l false) as Ht. by rewrite Hg in Ht.
    - intros P Q x t u _ HP HQ Hno. destruct (Hsh P Q x t u HP HQ Hno); [by left|by right; right]. }
  split; [by apply Hgo|]. intros [g Hg]. apply (Hgo defs' defs); [done| | |by exists g].
  - intros d Hd. apply Hnd. by rewrite Hp.
  - assert (H1 : forall x, x ∉ config -> ~ defined_twice defs' x) by (by eapply Hone). symmetry in Hp.
    intros P Q x t u HP HQ Hno. apply (Hshare P Q x t u); [by apply (takes_perm config defs' defs)..|].
    intros d Hd. apply (Hno d). by apply (effect_perm config defs' defs).
Qed.
Print Assumptions C50_order_irrelevant_partial.

(** Programs accepted in two orders have the same variables with the same parameters, and the same consumers up to order;
    only the annotations recorded for inputs may differ. *)
Theorem C50_same_graph (T : Type) (types_match adapter_match : T -> T -> bool) (any : T) (defs defs' : list (fdef T)) (config : list name) g g' :
  (forall d, d ∈ defs -> NoDup (fd_params d).*1) -> Permutation defs defs' ->
  create_function_graph types_match adapter_match any defs config false = Ok g ->
  create_function_graph types_match adapter_match any defs' config false = Ok g' ->
  (forall x, x ∈ dkeys g <-> x ∈ dkeys g') /\
  (forall x n n', dget g x = Some n -> dget g' x = Some n' ->
     gn_ext n = gn_ext n' /\ gn_params n = gn_params n' /\ gn_deps n = gn_deps n' /\ Permutation (gn_rdeps n) (gn_rdeps n')).
Proof.
  intros Hnd Hp Hg Hg'.
  assert (H1 : forall x, x ∉ config -> ~ defined_twice defs x).
  { intros x Hx Htw. destruct (graph_duplicate types_match adapter_match any config defs x Hx Htw) as (y & Hd & _). congruence. }
  assert (Hf : forall x, in_force config defs x = in_force config defs' x).
  { intros x. destruct (in_force config defs' x) as [d|] eqn:Hd.
    - apply (in_force_iff types_match adapter_match any) in Hd. apply (in_force_iff types_match adapter_match any). by apply (effect_perm config defs defs').
    - assert (Hno := proj1 (in_force_none types_match adapter_match any config defs' x) Hd). apply (in_force_none types_match adapter_match any). intros d Hx. apply (Hno d). by apply (effect_perm config defs defs'). }
  assert (Hnd' : forall d, d ∈ defs' -> NoDup (fd_params d).*1) by (intros d Hd; apply Hnd; by rewrite Hp).
  apply create_function_graph_ok in Hg, Hg'. split.
  - intros x. rewrite (bt_keys _ _ _ Hg), (bt_keys _ _ _ Hg'), Hf.
    assert (He : (exists P d, in_force config defs P = Some d /\ x ∈ (fd_params d).*1) <-> (exists P d, in_force config defs' P = Some d /\ x ∈ (fd_params d).*1)).
    { split; intros (P & d & Hd & ?); exists P, d; (split; [|done]); [by rewrite <-Hf|by rewrite Hf]. }
    by rewrite He.
  - intros x n n' Hn Hn'.
    assert (Hr : Permutation (gn_rdeps n) (gn_rdeps n')).
    { apply NoDup_Permutation; [by eapply (bt_rdeps_nodup _ _ _ Hg)|by eapply (bt_rdeps_nodup _ _ _ Hg')|].
      intros P. rewrite (bt_rdeps _ _ _ Hg x n P Hn), (bt_rdeps _ _ _ Hg' x n' P Hn'). by rewrite Hf. }
    destruct (in_force config defs x) as [d|] eqn:Hd.
    + destruct (bt_fn _ _ _ Hg x d Hd) as (m & Hm & He & Hpa & Hde).
      rewrite Hf in Hd. destruct (bt_fn _ _ _ Hg' x d Hd) as (m' & Hm' & He' & Hpa' & Hde').
      assert (m = n) as -> by congruence. assert (m' = n') as -> by congruence. split_and!; congruence.
    + destruct (bt_ext _ _ _ Hg x n Hd Hn) as (He & Hpa & Hde). rewrite Hf in Hd.
      destruct (bt_ext _ _ _ Hg' x n' Hd Hn') as (He' & Hpa' & Hde'). split_and!; congruence.
Qed.
Print Assumptions C50_same_graph.

(** Three functions that share an input, in any order: Union[int, str], int, and int again. *)
Definition f_int_too := FDef "h" (TClass 1) [("x", (TClass 0, REQUIRED)); ("g", (TClass 0, REQUIRED))].
Example C50_nonvacuous : forall defs', Permutation [f_union_is; f_int; f_int_too] defs' -> exists g, build_types defs' = Ok g.
Proof.
  apply C50_every_order.
  - intros [|c|cs]; cbn; try done; [by rewrite Nat.eqb_refl|]. apply orb_true_iff. left. rewrite andb_diag.
    induction cs as [|c cs IH]; [done|]. apply forallb_forall. intros y Hy. apply existsb_exists. exists y. split; [done|]. apply Nat.eqb_refl.
  - intros d Hd. repeat (apply elem_of_cons in Hd as [-> | Hd]; [by apply (bool_decide_unpack _); vm_compute|]). by apply elem_of_nil in Hd.
  - assert (Hnd : NoDup (map fd_name [f_union_is; f_int; f_int_too])) by (by apply (bool_decide_unpack _); vm_compute).
    assert (Hel : forall P d, in_effect [] [f_union_is; f_int; f_int_too] P d -> d ∈ [f_union_is; f_int; f_int_too] /\ fd_name d = P).
    { intros P d (_ & a & b & Heq & Hn & _). split; [|done]. rewrite Heq. apply elem_of_app. right. by left. }
    split_and!.
    + intros x _ (a & d & b & d' & c & Heq & Hd & Hd'). rewrite Heq in Hnd. rewrite map_app in Hnd. apply NoDup_app in Hnd as (_ & _ & Hnd).
      cbn in Hnd. rewrite map_app in Hnd. apply NoDup_cons in Hnd as [Hnd _]. apply Hnd. apply elem_of_app. right. cbn. rewrite Hd, Hd'. by left.
    + intros P x t d (dP & dt & HP & Ht) Hd. apply Hel in HP as [HP _]. apply Hel in Hd as [Hd Hn].
      repeat (apply elem_of_cons in HP as [-> | HP]; [cbn in Ht; repeat (apply elem_of_cons in Ht as [Ht1 | Ht]; [injection Ht1 as -> -> ->;
        repeat (apply elem_of_cons in Hd as [-> | Hd]; [first [discriminate Hn|by left]|]); by apply elem_of_nil in Hd|]); by apply elem_of_nil in Ht|]).
      by apply elem_of_nil in HP.
    + intros P Q x t u _ (dP & dt & HP & Ht) (dQ & du & HQ & Hu) Hno. apply Hel in HP as [HP _]. apply Hel in HQ as [HQ _].
      assert (Hxg : x <> "g").
      { intros ->. apply (Hno f_int). split; [apply not_elem_of_nil|]. exists [f_union_is], [f_int_too]. split_and!; [done..|].
        intros d Hd. by apply elem_of_list_singleton in Hd as ->. }
      assert (Hin : forall dP dt t, dP ∈ [f_union_is; f_int; f_int_too] -> (x, (t, dt)) ∈ fd_params dP -> t = TClass 0 \/ t = TUnion [0; 1]).
      { clear -Hxg. intros dP dt t HP Ht. repeat (apply elem_of_cons in HP as [-> | HP]; [cbn in Ht; repeat (apply elem_of_cons in Ht as [Ht1 | Ht]; [injection Ht1 as -> -> ->; auto; by destruct Hxg|]); by apply elem_of_nil in Ht|]).
        by apply elem_of_nil in HP. }
      destruct (Hin _ _ _ HP Ht) as [-> | ->], (Hin _ _ _ HQ Hu) as [-> | ->]; cbn; auto.
Qed.
