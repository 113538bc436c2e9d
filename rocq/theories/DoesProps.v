(** C78: [@does] computes the other function, of its own arguments under their new names; what cannot be called is refused before. *)
From Verif Require Import Base Dict NodeModel DecorModel DecorProofs DoesModel DoesSpec DoesProofs.

Section Props.
Context {V E : Type}.
Variable ellipsis : V.
Notation function := (function (V := V) (E := E)).
Notation param := (param V).
Notation validate := (validate ellipsis (E := E)).
Implicit Types (ps : list param) (mapping : dict src) (f : function) (kw : dict V).

(** It is accepted exactly if the function is empty, its parameters can be passed by name, and the other function gets to run: in
    this call, hence in all. *)
Theorem C78_exact empty ps f mapping kw : NoDup (map p_name ps) -> call_of ps kw ->
  validate empty ps f mapping = Ok tt <->
  empty = true /\ (forall p, p ∈ ps -> p_kind p = POSITIONAL_OR_KEYWORD \/ p_kind p = KEYWORD_ONLY) /\ exists nm ex, ran (wrapper ps f mapping kw) (fn_body f nm ex).
Proof.
  intros Hn Hc. assert (Hw := wrapper_validate ellipsis ps f mapping kw Hn Hc). unfold DoesModel.validate. destruct empty; cbn [negb]; [|split; [done|by intros (? & _)]].
  assert (Hnm : forallb named ps = true <-> forall p, p ∈ ps -> p_kind p = POSITIONAL_OR_KEYWORD \/ p_kind p = KEYWORD_ONLY).
  { rewrite forallb_forall. split.
    - intros H p Hp. apply elem_of_list_In in Hp. specialize (H p Hp). unfold named in H. destruct (p_kind p); try done; tauto.
    - intros H p Hp. apply elem_of_list_In in Hp. unfold named. by destruct (H p Hp) as [-> | ->]. }
  destruct (forallb named ps); cbn [negb].
  - destruct (compatible ellipsis ps (fn_sig f) mapping) as [[|]|e] eqn:Ec; cbn [bindr].
    + destruct Hw as (o & nm & ex & _ & _ & Hr). split; [intros _|done]. split; [done|]. split; [by apply Hnm|]. by exists nm, ex.
    + split; [done|]. intros (_ & _ & nm & ex & Hr). unfold ran in Hr. rewrite Hw in Hr. by destruct (fn_body f nm ex).
    + split; [done|]. intros (_ & _ & nm & ex & Hr). unfold ran in Hr. rewrite Hw in Hr. destruct (fn_body f nm ex); [done|]. injection Hr as ->. exfalso. clear -Ec.
      unfold compatible in Ec. destruct (map_kwargs _ mapping) as [o|e'] eqn:Em; [done|]. cbn in Ec. injection Ec as ->. eapply map_kwargs_no_user, Em.
  - split; [done|]. intros (_ & Hall & _). apply Hnm in Hall. done.
Qed.

(** What is accepted runs the other function on the right arguments. In full this would hold for every mapping; see
    [C78_chain_refuted]. *)
Theorem C78_computes_partial ps f mapping kw : NoDup (map p_name ps) -> NoDup (map p_name (fn_sig f)) -> call_of ps kw -> regular mapping ->
  validate true ps f mapping = Ok tt -> exists nm ex, receives (fn_sig f) (passed mapping (own ps kw)) nm ex /\ ran (wrapper ps f mapping kw) (fn_body f nm ex).
Proof.
  intros Hn Hnf Hc Hreg Hv. assert (Hw := wrapper_validate ellipsis ps f mapping kw Hn Hc). unfold DoesModel.validate in Hv. cbn [negb] in Hv. destruct (negb (forallb named ps)); [done|].
  destruct (compatible ellipsis ps (fn_sig f) mapping) as [[|]|e]; [|done..]. destruct Hw as (o & nm & ex & Hm & Hb & Hr). exists nm, ex. split; [|done].
  assert (Hnu : NoDup (dkeys (update (defaults ps) kw))) by (by apply update_NoDup, defaults_NoDup).
  assert (Hpass := map_kwargs_passed _ mapping o Hnu Hreg Hm).
  assert (Hno : NoDup (dkeys o)). { assert (Hk := map_kwargs_keys (E := E) (update (defaults ps) kw) (update (defaults ps) kw) mapping Hnu Hnu (fun k => iff_refl _)). rewrite Hm in Hk. tauto. }
  assert (Hown : forall k, dget (update (defaults ps) kw) k = own ps kw k).
  { intros k. rewrite update_get by apply Hc. unfold own. destruct (dget kw k); [done|]. by apply defaults_get. }
  assert (Hg : forall k, dget o k = passed mapping (own ps kw) k).
  { intros k. rewrite Hpass. unfold passed. destruct (dget mapping k) as [[x|xs]|]; [apply Hown|done|]. destruct (decide _); [done|apply Hown]. }
  destruct (bind_receives (fn_sig f) o nm ex Hnf Hno Hb) as (H1 & H2 & H3). split_and!.
  - intros p Hp Hnm. rewrite <- Hg. by apply H1.
  - done.
  - intros k Hk. rewrite <- Hg. by apply H3.
Qed.

(** What is refused is so with InvalidDecoratorException. In full this would hold for every mapping; see [C78_typo_refuted]. *)
Theorem C78_refused_partial empty ps f mapping : NoDup (map p_name ps) -> regular mapping -> (forall t o, (t, One o) ∈ mapping -> exists p, p ∈ ps /\ p_name p = o) ->
  validate empty ps f mapping = Ok tt \/ validate empty ps f mapping = Err QInvalid.
Proof.
  intros Hn Hreg Hsrc. unfold DoesModel.validate. destruct (negb empty); [by right|]. destruct (negb (forallb named ps)); [by right|]. unfold compatible. fold (dummy ellipsis ps).
  destruct (map_kwargs_regular (E := E) (dummy ellipsis ps) mapping) as [o ->]; [|done| |].
  - apply update_NoDup. rewrite dkeys_const. by apply defaults_NoDup.
  - intros t x Hin. destruct (Hsrc t x Hin) as (p & Hp & <-). unfold dummy. apply update_keys. right. apply elem_of_list_fmap. exists (p_name p, ellipsis). split; [done|]. apply elem_of_list_fmap. by exists p.
  - cbn [bindr]. destruct (bind_sig (fn_sig f) o); [by left|by right].
Qed.
End Props.

(** ** Examples *)
Definition P (x : name) (d : option nat) : param nat := Param x POSITIONAL_OR_KEYWORD d.
Definition get (nm : dict nat) (x : name) : nat := match dget nm x with Some v => v | None => 0 end.
(** [def sum_( **series)], [def minus(a, b=1)] (fails below 0), [def pair(a=7, c=5)]. *)
Definition sum_ : function (V := nat) (E := string) := Function [Param "series" VAR_KEYWORD None] (fun _ ex => Ok (foldl (fun n kv => n + kv.2) 0 ex)).
Definition minus : function (V := nat) (E := string) := Function [P "a" None; P "b" (Some 1)] (fun nm _ => if decide (get nm "a" < get nm "b") then Err "negative" else Ok (get nm "a" - get nm "b")).
Definition pair_ : function (V := nat) (E := string) := Function [P "a" (Some 7); P "c" (Some 5)] (fun nm _ => Ok (10 * get nm "a" + get nm "c")).

(** The example of the documentation: all parameters are summed. *)
Example C78_sum_ex : let ps := [P "x" None; P "y" (Some 5)] in
  validate 0 true ps sum_ [] = Ok tt /\ wrapper ps sum_ [] [("x", 2)] = Ok 7 /\ wrapper ps sum_ [] [("x", 2); ("y", 1)] = Ok 3 /\
  validate 0 false ps sum_ [] = Err QInvalid /\ validate 0 true [Param "xs" VAR_POSITIONAL None] sum_ [] = Err QInvalid.
Proof. vm_compute. done. Qed.
(** Exchanged arguments, renamed ones, what the function itself raises, and what does not fit. *)
Example C78_mapped_ex : let ps := [P "a" None; P "b" None] in let swap := [("a", One "b"); ("b", One "a")] in let rename := [("a", One "x")] in
  regular swap /\ regular rename /\ call_of ps [("a", 3); ("b", 10)] /\
  validate 0 true ps minus swap = Ok tt /\ wrapper ps minus swap [("a", 3); ("b", 10)] = Ok 7 /\ wrapper ps minus [] [("a", 3); ("b", 10)] = Err (QUser "negative") /\
  validate 0 true [P "x" None] minus rename = Ok tt /\ wrapper [P "x" None] minus rename [("x", 3)] = Ok 2 /\
  validate 0 true [P "x" None] minus [] = Err QInvalid /\ validate 0 true [P "x" None; P "y" None] minus rename = Err QInvalid.
Proof.
  cbn zeta. split_and!; try (vm_compute; reflexivity).
  - split_and!; [apply (bool_decide_unpack _); vm_compute; exact I..|]. intros t s [[= -> ->]|[[= -> ->]|H]%elem_of_cons]%elem_of_cons; [| |by apply elem_of_nil in H]; eexists; (split; [reflexivity|]);
      split; intros _; apply (bool_decide_unpack _); vm_compute; exact I.
  - split_and!; [apply (bool_decide_unpack _); vm_compute; exact I..|]. intros t s [[= -> ->]|H]%elem_of_cons; [|by apply elem_of_nil in H]; eexists; (split; [reflexivity|]).
    split; intros H; exfalso; revert H; apply (bool_decide_unpack _); vm_compute; exact I.
  - split_and!; [apply (bool_decide_unpack _); vm_compute; exact I| |].
    + intros k [-> |[-> |H]%elem_of_cons]%elem_of_cons; [exists (P "a" None); split; [by left|reflexivity]|exists (P "b" None); split; [right; by left|reflexivity]|by apply elem_of_nil in H].
    + intros p [-> |[-> |H]%elem_of_cons]%elem_of_cons _; [| |by apply elem_of_nil in H]; apply (bool_decide_unpack _); vm_compute; exact I.
Qed.

(** ** Disagreements *)
(** [@does(pair, a="b", c="a")]: the new value of [a] is deleted and [b] is left over. Accepted, [a] gets its default; with
    [**kwargs] the value of [b] is passed under the wrong name. *)
Theorem C78_chain_refuted : exists (ps : list (param nat)) (mapping : dict src) kw, call_of ps kw /\
  (exists ex, receives (fn_sig sum_) (passed mapping (own ps kw)) [] ex /\ dget ex "a" = Some 2 /\ dget ex "b" = None) /\
  map_kwargs (E := string) kw mapping = Ok [("b", 2); ("c", 1)] /\
  validate 0 true ps sum_ mapping = Ok tt /\ wrapper ps sum_ mapping kw = Ok 3 /\
  validate 0 true ps pair_ mapping = Err QInvalid /\
  (let kwpair := Function (V := nat) (E := string) (fn_sig pair_ ++ [Param "rest" VAR_KEYWORD None]) (fn_body pair_) in
   validate 0 true ps kwpair mapping = Ok tt /\ wrapper ps kwpair mapping kw = Ok 71 /\ passed mapping (own ps kw) "a" = Some 2 /\ passed mapping (own ps kw) "c" = Some 1).
Proof.
  exists [P "a" None; P "b" None], [("a", One "b"); ("c", One "a")], [("a", 1); ("b", 2)]. split_and!; try (vm_compute; reflexivity).
  - split_and!; [apply (bool_decide_unpack _); vm_compute; exact I| |].
    + intros k [-> |[-> |H]%elem_of_cons]%elem_of_cons; [exists (P "a" None); split; [by left|reflexivity]|exists (P "b" None); split; [right; by left|reflexivity]|by apply elem_of_nil in H].
    + intros p [-> |[-> |H]%elem_of_cons]%elem_of_cons _; [| |by apply elem_of_nil in H]; apply (bool_decide_unpack _); vm_compute; exact I.
  - exists [("a", 2); ("c", 1)]. split; [|vm_compute; done]. split_and!.
    + intros p [-> |H]%elem_of_cons Hn; [done|by apply elem_of_nil in H].
    + intros k (p & [-> |H]%elem_of_cons & Hn & _); [done|by apply elem_of_nil in H].
    + intros k _. unfold passed, own. cbn [dget]. destruct (decide (k = "a")) as [-> |Ha]; [vm_compute; reflexivity|]. destruct (decide (k = "c")) as [-> |Hc]; [vm_compute; reflexivity|].
      destruct (decide (One k ∈ _)) as [_|Hk]; [done|]. destruct (decide (k = "b")) as [-> |Hb]; [destruct Hk; apply (bool_decide_unpack _); vm_compute; exact I|].
      cbn. rewrite decide_False by done. rewrite decide_False by done. done.
  - cbn zeta. split_and!; vm_compute; reflexivity.
Qed.
(** One parameter for two arguments is a KeyError in the decorator. *)
Theorem C78_twice_refuted : exists (ps : list (param nat)) (mapping : dict src), (forall t o, (t, One o) ∈ mapping -> exists p, p ∈ ps /\ p_name p = o) /\
  passed mapping (own ps [("x", 4)]) "a" = Some 4 /\ passed mapping (own ps [("x", 4)]) "b" = Some 4 /\ validate 0 true ps minus mapping = Err QKey.
Proof.
  exists [P "x" None], [("a", One "x"); ("b", One "x")]. split_and!; try (vm_compute; reflexivity).
  intros t o [[= -> ->]|[[= -> ->]|H]%elem_of_cons]%elem_of_cons; [| |by apply elem_of_nil in H]; exists (P "x" None); (split; [by left|reflexivity]).
Qed.
(** A list of parameters, as its type allows, is a TypeError. *)
Theorem C78_list_refuted : exists (ps : list (param nat)) (os : list name), validate 0 true ps sum_ [("series", Many os)] = Err QType.
Proof. exists [P "x" None; P "y" None], ["x"; "y"]. vm_compute. reflexivity. Qed.
(** A misspelt parameter is a KeyError. *)
Theorem C78_typo_refuted : exists (ps : list (param nat)) (mapping : dict src), regular mapping /\ validate 0 true ps minus mapping = Err QKey.
Proof.
  exists [P "x" None], [("a", One "xx")]. split; [|vm_compute; reflexivity].
  split_and!; [apply (bool_decide_unpack _); vm_compute; exact I..|]. intros t s [[= -> ->]|H]%elem_of_cons; [|by apply elem_of_nil in H]; eexists; (split; [reflexivity|]).
  split; intros H; exfalso; revert H; apply (bool_decide_unpack _); vm_compute; exact I.
Qed.
(** [@does(minus, a="x")] on a function of [a] and [x]: accepted, and [a] does not matter. *)
Theorem C78_dropped_refuted : exists (ps : list (param nat)) (mapping : dict src) p, p ∈ ps /\ validate 0 true ps minus mapping = Ok tt /\
  forall v, wrapper ps minus mapping [("a", v); ("x", 9)] = Ok 8.
Proof. exists [P "a" None; P "x" None], [("a", One "x")], (P "a" None). split_and!; [by left|vm_compute; reflexivity|]. intros v. vm_compute. reflexivity. Qed.

Print Assumptions C78_exact.
Print Assumptions C78_computes_partial.
Print Assumptions C78_refused_partial.
Print Assumptions C78_chain_refuted.
Print Assumptions C78_twice_refuted.
Print Assumptions C78_list_refuted.
Print Assumptions C78_typo_refuted.
Print Assumptions C78_dropped_refuted.
