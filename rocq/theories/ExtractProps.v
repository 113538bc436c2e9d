(** C56: extracted fields and columns. *)
From stdpp Require Import pretty.
From Verif Require Import Base Dict NodeModel NodeSpec NodeProofs PipeModel PipeSpec PipeProofs ParamModel ParamSpec ParamProofs ExtractModel ExtractProofs.

(** @extract_fields: each field has the value of that field of the dict the function returns,
    or [fill_with] if the dict lacks it and it is given; without it the field's node raises.
    The function's own node has the dict with exactly the missing fields added. *)
Theorem C56_fields {V E T} vget vfill (dict_type : T) (ns : dict (pnode V E T)) env n fields fill :
  (forall d k (w : V) k', vget (vfill d k w) k' = if decide (k' = k) then Some w else vget d k') ->
  pn_name n <> "field_to_extract" ->
  (forall m, m ∈ extract_fields vget vfill dict_type fields fill n -> dget ns (pn_name m) = Some m) ->
  (forall c t v, (c, t) ∈ fields -> value ns env c v <->
     exists m d0, args ns env (pn_inputs n) m /\ pn_call n (kwargs (pn_inputs n) m) = Ok d0 /\
       (vget d0 (KName c) = Some v \/ (vget d0 (KName c) = None /\ fill = Some v))) /\
  (forall d, value ns env (pn_name n) d -> exists m d0, args ns env (pn_inputs n) m /\ pn_call n (kwargs (pn_inputs n) m) = Ok d0 /\
     (fill = None -> d = d0) /\
     forall c, vget d (KName c) = match vget d0 (KName c) with Some v => Some v | None => if decide (c ∈ dkeys fields) then fill else None end) /\
  (forall m d0, args ns env (pn_inputs n) m -> pn_call n (kwargs (pn_inputs n) m) = Ok d0 -> exists d, value ns env (pn_name n) d).
Proof.
  intros L Hp Hn. set (ks := map (fun ft : name * T => KName ft.1) fields).
  assert (D : dget ns (pn_name n) = Some (generator vget vfill n fill ks)) by (apply (Hn (generator vget vfill n fill ks)); by left).
  assert (Ks : forall c, KName c ∈ ks <-> c ∈ dkeys fields).
  { intros c. unfold ks, dkeys. rewrite !elem_of_list_fmap. split; [intros (ft & [= ->] & H)|intros (ft & -> & H)]; eauto. }
  split_and!.
  - intros c t v Hc. eapply (extracted_value vget vfill L ns env "field_to_extract" n fill ks t dict_type c v); [done| |done|].
    + left. apply Ks. by apply (elem_of_list_fmap_1 fst) in Hc.
    + apply (Hn (extractor vget "field_to_extract" n t dict_type c)). right. apply elem_of_list_fmap. by exists (c, t).
  - intros d Hd. apply (generator_value vget vfill ns env n fill ks d D) in Hd as (m & d0 & Hm & Hc & ->). exists m, d0. split_and!; [done|done| |].
    + by intros ->.
    + intros c. rewrite (filled_get vget vfill L). destruct (vget d0 (KName c)); [done|].
      destruct (decide (KName c ∈ ks)) as [H|H], (decide (c ∈ dkeys fields)) as [H'|H']; rewrite Ks in H; done.
  - intros m d0 Hm Hc. eexists. apply (generator_value vget vfill ns env n fill ks _ D). eauto.
Qed.

(** @extract_columns, given as names, or without [fill_with]. *)
Theorem C56_columns_partial {V E T} vget vfill (column_type : T -> T) (ns : dict (pnode V E T)) env n columns fill k v :
  (forall d k (w : V) k', vget (vfill d k w) k' = if decide (k' = k) then Some w else vget d k') ->
  pn_name n <> "column_to_extract" ->
  (forall m, m ∈ extract_columns vget vfill column_type columns fill n -> dget ns (pn_name m) = Some m) ->
  k ∈ columns -> k = KName (key_name k) \/ fill = None ->
  value ns env (key_name k) v <->
  exists m d0, args ns env (pn_inputs n) m /\ pn_call n (kwargs (pn_inputs n) m) = Ok d0 /\
    (vget d0 (KName (key_name k)) = Some v \/ (vget d0 (KName (key_name k)) = None /\ fill = Some v)).
Proof.
  intros L Hp Hn Hk Hf.
  eapply (extracted_value vget vfill L ns env "column_to_extract" n fill columns (column_type (pn_type n)) (pn_type n) (key_name k) v); [done| | |].
  - destruct Hf as [Hf | ?]; [left|by right]. by rewrite <- Hf.
  - apply (Hn (generator vget vfill n fill columns)). by left.
  - apply (Hn (extractor vget "column_to_extract" n (column_type (pn_type n)) (pn_type n) (key_name k))). right. apply elem_of_list_fmap. by exists k.
Qed.

Lemma param_extract_lookup {V E T} vget vfill (column_type : T -> T) set_columns (value_error : E) vlist vdict list_elem dict_elem captured
    reassign fn (n : pnode V E T) configs : forall i nodes k outputs sp,
  param_extract vget vfill column_type set_columns value_error vlist vdict list_elem dict_elem captured reassign fn n i configs = Some nodes ->
  configs !! k = Some (outputs, sp) ->
  exists pn, param_node vlist vdict list_elem dict_elem captured (PNode (pn_name n) (pn_type n) (pn_inputs n) (wrapper set_columns value_error fn outputs))
    (pn_name n ++ "__" ++ pretty (i + k))%string sp = Some pn /\
    forall m, m ∈ extract_columns vget vfill column_type (map KName outputs) None pn -> m ∈ nodes.
Proof.
  induction configs as [|[o s] configs IH]; intros i nodes k outputs sp H Hk; [done|]. cbn [param_extract] in H.
  destruct (param_node _ _ _ _ _ _ _ s) as [pn|] eqn:Hpn; [|done].
  destruct (param_extract _ _ _ _ _ _ _ _ _ _ _ fn n (S i) configs) as [rest|] eqn:Er; [|done]. injection H as <-.
  destruct k as [|k]; cbn in Hk.
  - injection Hk as -> ->. exists pn. rewrite Nat.add_0_r. split; [done|]. intros m Hm. apply (proj2 (elem_of_app (extract_columns vget vfill column_type (map KName outputs) None pn) rest m)). by left.
  - destruct (IH _ _ _ _ _ Er Hk) as (pn' & H1 & H2). exists pn'. rewrite Nat.add_succ_r. split; [done|]. intros m Hm. apply (proj2 (elem_of_app (extract_columns vget vfill column_type (map KName o) None pn) rest m)). right. by apply H2.
Qed.

(** @parameterize_extract_columns: column [c] of the [i]-th parameterization is that column of
    the result of the function on the arguments of the parameterization (as in C41), with
    its columns renamed to the outputs. *)
Theorem C56_param_extract_partial {V E T} vget vfill (column_type : T -> T) set_columns value_error vlist vdict list_elem dict_elem captured
    (ns : dict (pnode V E T)) env reassign fn n i outputs sp configs nodes c v :
  (forall d k (w : V) k', vget (vfill d k w) k' = if decide (k' = k) then Some w else vget d k') ->
  (forall y n, dget ns y = Some n -> NoDup (dkeys (pn_inputs n))) ->
  NoDup (dkeys (pn_inputs n)) -> NoDup (dkeys sp) -> keyword_fn fn ->
  param_extract vget vfill column_type set_columns value_error vlist vdict list_elem dict_elem captured reassign fn n 0 configs = Some nodes ->
  configs !! i = Some (outputs, sp) ->
  (forall m, m ∈ nodes -> dget ns (pn_name m) = Some m) ->
  (forall pn, dget ns (pn_name n ++ "__" ++ pretty i)%string = Some pn ->
    (forall x, x ∈ dkeys (pn_inputs pn) -> x ∉ reserved) /\
    (forall l u, (l, POne (DValue u)) ∈ sp -> l ∈ dkeys (pn_inputs pn) -> defined ns env l)) ->
  (forall l u, (l, POne (DValue u)) ∈ sp -> l ∉ reserved) ->
  (pn_name n ++ "__" ++ pretty i)%string <> "column_to_extract" -> c ∈ outputs ->
  value ns env c v <->
  exists kw d d', fn kw = Ok d /\ set_columns d outputs = Some d' /\ vget d' (KName c) = Some v /\
    NoDup (dkeys kw) /\ (forall k, k ∈ dkeys kw -> k ∈ dkeys (pn_inputs n)) /\
    forall p t dt, (p, (t, dt)) ∈ pn_inputs n -> bound vlist vdict ns env (dget sp p) p dt (dget kw p).
Proof.
  intros L W N Ns K H Hi Hn0 R R2 Hc Hin. destruct (param_extract_lookup _ _ _ _ _ _ _ _ _ _ _ _ _ _ _ _ _ _ _ H Hi) as (pn & Hpn & Hm). cbn [Nat.add] in Hpn.
  assert (Hn : forall m, m ∈ extract_columns vget vfill column_type (map KName outputs) None pn -> dget ns (pn_name m) = Some m) by (intros m ?; apply Hn0, Hm; done). clear Hn0 Hm H.
  set (out := (pn_name n ++ "__" ++ pretty i)%string) in *.
  assert (Hname : pn_name pn = out).
  { unfold param_node in Hpn. destruct (new_inputs _ _ _ _ _); [|done]. by injection Hpn as <-. }
  assert (Dg : dget ns out = Some (generator vget vfill pn None (map KName outputs))).
  { rewrite <- Hname. apply (Hn (generator vget vfill pn None (map KName outputs))). by left. }
  assert (De : dget ns c = Some (extractor vget "column_to_extract" pn (column_type (pn_type pn)) (pn_type pn) c)).
  { apply (Hn (extractor vget "column_to_extract" pn (column_type (pn_type pn)) (pn_type pn) c)). right. apply elem_of_list_fmap.
    exists (KName c). split; [done|]. by apply elem_of_list_fmap_1. }
  destruct (R _ Dg) as [R1 Hl]. cbn [generator pn_inputs] in R1, Hl. rewrite <- Hname in Hc.
  rewrite (extractor_value vget ns env "column_to_extract" pn _ _ c v Hc De). rewrite Hname.
  assert (PV : forall d', value ns env out d' <->
    exists kw, wrapper set_columns value_error fn outputs kw = Ok d' /\ NoDup (dkeys kw) /\ (forall k, k ∈ dkeys kw -> k ∈ dkeys (pn_inputs n)) /\
    forall p t dt, (p, (t, dt)) ∈ pn_inputs n -> bound vlist vdict ns env (dget sp p) p dt (dget kw p)).
  { intros d'. apply (param_value_gen vlist vdict list_elem dict_elem captured ns env (PNode (pn_name n) (pn_type n) (pn_inputs n) (wrapper set_columns value_error fn outputs)) out sp pn d'); try done.
    - intros kw kw' N1 N2 Hk. cbn. unfold wrapper. by rewrite (K kw kw').
    - rewrite <- Hname in Dg |- *. rewrite (generator_value vget vfill ns env pn None _ d' Dg). cbn. split; [intros (m & d0 & ? & ? & ->)|intros (m & ? & ?)]; eauto. }
  split.
  - intros (d' & Hd' & Hv). apply PV in Hd' as (kw & Hw & ? & ? & ?). unfold wrapper in Hw. destruct (fn kw) as [d|] eqn:Ef; [|done].
    destruct (set_columns d outputs) as [d''|] eqn:Es; [|done]. injection Hw as ->. exists kw, d, d'. done.
  - intros (kw & d & d' & Hf & Hs & Hv & ? & ? & ?). exists d'. split; [|done]. apply PV. exists kw. unfold wrapper. by rewrite Hf, Hs.
Qed.

(** ** Concrete cases *)
Inductive fv := FN (z : Z) | FD (l : list (key * fv)).
Fixpoint kget (l : list (key * fv)) (k : key) : option fv :=
  match l with [] => None | (k', v) :: l' => if decide (k = k') then Some v else kget l' k end.
Definition fget (d : fv) (k : key) : option fv := match d with FD l => kget l k | FN _ => None end.
Definition ffill (d : fv) (k : key) (w : fv) : fv := match d with FD l => FD ((k, w) :: l) | FN _ => FD [(k, w)] end.
Lemma fget_fill d k w k' : fget (ffill d k w) k' = if decide (k' = k) then Some w else fget d k'.
Proof. destruct d; cbn; by destruct (decide (k' = k)). Qed.

(** @extract_fields({"a": .., "b": ..}, fill_with=7)  def f(x): return {"a": x} *)
Definition ff : pnode fv string string :=
  PNode "f" "dict" [("x", ("int", REQUIRED))]
    (fun kw => match dget kw "x" with Some v => Ok (FD [(KName "a", v)]) | None => Err (NKey "x") end).
Definition ffields : dict string := [("a", "int"); ("b", "int")].
Definition fns (fill : option fv) : dict (pnode fv string string) :=
  map (fun m => (pn_name m, m)) (extract_fields fget ffill "dict" ffields fill ff).
Definition fenv : gmap name fv := {["x" := FN 3]}.
Lemma fargs (ns : dict (pnode fv string string)) : dget ns "x" = None -> args ns fenv (pn_inputs ff) {["x" := FN 3]}.
Proof.
  intros Hx. split.
  - intros k w Hk. apply lookup_singleton_Some in Hk as [<- <-]. split; [apply (bool_decide_unpack _); by vm_compute|by apply value_input].
  - intros k t dt Hk Hn. by apply elem_of_list_singleton in Hk as [= -> -> ->].
Qed.
Lemma fns_nodes fill m : m ∈ extract_fields fget ffill "dict" ffields fill ff -> dget (fns fill) (pn_name m) = Some m.
Proof. intros Hm. repeat (apply elem_of_cons in Hm as [-> | Hm]; [reflexivity|]). by apply elem_of_nil in Hm. Qed.
Example ex_fields : value (fns (Some (FN 7))) fenv "a" (FN 3) /\ value (fns (Some (FN 7))) fenv "b" (FN 7) /\
  value (fns None) fenv "a" (FN 3) /\ forall v, ~ value (fns None) fenv "b" v.
Proof.
  destruct (C56_fields fget ffill "dict" (fns (Some (FN 7))) fenv ff ffields (Some (FN 7)) fget_fill ltac:(discriminate) (fns_nodes _)) as (H & _).
  destruct (C56_fields fget ffill "dict" (fns None) fenv ff ffields None fget_fill ltac:(discriminate) (fns_nodes _)) as (H' & _).
  split_and!.
  - apply (H "a" "int"); [by left|]. exists {["x" := FN 3]}. eexists. split_and!; [by apply fargs|reflexivity|by left].
  - apply (H "b" "int"); [by right; left|]. exists {["x" := FN 3]}. eexists. split_and!; [by apply fargs|reflexivity|by right].
  - apply (H' "a" "int"); [by left|]. exists {["x" := FN 3]}. eexists. split_and!; [by apply fargs|reflexivity|by left].
  - intros v Hv. apply (H' "b" "int") in Hv as (m & d0 & _ & Hc & Hd); [|by right; left]. cbn in Hc.
    match type of Hc with context [dget ?d "x"] => destruct (dget d "x") end; [|done]. injection Hc as <-. by destruct Hd as [? | [_ ?]].
Qed.

(** @extract_columns("a", "b", fill_with=7) on the same function *)
Definition cns : dict (pnode fv string string) :=
  map (fun m => (pn_name m, m)) (extract_columns fget ffill (fun _ => "series") [KName "a"; KName "b"] (Some (FN 7)) ff).
Example ex_columns : value cns fenv "a" (FN 3) /\ value cns fenv "b" (FN 7).
Proof.
  assert (Hn : forall m, m ∈ extract_columns fget ffill (fun _ => "series") [KName "a"; KName "b"] (Some (FN 7)) ff -> dget cns (pn_name m) = Some m).
  { intros m Hm. repeat (apply elem_of_cons in Hm as [-> | Hm]; [reflexivity|]). by apply elem_of_nil in Hm. }
  split.
  - apply (C56_columns_partial fget ffill (fun _ => "series") cns fenv ff _ _ (KName "a") (FN 3) fget_fill ltac:(discriminate) Hn); [by left|by left|].
    exists {["x" := FN 3]}. eexists. split_and!; [by apply fargs|reflexivity|by left].
  - apply (C56_columns_partial fget ffill (fun _ => "series") cns fenv ff _ _ (KName "b") (FN 7) fget_fill ltac:(discriminate) Hn); [by right; left|by left|].
    exists {["x" := FN 3]}. eexists. split_and!; [by apply fargs|reflexivity|by right].
Qed.

(** @parameterize_extract_columns(ParameterizedExtract(("p",), {"x": source("u")}),
    ParameterizedExtract(("q",), {"x": value(5)})) on the same function *)
Definition fset (d : fv) (names : list name) : option fv :=
  match d with FD l => if decide (length l = length names) then Some (FD (zip (map KName names) (map snd l))) else None | FN _ => None end.
Definition pconf : list (list name * dict (spec fv)) := [(["p"], [("x", POne (DSource "u"))]); (["q"], [("x", POne (DValue (FN 5)))])].
Definition pnodes (reassign : bool) : list (pnode fv string string) :=
  default [] (param_extract fget ffill (fun _ => "series") fset "ValueError" (fun _ => FN 0) (fun _ => FN 0) Some Some (fun _ => Err (NUser "captured"))
    reassign (pn_call ff) ff 0 pconf).
Definition pnss : dict (pnode fv string string) := map (fun m => (pn_name m, m)) (pnodes true).
Definition pne : gmap name fv := {["u" := FN 4]}.
Lemma ff_keyword : keyword_fn (pn_call ff).
Proof. intros kw kw' _ _ H. cbn. by rewrite H. Qed.
Example ex_param_extract : value pnss pne "p" (FN 4) /\ value pnss pne "q" (FN 5).
Proof.
  assert (Hw : forall y n, dget pnss y = Some n -> NoDup (dkeys (pn_inputs n))).
  { intros y n H. unfold pnss in H. vm_compute in H.
    repeat (match type of H with context [if ?b then _ else _] => destruct b end; [injection H as <-; apply (bool_decide_unpack _); by vm_compute|]). done. }
  assert (Hm : forall m, m ∈ pnodes true -> dget pnss (pn_name m) = Some m).
  { intros m Hm. unfold pnodes in Hm. cbn in Hm. repeat (apply elem_of_cons in Hm as [-> | Hm]; [reflexivity|]). by apply elem_of_nil in Hm. }
  split.
  - apply (C56_param_extract_partial fget ffill (fun _ => "series") fset "ValueError" (fun _ => FN 0) (fun _ => FN 0) Some Some (fun _ => Err (NUser "captured"))
      pnss pne true (pn_call ff) ff 0 ["p"] [("x", POne (DSource "u"))] pconf (pnodes true) "p" (FN 4) fget_fill); try done.
    + apply (bool_decide_unpack _); by vm_compute.
    + apply (bool_decide_unpack _); by vm_compute.
    + apply ff_keyword.
    + intros pn Hpn. vm_compute in Hpn. injection Hpn as <-. split; intros ?; [|intros ? H; by apply elem_of_list_singleton in H].
      intros H. apply elem_of_list_singleton in H as ->. apply (bool_decide_unpack _); by vm_compute.
    + intros l u H. by apply elem_of_list_singleton in H.
    + by left.
    + exists [("x", FN 4)]. do 2 eexists. split_and!; [reflexivity|reflexivity|reflexivity|apply (bool_decide_unpack _); by vm_compute| |].
      * intros k Hk. done.
      * intros p t dt Hp. apply elem_of_list_singleton in Hp as [= -> -> ->]. cbn. exists (FN 4). split; [done|]. by apply value_input.
  - apply (C56_param_extract_partial fget ffill (fun _ => "series") fset "ValueError" (fun _ => FN 0) (fun _ => FN 0) Some Some (fun _ => Err (NUser "captured"))
      pnss pne true (pn_call ff) ff 1 ["q"] [("x", POne (DValue (FN 5)))] pconf (pnodes true) "q" (FN 5) fget_fill); try done.
    + apply (bool_decide_unpack _); by vm_compute.
    + apply (bool_decide_unpack _); by vm_compute.
    + apply ff_keyword.
    + intros pn Hpn. vm_compute in Hpn. injection Hpn as <-. cbn. split; [intros ? H; by apply elem_of_nil in H|intros ? ? _ H; by apply elem_of_nil in H].
    + intros l u H. apply elem_of_list_singleton in H as [= -> ->]. apply (bool_decide_unpack _); by vm_compute.
    + by left.
    + exists [("x", FN 5)]. do 2 eexists. split_and!; [reflexivity|reflexivity|reflexivity|apply (bool_decide_unpack _); by vm_compute| |].
      * intros k Hk. done.
      * intros p t dt Hp. apply elem_of_list_singleton in Hp as [= -> -> ->]. cbn. by exists (FN 5).
Qed.

(** ** Refutations *)
(** @extract_columns(("b", "documentation"), fill_with=7): the fill adds a column whose name is
    the tuple, and extracting "b" raises "No such column". *)
Definition rns : dict (pnode fv string string) :=
  map (fun m => (pn_name m, m)) (extract_columns fget ffill (fun _ => "series") [KTuple "b" "documentation"] (Some (FN 7)) ff).
Theorem C56_documented_fill_refuted : exists d b,
  value rns fenv "f" d /\ fget d (KName "b") = None /\ fget d (KTuple "b" "documentation") = Some (FN 7) /\
  dget rns "b" = Some b /\ pn_call b [("f", d)] = Err (NField "b") /\ forall v, ~ value rns fenv "b" v.
Proof.
  do 2 eexists. split_and!.
  - eapply (generator_value fget ffill rns fenv ff (Some (FN 7)) [KTuple "b" "documentation"]); [reflexivity|].
    exists {["x" := FN 3]}. eexists. split_and!; [by apply fargs|reflexivity|reflexivity].
  - by vm_compute.
  - by vm_compute.
  - reflexivity.
  - by vm_compute.
  - intros v Hv. apply (extractor_value fget rns fenv "column_to_extract" ff "series" "dict" "b" v ltac:(discriminate)) in Hv as (d & Hd & Hv); [|reflexivity].
    apply (generator_value fget ffill rns fenv ff (Some (FN 7)) [KTuple "b" "documentation"]) in Hd as (m & d0 & _ & Hc & ->); [|reflexivity].
    cbn in Hc. match type of Hc with context [dget ?d "x"] => destruct (dget d "x") end; [|done]. injection Hc as <-. by vm_compute in Hv.
Qed.

(** A function named field_to_extract: every extracted field raises KeyError. *)
Theorem C56_reserved_name_refuted : exists n, pn_name n = "field_to_extract" /\
  (forall kw, exists d, pn_call n kw = Ok d /\ fget d (KName "a") = Some (FN 1)) /\
  forall m kw, m ∈ extract_fields fget ffill "dict" [("a", "int")] None n -> pn_name m = "a" ->
    pn_call m kw = Err (E := nerr string) (NKey "field_to_extract").
Proof.
  exists (PNode (T := string) "field_to_extract" "dict" [] (fun _ => Ok (FD [(KName "a", FN 1)]))). split_and!; [done|eexists; split; reflexivity|].
  intros m kw Hm Hn. repeat (apply elem_of_cons in Hm as [-> | Hm]; [first [done|reflexivity]|]). by apply elem_of_nil in Hm.
Qed.

(** [reassign_columns=False] has no effect: the columns are renamed all the same. *)
Theorem C56_reassign_columns_refuted {V E T} vget vfill (column_type : T -> T) set_columns (value_error : E) vlist vdict list_elem dict_elem captured
    fn (n : pnode V E T) configs i :
  param_extract vget vfill column_type set_columns value_error vlist vdict list_elem dict_elem captured false fn n i configs =
  param_extract vget vfill column_type set_columns value_error vlist vdict list_elem dict_elem captured true fn n i configs.
Proof. revert i. induction configs as [|[o sp] configs IH]; intros i; [done|]. cbn [param_extract]. by rewrite IH. Qed.
Example ex_reassign_columns : pnodes false = pnodes true /\ map pn_name (pnodes false) = ["f__0"; "p"; "f__1"; "q"].
Proof. split; by vm_compute. Qed.

Print Assumptions C56_fields.
Print Assumptions C56_columns_partial.
Print Assumptions C56_param_extract_partial.
Print Assumptions C56_documented_fill_refuted.
Print Assumptions C56_reserved_name_refuted.
Print Assumptions C56_reassign_columns_refuted.
