(** Proofs about pictures of dataflows. *)
From Verif Require Import Base Dict Strings GraphModel TaggingModel TaggingProofs ValidatorSpec ValidatorProofs DrawModel DrawSpec.

Lemma length_append (s t : string) : String.length (s ++ t) = String.length s + String.length t.
Proof. induction s as [|x s IH]; [done|]. rewrite append_cons. simpl. by rewrite IH. Qed.
Lemma append_inj_r (a b c : string) : (a ++ c)%string = (b ++ c)%string -> a = b.
Proof.
  revert b. induction a as [|x a IH]; intros [|y b] H; [done| | |].
  - apply (f_equal String.length) in H. rewrite !length_append in H. simpl in H. lia.
  - apply (f_equal String.length) in H. rewrite !length_append in H. simpl in H. lia.
  - rewrite !append_cons in H. injection H as -> H. f_equal. by apply IH.
Qed.
(** ** Reading statements *)
Lemma label_of_app a b x : label_of (a ++ b) x = match label_of b x with Some l => Some l | None => label_of a x end.
Proof. induction a as [|[c y l st|? ? ?] a IH]; cbn [app label_of]; [by destruct (label_of b x)| |done]. rewrite IH. by destruct (label_of b x). Qed.
Lemma attr_of_app a b x k : attr_of (a ++ b) x k = match attr_of b x k with Some l => Some l | None => attr_of a x k end.
Proof. induction a as [|[c y l st|? ? ?] a IH]; cbn [app attr_of]; [by destruct (attr_of b x k)| |done]. rewrite IH. by destruct (attr_of b x k). Qed.
Definition declares (st : list stmt) (x : string) : Prop := exists c l sty, SNode c x l sty ∈ st.
Lemma label_of_none st x : ~ declares st x -> label_of st x = None.
Proof.
  induction st as [|[c y l sty|? ? ?] st IH]; intros H; cbn; [done| |].
  - rewrite IH; [|intros (c' & l' & s' & Hin); apply H; exists c', l', s'; by right]. rewrite decide_False; [done|]. intros ->. apply H. exists c, l, sty. left.
  - apply IH. intros (c' & l' & s' & Hin). apply H. exists c', l', s'. by right.
Qed.
Lemma attr_of_none st x k : ~ declares st x -> attr_of st x k = None.
Proof.
  induction st as [|[c y l sty|? ? ?] st IH]; intros H; cbn; [done| |].
  - rewrite IH; [|intros (c' & l' & s' & Hin); apply H; exists c', l', s'; by right]. rewrite decide_False; [done|]. intros ->. apply H. exists c, l, sty. left.
  - apply IH. intros (c' & l' & s' & Hin). apply H. exists c', l', s'. by right.
Qed.
Lemma declares_app a b x : declares (a ++ b) x <-> declares a x \/ declares b x.
Proof.
  unfold declares. split.
  - intros (c & l & s & [H|H]%elem_of_app); [left|right]; by exists c, l, s.
  - intros [(c & l & s & H)|(c & l & s & H)]; exists c, l, s; apply elem_of_app; [by left|by right].
Qed.
Lemma declares_concat (ls : list (list stmt)) x : declares (concat ls) x <-> exists l, l ∈ ls /\ declares l x.
Proof.
  unfold declares. setoid_rewrite elem_of_concat. naive_solver.
Qed.
Lemma arrows_app a b x : arrows (a ++ b) x = arrows a x ++ arrows b x.
Proof. apply omap_app. Qed.

Section Draw.
Variable g : graph.
Variable looks : name -> look.
Variable esc : string -> string.
Variable cols : string -> list string.
Variable custom : option (name -> string -> style * (string * string)).
Variable mod_of : name -> mods.
Variable strict legend hide_inputs dedup fields : bool.
Variable config : dict string.
Variable nodes : list name.
Hypothesis wf : wf_graph g.
Hypothesis known : forall x, x ∈ nodes -> is_Some (g !! x).
Hypothesis distinct : NoDup nodes.

Notation node_type := (node_type g looks).
Notation draw_node := (draw_node g looks esc cols custom mod_of fields).
Notation draw_edges := (draw_edges g looks mod_of strict hide_inputs dedup nodes).
Notation draw_all_edges := (draw_all_edges g looks mod_of strict hide_inputs dedup nodes).
Notation draw := (draw g looks esc cols custom mod_of strict legend hide_inputs dedup fields config nodes).
Notation present := (present g looks cols custom strict legend fields config nodes).
Notation a_function := (a_function g looks).
Notation inputs_of := (inputs_of g strict nodes).
Notation others_of := (others_of g strict nodes).

Lemma type_input x : node_type x = "input" <-> an_input g x.
Proof using g looks.
  unfold node_type, an_input. destruct (g !! x) as [nd|]; [|split; [done|by intros (? & ? & _)]].
  destruct (nd_ext nd) eqn:Ee; cbn.
  - destruct (bool_decide_reflect (nd_rdeps nd = [])) as [Hr|Hr]; cbn.
    + destruct (lk_orig (looks x)); cbn; (split; [done|]); by intros (nd' & [= <-] & _ & ?).
    + split; [|done]. intros _. by exists nd.
  - split; [done|]. intros (nd' & [= <-] & ? & _). congruence.
Qed.
Lemma type_config x : node_type x = "config" <-> a_setting g looks x.
Proof using g looks.
  unfold node_type, a_setting. destruct (g !! x) as [nd|]; [|split; [done|by intros (? & ? & _)]].
  destruct (nd_ext nd) eqn:Ee; cbn.
  - destruct (bool_decide_reflect (nd_rdeps nd = [])) as [Hr|Hr]; cbn.
    + destruct (lk_orig (looks x)) eqn:El; cbn; split; [done|by intros (nd' & [= <-] & _ & _ & ?)| |done]. intros _. by exists nd.
    + split; [done|]. by intros (nd' & [= <-] & _ & ? & _).
  - split; [done|]. intros (nd' & [= <-] & ? & _). congruence.
Qed.
Lemma type_cases x : node_type x = "input" \/ node_type x = "config" \/ node_type x = "function".
Proof using g looks. unfold node_type. destruct (g !! x) as [nd|]; [|by right; right]. destruct (nd_ext nd && _); [by left|]. destruct (_ && _); [by right; left|by right; right]. Qed.
Lemma type_function x : is_Some (g !! x) -> node_type x = "function" <-> a_function x.
Proof using g looks.
  intros Hx. unfold DrawSpec.a_function. rewrite <- type_input, <- type_config. destruct (type_cases x) as [-> |[-> | ->]].
  - split; [done|]. intros (_ & H & _). by destruct H.
  - split; [done|]. intros (_ & _ & H). by destruct H.
  - by split.
Qed.
Lemma edge_deps x d : edge g x d <-> d ∈ deps_of g x.
Proof using g. unfold edge, deps_of. destruct (g !! x) as [nd|]; [|split; [by intros (? & ? & _)|by intros ?%elem_of_nil]]. split; [by intros (nd' & [= <-] & ?)|]. intros H. by exists nd. Qed.
Lemma nodup_deps x : NoDup (deps_of g x).
Proof. unfold deps_of. destruct (g !! x) as [nd|] eqn:Ex; [by eapply wf_nodup|constructor]. Qed.

(** ** The statements of a node *)
Notation tag := (tag looks).
Notation is_saver := (is_saver looks).
Notation is_loader := (is_loader looks).
Notation has_schema := (has_schema looks fields).
Definition lab (x : name) : label :=
  if is_loader x then node_label esc x (tag x "hamilton.data_loader.classname")
  else if is_saver x then node_label esc x (tag x "hamilton.data_saver.classname")
  else if decide (tag x "hamilton.config" = "") then node_label esc x (lk_type (looks x)) else node_label esc (x ++ ": " ++ tag x "hamilton.config")%string (lk_type (looks x)).
Definition st_role (x : name) : style :=
  match lk_role (looks x) with
  | RExpand => dupdate (node_style "function") (modifier_style "expand")
  | RCollect => dupdate (node_style "function") (modifier_style "collect")
  | RStandard => node_style "function"
  end.
Definition st_saver (x : name) : style := if is_saver x then dupdate (st_role x) (modifier_style "materializer") else st_role x.
Definition st_loader (x : name) : style := if is_loader x then dupdate (st_saver x) (modifier_style "materializer") else st_saver x.
Definition st_custom (x : name) : style := match custom with Some f => dupdate (st_loader x) (f x "function").1 | None => st_loader x end.
Definition entry (x : name) : option ((string * string) * style) :=
  match custom with
  | Some f => if decide ((f x "function").2.2 = "") then None else Some ((f x "function").2, (f x "function").1)
  | None => None
  end.
Definition st_output (x : name) : style := if m_output (mod_of x) then dupdate (st_custom x) (modifier_style "output") else st_custom x.
Definition st_override (x : name) : style := if m_override (mod_of x) then dupdate (st_output x) (modifier_style "override") else st_output x.
Definition st_final (x : name) : style := if m_path (mod_of x) then dset (st_override x) "color" (default "red" (dget (st_override x) "color")) else st_override x.
Definition flds (x : name) : list stmt :=
  if has_schema x then map (fun c => SNode (Some ("cluster_" ++ x)%string) (x ++ ":" ++ c)%string (Some (LText c))
       (dupdate (st_final x) [("fillcolor", "#c8dae0"); ("fontname", "Courier"); ("fontsize", "10")])) (cols (tag x "hamilton.internal.schema_output"))
     ++ [SNode (Some ("cluster_" ++ x)%string) x None []] else [].
Definition seens (x : name) : list string :=
  (if decide (tag x "hamilton.config" = "") then [] else ["config"]) ++
  match lk_role (looks x) with RExpand => ["expand"] | RCollect => ["collect"] | RStandard => [] end ++
  (if is_saver x then ["materializer"] else []) ++ (if is_loader x then ["materializer"] else []) ++
  (if m_output (mod_of x) then ["output"] else []) ++ (if m_override (mod_of x) then ["override"] else []) ++
  (if has_schema x then ["cluster"; "field"] else []) ++ match entry x with None => ["function"] | Some _ => [] end.
Lemma draw_node_fun x : node_type x = "function" -> draw_node x = (SNode None x (Some (lab x)) (st_final x) :: flds x, seens x, entry x).
Proof.
  intros Ht. unfold draw_node. rewrite Ht. reflexivity.
Qed.
Lemma draw_node_other x : node_type x <> "function" -> (draw_node x).1.1 = [] /\ (draw_node x).2 = None /\ (draw_node x).1.2 = (if decide (node_type x = "input") then ["input"] else []).
Proof.
  intros Hf. unfold draw_node. destruct (decide (node_type x = "input")) as [E|E]; [done|]. destruct (decide (node_type x = "config")) as [E'|E']; [done|].
  destruct (type_cases x) as [?|[?|?]]; done.
Qed.

(** ** The edges *)
Definition ds (x : name) : list name := filter (fun d => ~ (strict = true /\ d ∉ nodes)) (deps_of g x).
Definition ins (x : name) : list name := filter (fun d => node_type d = "input") (ds x).
Definition rows (x : name) : list (name * string) := map (fun d => (d, lk_type (looks d))) (ins x).
Definition arrow_style (d x : name) : style :=
  let st := edge_style (bool_decide (lk_role (looks d) = RExpand)) (bool_decide (lk_role (looks x) = RCollect)) in
  if m_path (mod_of d) && m_path (mod_of x) then dset st "color" "red" else st.
Definition funs (x : name) : list name := filter (fun d => node_type d <> "input") (ds x).
Lemma elem_ds x d : d ∈ ds x <-> edge g x d /\ visible strict nodes d.
Proof using g looks strict nodes.
  unfold ds, visible. rewrite elem_of_list_filter, <- edge_deps. split; [|intros [He Hv]; split; [intros [Hs Hd]; by apply Hd, Hv|done]].
  intros [H ?]. split; [done|]. intros Hs. destruct (decide (d ∈ nodes)); [done|]. destruct H. done.
Qed.
Lemma elem_ins x d : d ∈ ins x <-> inputs_of x d.
Proof using g looks strict nodes. unfold ins, DrawSpec.inputs_of. rewrite elem_of_list_filter, elem_ds, type_input. split; [by intros (? & ? & ?)|by intros (? & ? & ?)]. Qed.
Lemma elem_funs x d : d ∈ funs x <-> others_of x d.
Proof using g looks strict nodes. unfold funs, DrawSpec.others_of. rewrite elem_of_list_filter, elem_ds, type_input. split; [by intros (? & ? & ?)|by intros (? & ? & ?)]. Qed.
Lemma nodup_funs x : NoDup (funs x).
Proof. unfold funs, ds. do 2 apply NoDup_filter. apply nodup_deps. Qed.
Lemma nodup_ins x : NoDup (ins x).
Proof. unfold ins, ds. do 2 apply NoDup_filter. apply nodup_deps. Qed.
Lemma table_inj x y : table_name x = table_name y -> x = y.
Proof. unfold table_name. intros H. injection H as H. by apply append_inj_r in H. Qed.

Lemma draw_edges_eq x sets : draw_edges x sets =
  (map (fun d => SEdge d x (arrow_style d x)) (funs x) ++
   (if hide_inputs then [] else match ins x with
     | [] => []
     | _ :: _ => match find_set (list_to_set (ins x)) sets with
                 | Some t => [SEdge t x []]
                 | None => [SNode None (table_name x) (Some (LTable (rows x))) (node_style "input"); SEdge (table_name x) x []]
                 end
     end),
   if hide_inputs then sets else match ins x with
     | [] => sets
     | _ :: _ => match find_set (list_to_set (ins x)) sets with
                 | Some t => sets
                 | None => if dedup then sets ++ [(list_to_set (ins x), table_name x)] else sets
                 end
     end).
Proof.
  unfold draw_edges. fold (ds x). fold (ins x). fold (funs x). destruct hide_inputs; [by rewrite app_nil_r|].
  unfold rows. destruct (ins x) as [|i l]; [by rewrite app_nil_r|]. destruct (find_set _ sets); done.
Qed.
Lemma arrows_edges_ne x y sets : x <> y -> arrows (draw_edges x sets).1 y = [].
Proof.
  intros Hne. rewrite draw_edges_eq. cbn [fst]. rewrite arrows_app.
  assert (H1 : arrows (map (fun d => SEdge d x (arrow_style d x)) (funs x)) y = []).
  { induction (funs x) as [|d l IH]; [done|]. unfold arrows. cbn. rewrite decide_False by done. exact IH. }
  rewrite H1. cbn [app]. destruct hide_inputs; [done|]. destruct (ins x); [done|]. destruct (find_set _ _); unfold arrows; cbn; by rewrite decide_False.
Qed.
Lemma arrows_edges_eq x sets : arrows (draw_edges x sets).1 x = map (fun d => (d, arrow_style d x)) (funs x) ++
  (if hide_inputs then [] else match ins x with [] => [] | _ :: _ => [(default (table_name x) (find_set (list_to_set (ins x)) sets), [])] end).
Proof.
  rewrite draw_edges_eq. cbn [fst]. rewrite arrows_app. f_equal.
  - induction (funs x) as [|d l IH]; [done|]. unfold arrows. cbn. rewrite decide_True by done. cbn. f_equal. exact IH.
  - destruct hide_inputs; [done|]. destruct (ins x); [done|]. destruct (find_set _ _); unfold arrows; cbn; by rewrite decide_True.
Qed.
Lemma declares_edges x sets n : declares (draw_edges x sets).1 n -> n = table_name x /\ ins x <> [] /\ hide_inputs = false.
Proof.
  rewrite draw_edges_eq. cbn [fst]. rewrite declares_app. intros [(c & l & st & H)|H].
  - by apply elem_of_list_fmap in H as (d & ? & _).
  - destruct hide_inputs; [by destruct H as (? & ? & ? & ?%elem_of_nil)|]. destruct (ins x); [by destruct H as (? & ? & ? & ?%elem_of_nil)|].
    destruct (find_set _ _); destruct H as (c & l' & st & H); repeat (apply elem_of_cons in H as [H|H]; [try done|]); try (by apply elem_of_nil in H). injection H as _ -> _ _. done.
Qed.
Fixpoint final_sets (todo : list name) (sets : list (gset name * string)) : list (gset name * string) :=
  match todo with [] => sets | x :: todo => final_sets todo (draw_edges x sets).2 end.
Lemma all_edges_cons x todo sets : draw_all_edges (x :: todo) sets = (draw_edges x sets).1 ++ draw_all_edges todo (draw_edges x sets).2.
Proof. cbn. by destruct (draw_edges x sets). Qed.
Lemma declares_all todo sets n : declares (draw_all_edges todo sets) n -> exists x, x ∈ todo /\ n = table_name x /\ ins x <> [] /\ hide_inputs = false.
Proof.
  revert sets. induction todo as [|x todo IH]; intros sets; [by intros (? & ? & ? & ?%elem_of_nil)|]. rewrite all_edges_cons, declares_app. intros [H|H].
  - apply declares_edges in H. exists x. split; [left|done].
  - apply IH in H as (y & Hy & H). exists y. split; [by right|done].
Qed.
Lemma arrows_all_none todo sets y : y ∉ todo -> arrows (draw_all_edges todo sets) y = [].
Proof.
  revert sets. induction todo as [|x todo IH]; intros sets Hy; [done|]. apply not_elem_of_cons in Hy as [Hne Hy]. rewrite all_edges_cons, arrows_app, arrows_edges_ne, IH by done. done.
Qed.
Lemma find_set_app s sets l t : find_set s sets = Some t -> find_set s (sets ++ l) = Some t.
Proof. induction sets as [|[s' t'] sets IH]; [done|]. cbn. by destruct (decide (s = s')). Qed.
Lemma find_set_snoc s sets t : find_set s sets = None -> find_set s (sets ++ [(s, t)]) = Some t.
Proof. induction sets as [|[s' t'] sets IH]; cbn; [by rewrite decide_True|]. by destruct (decide (s = s')). Qed.
Lemma find_set_snoc_ne s s' sets t : find_set s (sets ++ [(s', t)]) = match find_set s sets with Some t' => Some t' | None => if decide (s = s') then Some t else None end.
Proof. induction sets as [|[s0 t0] sets IH]; cbn; [done|]. by destruct (decide (s = s0)). Qed.
Lemma sets_mono x sets s t : find_set s sets = Some t -> find_set s (draw_edges x sets).2 = Some t.
Proof. intros H. rewrite draw_edges_eq. cbn [snd]. destruct hide_inputs; [done|]. destruct (ins x); [done|]. destruct (find_set (list_to_set _) sets); [done|]. destruct dedup; [by apply find_set_app|done]. Qed.
Lemma final_mono todo sets s t : find_set s sets = Some t -> find_set s (final_sets todo sets) = Some t.
Proof. revert sets. induction todo as [|x todo IH]; intros sets H; [done|]. cbn. by apply IH, sets_mono. Qed.

Definition sets_ok (P : list stmt) (pre : list name) (sets : list (gset name * string)) : Prop :=
  (dedup = false -> sets = []) /\
  forall s t, find_set s sets = Some t -> exists y, y ∈ pre /\ t = table_name y /\ label_of P t = Some (LTable (rows y)) /\ s = list_to_set (ins y) /\ ins y <> [].
Definition arrows_ok (S : list stmt) (fin : list (gset name * string)) (x : name) : Prop :=
  exists t, arrows S x = map (fun d => (d, arrow_style d x)) (funs x) ++ (if hide_inputs then [] else match ins x with [] => [] | _ :: _ => [(t, [])] end) /\
    (hide_inputs = false -> ins x <> [] -> exists y, y ∈ nodes /\ t = table_name y /\ ins y <> [] /\ label_of S t = Some (LTable (rows y)) /\ (list_to_set (ins y) : gset name) = list_to_set (ins x) /\
       (dedup = false -> y = x) /\ (dedup = true -> find_set (list_to_set (ins x)) fin = Some t)).
Lemma edges_spec todo pre P sets : nodes = pre ++ todo -> (forall x, x ∈ todo -> arrows P x = []) -> sets_ok P pre sets ->
  forall x, x ∈ todo -> arrows_ok (P ++ draw_all_edges todo sets) (final_sets todo sets) x.
Proof.
  assert (Hnew : forall x sets, hide_inputs = false -> ins x <> [] -> find_set (list_to_set (ins x)) sets = None -> label_of (draw_edges x sets).1 (table_name x) = Some (LTable (rows x))).
  { clear sets. intros x sets Hh Hi Ef. rewrite draw_edges_eq. cbn [fst]. rewrite Hh, Ef. destruct (ins x) as [|i l] eqn:Ei; [done|]. rewrite label_of_app. cbn. by rewrite decide_True. }
  revert pre P sets. induction todo as [|x todo IH]; intros pre P sets Hn HP Hs; [by intros x ?%elem_of_nil|].
  assert (Hnd : NoDup (pre ++ x :: todo)) by by rewrite <- Hn. apply NoDup_app in Hnd as (Hnd1 & Hdis & Hnd2). apply NoDup_cons in Hnd2 as [Hx Hnd2].
  rewrite all_edges_cons. cbn [final_sets]. set (stm := (draw_edges x sets).1). set (sets' := (draw_edges x sets).2). rewrite (assoc_L (++)).
  assert (Hlab : forall y l, y ∉ todo -> label_of (P ++ stm) (table_name y) = Some l -> label_of ((P ++ stm) ++ draw_all_edges todo sets') (table_name y) = Some l).
  { intros y l Hy Hl. rewrite label_of_app, label_of_none; [done|]. intros (z & Hz & ->%table_inj & _)%declares_all. done. }
  assert (Hold : forall y l, y ∈ pre -> label_of P (table_name y) = Some l -> label_of (P ++ stm) (table_name y) = Some l).
  { intros y l Hy Hl. rewrite label_of_app, label_of_none; [done|]. intros (->%table_inj & _)%declares_edges. apply (Hdis x); [done|left]. }
  intros y [-> |Hy]%elem_of_cons.
  - exists (default (table_name x) (find_set (list_to_set (ins x)) sets)). split.
    + rewrite !arrows_app. rewrite HP by left. rewrite arrows_all_none by done. unfold stm. rewrite arrows_edges_eq. cbn [app]. by rewrite app_nil_r.
    + intros Hh Hi. destruct (find_set (list_to_set (ins x)) sets) as [t|] eqn:Ef; cbn [default].
      * destruct (proj2 Hs _ _ Ef) as (z & Hz & -> & Hl & Hset & Hne). exists z. split; [rewrite Hn; apply elem_of_app; by left|]. split; [done|]. split; [done|]. split; [|split; [done|split]].
        -- apply Hlab; [|by apply Hold]. intros Hz'. apply (Hdis z); [done|by right].
        -- intros Hd. rewrite (proj1 Hs Hd) in Ef. done.
        -- intros _. by apply final_mono, sets_mono.
      * exists x. split; [rewrite Hn; apply elem_of_app; right; left|]. split; [done|]. split; [done|]. split; [|split; [done|split; [done|]]].
        -- apply Hlab; [done|]. rewrite label_of_app. unfold stm. by rewrite Hnew.
        -- intros Hd. apply final_mono. unfold sets'. rewrite draw_edges_eq. cbn [snd]. rewrite Hh, Ef, Hd. destruct (ins x) as [|i l] eqn:Ei; [done|]. by apply find_set_snoc.
  - refine (IH (pre ++ [x]) (P ++ stm) sets' _ _ _ y Hy).
    + by rewrite <- (assoc_L (++)).
    + intros z Hz. rewrite arrows_app, HP by by right. unfold stm. rewrite arrows_edges_ne; [done|]. by intros ->.
    + split.
      * intros Hd. unfold sets'. rewrite draw_edges_eq. cbn [snd]. rewrite Hd, (proj1 Hs Hd). destruct hide_inputs; [done|]. destruct (ins x); [done|]. done.
      * intros s t Hf. unfold sets' in Hf. rewrite draw_edges_eq in Hf. cbn [snd] in Hf.
        assert (Hgo : find_set s sets = Some t -> exists y, y ∈ pre ++ [x] /\ t = table_name y /\ label_of (P ++ stm) t = Some (LTable (rows y)) /\ s = list_to_set (ins y) /\ ins y <> []).
        { intros H. destruct (proj2 Hs _ _ H) as (z & Hz & -> & Hl & Hset & Hne). exists z. split; [apply elem_of_app; by left|]. split; [done|]. split; [by apply Hold|done]. }
        destruct (bool_dec hide_inputs true) as [Hh|Hh%not_true_is_false]; rewrite Hh in Hf; [by apply Hgo|]. destruct (ins x) as [|i l] eqn:Ei; [by apply Hgo|]. destruct (find_set (list_to_set (i :: l)) sets) as [t'|] eqn:Ef; [by apply Hgo|].
        destruct dedup; [|by apply Hgo]. rewrite find_set_snoc_ne in Hf. destruct (find_set s sets) eqn:Es; [by apply Hgo|]. destruct (decide (s = list_to_set (i :: l))) as [->|]; [|done]. injection Hf as <-.
        exists x. split; [apply elem_of_app; right; left|]. split; [done|]. split; [|split; [by rewrite Ei|by rewrite Ei]].
        rewrite label_of_app. unfold stm. rewrite Hnew; [done|done|by rewrite Ei|by rewrite Ei].
Qed.

(** ** The whole picture *)
Definition cfgs : list stmt := map (fun kv : string * string => SNode None kv.1 (Some (node_label esc kv.1 kv.2)) (node_style "config")) config.
Definition body : list stmt := concat (map (fun d => d.1.1) (map draw_node nodes)).
Definition leg : list stmt := if legend then draw_legend (concat (map (fun d => d.1.2) (map draw_node nodes))) (foldl (fun es d => match d.2 with Some e => add_entry e es | None => es end) [] (map draw_node nodes)) else [].
Lemma draw_eq : draw = cfgs ++ body ++ draw_all_edges nodes [] ++ leg.
Proof. reflexivity. Qed.

Lemma tag_some x k s : s <> "" -> tag x k = s <-> dget (lk_tags (looks x)) k = Some s.
Proof. intros Hs. unfold DrawModel.tag. destruct (dget _ k); cbn; split; [by intros ->|by intros [= ->]|intros <-; done|done]. Qed.
Lemma tag_has x k : tag x k <> "" <-> has_tag looks x k.
Proof.
  unfold has_tag. split.
  - intros H. exists (tag x k). split; [|done]. by apply tag_some.
  - intros (s & Hs & Hne). by apply tag_some in Hs as ->.
Qed.
Lemma saver_iff x : is_saver x = true <-> saver looks x.
Proof. unfold DrawModel.is_saver, saver. rewrite <- tag_has, negb_true_iff, bool_decide_eq_false. done. Qed.
Lemma loader_iff x : is_loader x = true <-> loader looks x.
Proof.
  unfold DrawModel.is_loader, loader. rewrite <- tag_has, andb_true_iff, negb_true_iff, bool_decide_eq_false, orb_true_iff, bool_decide_eq_true, contains_iff.
  rewrite (tag_some x "hamilton.data_loader.source" "loader") by done. done.
Qed.
Lemma schema_iff x : has_schema x = true <-> has_tag looks x "hamilton.internal.schema_output" /\ fields = true.
Proof. unfold DrawModel.has_schema. rewrite <- tag_has, andb_true_iff, negb_true_iff, bool_decide_eq_false. done. Qed.

Lemma cfgs_declares n : declares cfgs n -> present (TConfig n).
Proof. intros (c & l & sty & H). apply elem_of_list_fmap in H as ([k v] & [= -> -> -> ->] & Hin). cbn. apply elem_of_list_fmap. by exists (k, v). Qed.
Lemma flds_declares x n : x ∈ nodes -> a_function x -> declares (flds x) n -> n = x \/ exists c, n = name_of (TField x c) /\ present (TField x c).
Proof.
  intros Hx Hf. unfold flds. destruct (has_schema x) eqn:Es; [|by intros (? & ? & ? & ?%elem_of_nil)].
  intros (c & l & sty & [H|H]%elem_of_app).
  - apply elem_of_list_fmap in H as (c' & [= -> -> -> ->] & Hc). right. exists c'. split; [done|]. cbn. split; [done|]. split; [done|].
    apply schema_iff in Es as [(s & Hs & Hne) Hfl]. split; [done|]. exists s. split; [done|]. split; [done|]. by apply tag_some in Hs as <-.
  - left. apply elem_of_list_singleton in H. by injection H.
Qed.
Lemma node_declares x n : x ∈ nodes -> declares (draw_node x).1.1 n -> a_function x /\ (n = x \/ exists c, n = name_of (TField x c) /\ present (TField x c)).
Proof.
  intros Hx. destruct (decide (node_type x = "function")) as [Ht|Ht].
  - rewrite draw_node_fun by done. cbn [fst]. apply type_function in Ht; [|by apply known]. intros (c & l & sty & H). split; [done|].
    apply elem_of_cons in H as [[= -> -> -> ->]|H]; [by left|]. apply flds_declares; [done|done|by exists c, l, sty].
  - destruct (draw_node_other x Ht) as (-> & _). by intros (? & ? & ? & ?%elem_of_nil).
Qed.
Lemma body_declares n : declares body n -> exists x, x ∈ nodes /\ a_function x /\ (n = x \/ exists c, n = name_of (TField x c) /\ present (TField x c)).
Proof.
  unfold body. rewrite declares_concat. intros (l & Hl & Hd). apply elem_of_list_fmap in Hl as (d & -> & Hd'). apply elem_of_list_fmap in Hd' as (x & -> & Hx).
  exists x. split; [done|]. by apply node_declares.
Qed.
Lemma edges_declares n : declares (draw_all_edges nodes []) n -> exists x, n = name_of (TTable x) /\ present (TTable x).
Proof.
  intros (x & Hx & -> & Hi & _)%declares_all. exists x. split; [done|]. cbn. split; [done|]. destruct (ins x) as [|d l] eqn:E; [done|]. exists d. apply elem_ins. rewrite E. left.
Qed.
Definition entries := foldl (fun es d => match d.2 with Some e => add_entry e es | None => es end) [] (map draw_node nodes).
Lemma add_entry_in e es e' : e' ∈ add_entry e es -> e'.1 = e.1 \/ e' ∈ es.
Proof.
  induction es as [|e0 es IH]; cbn.
  - intros ->%elem_of_list_singleton. by left.
  - destruct (decide (e.1 = e0.1)) as [E|E].
    + intros [-> |H]%elem_of_cons; [by left|]. right. by right.
    + intros [-> |H]%elem_of_cons; [right; left|]. apply IH in H as [H|H]; [by left|right; by right].
Qed.
Lemma entries_in (l : list (list stmt * list string * option ((string * string) * style))) es e :
  e ∈ foldl (fun es d => match d.2 with Some e => add_entry e es | None => es end) es l -> e ∈ es \/ exists d e', d ∈ l /\ d.2 = Some e' /\ e'.1 = e.1.
Proof.
  revert es. induction l as [|d l IH]; intros es; cbn; [by left|]. intros H. apply IH in H as [H|(d' & e' & Hin & Hd & He)].
  - destruct (d.2) as [e0|] eqn:Ed; [|by left]. apply add_entry_in in H as [H|H]; [|by left]. right. exists d, e0. split; [left|]. by split.
  - right. exists d', e'. split; [by right|by split].
Qed.
Lemma leg_declares n : declares leg n -> present (TLegend n).
Proof.
  unfold leg. destruct legend eqn:El; [|by intros (? & ? & ? & ?%elem_of_nil)]. intros (c & l & sty & H). cbn. split; [done|].
  unfold draw_legend in H. apply elem_of_app in H as [H|H]; apply elem_of_list_fmap in H as (e & [= -> -> -> ->] & He).
  - left. apply elem_of_list_filter in He as [_ He]. exact He.
  - right. apply entries_in in He as [He|(d & e' & Hd & He' & Heq)]; [by apply elem_of_nil in He|]. apply elem_of_list_fmap in Hd as (x & -> & Hx).
    destruct (decide (node_type x = "function")) as [Ht|Ht]; [|destruct (draw_node_other x Ht) as (_ & E & _); congruence].
    rewrite draw_node_fun in He' by done. cbn [snd] in He'. unfold entry in He'. destruct custom as [f|]; [|done].
    destruct (decide ((f x "function").2.2 = "")) as [|Hne]; [done|]. injection He' as <-. cbn in Heq.
    exists f, x, "function", (f x "function").1, (f x "function").2.1. split; [done|]. split; [done|]. rewrite <- Heq. split; [|done]. by destruct (f x "function") as [? [? ?]].
Qed.
Lemma name_fun x : x = name_of (TFun x). Proof. done. Qed.

Section Clean.
Hypothesis Hclean : clean g looks cols custom strict legend fields config nodes.
Notation is_clean := Hclean.
Lemma fun_not_edges x : present (TFun x) -> ~ declares (draw_all_edges nodes []) x.
Proof. intros Hp (y & Hn & Hy)%edges_declares. by specialize (Hclean _ _ Hp Hy Hn). Qed.
Lemma fun_not_leg x : present (TFun x) -> ~ declares leg x.
Proof. intros Hp Hy%leg_declares. by specialize (Hclean (TFun x) (TLegend x) Hp Hy eq_refl). Qed.
Lemma table_not_leg x : present (TTable x) -> ~ declares leg (table_name x).
Proof. intros Hp Hy%leg_declares. by specialize (Hclean (TTable x) (TLegend (table_name x)) Hp Hy eq_refl). Qed.
Lemma label_fields x (fs : list stmt) : ~ (exists c l sty, SNode c x (Some l) sty ∈ fs) -> label_of fs x = None.
Proof.
  induction fs as [|[c y l sty|? ? ?] fs IH]; intros H; cbn; [done| |].
  - rewrite IH; [|intros (c' & l' & s' & Hin); apply H; exists c', l', s'; by right]. destruct (decide (y = x)) as [->|]; [|done]. destruct l as [l|]; [|done]. destruct H. exists c, l, sty. left.
  - apply IH. intros (c' & l' & s' & Hin). apply H. exists c', l', s'. by right.
Qed.
Lemma attr_fields x k (fs : list stmt) : ~ (exists c l sty v, SNode c x l sty ∈ fs /\ dget sty k = Some v) -> attr_of fs x k = None.
Proof.
  induction fs as [|[c y l sty|? ? ?] fs IH]; intros H; cbn; [done| |].
  - rewrite IH; [|intros (c' & l' & s' & v & Hin & Hv); apply H; exists c', l', s', v; split; [by right|done]]. destruct (decide (y = x)) as [->|]; [|done]. destruct (dget sty k) as [v|] eqn:E; [|done]. destruct H. exists c, l, sty, v. split; [left|done].
  - apply IH. intros (c' & l' & s' & v & Hin & Hv). apply H. exists c', l', s', v. split; [by right|done].
Qed.
Lemma flds_own x c l sty : x ∈ nodes -> a_function x -> SNode c x l sty ∈ flds x -> l = None /\ sty = [].
Proof.
  intros Hx Hf H. assert (Hp : present (TFun x)) by (by left; split).
  unfold flds in H. destruct (has_schema x) eqn:Es; [|by apply elem_of_nil in H]. apply elem_of_app in H as [H|H].
  - exfalso. apply elem_of_list_fmap in H as (c' & [= -> Hn -> ->] & Hc).
    assert (Hp' : present (TField x c')). { cbn. split; [done|]. split; [done|]. apply schema_iff in Es as [(s & Hs & Hne) Hfl]. split; [done|]. exists s. split; [done|]. split; [done|]. by apply tag_some in Hs as <-. }
    by specialize (Hclean (TFun x) (TField x c') Hp Hp' Hn).
  - apply elem_of_list_singleton in H. injection H as _ -> ->. done.
Qed.
Lemma body_rest x (l : list name) : x ∉ l -> (forall y, y ∈ l -> y ∈ nodes) -> present (TFun x) -> ~ declares (concat (map (fun d => d.1.1) (map draw_node l))) x.
Proof.
  intros Hx Hl Hp Hd. apply declares_concat in Hd as (s & Hs & Hd). apply elem_of_list_fmap in Hs as (d & -> & Hd'). apply elem_of_list_fmap in Hd' as (y & -> & Hy).
  apply node_declares in Hd as [Hf [-> |(c & Hn & Hc)]]; [done| |by apply Hl]. by specialize (Hclean _ _ Hp Hc Hn).
Qed.
Lemma own_label x : x ∈ nodes -> a_function x -> label_of draw x = Some (lab x).
Proof.
  intros Hx Hf. assert (Hp : present (TFun x)) by (by left; split). rewrite draw_eq, !label_of_app.
  rewrite (label_of_none leg) by by apply fun_not_leg. rewrite (label_of_none (draw_all_edges nodes [])) by by apply fun_not_edges.
  enough (label_of body x = Some (lab x)) as -> by done. unfold body. pose proof Hx as Hx'. apply elem_of_list_split in Hx' as (l1 & l2 & Hn).
  rewrite Hn, !map_app, concat_app, label_of_app. cbn [map concat]. rewrite label_of_app.
  assert (Hnd : NoDup (l1 ++ x :: l2)) by by rewrite <- Hn. apply NoDup_app in Hnd as (_ & _ & [Hx2 _]%NoDup_cons).
  rewrite (label_of_none (concat (map _ (map draw_node l2)))); [|apply body_rest; [done| |done]; intros y Hy; rewrite Hn; apply elem_of_app; right; by right].
  rewrite draw_node_fun; [|apply type_function; [by apply known|done]]. cbn [fst label_of]. rewrite label_fields; [by rewrite decide_True|].
  intros (c & l & sty & H). by apply flds_own in H as [? ?].
Qed.
Lemma own_attr x k : x ∈ nodes -> a_function x -> attr_of draw x k = dget (st_final x) k.
Proof.
  intros Hx Hf. assert (Hp : present (TFun x)) by (by left; split). rewrite draw_eq, !attr_of_app.
  rewrite (attr_of_none leg) by by apply fun_not_leg. rewrite (attr_of_none (draw_all_edges nodes [])) by by apply fun_not_edges.
  rewrite (attr_of_none cfgs) by (intros Hc%cfgs_declares; by specialize (Hclean (TFun x) (TConfig x) Hp Hc eq_refl)).
  enough (attr_of body x k = dget (st_final x) k) as -> by (by destruct (dget (st_final x) k)). unfold body. pose proof Hx as Hx'. apply elem_of_list_split in Hx' as (l1 & l2 & Hn).
  rewrite Hn, !map_app, concat_app, attr_of_app. cbn [map concat]. rewrite attr_of_app.
  assert (Hnd : NoDup (l1 ++ x :: l2)) by by rewrite <- Hn. apply NoDup_app in Hnd as (_ & Hx1 & [Hx2 _]%NoDup_cons).
  rewrite (attr_of_none (concat (map _ (map draw_node l2)))); [|apply body_rest; [done| |done]; intros y Hy; rewrite Hn; apply elem_of_app; right; by right].
  rewrite (attr_of_none (concat (map _ (map draw_node l1)))); [|apply body_rest; [| |done]; [intros ?; apply (Hx1 x); [done|left]|intros y Hy; rewrite Hn; apply elem_of_app; by left]].
  rewrite draw_node_fun; [|apply type_function; [by apply known|done]]. cbn [fst attr_of]. rewrite attr_fields; [rewrite decide_True by done; by destruct (dget (st_final x) k)|].
  intros (c & l & sty & v & H & Hv). apply flds_own in H as [_ ->]; done.
Qed.

(** ** Arrows *)
Lemma no_arrows (st : list stmt) x : (forall a b sty, SEdge a b sty ∉ st) -> arrows st x = [].
Proof.
  induction st as [|[c y l sty|a b sty] st IH]; intros H; [done| |].
  - apply IH. intros a b sty' Hin. apply (H a b sty'). by right.
  - exfalso. apply (H a b sty). left.
Qed.
End Clean.
Lemma cfgs_no a b sty : SEdge a b sty ∉ cfgs.
Proof. intros (? & ? & _)%elem_of_list_fmap. done. Qed.
Lemma body_no a b sty : SEdge a b sty ∉ body.
Proof.
  unfold body. intros H. apply elem_of_concat in H as (l & Hin & Hl). apply elem_of_list_fmap in Hl as (d & -> & Hd). apply elem_of_list_fmap in Hd as (x & -> & Hx).
  destruct (decide (node_type x = "function")) as [Ht|Ht]; [|destruct (draw_node_other x Ht) as (E & _); rewrite E in Hin; by apply elem_of_nil in Hin].
  rewrite draw_node_fun in Hin by done. cbn [fst] in Hin. apply elem_of_cons in Hin as [|Hin]; [done|]. unfold flds in Hin. destruct (has_schema x); [|by apply elem_of_nil in Hin].
  apply elem_of_app in Hin as [(? & ? & _)%elem_of_list_fmap|Hin]; [done|]. by apply elem_of_list_singleton in Hin.
Qed.
Lemma leg_no a b sty : SEdge a b sty ∉ leg.
Proof.
  unfold leg. destruct legend; [|by intros ?%elem_of_nil]. unfold draw_legend. intros [(? & ? & _)%elem_of_list_fmap|(? & ? & _)%elem_of_list_fmap]%elem_of_app; done.
Qed.
Definition upto : list stmt := (cfgs ++ body) ++ draw_all_edges nodes [].
Lemma draw_upto : draw = upto ++ leg.
Proof. rewrite draw_eq. unfold upto. by rewrite <- !(assoc_L (++)). Qed.
Lemma arrows_upto x : arrows draw x = arrows upto x.
Proof. rewrite draw_upto, arrows_app, (no_arrows leg), app_nil_r; [done|apply leg_no]. Qed.
Lemma all_ok x : x ∈ nodes -> arrows_ok upto (final_sets nodes []) x.
Proof.
  intros Hx. unfold upto. refine (edges_spec nodes [] (cfgs ++ body) [] eq_refl _ _ x Hx).
  - intros y _. apply no_arrows. intros a b sty [H|H]%elem_of_app; [by apply cfgs_no in H|by apply body_no in H].
  - split; [done|]. intros s t H. done.
Qed.
Lemma arrows_other x : x ∉ nodes -> arrows draw x = [].
Proof.
  intros Hx. rewrite arrows_upto. unfold upto. rewrite arrows_app, arrows_all_none by done. rewrite app_nil_r. apply no_arrows. intros a b sty [H|H]%elem_of_app; [by apply cfgs_no in H|by apply body_no in H].
Qed.
Lemma arrow_elem (st : list stmt) x a sty : (a, sty) ∈ arrows st x <-> SEdge a x sty ∈ st.
Proof.
  unfold arrows. rewrite elem_of_list_omap. split.
  - intros ([c y l s|a' b s] & Hin & He); [done|]. destruct (decide (b = x)) as [->|]; [|done]. by injection He as -> ->.
  - intros H. exists (SEdge a x sty). split; [done|]. by rewrite decide_True.
Qed.
Lemma source_function x d : edge g x d -> a_function x.
Proof.
  intros (nd & Hx & Hd). split; [by exists nd|]. split.
  - intros (nd' & Hx' & He & _). rewrite Hx in Hx'. injection Hx' as <-. unfold dep_names in Hd. rewrite (wf_ext _ wf _ _ Hx He) in Hd. by apply elem_of_nil in Hd.
  - intros (nd' & Hx' & He & _). rewrite Hx in Hx'. injection Hx' as <-. unfold dep_names in Hd. rewrite (wf_ext _ wf _ _ Hx He) in Hd. by apply elem_of_nil in Hd.
Qed.
Lemma ins_nonempty x : ins x <> [] <-> exists d, inputs_of x d.
Proof using g looks strict nodes.
  split.
  - destruct (ins x) as [|d l] eqn:E; [done|]. intros _. exists d. apply elem_ins. rewrite E. left.
  - intros (d & Hd%elem_ins) E. rewrite E in Hd. by apply elem_of_nil in Hd.
Qed.
(** ** Everything shown is something *)
Lemma shown_present n : shown draw n -> exists t, present t /\ name_of t = n.
Proof.
  intros (s & Hs & Hn).
  assert (Hdec : declares draw n -> exists t, present t /\ name_of t = n).
  { rewrite draw_eq, !declares_app. intros [H|[H|[H|H]]].
    - exists (TConfig n). split; [by apply cfgs_declares|done].
    - apply body_declares in H as (x & Hx & Hf & [-> |(c & -> & Hc)]); [exists (TFun x); split; [by left|done]|by exists (TField x c)].
    - apply edges_declares in H as (x & -> & Hp). by exists (TTable x).
    - exists (TLegend n). split; [by apply leg_declares|done]. }
  destruct s as [c y l sty|a b sty]; [subst y; apply Hdec; by exists c, l, sty|].
  apply arrow_elem in Hs. destruct (decide (b ∈ nodes)) as [Hb|Hb]; [|rewrite arrows_other in Hs by done; by apply elem_of_nil in Hs].
  rewrite arrows_upto in Hs. destruct (all_ok b Hb) as (t & Ha & Ht). rewrite Ha in Hs. apply elem_of_app in Hs as [Hs|Hs].
  - apply elem_of_list_fmap in Hs as (d & [= -> ->] & Hd%elem_funs). destruct Hn as [-> | ->].
    + exists (TFun d). split; [|done]. right. by exists b.
    + exists (TFun b). split; [|done]. left. split; [done|]. apply (source_function _ d). apply Hd.
  - destruct (bool_dec hide_inputs true) as [Hh|Hh%not_true_is_false]; rewrite Hh in Hs; [by apply elem_of_nil in Hs|]. destruct (ins b) as [|i l] eqn:Ei; [by apply elem_of_nil in Hs|].
    apply elem_of_list_singleton in Hs. injection Hs as -> ->. destruct Ht as (y & Hy & -> & Hi & _); [done|done|]. destruct Hn as [-> | ->].
    + exists (TTable y). split; [|done]. cbn. split; [done|]. by apply ins_nonempty.
    + exists (TFun b). split; [|done]. left. split; [done|]. apply (source_function _ i). assert (Hin : i ∈ ins b) by (rewrite Ei; left). by apply elem_ins in Hin as (? & _).
Qed.
(** ** Tables *)
Lemma label_in (st : list stmt) x l : label_of st x = Some l -> exists c sty, SNode c x (Some l) sty ∈ st.
Proof.
  induction st as [|[c y l' sty|? ? ?] st IH]; cbn; [done| |].
  - destruct (label_of st x) as [l0|].
    + intros [= ->]. destruct IH as (c' & s' & H); [done|]. exists c', s'. by right.
    + destruct (decide (y = x)) as [->|]; [|done]. intros ->. exists c, sty. left.
  - intros H. destruct IH as (c' & s' & H'); [done|]. exists c', s'. by right.
Qed.
Lemma table_label n rs : label_of draw n = Some (LTable rs) -> exists y, n = name_of (TTable y) /\ present (TTable y).
Proof.
  intros (c & sty & H)%label_in. rewrite draw_eq in H. rewrite !elem_of_app in H. destruct H as [H|[H|[H|H]]].
  - by apply elem_of_list_fmap in H as (? & ? & _).
  - exfalso. unfold body in H. apply elem_of_concat in H as (l & Hin & Hl). apply elem_of_list_fmap in Hl as (d & -> & Hd). apply elem_of_list_fmap in Hd as (x & -> & Hx).
    destruct (decide (node_type x = "function")) as [Ht|Ht]; [|destruct (draw_node_other x Ht) as (E & _); rewrite E in Hin; by apply elem_of_nil in Hin].
    rewrite draw_node_fun in Hin by done. cbn [fst] in Hin. apply elem_of_cons in Hin as [E|Hin].
    { unfold lab in E. unfold node_label in E. destruct (is_loader x); [done|]. destruct (is_saver x); [done|]. by destruct (decide _). }
    unfold flds in Hin. destruct (has_schema x); [|by apply elem_of_nil in Hin].
    apply elem_of_app in Hin as [(? & ? & _)%elem_of_list_fmap|Hin]; [done|]. by apply elem_of_list_singleton in Hin.
  - apply edges_declares. by exists c, (Some (LTable rs)), sty.
  - exfalso. unfold leg in H. destruct legend; [|by apply elem_of_nil in H]. unfold draw_legend in H. apply elem_of_app in H as [(? & ? & _)%elem_of_list_fmap|(? & ? & _)%elem_of_list_fmap]; done.
Qed.
Lemma table_of x t : clean g looks cols custom strict legend fields config nodes -> x ∈ nodes -> table_into draw x t ->
  hide_inputs = false /\ ins x <> [] /\ arrows draw x = map (fun d => (d, arrow_style d x)) (funs x) ++ [(t, [])] /\
  exists y, y ∈ nodes /\ t = table_name y /\ label_of draw t = Some (LTable (rows y)) /\ (list_to_set (ins y) : gset name) = list_to_set (ins x) /\
       (dedup = false -> y = x) /\ (dedup = true -> find_set (list_to_set (ins x)) (final_sets nodes []) = Some t).
Proof.
  intros Hclean Hx [(sty & Hs) (rs & Hrs)]. destruct (all_ok x Hx) as (t' & Ha & Ht). rewrite <- arrows_upto in Ha. rewrite Ha in Hs.
  apply table_label in Hrs as (z & Hz & Hpz). apply elem_of_app in Hs as [Hs|Hs].
  - exfalso. apply elem_of_list_fmap in Hs as (d & [= -> ->] & Hd%elem_funs). assert (Hp : present (TFun d)) by (right; by exists x). by specialize (Hclean _ _ Hp Hpz Hz).
  - destruct (bool_dec hide_inputs true) as [Hh|Hh%not_true_is_false]; rewrite Hh in Hs; [by apply elem_of_nil in Hs|]. destruct (ins x) as [|i l] eqn:Ei; [by apply elem_of_nil in Hs|].
    apply elem_of_list_singleton in Hs. injection Hs as -> ->. destruct Ht as (y & Hy & -> & Hi & Hl & Hset & Hd1 & Hd2); [done|done|].
    split; [done|]. split; [done|]. split; [etrans; [exact Ha|]; by rewrite Hh|]. exists y. split; [done|]. split; [done|]. split; [|done]. rewrite draw_upto, label_of_app, label_of_none; [done|].
    apply table_not_leg; [done|]. cbn. split; [done|]. by apply ins_nonempty.
Qed.
Lemma table_exists x : clean g looks cols custom strict legend fields config nodes -> x ∈ nodes -> hide_inputs = false -> ins x <> [] -> exists t, table_into draw x t.
Proof.
  intros Hclean Hx Hh Hi. destruct (all_ok x Hx) as (t & Ha & Ht). rewrite <- arrows_upto in Ha. destruct Ht as (y & Hy & -> & Hiy & Hl & _); [done|done|]. exists (table_name y). split.
  - exists []. rewrite Ha. apply elem_of_app. right. rewrite Hh. destruct (ins x); [done|]. left.
  - exists (rows y). rewrite draw_upto, label_of_app, label_of_none; [done|]. apply table_not_leg; [done|]. cbn. split; [done|]. by apply ins_nonempty.
Qed.
(** ** Styles *)
Lemma st_final_get x k : (forall f, custom = Some f -> NoDup (dkeys (f x "function").1)) ->
  dget (st_final x) k =
    if decide (k = "fillcolor" /\ m_output (mod_of x) = true) then Some "#FFC857"
    else if decide (k = "style" /\ m_override (mod_of x) = true) then Some "filled,diagonals"
    else match chosen custom x k with
         | Some v => Some v
         | None => match dget (st_loader x) k with
                   | Some v => Some v
                   | None => if decide (k = "color" /\ m_path (mod_of x) = true) then Some "red" else None
                   end
         end.
Proof.
  intros Hnd.
  assert (H1 : dget (st_custom x) k = match chosen custom x k with Some v => Some v | None => dget (st_loader x) k end).
  { unfold st_custom, chosen. destruct custom as [f|]; [|done]. by rewrite dget_dupdate by by apply Hnd. }
  assert (H2 : dget (st_output x) k = if decide (k = "fillcolor" /\ m_output (mod_of x) = true) then Some "#FFC857" else dget (st_custom x) k).
  { unfold st_output. destruct (m_output (mod_of x)); [|by rewrite decide_False by naive_solver]. change (modifier_style "output") with [("fillcolor", "#FFC857")]. cbn [TaggingModel.dupdate foldl]. unfold TaggingModel.dupdate. cbn [foldl].
    destruct (decide (k = "fillcolor")) as [->|Hk]; [by rewrite decide_True, dget_dset_eq by done|]. rewrite decide_False by tauto. by rewrite dget_dset_ne by done. }
  assert (H3 : dget (st_override x) k = if decide (k = "style" /\ m_override (mod_of x) = true) then Some "filled,diagonals" else dget (st_output x) k).
  { unfold st_override. destruct (m_override (mod_of x)); [|by rewrite decide_False by naive_solver]. change (modifier_style "override") with [("style", "filled,diagonals")]. unfold TaggingModel.dupdate. cbn [foldl].
    destruct (decide (k = "style")) as [->|Hk]; [by rewrite decide_True, dget_dset_eq by done|]. rewrite decide_False by tauto. by rewrite dget_dset_ne by done. }
  assert (H4 : dget (st_final x) k = match dget (st_override x) k with Some v => Some v | None => if decide (k = "color" /\ m_path (mod_of x) = true) then Some "red" else None end).
  { unfold st_final. destruct (m_path (mod_of x)); [|rewrite decide_False by naive_solver; by destruct (dget (st_override x) k)].
    destruct (decide (k = "color")) as [->|Hk]; [rewrite decide_True, dget_dset_eq by done; by destruct (dget (st_override x) "color")|].
    rewrite dget_dset_ne by done. rewrite decide_False by tauto. by destruct (dget (st_override x) k). }
  rewrite H4, H3, H2, H1. destruct (decide (k = "style" /\ _)) as [[-> _]|]; [by rewrite decide_False by naive_solver|].
  destruct (decide (k = "fillcolor" /\ _)); [done|]. destruct (chosen custom x k); done.
Qed.
Lemma st_loader_get x :
  dget (st_loader x) "fillcolor" = Some "#b4d8e4" /\ dget (st_loader x) "style" = Some "rounded,filled" /\
  dget (st_loader x) "shape" = Some (if is_saver x || is_loader x then "cylinder" else "rectangle") /\
  dget (st_loader x) "color" = (match lk_role (looks x) with RExpand => Some "#56E39F" | RCollect => Some "#EA5556" | RStandard => None end) /\
  dget (st_loader x) "peripheries" = (match lk_role (looks x) with RStandard => None | _ => Some "2" end).
Proof. unfold st_loader, st_saver, st_role. destruct (is_loader x), (is_saver x), (lk_role (looks x)); repeat split; reflexivity. Qed.
Lemma cut_shorten s : cut s (shorten s).
Proof.
  unfold cut, shorten. destruct (decide (80 < String.length s)) as [H|H]; [right|left; split; [lia|done]].
  assert (Hsub : forall n s, n <= String.length s -> exists b, s = (substring 0 n s ++ b)%string /\ String.length (substring 0 n s) = n).
  { clear s H. induction n as [|n IH]; intros s Hn; [exists s; by destruct s|]. destruct s as [|c s]; [cbn in Hn; lia|]. cbn in Hn. destruct (IH s) as (b & Hb & Hl); [lia|].
    exists b. cbn [substring]. rewrite append_cons. split; [by rewrite <- Hb|]. cbn. by rewrite Hl. }
  destruct (Hsub 80 s) as (b & Hb & Hl); [lia|]. exists (substring 0 80 s), b. split; [done|]. split; [done|]. split; [|done].
  intros ->. rewrite Hb, length_append, Hl in H. cbn in H. lia.
Qed.
(** ** The legend *)
Lemma add_entry_keys e es k : k ∈ map fst (add_entry e es) <-> k = e.1 \/ k ∈ map fst es.
Proof.
  induction es as [|e0 es IH]; cbn; [by rewrite elem_of_list_singleton, elem_of_nil; tauto|]. destruct (decide (e.1 = e0.1)) as [E|E]; cbn; rewrite !elem_of_cons; [rewrite E; tauto|]. rewrite IH. tauto.
Qed.
Lemma entries_keys (l : list (list stmt * list string * option ((string * string) * style))) es k :
  k ∈ map fst (foldl (fun es d => match d.2 with Some e => add_entry e es | None => es end) es l) <-> k ∈ map fst es \/ exists d e, d ∈ l /\ d.2 = Some e /\ k = e.1.
Proof.
  revert es. induction l as [|d l IH]; intros es; cbn.
  - split; [by left|]. intros [|(? & ? & ?%elem_of_nil & _)]; done.
  - rewrite IH. destruct (d.2) as [e0|] eqn:Ed.
    + rewrite add_entry_keys. split.
      * intros [[-> |H]|(d' & e & Hd & H)]; [right; exists d, e0; split; [left|done]|by left|right; exists d', e; split; [by right|done]].
      * intros [H|(d' & e & [-> |Hd]%elem_of_cons & He & ->)]; [left; by right| |]; [rewrite Ed in He; injection He as ->; left; by left|right; by exists d', e].
    + split; [intros [H|(d' & e & Hd & H)]; [by left|right; exists d', e; split; [by right|done]]|].
      intros [H|(d' & e & [-> |Hd]%elem_of_cons & He & ->)]; [by left|congruence|right; by exists d', e].
Qed.
Lemma leg_iff t : (exists l sty, SNode (Some "cluster__legend") t l sty ∈ leg) <-> legend = true /\ occurs g looks custom fields nodes mod_of t.
Proof.
  unfold leg. destruct legend; [|split; [by intros (? & ? & ?%elem_of_nil)|by intros [? _]]].
  assert (Hseen : forall x, x ∈ nodes -> (t ∈ sorted_types /\ t ∈ (draw_node x).1.2) <-> (t = "input" /\ an_input g x) \/ (a_function x /\
    ((t = "function" /\ legend_name custom x = "") \/ (t = "config" /\ has_tag looks x "hamilton.config") \/
     (t = "expand" /\ lk_role (looks x) = RExpand) \/ (t = "collect" /\ lk_role (looks x) = RCollect) \/ (t = "materializer" /\ (saver looks x \/ loader looks x)) \/
     (t = "output" /\ m_output (mod_of x) = true) \/ (t = "override" /\ m_override (mod_of x) = true) \/
     ((t = "cluster" \/ t = "field") /\ has_tag looks x "hamilton.internal.schema_output" /\ fields = true)))).
  { intros x Hx. destruct (decide (node_type x = "function")) as [Ht|Ht].
    - rewrite draw_node_fun by done. cbn [fst snd]. assert (Hf : a_function x) by (apply type_function; [by apply known|done]).
      assert (Hi : ~ an_input g x) by apply Hf.
      assert (Hent : entry x = None <-> legend_name custom x = "").
      { unfold entry, legend_name. destruct custom as [f|]; [|done]. by destruct (decide _). }
      unfold seens. rewrite !elem_of_app. rewrite <- tag_has, <- Hent, <- saver_iff, <- loader_iff, <- schema_iff.
      assert (Hs : forall a, t = a -> a ∈ sorted_types -> t ∈ sorted_types) by congruence.
      split.
      + intros [_ H]. right. split; [done|]. destruct H as [H|[H|[H|[H|[H|[H|[H|H]]]]]]].
        * destruct (decide (tag x "hamilton.config" = "")); [by apply elem_of_nil in H|]. apply elem_of_list_singleton in H. tauto.
        * destruct (lk_role (looks x)); [by apply elem_of_nil in H| |]; apply elem_of_list_singleton in H; tauto.
        * destruct (is_saver x); [|by apply elem_of_nil in H]. apply elem_of_list_singleton in H; tauto.
        * destruct (is_loader x); [|by apply elem_of_nil in H]. apply elem_of_list_singleton in H; tauto.
        * destruct (m_output (mod_of x)); [|by apply elem_of_nil in H]. apply elem_of_list_singleton in H; tauto.
        * destruct (m_override (mod_of x)); [|by apply elem_of_nil in H]. apply elem_of_list_singleton in H; tauto.
        * destruct (has_schema x); [|by apply elem_of_nil in H]. apply elem_of_cons in H as [H|H]; [|apply elem_of_list_singleton in H]; tauto.
        * destruct (entry x); [by apply elem_of_nil in H|]. apply elem_of_list_singleton in H; tauto.
      + intros [[_ ?]|[_ H]]; [done|]. destruct H as [[-> H]|[[-> H]|[[-> H]|[[-> H]|[[-> H]|[[-> H]|[[-> H]|[Ht' H]]]]]]]].
        * rewrite H. split; [repeat (first [left; done|right])|]. do 7 right. left.
        * split; [repeat (first [left; done|right])|]. left. rewrite decide_False by done. left.
        * rewrite H. split; [repeat (first [left; done|right])|]. right. left. left.
        * rewrite H. split; [repeat (first [left; done|right])|]. right. left. left.
        * split; [repeat (first [left; done|right])|]. destruct H as [-> | ->]; [do 2 right; left; left|do 3 right; left; left].
        * rewrite H. split; [repeat (first [left; done|right])|]. do 4 right. left. left.
        * rewrite H. split; [repeat (first [left; done|right])|]. do 5 right. left. left.
        * rewrite H. destruct Ht' as [-> | ->]; (split; [repeat (first [left; done|right])|]); do 6 right; left; [left|right; left].
    - destruct (draw_node_other x Ht) as (_ & _ & ->). rewrite <- type_input. assert (Hf : ~ a_function x) by (by rewrite <- type_function by by apply known).
      destruct (decide (node_type x = "input")) as [E|E]; [rewrite elem_of_list_singleton|rewrite elem_of_nil]; split; try tauto.
      intros [[-> _]|[? _]]; [|done]. split; [repeat (first [left; done|right])|done]. }
  assert (Hent : (exists x, x ∈ nodes /\ a_function x /\ t = legend_name custom x /\ t <> "") <->
     exists e, e ∈ foldl (fun es d => match d.2 with Some e => add_entry e es | None => es end) [] (map draw_node nodes) /\ t = e.1.2).
  { split.
    - intros (x & Hx & Hf & Ht & Hne). pose proof (proj2 (entries_keys (map draw_node nodes) [] (default ("", "") (fst <$> entry x)))) as HH.
      assert (Hty : node_type x = "function") by (apply type_function; [by apply known|done]).
      assert (He : exists e, entry x = Some e /\ e.1.2 = t).
      { unfold legend_name in Ht. unfold entry. destruct custom as [f|]; [|done]. rewrite decide_False by congruence. eexists. split; [done|]. done. }
      destruct He as (e & He & Het). rewrite He in HH. cbn in HH.
      assert (Hin : e.1 ∈ map fst (foldl (fun es d => match d.2 with Some e => add_entry e es | None => es end) [] (map draw_node nodes))).
      { apply HH. right. exists (draw_node x), e. split; [apply elem_of_list_fmap; by exists x|]. rewrite draw_node_fun by done. done. }
      apply elem_of_list_fmap in Hin as (e' & Hee & Hin). exists e'. split; [done|]. by rewrite <- Hee.
    - intros (e & He & ->). assert (Hin : e.1 ∈ map fst (foldl (fun es d => match d.2 with Some e => add_entry e es | None => es end) [] (map draw_node nodes))) by (apply elem_of_list_fmap; by exists e).
      apply entries_keys in Hin as [Hin|(d & e' & Hd & He' & Heq)]; [by apply elem_of_nil in Hin|]. apply elem_of_list_fmap in Hd as (x & -> & Hx).
      destruct (decide (node_type x = "function")) as [Hty|Hty]; [|destruct (draw_node_other x Hty) as (_ & E & _); congruence].
      rewrite draw_node_fun in He' by done. cbn [snd] in He'. exists x. split; [done|]. split; [apply type_function; [by apply known|done]|].
      unfold entry in He'. unfold legend_name. destruct custom as [f|]; [|done]. destruct (decide _) as [|Hne]; [done|]. injection He' as <-. cbn in Heq. by rewrite Heq. }
  transitivity ((t ∈ sorted_types /\ exists x, x ∈ nodes /\ t ∈ (draw_node x).1.2) \/ exists e, e ∈ foldl (fun es d => match d.2 with Some e => add_entry e es | None => es end) [] (map draw_node nodes) /\ t = e.1.2).
  - unfold draw_legend. split.
    + intros (l & sty & [H|H]%elem_of_app); apply elem_of_list_fmap in H as (e & [= -> -> ->] & He).
      * left. apply elem_of_list_filter in He as [He ?]. split; [done|]. apply elem_of_concat in He as (l & Hl & Hin). apply elem_of_list_fmap in Hin as (d & -> & Hd). apply elem_of_list_fmap in Hd as (x & -> & Hx). by exists x.
      * right. by exists e.
    + intros [[Ht (x & Hx & Hin)]|(e & He & ->)].
      * eexists _, _. apply elem_of_app. left. apply elem_of_list_fmap. exists t. split; [done|]. apply elem_of_list_filter. split; [|done]. apply elem_of_concat. exists (draw_node x).1.2. split; [done|].
        apply elem_of_list_fmap. exists (draw_node x). split; [done|]. apply elem_of_list_fmap. by exists x.
      * eexists _, _. apply elem_of_app. right. apply elem_of_list_fmap. by exists e.
  - rewrite <- Hent. unfold occurs. split.
    + intros [[Ht (x & Hx & Hin)]|(x & Hx & Hf & H)].
      * split; [done|]. exists x. split; [done|]. destruct (proj1 (Hseen x Hx)) as [H|[Hf H]]; [done|by left|]. right. split; [done|]. tauto.
      * split; [done|]. exists x. split; [done|]. right. split; [done|]. tauto.
    + intros [_ (x & Hx & H)]. assert (Hor : (t = legend_name custom x /\ t <> "" /\ a_function x) \/ (t ∈ sorted_types /\ t ∈ (draw_node x).1.2)).
      { rewrite (Hseen x Hx). tauto. }
      destruct Hor as [(? & ? & ?)|[? ?]]; [right; by exists x|left; split; [done|by exists x]].
Qed.
Lemma cluster_legend x : ("cluster_" ++ x)%string = "cluster__legend" -> x = "_legend".
Proof. intros H. by injection H. Qed.
Lemma in_legend_leg t : "_legend" ∉ nodes -> in_legend draw t <-> exists l sty, SNode (Some "cluster__legend") t l sty ∈ leg.
Proof.
  intros Hl. unfold in_legend. split.
  - intros (l & sty & H). rewrite draw_eq in H. rewrite !elem_of_app in H. destruct H as [H|[H|[H|H]]].
    + by apply elem_of_list_fmap in H as (? & ? & _).
    + exfalso. unfold body in H. apply elem_of_concat in H as (s & Hin & Hs). apply elem_of_list_fmap in Hs as (d & -> & Hd). apply elem_of_list_fmap in Hd as (x & -> & Hx).
      destruct (decide (node_type x = "function")) as [Ht|Ht]; [|destruct (draw_node_other x Ht) as (E & _); rewrite E in Hin; by apply elem_of_nil in Hin].
      rewrite draw_node_fun in Hin by done. cbn [fst] in Hin. apply elem_of_cons in Hin as [E|Hin]; [done|]. unfold flds in Hin. destruct (has_schema x); [|by apply elem_of_nil in Hin].
      apply elem_of_app in Hin as [Hin|Hin]; [apply elem_of_list_fmap in Hin as (c & E & _)|apply elem_of_list_singleton in Hin as E]; injection E as E; subst x; done.
    + exfalso. revert H. generalize (@nil (gset name * string)) as sets. generalize nodes at 2 as todo. induction todo as [|x todo IH]; intros sets; [by intros ?%elem_of_nil|]. rewrite all_edges_cons. intros [H|H]%elem_of_app; [|by apply IH in H].
      rewrite draw_edges_eq in H. cbn [fst] in H. apply elem_of_app in H as [H|H]; [by apply elem_of_list_fmap in H as (? & ? & _)|]. destruct hide_inputs; [by apply elem_of_nil in H|]. destruct (ins x); [by apply elem_of_nil in H|].
      destruct (find_set _ _); rewrite !elem_of_cons, elem_of_nil in H; destruct_or?; done.
    + by exists l, sty.
  - intros (l & sty & H). exists l, sty. rewrite draw_eq, !elem_of_app. tauto.
Qed.
End Draw.
