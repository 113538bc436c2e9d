(** C82: a picture of a dataflow shows its functions, inputs and dependencies, marked as they are. *)
From Verif Require Import Base Dict GraphModel TraverseModel TraverseProofs ExecProps DrawModel DrawSpec DrawProofs.

Section Pictures.
Variable g : graph.
Variable looks : name -> look.
Variable esc : string -> string.
Variable cols : string -> list string.
Variable custom : option (name -> string -> style * (string * string)).
Variable mod_of : name -> mods.
Variable strict legend hide_inputs dedup fields : bool.
Variable config : dict string.
Variable nodes : list name.
Hypothesis wf : wf_graph g.
Hypothesis known : forall x, x ∈ nodes -> is_Some (g !! x).
Hypothesis distinct : NoDup nodes.
Notation picture := (draw g looks esc cols custom mod_of strict legend hide_inputs dedup fields config nodes).
Notation clean := (clean g looks cols custom strict legend fields config nodes).
Notation a_function := (a_function g looks).
Notation inputs_of := (inputs_of g strict nodes).
Notation others_of := (others_of g strict nodes).
Notation chosen := (chosen custom).
Notation type_of x := (lk_type (looks x)).
Notation tagged x k v := (dget (lk_tags (looks x)) k = Some v).

(** If no two things in the picture have the same name, each function that is to be shown is
    labelled with its name, the config it is chosen by and its type or, for savers and loaders, the
    class that does it. In full this would hold without [clean]; see [C82_names_refuted]. *)
Theorem C82_labels_partial x : clean -> x ∈ nodes -> a_function x ->
  (forall c, loader looks x -> tagged x "hamilton.data_loader.classname" c -> reads esc (label_of picture x) x c) /\
  (forall c, ~ loader looks x -> saver looks x -> tagged x "hamilton.data_saver.classname" c -> reads esc (label_of picture x) x c) /\
  (forall ck, ~ loader looks x -> ~ saver looks x -> tagged x "hamilton.config" ck -> ck <> "" -> reads esc (label_of picture x) (x ++ ": " ++ ck) (type_of x)) /\
  (~ loader looks x -> ~ saver looks x -> ~ has_tag looks x "hamilton.config" -> reads esc (label_of picture x) x (type_of x)).
Proof.
  intros Hc Hx Hf. rewrite own_label by done. unfold lab.
  assert (Hr : forall nm ty, reads esc (Some (node_label esc nm ty)) nm ty) by (intros nm ty; exists (shorten ty); split; [apply cut_shorten|done]).
  pose proof (loader_iff looks x) as Hlo. pose proof (saver_iff looks x) as Hsa. pose proof (tag_has looks x "hamilton.config") as Hco. split_and!.
  - intros c Hl Ht. apply Hlo in Hl as ->. unfold tag. rewrite Ht. apply Hr.
  - intros c Hl Hs Ht. apply Hsa in Hs as ->. rewrite <- Hlo in Hl. apply not_true_is_false in Hl as ->. unfold tag. rewrite Ht. apply Hr.
  - intros ck Hl Hs Ht Hne. rewrite <- Hlo in Hl. apply not_true_is_false in Hl as ->. rewrite <- Hsa in Hs. apply not_true_is_false in Hs as ->. unfold tag. rewrite Ht. cbn [default]. rewrite decide_False by done. apply Hr.
  - intros Hl Hs Ht. rewrite <- Hlo in Hl. apply not_true_is_false in Hl as ->. rewrite <- Hsa in Hs. apply not_true_is_false in Hs as ->. rewrite <- Hco in Ht. rewrite decide_True by by apply dec_stable. apply Hr.
Qed.

(** ... and marked as what it is: outputs and overrides whatever the user's styles; otherwise as
    the user chose; savers and loaders as cylinders; Parallelizable and Collect by their border;
    the rest of a path by a red one. *)
Theorem C82_marks_partial x : clean -> x ∈ nodes -> a_function x -> (forall f, custom = Some f -> NoDup (dkeys (f x "function").1)) ->
  let attr := attr_of picture x in
  attr "fillcolor" = Some (if m_output (mod_of x) then "#FFC857" else default "#b4d8e4" (chosen x "fillcolor")) /\
  attr "style" = Some (if m_override (mod_of x) then "filled,diagonals" else default "rounded,filled" (chosen x "style")) /\
  (forall k v, chosen x k = Some v -> k <> "fillcolor" -> k <> "style" -> attr k = Some v) /\
  (chosen x "shape" = None -> (saver looks x \/ loader looks x -> attr "shape" = Some "cylinder") /\ (~ (saver looks x \/ loader looks x) -> attr "shape" = Some "rectangle")) /\
  (chosen x "peripheries" = None -> attr "peripheries" = Some "2" <-> lk_role (looks x) <> RStandard) /\
  (chosen x "color" = None -> attr "color" = match lk_role (looks x) with
                                             | RExpand => Some "#56E39F"
                                             | RCollect => Some "#EA5556"
                                             | RStandard => if m_path (mod_of x) then Some "red" else None
                                             end).
Proof.
  intros Hc Hx Hf Hnd attr.
  assert (Ha : forall k, attr k = dget (st_final looks custom mod_of x) k) by (intros k; by apply own_attr).
  destruct (st_loader_get looks x) as (L1 & L2 & L3 & L4 & L5).
  assert (H : forall k, attr k = if decide (k = "fillcolor" /\ m_output (mod_of x) = true) then Some "#FFC857"
    else if decide (k = "style" /\ m_override (mod_of x) = true) then Some "filled,diagonals"
    else match chosen x k with
         | Some v => Some v
         | None => match dget (st_loader looks x) k with
                   | Some v => Some v
                   | None => if decide (k = "color" /\ m_path (mod_of x) = true) then Some "red" else None
                   end
         end) by (intros k; rewrite Ha; by apply st_final_get).
  clearbody attr. clear Ha. split_and!.
  - rewrite H, L1. destruct (m_output (mod_of x)); [by rewrite decide_True|]. rewrite !decide_False by (by intros []). by destruct (chosen x "fillcolor").
  - rewrite H, L2. rewrite decide_False by (by intros []). destruct (m_override (mod_of x)); [by rewrite decide_True|]. rewrite decide_False by (by intros []). by destruct (chosen x "style").
  - intros k v Hv Hk1 Hk2. rewrite H, Hv. rewrite !decide_False by (by intros []). done.
  - intros Hs. rewrite H, Hs, L3. rewrite !decide_False by (by intros []). rewrite <- saver_iff, <- loader_iff. destruct (is_saver looks x), (is_loader looks x); cbn; split; naive_solver.
  - intros Hs. rewrite H, Hs, L5. rewrite !decide_False by (by intros []). by destruct (lk_role (looks x)).
  - intros Hs. rewrite H, Hs, L4. rewrite (decide_False (P := "color" = "fillcolor" /\ _)) by (by intros []). rewrite (decide_False (P := "color" = "style" /\ _)) by (by intros []).
    destruct (lk_role (looks x)); [|done|done]. destruct (m_path (mod_of x)); [by rewrite decide_True|by rewrite decide_False by (by intros [])].
Qed.

(** Arrows: one from each thing a node depends on, other than inputs, if that is to be shown; red
    if both are on the path; one more if there are inputs to be shown; and no others. *)
Theorem C82_arrows x : x ∈ nodes -> exists l r, arrows picture x = l ++ r /\ NoDup (map fst l) /\
  (forall d, d ∈ map fst l <-> others_of x d) /\
  (forall d sty, (d, sty) ∈ l -> (dget sty "color" = Some "red" <-> m_path (mod_of d) = true /\ m_path (mod_of x) = true) /\
     (dget sty "arrowhead" = Some "crow" <-> lk_role (looks d) = RExpand) /\ (dget sty "arrowtail" = Some "crow" <-> lk_role (looks x) = RCollect)) /\
  (length r = 1 <-> hide_inputs = false /\ exists d, inputs_of x d) /\ (length r <> 1 -> r = []).
Proof.
  intros Hx. destruct (all_ok g looks esc cols custom mod_of strict hide_inputs dedup fields config nodes distinct x Hx) as (t & Ha & Ht).
  rewrite <- (arrows_upto g looks esc cols custom mod_of strict legend) in Ha. eexists _, _. split; [exact Ha|].
  assert (Hm : map fst (map (fun d => (d, arrow_style looks mod_of d x)) (funs g looks strict nodes x)) = funs g looks strict nodes x) by (rewrite map_map; apply map_id).
  split; [rewrite Hm; by apply nodup_funs|]. split; [intros d; rewrite Hm; apply elem_funs|]. split.
  { intros d sty H. apply elem_of_list_fmap in H as (d' & [= -> ->] & _). unfold arrow_style, edge_style.
    destruct (m_path (mod_of d')), (m_path (mod_of x)), (lk_role (looks d')), (lk_role (looks x)); cbn; naive_solver. }
  rewrite <- (ins_nonempty g looks). destruct (bool_dec hide_inputs true) as [-> |Hh%not_true_is_false]; [cbn; naive_solver|]. rewrite Hh. destruct (ins g looks strict nodes x); cbn; naive_solver.
Qed.
Theorem C82_no_other_arrows x : x ∉ nodes -> arrows picture x = [].
Proof. by apply arrows_other. Qed.

(** The inputs of a node are the rows of one table with an arrow to it. In full this would hold
    without [clean]. *)
Theorem C82_inputs_partial x : clean -> x ∈ nodes ->
  ((exists t, table_into picture x t) <-> hide_inputs = false /\ exists d, inputs_of x d) /\
  (forall t, table_into picture x t -> exists rows, label_of picture t = Some (LTable rows) /\ NoDup (map fst rows) /\
     forall d ty, (d, ty) ∈ rows <-> inputs_of x d /\ ty = type_of d) /\
  (forall t t', table_into picture x t -> table_into picture x t' -> t = t').
Proof.
  intros Hc Hx. split_and!.
  - rewrite <- (ins_nonempty g looks). split.
    + intros (t & Ht). apply table_of in Ht as (? & ? & _); done.
    + intros [? ?]. by apply table_exists.
  - intros t Ht. apply table_of in Ht as (Hh & Hi & _ & y & Hy & -> & Hl & Hset & _); [|done..]. eexists. split; [exact Hl|]. unfold rows. split.
    + rewrite map_map. cbn. rewrite map_id. by apply nodup_ins.
    + intros d ty. rewrite <- (elem_ins g looks). assert (Hd : d ∈ ins g looks strict nodes y <-> d ∈ ins g looks strict nodes x).
      { rewrite <- !(elem_of_list_to_set (C := gset name)). by rewrite Hset. }
      rewrite <- Hd, elem_of_list_fmap. split; [by intros (d' & [= -> ->] & ?)|]. intros [? ->]. by exists d.
  - intros t t' Ht Ht'. apply table_of in Ht as (_ & _ & Ha & _); [|done..]. apply table_of in Ht' as (_ & _ & Ha' & _); [|done..].
    rewrite Ha in Ha'. apply app_inj_2 in Ha' as [_ [= ->]]; done.
Qed.
(** Tables are shared by the nodes with the same inputs, and by no others, if that was asked for. *)
Theorem C82_sharing_partial x y t t' : clean -> x ∈ nodes -> y ∈ nodes -> table_into picture x t -> table_into picture y t' ->
  (dedup = true -> t = t' <-> forall d, inputs_of x d <-> inputs_of y d) /\ (dedup = false -> t = t' <-> x = y).
Proof.
  intros Hc Hx Hy Ht Ht'. apply table_of in Ht as (_ & _ & _ & z & Hz & -> & _ & Hset & Hd & Hs); [|done..]. apply table_of in Ht' as (_ & _ & _ & z' & Hz' & -> & _ & Hset' & Hd' & Hs'); [|done..].
  split.
  - intros Hdd. specialize (Hs Hdd). specialize (Hs' Hdd). split.
    + intros ->%table_inj d. rewrite <- !(elem_ins g looks), <- !(elem_of_list_to_set (C := gset name)). by rewrite <- Hset, <- Hset'.
    + intros H. assert (E : (list_to_set (ins g looks strict nodes x) : gset name) = list_to_set (ins g looks strict nodes y)).
      { apply set_eq. intros d. rewrite !elem_of_list_to_set, !elem_ins. apply H. }
      rewrite E in Hs. congruence.
  - intros Hdd. specialize (Hd Hdd). specialize (Hd' Hdd). subst z z'. split; [by intros ?%table_inj|by intros ->].
Qed.

(** Nothing else is in the picture. *)
Theorem C82_nothing_else n : shown picture n -> exists t, present g looks cols custom strict legend fields config nodes t /\ name_of t = n.
Proof. by apply shown_present. Qed.

(** The legend explains what occurs. In full this would hold for nodes of any name. *)
Theorem C82_legend_partial t : "_legend" ∉ nodes -> in_legend picture t <-> legend = true /\ occurs g looks custom fields nodes mod_of t.
Proof. intros Hl. by rewrite in_legend_leg, leg_iff. Qed.
End Pictures.

(** ** What the driver shows *)
Lemma follows_next {V : Type} (g : graph) (config : gmap name V) inputs overrides x d :
  d ∈ upstream_next g config inputs overrides x <-> follows g config inputs overrides x d.
Proof.
  unfold upstream_next, follows. destruct (g !! x) as [nd|] eqn:Ex; [|split; [by intros ?%elem_of_nil|by intros (? & ? & ? & _)]].
  destruct (match overrides with Some o => bool_decide (is_Some (o !! x)) | None => false end) eqn:Eo.
  - split; [by intros ?%elem_of_nil|]. intros (nd' & k & _ & _ & Ho & _). exfalso. destruct overrides as [o|]; [|done]. rewrite (Ho o eq_refl) in Eo. by apply bool_decide_eq_true in Eo as [? ?].
  - assert (Ho : forall o, overrides = Some o -> o !! x = None).
    { intros o ->. apply bool_decide_eq_false in Eo. by apply eq_None_not_Some. }
    destruct inputs as [i|].
    + rewrite elem_of_list_fmap. split.
      * intros ([d' k] & -> & Hin). apply elem_of_list_filter in Hin as [Hf Hin]. exists nd, k. split; [done|]. split; [done|]. split; [done|]. intros i' [= <-] -> (nd' & Hd & He). cbn [fst snd] in *.
        unfold is_ext in Hf. rewrite Hd, He in Hf. rewrite (bool_decide_true (OPTIONAL = OPTIONAL)), andb_true_r in Hf by done. rewrite andb_true_l in Hf. apply andb_false_iff in Hf as [Hf|Hf]; apply bool_decide_eq_false in Hf; apply not_eq_None_Some in Hf; tauto.
      * intros (nd' & k & [= <-] & Hin & _ & Hi). exists (d, k). split; [done|]. apply elem_of_list_filter. split; [|done]. cbn.
        destruct (is_ext g d) eqn:Ee; [|done]. destruct (decide (k = OPTIONAL)) as [->|Hk]; [|rewrite (bool_decide_false (k = OPTIONAL)) by done; by rewrite andb_false_r].
        unfold is_ext in Ee. destruct (g !! d) as [nd'|] eqn:Ed; [|done]. destruct (Hi i eq_refl eq_refl) as [[v Hv]|[v Hv]]; [by exists nd'| |].
        -- rewrite Hv. done.
        -- rewrite Hv. rewrite (bool_decide_false (Some v = None)) by done. by rewrite andb_false_r.
    + unfold dep_names. rewrite elem_of_list_fmap. split.
      * intros ([d' k] & -> & Hin). by exists nd, k.
      * intros (nd' & k & [= <-] & Hin & _). by exists (d, k).
Qed.
(** [visualize_execution]: the functions that the execution comes by are shown, those requested as
    outputs and those overridden as overrides, and no others. *)
Theorem C82_execution_partial {V : Type} (g : graph) looks esc cols (cfg : gmap name V) inputs overrides final_vars legend hide_inputs dedup fields config found users nodes :
  wf_graph g -> get_upstream_nodes g cfg inputs overrides final_vars = Found found users -> NoDup nodes -> (forall x, x ∈ nodes <-> x ∈ found \/ x ∈ users) ->
  clean g looks cols None true legend fields config nodes ->
  let ov := match overrides with Some o => elements (dom o) | None => [] end in
  let picture := draw g looks esc cols None (execution_mods final_vars ov) true legend hide_inputs dedup fields config nodes in
  let used x := exists s, s ∈ final_vars /\ is_Some (g !! s) /\ rtc (follows g cfg inputs overrides) s x in
  (forall x, used x -> a_function g looks x -> is_Some (label_of picture x) /\
     (attr_of picture x "fillcolor" = Some "#FFC857" <-> x ∈ final_vars) /\
     (attr_of picture x "style" = Some "filled,diagonals" <-> exists o, overrides = Some o /\ is_Some (o !! x))) /\
  (forall n, shown picture n -> (used n /\ ~ an_input g n) \/ n ∈ dkeys config \/ (exists x, used x /\ n = name_of (TTable x)) \/ (exists x c, used x /\ n = name_of (TField x c)) \/ (legend = true /\ n ∈ kinds)).
Proof.
  intros wf Hq Hnd Hn Hc ov picture used.
  pose proof (upstream_ok g wf cfg inputs overrides final_vars) as H. cbn zeta in H. rewrite Hq in H. destruct H as (_ & Hfound & Husers).
  assert (Hused : forall x, x ∈ nodes <-> used x).
  { intros x. rewrite Hn, Husers. transitivity (x ∈ found); [tauto|]. rewrite Hfound. unfold used.
    split; intros (s & ? & ? & Hr); exists s; (split; [done|split; [done|]]); (eapply rtc_subrel; [|exact Hr]); intros a b; by rewrite follows_next. }
  assert (Hknown : forall x, x ∈ nodes -> is_Some (g !! x)).
  { intros x (s & _ & Hs & Hr)%Hused. clear -wf Hs Hr. induction Hr as [x|x y z (nd & k & Hx & Hin & _) _ IH]; [done|]. apply IH. apply (wf_closed _ wf x). exists nd. split; [done|]. apply elem_of_list_fmap. by exists (y, k). }
  split.
  - intros x Hx Hf. apply Hused in Hx. split; [by unfold picture; rewrite own_label|].
    destruct (C82_marks_partial g looks esc cols None (execution_mods final_vars ov) true legend hide_inputs dedup fields config nodes Hknown Hnd x Hc Hx Hf) as (H1 & H2 & _); [done|]. fold picture in H1, H2.
    rewrite H1, H2. unfold execution_mods, chosen. cbn. split.
    + destruct (bool_decide_reflect (x ∈ final_vars)); by split.
    + transitivity (x ∈ ov); [destruct (bool_decide_reflect (x ∈ ov)); by split|]. unfold ov. destruct overrides as [o|].
      * rewrite elem_of_elements, elem_of_dom. naive_solver.
      * rewrite elem_of_nil. naive_solver.
  - intros n Hs. apply C82_nothing_else in Hs as (t & Hp & <-); [|done..]. destruct t as [x|k|x|x c|t]; cbn in Hp.
    + left. destruct Hp as [[Hx Hf]|(y & Hy & He & Hv & Hi)]; cbn; rewrite <- Hused; [split; [done|apply Hf]|split; [by apply Hv|done]].
    + tauto.
    + right. right. left. exists x. rewrite <- Hused. tauto.
    + do 3 right. left. exists x, c. rewrite <- Hused. tauto.
    + do 4 right. split; [apply Hp|]. destruct Hp as [_ [|(f & ? & ? & ? & ? & ? & _)]]; done.
Qed.
(** [visualize_path_between]: exactly what lies on a path from [up] to [down] is red, and arrows are
    exactly if they do; what is not on a path is shown only if asked for, and then only what those on it
    depend on. In full this would hold without [clean]. *)
Theorem C82_path_partial {V : Type} (g : graph) looks esc cols (cfg : gmap name V) up down path legend hide_inputs dedup fields config only nodes :
  wf_graph g -> what_is_the_path_between g cfg up down = Some path -> NoDup nodes ->
  (forall x, x ∈ nodes <-> x ∈ path \/ (only = false /\ exists y, y ∈ path /\ edge g y x)) ->
  clean g looks cols None true legend fields config nodes ->
  let picture := draw g looks esc cols None (path_mods (elements path)) true legend hide_inputs dedup fields config nodes in
  let on_path x := rtc (edge g) down x /\ rtc (edge g) x up in
  (forall x, on_path x -> a_function g looks x -> is_Some (label_of picture x)) /\
  (forall x, x ∈ nodes -> a_function g looks x -> lk_role (looks x) = RStandard -> (attr_of picture x "color" = Some "red" <-> on_path x)) /\
  (forall x, x ∈ nodes -> exists l r, arrows picture x = l ++ r /\ (forall d, d ∈ map fst l <-> edge g x d /\ d ∈ nodes /\ ~ an_input g d) /\
     (forall d sty, (d, sty) ∈ l -> (dget sty "color" = Some "red" <-> on_path d /\ on_path x)) /\ length r <= 1) /\
  (forall n, shown picture n -> (exists x, n = x /\ ~ an_input g x /\ (on_path x \/ (only = false /\ exists y, on_path y /\ edge g y x))) \/ n ∈ dkeys config \/
     (exists x, x ∈ nodes /\ n = name_of (TTable x)) \/ (exists x c, x ∈ nodes /\ n = name_of (TField x c)) \/ (legend = true /\ n ∈ kinds)).
Proof.
  intros wf Hp Hnd Hn Hc picture on_path.
  pose proof (path_between g wf cfg up down) as H. rewrite Hp in H. destruct H as (Hup & Hdown & Hpath).
  assert (Hon : forall x, x ∈ path <-> on_path x) by (intros x; rewrite Hpath; unfold on_path; tauto).
  assert (Hmod : forall x, m_path (path_mods (elements path) x) = true <-> on_path x).
  { intros x. cbn. rewrite bool_decide_eq_true, elem_of_elements. apply Hon. }
  assert (Hk : forall x, x ∈ path -> is_Some (g !! x)).
  { intros x [Hr _]%Hon. clear -wf Hdown Hr. induction Hr as [x|x y z E _ IH]; [done|]. apply IH. by apply (wf_closed _ wf x). }
  assert (Hknown : forall x, x ∈ nodes -> is_Some (g !! x)).
  { intros x [Hx|(_ & y & _ & E)]%Hn; [by apply Hk|]. by apply (wf_closed _ wf y). }
  split_and!.
  - intros x Hx Hf. unfold picture. rewrite own_label; try done. apply Hn. left. by apply Hon.
  - intros x Hx Hf Hr.
    destruct (C82_marks_partial g looks esc cols None (path_mods (elements path)) true legend hide_inputs dedup fields config nodes Hknown Hnd x Hc Hx Hf) as (_ & _ & _ & _ & _ & H); [done|].
    fold picture in H. rewrite (H eq_refl), Hr, <- Hmod. destruct (m_path _); by split.
  - intros x Hx.
    pose proof (C82_arrows g looks esc cols None (path_mods (elements path)) true legend hide_inputs dedup fields config nodes) as H.
    destruct (H wf Hnd x Hx) as (l & r & Heq & _ & Hd & Hl & _ & Hr). exists l, r. split; [exact Heq|]. split; [|split].
    + intros d. rewrite Hd. unfold others_of, visible. split; [intros (? & Hv & ?); split_and!; auto|intros (? & ? & ?); split_and!; auto].
    + intros d sty Hin. destruct (Hl d sty Hin) as [-> _]. by rewrite !Hmod.
    + destruct (decide (length r = 1)) as [->|Hne]; [done|]. rewrite (Hr Hne). cbn. lia.
  - intros n Hs. apply C82_nothing_else in Hs as (t & Hpr & <-); [|done..].
    assert (Hsh : forall x, x ∈ nodes -> on_path x \/ (only = false /\ exists y, on_path y /\ edge g y x)).
    { intros x [Hx|(Ho & y & Hy & E)]%Hn; [left; by apply Hon|right; split; [done|]; exists y; split; [by apply Hon|done]]. }
    destruct t as [x|k|x|x c|t]; cbn in Hpr.
    + left. exists x. split; [done|]. destruct Hpr as [[Hx Hf]|(y & Hy & He & Hv & Hi)]; [split; [apply Hf|by apply Hsh]|]. split; [done|]. apply Hsh. by apply Hv.
    + right. left. done.
    + right. right. left. exists x. split; [apply Hpr|done].
    + do 3 right. left. exists x, c. split; [apply Hpr|done].
    + do 4 right. split; [apply Hpr|]. destruct Hpr as [_ [|(f & ? & ? & ? & ? & ? & _)]]; done.
Qed.

(** ** A dataflow *)
Definition look0 (ty : string) (role : role) (tags : dict string) : look := Look ty true role tags.
Definition gEx : graph := list_to_map [
  ("a", Node true [] ["b"; "c"]);
  ("b", Node false [("a", REQUIRED)] ["c"; "d"]);
  ("c", Node false [("b", REQUIRED); ("a", REQUIRED)] []);
  ("d", Node false [("b", REQUIRED)] [])].
Definition looksEx (x : name) : look :=
  if decide (x = "b") then look0 "df" RStandard [("hamilton.config", "k"); ("hamilton.internal.schema_output", "u,v")]
  else if decide (x = "d") then look0 "dict" RStandard [("hamilton.data_saver", "True"); ("hamilton.data_saver.classname", "ParquetWriter")]
  else look0 "int" RStandard [].
Definition colsEx (s : string) : list string := if decide (s = "u,v") then ["u"; "v"] else [].
Definition nodesEx : list name := ["a"; "b"; "c"; "d"].
Definition cfgEx : dict string := [("k", "v")].
Definition pictureEx (dedup : bool) : list stmt := draw gEx looksEx id colsEx None (execution_mods ["c"] []) true true false dedup true cfgEx nodesEx.

Lemma clean_list g looks cols custom strict legend fields config nodes (l : list thing) :
  (forall t, present g looks cols custom strict legend fields config nodes t -> t ∈ l) -> NoDup (map name_of l) -> clean g looks cols custom strict legend fields config nodes.
Proof.
  intros Hl Hnd t t' Ht%Hl Ht'%Hl Heq. clear Hl. induction l as [|u l IH]; [by apply elem_of_nil in Ht|]. cbn in Hnd. apply NoDup_cons in Hnd as [Hu Hnd].
  apply elem_of_cons in Ht as [-> |Ht]; apply elem_of_cons in Ht' as [-> |Ht']; [done| | |by apply IH].
  - exfalso. apply Hu. rewrite Heq. by apply elem_of_list_In, in_map, elem_of_list_In.
  - exfalso. apply Hu. rewrite <- Heq. by apply elem_of_list_In, in_map, elem_of_list_In.
Qed.
Definition thingsEx : list thing :=
  [TFun "b"; TFun "c"; TFun "d"; TConfig "k"; TTable "a"; TTable "b"; TTable "c"; TTable "d"; TField "b" "u"; TField "b" "v"] ++ map TLegend kinds.
Lemma cases4 (P : name -> Prop) x : x ∈ nodesEx -> P "a" -> P "b" -> P "c" -> P "d" -> P x.
Proof. intros H. repeat (apply elem_of_cons in H as [-> |H]; [done|]). by apply elem_of_nil in H. Qed.
Lemma in_by {A} (x : A) (l : list A) : In x l -> x ∈ l. Proof. apply elem_of_list_In. Qed.
Lemma input_a : an_input gEx "a". Proof. exists (Node true [] ["b"; "c"]). split; [vm_compute; reflexivity|done]. Qed.
Lemma funs_ex x : x ∈ ["b"; "c"; "d"] -> a_function gEx looksEx x.
Proof.
  intros H. assert (Hn : exists nd, gEx !! x = Some nd /\ nd_ext nd = false).
  { repeat (apply elem_of_cons in H as [-> |H]; [eexists; split; [vm_compute; reflexivity|reflexivity]|]). by apply elem_of_nil in H. }
  destruct Hn as (nd & Hx & He). split; [by exists nd|]. split; intros (nd' & Hx' & He' & _); congruence.
Qed.
Example C82_clean : clean gEx looksEx colsEx None true true true cfgEx nodesEx.
Proof.
  apply (clean_list _ _ _ _ _ _ _ _ _ thingsEx); [|refine (bool_decide_unpack _ _); vm_compute; exact I].
  intros [x|k|x|x c|t]; cbn [present].
  - assert (Ha : x = "a" \/ x ∈ ["b"; "c"; "d"] -> ~ an_input gEx x -> TFun x ∈ thingsEx).
    { intros [-> |H] Hn; [by destruct Hn; apply input_a|]. repeat (apply elem_of_cons in H as [-> |H]; [apply in_by; cbn; tauto|]). by apply elem_of_nil in H. }
    intros [[Hx (_ & Hf & _)]|(y & _ & He & Hv & Hi)].
    + apply Ha; [|done]. by apply elem_of_cons in Hx.
    + apply Ha; [|done]. by apply elem_of_cons, Hv.
  - intros Hk. apply elem_of_list_singleton in Hk as ->. apply in_by. cbn. tauto.
  - intros [Hx _]. revert x Hx. intros x Hx. apply (cases4 (fun x => TTable x ∈ thingsEx) x Hx); apply in_by; cbn; tauto.
  - intros (Hx & _ & _ & s & Hs & _ & Hc). revert Hs. apply (cases4 (fun x => dget (lk_tags (looksEx x)) "hamilton.internal.schema_output" = Some s -> TField x c ∈ thingsEx) x Hx); try discriminate.
    intros [= <-]. apply elem_of_cons in Hc as [-> |Hc]; [apply in_by; cbn; tauto|]. apply elem_of_list_singleton in Hc as ->. apply in_by; cbn; tauto.
  - intros [_ [Hk|(f & ? & ? & ? & ? & ? & _)]]; [|done]. apply elem_of_app. right. by apply elem_of_list_In, in_map, elem_of_list_In.
Qed.
Example C82_wf : wf_graph gEx. Proof. apply wf_graphb_ok. vm_compute. reflexivity. Qed.
Example C82_known : (forall x, x ∈ nodesEx -> is_Some (gEx !! x)) /\ NoDup nodesEx /\ "_legend" ∉ nodesEx.
Proof.
  split; [|split; [refine (bool_decide_unpack _ _); vm_compute; exact I|]].
  - intros x Hx. apply (cases4 (fun x => is_Some (gEx !! x)) x Hx); eexists; vm_compute; reflexivity.
  - intros H. repeat (apply elem_of_cons in H as [H|H]; [discriminate|]). by apply elem_of_nil in H.
Qed.
(** [visualize_execution(["c"])] with [b] and its inputs; [d] is shown here too *)
Example C82_picture :
  label_of (pictureEx true) "b" = Some (LText "<<b>b: k</b><br /><br /><i>df</i>>") /\ label_of (pictureEx true) "d" = Some (LText "<<b>d</b><br /><br /><i>ParquetWriter</i>>") /\
  attr_of (pictureEx true) "c" "fillcolor" = Some "#FFC857" /\ attr_of (pictureEx true) "d" "shape" = Some "cylinder" /\
  arrows (pictureEx true) "c" = [("b", []); ("_b_inputs", [])] /\ arrows (pictureEx true) "b" = [("_b_inputs", [])] /\ arrows (pictureEx false) "c" = [("b", []); ("_c_inputs", [])] /\
  label_of (pictureEx true) "_b_inputs" = Some (LTable [("a", "int")]).
Proof. vm_compute. repeat split; reflexivity. Qed.
Example C82_tables : table_into (pictureEx true) "b" "_b_inputs" /\ table_into (pictureEx true) "c" "_b_inputs".
Proof.
  split; (split; [exists []|exists [("a", "int")]; vm_compute; reflexivity]).
  - assert (E : arrows (pictureEx true) "b" = [("_b_inputs", [])]) by (vm_compute; reflexivity). rewrite E. left.
  - assert (E : arrows (pictureEx true) "c" = [("b", []); ("_b_inputs", [])]) by (vm_compute; reflexivity). rewrite E. right. left.
Qed.
(** A custom style and an override: the override keeps its stripes. *)
Definition fancy (x : name) (k : string) : style * (string * string) := ([("fillcolor", "pink"); ("style", "dotted")], (k, if decide (x = "b") then "fancy" else "")).
Example C82_custom : let p := draw gEx looksEx id colsEx (Some fancy) (execution_mods ["c"] ["b"]) true true false true true cfgEx nodesEx in
  attr_of p "b" "style" = Some "filled,diagonals" /\ attr_of p "b" "fillcolor" = Some "pink" /\ attr_of p "c" "fillcolor" = Some "#FFC857" /\ attr_of p "c" "style" = Some "dotted" /\
  in_legend p "fancy" /\ in_legend p "override".
Proof.
  cbn zeta. split_and!; [vm_compute; reflexivity..| |]; (eapply C82_legend_partial; [apply C82_known|apply C82_known|split; [done|]; exists "b"; split; [apply in_by; cbn; tauto|right; split; [by apply funs_ex, in_by; left|]]]).
  - right. left. split; [reflexivity|done].
  - do 7 right. left. split; [done|vm_compute; reflexivity].
Qed.
(** A path from [a] to [d] *)
Example C82_path : let p := draw gEx looksEx id colsEx None (path_mods ["b"; "d"]) true false false false false [] ["b"; "d"] in
  arrows p "d" = [("b", [("color", "red")])] /\ attr_of p "b" "color" = Some "red".
Proof. vm_compute. repeat split; reflexivity. Qed.
Example C82_execution_ex : exists found users, get_upstream_nodes gEx (∅ : gmap name nat) (Some {["a" := 1]}) (Some ∅) ["c"; "d"] = Found found users /\ forall x, x ∈ nodesEx <-> x ∈ found \/ x ∈ users.
Proof.
  pose proof (upstream_ok gEx C82_wf (∅ : gmap name nat) (Some {["a" := 1]}) (Some ∅) ["c"; "d"]) as H. cbn zeta in H.
  destruct (get_upstream_nodes gEx (∅ : gmap name nat) (Some {["a" := 1]}) (Some ∅) ["c"; "d"]) as [found users|m|] eqn:E; [|exfalso; vm_compute in E; discriminate|done].
  exists found, users. split; [done|]. destruct H as (_ & Hf & Hu). intros x. rewrite Hu. transitivity (x ∈ found); [|tauto].
  assert (Hb : elements found ≡ₚ nodesEx) by (clear Hf Hu; vm_compute in E; injection E as <- _; refine (bool_decide_unpack _ _); vm_compute; exact I).
  rewrite <- (elem_of_elements found x). by rewrite Hb.
Qed.

(** ** What is not so *)
Definition showsb (st : list stmt) (x : string) : bool :=
  existsb (fun s => match s with SNode _ y _ _ => bool_decide (x = y) | SEdge a b _ => bool_decide (x = a) || bool_decide (x = b) end) st.
Lemma showsb_ok st x : showsb st x = false -> ~ shown st x.
Proof.
  intros H (s & Hs & Hx). enough (showsb st x = true) by congruence. apply existsb_exists. exists s. split; [by apply elem_of_list_In|].
  destruct s as [c y l sty|a b sty]; [by apply bool_decide_eq_true|]. apply orb_true_iff. destruct Hx as [-> | ->]; [left|right]; by apply bool_decide_eq_true.
Qed.
Definition to_show (g : graph) (inputs overrides : option (gmap name nat)) (final_vars nodes : list name) : Prop :=
  exists found users, get_upstream_nodes g ∅ inputs overrides final_vars = Found found users /\ elements (found ∪ users) ≡ₚ nodes.
(** A function called like an entry of the legend is drawn like that entry: here, as if it were not
    requested. *)
Definition gFun : graph := list_to_map [("function", Node false [] [])].
Theorem C82_names_refuted : exists g looks x, wf_graph g /\ a_function g looks x /\
  to_show g None None [x] [x] /\
  let picture := draw g looks id (fun _ => []) None (execution_mods [x] []) true true false false true [] [x] in
  attr_of picture x "fillcolor" <> Some "#FFC857" /\ in_legend picture x.
Proof.
  exists gFun, (fun _ => look0 "int" RStandard []), "function". split; [apply wf_graphb_ok; vm_compute; reflexivity|]. split; [|split; [eexists _, _; split; [reflexivity|refine (bool_decide_unpack _ _); vm_compute; exact I]|cbn zeta; split; [vm_compute; discriminate|]]].
  - split; [eexists; vm_compute; reflexivity|]. split; intros (nd & H & He & _); vm_compute in H; injection H as <-; discriminate.
  - eexists None, _. apply in_by. vm_compute. right. left. reflexivity.
Qed.
(** An input that is requested is not shown, unless as an input of something else. *)
Theorem C82_requested_refuted : exists g looks x, wf_graph g /\ is_Some (g !! x) /\
  to_show g (Some {[x := 1]}) None [x] [x] /\
  ~ shown (draw g looks id (fun _ => []) None (execution_mods [x] []) true true false false true [] [x]) x.
Proof.
  exists gEx, looksEx, "a". split; [apply C82_wf|]. split; [eexists; vm_compute; reflexivity|]. split; [eexists _, _; split; [reflexivity|refine (bool_decide_unpack _ _); vm_compute; exact I]|]. apply showsb_ok. vm_compute. reflexivity.
Qed.
(** Inputs that are hidden are in the legend. *)
Theorem C82_hidden_refuted : exists g looks x d, wf_graph g /\ edge g x d /\
  let picture := draw g looks id (fun _ => []) None (execution_mods [x] []) true true true false true [] [x; d] in
  in_legend picture "input" /\ arrows picture x = [] /\ ~ shown picture d.
Proof.
  exists gEx, looksEx, "b", "a". split; [apply C82_wf|]. split; [eexists; split; [vm_compute; reflexivity|left]|]. cbn zeta. split; [|split; [vm_compute; reflexivity|apply showsb_ok; vm_compute; reflexivity]].
  eexists None, _. apply in_by. vm_compute. do 5 (first [left; reflexivity|right]).
Qed.
(** An overridden node has arrows from what it does not use. *)
Theorem C82_overridden_refuted : exists g looks x d nodes, wf_graph g /\
  to_show g (Some ∅) (Some {[x := 1]}) [x; d] nodes /\
  ~ follows g (∅ : gmap name nat) (Some ∅) (Some {[x := 1]}) x d /\
  let picture := draw g looks id (fun _ => []) None (execution_mods [x; d] [x]) true true false false true [] nodes in
  exists sty, (d, sty) ∈ arrows picture x.
Proof.
  exists (list_to_map [("b", Node false [] ["c"]); ("c", Node false [("b", REQUIRED)] [])]), (fun _ => look0 "int" RStandard []), "c", "b", ["b"; "c"].
  split; [apply wf_graphb_ok; vm_compute; reflexivity|]. split; [eexists _, _; split; [reflexivity|refine (bool_decide_unpack _ _); vm_compute; exact I]|]. split.
  - intros (nd & k & _ & _ & Ho & _). specialize (Ho _ eq_refl). vm_compute in Ho. discriminate.
  - cbn zeta. exists []. apply in_by. vm_compute. left. reflexivity.
Qed.

Print Assumptions C82_labels_partial.
Print Assumptions C82_marks_partial.
Print Assumptions C82_arrows.
Print Assumptions C82_no_other_arrows.
Print Assumptions C82_inputs_partial.
Print Assumptions C82_sharing_partial.
Print Assumptions C82_nothing_else.
Print Assumptions C82_legend_partial.
Print Assumptions C82_execution_partial.
Print Assumptions C82_path_partial.
Print Assumptions C82_names_refuted.
Print Assumptions C82_requested_refuted.
Print Assumptions C82_hidden_refuted.
Print Assumptions C82_overridden_refuted.
