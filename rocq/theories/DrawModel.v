(** Pictures of dataflows: hamilton/graph.py 202-664 [create_graphviz_graph] and what the driver
    passes to it. *)
From Verif Require Import Base Dict GraphModel TaggingModel.

Notation style := (dict string).
(** Labels: text in the markup of graphviz, or the table of inputs with their names and types. *)
Inductive label := LText (s : string) | LTable (rows : list (name * string)).
(** The statements of the dot file, in order: [Digraph.node] (in a cluster or not) and
    [Digraph.edge]. Attributes of the graph and of clusters are left out. *)
Inductive stmt :=
| SNode (cluster : option string) (x : string) (l : option label) (st : style)
| SEdge (a b : string) (st : style).

Inductive role := RStandard | RExpand | RCollect.
#[global] Instance role_eq_dec : EqDecision role. Proof. solve_decision. Defined.
(** What is drawn of a node besides its edges: [get_type_as_string], whether
    [_originating_functions] is not None, [node_role] and the tags, where a tag that counts as
    false is the empty string. *)
Record look := Look { lk_type : string; lk_orig : bool; lk_role : role; lk_tags : dict string }.
(** [VisualizationNodeModifiers] of a node; IS_USER_INPUT has no effect *)
Record mods := Mods { m_output : bool; m_override : bool; m_path : bool }.

Section Draw.
(** The graph, how nodes look, [html.escape], the fields of a schema as they are shown (562-574),
    the style function of the user (styles, base class and name in the legend) if any. *)
Variable g : graph.
Variable looks : name -> look.
Variable esc : string -> string.
Variable cols : string -> list string.
Variable custom : option (name -> string -> style * (string * string)).
(** The arguments *)
Variable mod_of : name -> mods.
Variable strict legend hide_inputs dedup fields : bool.
Variable config : dict string.

(** 280-284; 80 is [MAX_STRING_LENGTH] *)
Definition shorten (s : string) : string := if decide (80 < String.length s) then (substring 0 80 s ++ "[...]")%string else s.
Definition node_label (nm ty : string) : label := LText ("<<b>" ++ nm ++ "</b><br /><br /><i>" ++ esc (shorten ty) ++ "</i>>")%string.

(** 306-315 [_get_node_type] *)
Definition node_type (x : name) : string :=
  match g !! x with
  | Some nd =>
      if nd_ext nd && negb (bool_decide (nd_rdeps nd = [])) then "input"
      else if nd_ext nd && negb (lk_orig (looks x)) && bool_decide (nd_rdeps nd = []) then "config"
      else "function"
  | None => "function"
  end.
(** 317-352 *)
Definition node_style (k : string) : style :=
  if decide (k = "config") then [("shape", "note"); ("style", "filled"); ("fontname", "Helvetica")]
  else if decide (k = "input") then [("shape", "rectangle"); ("margin", "0.15"); ("style", "filled,dashed"); ("fontname", "Helvetica")]
  else if decide (k = "materializer") then [("shape", "cylinder"); ("style", "filled"); ("margin", "0.15,0.1"); ("fontname", "Helvetica")]
  else [("shape", "rectangle"); ("margin", "0.15"); ("style", "rounded,filled"); ("fillcolor", "#b4d8e4"); ("fontname", "Helvetica")].
(** 354-378 *)
Definition modifier_style (m : string) : style :=
  if decide (m = "output") then [("fillcolor", "#FFC857")]
  else if decide (m = "collect") then [("peripheries", "2"); ("color", "#EA5556")]
  else if decide (m = "expand") then [("peripheries", "2"); ("color", "#56E39F")]
  else if decide (m = "override") then [("style", "filled,diagonals")]
  else if decide (m = "materializer") then [("shape", "cylinder")]
  else if decide (m = "field") then [("fillcolor", "#c8dae0"); ("fontname", "Courier")]
  else if decide (m = "cluster") then [("fillcolor", "#ffffff"); ("color", "#649fb3"); ("style", "rounded,filled,dashed")]
  else [].
(** 380-396 *)
Definition edge_style (from_expand to_collect : bool) : style :=
  let st := if from_expand then [("dir", "both"); ("arrowhead", "crow"); ("arrowtail", "none")] else [] in
  if to_collect then dupdate st [("dir", "both"); ("arrowtail", "crow")] else st.

Definition tag (x : name) (k : string) : string := default "" (dget (lk_tags (looks x)) k).

(** 517-519: which nodes are drawn as loaders *)
Definition is_loader (x : name) : bool :=
  negb (bool_decide (tag x "hamilton.data_loader" = "")) && (str_contains "load_data." x || bool_decide (tag x "hamilton.data_loader.source" = "loader")).
(** 508 *)
Definition is_saver (x : name) : bool := negb (bool_decide (tag x "hamilton.data_saver" = "")).
(** 557 *)
Definition has_schema (x : name) : bool := negb (bool_decide (tag x "hamilton.internal.schema_output" = "")) && fields.

(** 476-604: a node; gives the statements, the types seen and an entry of the legend. The label,
    the style and the types seen, which the code updates side by side, are given one by one. A
    loader or saver without the tag of its class (510, 520: KeyError) is shown with an empty one. *)
Definition draw_function (x : name) (ty : string) : list stmt * list string * option ((string * string) * style) :=
  let lk := looks x in
  let ck := tag x "hamilton.config" in
  let m := mod_of x in
  let l1 := if decide (ck = "") then node_label x (lk_type lk) else node_label (x ++ ": " ++ ck)%string (lk_type lk) in
  let l2 := if is_saver x then node_label x (tag x "hamilton.data_saver.classname") else l1 in
  let l3 := if is_loader x then node_label x (tag x "hamilton.data_loader.classname") else l2 in
  let st0 := node_style ty in
  let st1 := match lk_role lk with
             | RExpand => dupdate st0 (modifier_style "expand")
             | RCollect => dupdate st0 (modifier_style "collect")
             | RStandard => st0
             end in
  let st2 := if is_saver x then dupdate st1 (modifier_style "materializer") else st1 in
  let st3 := if is_loader x then dupdate st2 (modifier_style "materializer") else st2 in
  let st4 := match custom with Some f => dupdate st3 (f x ty).1 | None => st3 end in
  let entry := match custom with
               | Some f => if decide ((f x ty).2.2 = "") then None else Some ((f x ty).2, (f x ty).1)
               | None => None
               end in
  let st5 := if m_output m then dupdate st4 (modifier_style "output") else st4 in
  let st6 := if m_override m then dupdate st5 (modifier_style "override") else st5 in
  let st7 := if m_path m then dset st6 "color" (default "red" (dget st6 "color")) else st6 in
  let fs := if has_schema x
            then map (fun c => SNode (Some ("cluster_" ++ x)%string) (x ++ ":" ++ c)%string (Some (LText c))
                                 (dupdate st7 [("fillcolor", "#c8dae0"); ("fontname", "Courier"); ("fontsize", "10")]))
                     (cols (tag x "hamilton.internal.schema_output"))
                 ++ [SNode (Some ("cluster_" ++ x)%string) x None []]
            else [] in
  let seen := (if decide (ck = "") then [] else ["config"]) ++
              match lk_role lk with RExpand => ["expand"] | RCollect => ["collect"] | RStandard => [] end ++
              (if is_saver x then ["materializer"] else []) ++ (if is_loader x then ["materializer"] else []) ++
              (if m_output m then ["output"] else []) ++ (if m_override m then ["override"] else []) ++
              (if has_schema x then ["cluster"; "field"] else []) ++
              match entry with None => [ty] | Some _ => [] end in
  (SNode None x (Some l3) st7 :: fs, seen, entry).
Definition draw_node (x : name) : list stmt * list string * option ((string * string) * style) :=
  let ty := node_type x in
  if decide (ty = "input") then ([], ["input"], None)
  else if decide (ty = "config") then ([], [], None)
  else draw_function x ty.

(** 612-659: the edges into a node; [sets]: the tables of inputs that can be shared *)
Definition table_name (x : name) : string := ("_" ++ x ++ "_inputs")%string.
Fixpoint find_set (s : gset name) (sets : list (gset name * string)) : option string :=
  match sets with
  | [] => None
  | (s', t) :: sets => if decide (s = s') then Some t else find_set s sets
  end.
Definition deps_of (x : name) : list name := match g !! x with Some nd => dep_names nd | None => [] end.
Definition draw_edges (nodes : list name) (x : name) (sets : list (gset name * string)) : list stmt * list (gset name * string) :=
  let ds := filter (fun d => ~ (strict = true /\ d ∉ nodes)) (deps_of x) in
  let es := map (fun d => SEdge d x (let st := edge_style (bool_decide (lk_role (looks d) = RExpand)) (bool_decide (lk_role (looks x) = RCollect)) in
                                     if m_path (mod_of d) && m_path (mod_of x) then dset st "color" "red" else st))
                (filter (fun d => node_type d <> "input") ds) in
  let ins := filter (fun d => node_type d = "input") ds in
  if hide_inputs then (es, sets)
  else match ins with
       | [] => (es, sets)
       | _ :: _ =>
           match find_set (list_to_set ins) sets with
           | Some t => (es ++ [SEdge t x []], sets)
           | None => (es ++ [SNode None (table_name x) (Some (LTable (map (fun d => (d, lk_type (looks d))) ins))) (node_style "input"); SEdge (table_name x) x []],
                      if dedup then sets ++ [(list_to_set ins, table_name x)] else sets)
           end
       end.
Fixpoint draw_all_edges (nodes todo : list name) (sets : list (gset name * string)) : list stmt :=
  match todo with
  | [] => []
  | x :: todo => let '(es, sets') := draw_edges nodes x sets in es ++ draw_all_edges nodes todo sets'
  end.

(** 398-438: the legend *)
Definition sorted_types : list string := ["config"; "input"; "function"; "cluster"; "field"; "output"; "materializer"; "override"; "expand"; "collect"].
Fixpoint add_entry (e : (string * string) * style) (es : list ((string * string) * style)) : list ((string * string) * style) :=
  match es with
  | [] => [e]
  | e' :: es => if decide (e.1 = e'.1) then (e'.1, e.2) :: es else e' :: add_entry e es
  end.
Definition draw_legend (seen : list string) (entries : list ((string * string) * style)) : list stmt :=
  map (fun t => SNode (Some "cluster__legend") t None (dupdate (node_style t) (modifier_style t))) (filter (.∈ seen) sorted_types) ++
  map (fun e : (string * string) * style => SNode (Some "cluster__legend") e.1.2 None (dupdate (node_style e.1.1) e.2)) entries.

(** 466-664; [nodes] is a set in Python: its order is that of the list *)
Definition draw (nodes : list name) : list stmt :=
  let drawn := map draw_node nodes in
  map (fun kv : string * string => SNode None kv.1 (Some (node_label kv.1 kv.2)) (node_style "config")) config ++
  concat (map (fun d => d.1.1) drawn) ++
  draw_all_edges nodes nodes [] ++
  (if legend then draw_legend (concat (map (fun d => d.1.2) drawn)) (foldl (fun es d => match d.2 with Some e => add_entry e es | None => es end) [] drawn) else []).
End Draw.

(** driver.py 992-1005 [_visualize_execution_helper] *)
Definition execution_mods (final_vars overrides : list name) (x : name) : mods :=
  Mods (bool_decide (x ∈ final_vars)) (bool_decide (x ∈ overrides)) false.
(** 1409-1413 [visualize_path_between] *)
Definition path_mods (path : list name) (x : name) : mods := Mods false false (bool_decide (x ∈ path)).
(** graph.py 799-804 [display_all] *)
Definition no_mods (x : name) : mods := Mods false false false.
