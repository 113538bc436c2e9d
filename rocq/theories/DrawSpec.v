(** What a picture shows, and what it should show. *)
From Verif Require Import Base Dict DrawModel.

(** ** Reading a dot file: statements about one name are about one node, later attributes win *)
Fixpoint label_of (st : list stmt) (x : string) : option label :=
  match st with
  | [] => None
  | SNode _ y l _ :: st => match label_of st x with Some l' => Some l' | None => if decide (y = x) then l else None end
  | SEdge _ _ _ :: st => label_of st x
  end.
Fixpoint attr_of (st : list stmt) (x k : string) : option string :=
  match st with
  | [] => None
  | SNode _ y _ sty :: st => match attr_of st x k with Some v => Some v | None => if decide (y = x) then dget sty k else None end
  | SEdge _ _ _ :: st => attr_of st x k
  end.
(** The arrows into [b], each with where it comes from and its attributes *)
Definition arrows (st : list stmt) (b : string) : list (string * style) :=
  omap (fun s => match s with SEdge a b' sty => if decide (b' = b) then Some (a, sty) else None | SNode _ _ _ _ => None end) st.
(** Nodes are drawn when they are declared and when an arrow touches them. *)
Definition shown (st : list stmt) (x : string) : Prop :=
  exists s, s ∈ st /\ match s with SNode _ y _ _ => x = y | SEdge a b _ => x = a \/ x = b end.
Definition in_legend (st : list stmt) (x : string) : Prop := exists l sty, SNode (Some "cluster__legend") x l sty ∈ st.

(** Arrows from a table *)
Definition table_into (st : list stmt) (x t : string) : Prop := (exists sty, (t, sty) ∈ arrows st x) /\ exists rows, label_of st t = Some (LTable rows).
(** A name in bold above a type, cut after 80 characters, in italics *)
Definition cut (s s' : string) : Prop :=
  (String.length s <= 80 /\ s' = s) \/ exists a b, s = (a ++ b)%string /\ String.length a = 80 /\ b <> "" /\ s' = (a ++ "[...]")%string.
Definition reads (esc : string -> string) (l : option label) (nm ty : string) : Prop :=
  exists ty', cut ty ty' /\ l = Some (LText ("<<b>" ++ nm ++ "</b><br /><br /><i>" ++ esc ty' ++ "</i>>")%string).

Section Spec.
Variable g : graph.
Variable looks : name -> look.
Variable cols : string -> list string.
Variable custom : option (name -> string -> style * (string * string)).
Variable strict legend fields : bool.
Variable config : dict string.
Variable nodes : list name.

(** Inputs are external and something depends on them; settings are external and nothing does. *)
Definition an_input (x : name) : Prop := exists nd, g !! x = Some nd /\ nd_ext nd = true /\ nd_rdeps nd <> [].
Definition a_setting (x : name) : Prop := exists nd, g !! x = Some nd /\ nd_ext nd = true /\ nd_rdeps nd = [] /\ lk_orig (looks x) = false.
Definition a_function (x : name) : Prop := is_Some (g !! x) /\ ~ an_input x /\ ~ a_setting x.

(** What is to be shown of the dependencies of a node *)
Definition visible (d : name) : Prop := strict = true -> d ∈ nodes.
Definition inputs_of (x d : name) : Prop := edge g x d /\ visible d /\ an_input d.
Definition others_of (x d : name) : Prop := edge g x d /\ visible d /\ ~ an_input d.

(** The things in a picture and their names *)
Inductive thing := TFun (x : name) | TConfig (k : string) | TTable (x : name) | TField (x : name) (c : string) | TLegend (t : string).
Definition name_of (t : thing) : string :=
  match t with
  | TFun x => x | TConfig k => k | TTable x => ("_" ++ x ++ "_inputs")%string | TField x c => (x ++ ":" ++ c)%string | TLegend t => t
  end.
Definition kinds : list string := ["config"; "input"; "function"; "cluster"; "field"; "output"; "materializer"; "override"; "expand"; "collect"].
Definition present (t : thing) : Prop :=
  match t with
  | TFun x => (x ∈ nodes /\ a_function x) \/ exists y, y ∈ nodes /\ others_of y x
  | TConfig k => k ∈ dkeys config
  | TTable x => x ∈ nodes /\ exists d, inputs_of x d
  | TField x c => x ∈ nodes /\ a_function x /\ fields = true /\ exists s, dget (lk_tags (looks x)) "hamilton.internal.schema_output" = Some s /\ s <> "" /\ c ∈ cols s
  | TLegend t => legend = true /\ (t ∈ kinds \/ exists f x k sty base, custom = Some f /\ x ∈ nodes /\ f x k = (sty, (base, t)) /\ t <> "")
  end.
(** No two things have the same name. *)
Definition clean : Prop := forall t t', present t -> present t' -> name_of t = name_of t' -> t = t'.

Definition has_tag (x : name) (k : string) : Prop := exists s, dget (lk_tags (looks x)) k = Some s /\ s <> "".
(** Savers, and loaders that are told from other nodes of a loader by their name or source *)
Definition substring_of (p s : string) : Prop := exists a b, s = (a ++ p ++ b)%string.
Definition saver (x : name) : Prop := has_tag x "hamilton.data_saver".
Definition loader (x : name) : Prop := has_tag x "hamilton.data_loader" /\ (substring_of "load_data." x \/ dget (lk_tags (looks x)) "hamilton.data_loader.source" = Some "loader").

(** The style that the user chose, and their name for it in the legend *)
Definition chosen (x : name) (k : string) : option string := match custom with Some f => dget (f x "function").1 k | None => None end.
Definition legend_name (x : name) : string := match custom with Some f => (f x "function").2.2 | None => "" end.
(** What there is to explain *)
Definition occurs (mod_of : name -> mods) (t : string) : Prop := exists x, x ∈ nodes /\
  ((t = "input" /\ an_input x) \/
   (a_function x /\
    ((t = "function" /\ legend_name x = "") \/ (t = legend_name x /\ t <> "") \/ (t = "config" /\ has_tag x "hamilton.config") \/
     (t = "expand" /\ lk_role (looks x) = RExpand) \/ (t = "collect" /\ lk_role (looks x) = RCollect) \/ (t = "materializer" /\ (saver x \/ loader x)) \/
     (t = "output" /\ m_output (mod_of x) = true) \/ (t = "override" /\ m_override (mod_of x) = true) \/
     ((t = "cluster" \/ t = "field") /\ has_tag x "hamilton.internal.schema_output" /\ fields = true)))).
End Spec.

(** What an execution follows from a node: what it depends on unless it is overridden; not the
    optional inputs that have no value *)
Definition follows {V : Type} (g : graph) (config : gmap name V) (inputs overrides : option (gmap name V)) (x d : name) : Prop :=
  exists nd k, g !! x = Some nd /\ (d, k) ∈ nd_deps nd /\ (forall o, overrides = Some o -> o !! x = None) /\
    (forall i, inputs = Some i -> k = OPTIONAL -> (exists nd', g !! d = Some nd' /\ nd_ext nd' = true) -> is_Some (i !! d) \/ is_Some (config !! d)).
