(** What the MLflow tracker is to log, independently of MlflowModel's functions. *)
From Verif Require Import Base Dict MlflowModel.

Section Spec.
Context {V : Type}.
Variable as_float : V -> option V.
Variable pickles : V -> bool.
Variable shown : V -> string.
Variable meta : V -> option (option string * option string * option (string * string)).

(** Where metadata say that something was saved: at a path, or, if they have none, at that of a file *)
Inductive where_saved (v : V) : string -> Prop :=
| where_path p f r : meta v = Some (Some p, f, r) -> p <> "" -> where_saved v p
| where_file p r : meta v = Some (None, Some p, r) -> p <> "" -> where_saved v p.
Inductive not_said (v : V) : Prop :=
| not_said_path f r : meta v = Some (Some "", f, r) -> not_said v
| not_said_file r : meta v = Some (None, Some "", r) -> not_said v
| not_said_neither r : meta v = Some (None, None, r) -> not_said v.

(** What is logged of a node that returned *)
Inductive logs (final : list string) (n : mnode V) : V -> list (item V) -> Prop :=
| logs_other v : mn_saver n = None -> mn_name n ∉ final -> logs final n v []
| logs_metric v w : mn_saver n = None -> mn_name n ∈ final -> mn_type n = TFloat \/ mn_type n = TInt -> as_float v = Some w -> logs final n v [IMetric (mn_name n) w]
| logs_figure v : mn_saver n = None -> mn_name n ∈ final -> mn_type n = TFigure -> logs final n v [IFigure v (mn_name n ++ ".png")]
| logs_value v : mn_saver n = None -> mn_name n ∈ final -> mn_type n <> TFloat -> mn_type n <> TInt -> mn_type n <> TFigure -> pickles v = true ->
    logs final n v [IDict (mn_name n ++ ".pickle") v]
| logs_artifact sink v p : mn_saver n = Some sink -> sink <> "mlflow" -> sink <> "plt" -> sink <> "plotly" -> where_saved v p -> logs final n v [IArtifact p (mn_name n)]
| logs_nowhere sink v : mn_saver n = Some sink -> sink <> "mlflow" -> sink <> "plt" -> sink <> "plotly" -> not_said v -> logs final n v []
| logs_undrawn sink v x f : mn_saver n = Some sink -> sink = "plt" \/ sink = "plotly" -> mn_required n = [x] -> dget (mn_kwargs n) x = Some f -> not_said v -> logs final n v []
| logs_drawing sink v x f p : mn_saver n = Some sink -> sink = "plt" \/ sink = "plotly" -> mn_required n = [x] -> dget (mn_kwargs n) x = Some f -> where_saved v p ->
    logs final n v [IFigure f p]
| logs_model v p f m w x : mn_saver n = Some "mlflow" -> meta v = Some (p, f, Some (m, w)) -> mn_required n = [x] -> logs final n v [IModel m w x]
| logs_unregistered v p f : mn_saver n = Some "mlflow" -> meta v = Some (p, f, None) -> logs final n v [].
Inductive logged (final : list string) : list (mnode V * V) -> list (item V) -> Prop :=
| logged_nil : logged final [] []
| logged_cons n v l is js : logs final n v is -> logged final l js -> logged final ((n, v) :: l) (is ++ js).

(** What the nodes come to without the tracker: those that returned, and the outcome. A node that fails is
    neither a saver nor asked for. *)
Inductive ran (final : list string) : list (mnode V * moutcome V) -> list (mnode V * V) -> res merr unit -> Prop :=
| ran_nil : ran final [] [] (Ok tt)
| ran_returns n v l vs r : ran final l vs r -> ran final ((n, MReturns v) :: l) ((n, v) :: vs) r
| ran_raises n e l : mn_saver n = None -> mn_name n ∉ final -> ran final ((n, MRaises e) :: l) [] (Err e).

(** Where configuration and inputs have the same name, they are shown alike *)
Definition agree (c d : dict V) : Prop := forall k v w, dget c k = Some v -> dget d k = Some w -> shown v = shown w.
Definition keys_once (c : dict V) : Prop := NoDup (map fst c).
End Spec.
