(** What events about runs are to say, independently of LineageModel's functions. *)
From Coq Require Import Ascii.
From Verif Require Import Base Strings LineageModel.

(** [p] occurs in [s] *)
Definition within (p s : string) : Prop := exists a b, s = (a ++ p ++ b)%string.
(** What comes before the first [p] in [s] *)
Definition leads (p s x : string) : Prop :=
  exists b, s = (x ++ p ++ b)%string /\ forall y b', s = (y ++ p ++ b')%string -> String.length x <= String.length y.
(** What comes after the last dot *)
Definition ends_in (s x : string) : Prop := lacks "."%char x /\ exists a, s = (a ++ "." ++ x)%string.

(** A node saved, or loaded, something about which [m] is known *)
Definition saves (n : lnode) (v : value) (m : meta) : Prop := ln_saver n = true /\ v = VDict m /\ m <> no_meta.
Definition loads (n : lnode) (v : value) (m : meta) : Prop :=
  ln_loader n = true /\ ln_metadata n = true /\ (exists x, v = VTuple [x; VDict m]) /\ m <> no_meta.

(** Nothing that is looked for lacks *)
Definition complete (m : meta) : Prop :=
  m_file m <> Some None /\
  (m_file m = None -> forall t q, m_sql m = Some (t, q) -> t <> Missing /\ q <> Missing) /\
  (forall cs ts, m_frame m = Some (cs, ts) -> (exists l, cs = Val l) /\ (exists l, ts = Val l)).

Definition known {A} (f : field A) (o : option A) : Prop := match o with Some a => f = Val a | None => f = Null end.
Definition schema (m : meta) (s : option (list (string * string))) : Prop :=
  match s with
  | None => m_frame m = None
  | Some s => exists cs ts, m_frame m = Some (Val cs, Val ts) /\ s = zip cs ts
  end.

(** The dataset a node wrote *)
Inductive written (ns : string) (n : lnode) (m : meta) : dataset -> Prop :=
| written_file path f s : m_file m = Some (Some path) -> schema m s ->
    ends_in path f \/ (lacks "."%char path /\ f = "unknown") ->
    written ns n m (Dataset ns (Some path) (Some f) (Some (ln_name n, path)) s)
| written_table t q o s : m_file m = None -> m_sql m = Some (t, q) -> known t o -> schema m s -> written ns n m (Dataset ns o None None s)
| written_else s : m_file m = None -> m_sql m = None -> schema m s -> written ns n m (Dataset ns (Some "--UNKNOWN--") None None s).

(** The dataset a node read, and the query *)
Inductive read (ns : string) (n : lnode) (m : meta) : dataset -> list job_facet -> Prop :=
| read_file path x f s : m_file m = Some (Some path) -> schema m s ->
    leads ".loader" (ln_name n) x \/ (~ within ".loader" (ln_name n) /\ x = ln_name n) ->
    (within "." x /\ (ends_in path f \/ (lacks "."%char path /\ f = path))) \/ (~ within "." x /\ f = "unknown") ->
    read ns n m (Dataset ns (Some x) (Some f) (Some (x, path)) s) []
| read_table t q o o' s : m_file m = None -> m_sql m = Some (t, q) -> known t o -> known q o' -> schema m s ->
    read ns n m (Dataset ns o None None s) [JSql o']
| read_else s : m_file m = None -> m_sql m = None -> schema m s -> read ns n m (Dataset ns (Some "--UNKNOWN--") None None s) [].

Section Spec.
Variable ns job run : string.
(** The events about nodes that returned *)
Inductive tells : list (lnode * value) -> list event -> Prop :=
| tells_nil : tells [] []
| tells_quiet n v l es : (forall m, ~ saves n v m /\ ~ loads n v m) -> tells l es -> tells ((n, v) :: l) es
| tells_saved n v m d l es : saves n v m -> written ns n m d -> tells l es ->
    tells ((n, v) :: l) (Event RUNNING run [] ns job [] [] [d] :: es)
| tells_loaded n v m d q l es : loads n v m -> read ns n m d q -> tells l es ->
    tells ((n, v) :: l) (Event RUNNING run [] ns job q [d] [] :: es).
End Spec.

(** The nodes that returned, and what the others raised *)
Inductive ran : list (lnode * outcome) -> list (lnode * value) -> res lerr unit -> Prop :=
| ran_nil : ran [] [] (Ok tt)
| ran_returns n v l vs r : ran l vs r -> ran ((n, Returns v) :: l) ((n, v) :: vs) r
| ran_raises n e l : ran ((n, Raises e) :: l) [] (Err e).
(** What a run comes to without the adapter *)
Inductive plain (p : plan) : list (lnode * value) -> res lerr unit -> Prop :=
| plain_check e : pl_check p = Some e -> plain p [] (Err e)
| plain_raises vs e : pl_check p = None -> ran (pl_nodes p) vs (Err e) -> plain p vs (Err e)
| plain_build vs : pl_check p = None -> ran (pl_nodes p) vs (Ok tt) -> plain p vs (pl_build p).

Definition readable (g : list (string * source)) : Prop := forall x, (x, SUnavailable) ∉ g.
Definition all_complete (vs : list (lnode * value)) : Prop := forall n v m, (n, v) ∈ vs -> saves n v m \/ loads n v m -> complete m.

Definition is_end (e : event) : Prop := ev_kind e = COMPLETE \/ ev_kind e = FAIL.
Definition about (run ns job : string) (e : event) : Prop := ev_run e = run /\ ev_namespace e = ns /\ ev_job e = job.
(** Events of a run: its start, some of its nodes, its end; some may be missing at the end *)
Definition in_order (es : list event) : Prop :=
  es = [] \/ exists s mid fin, es = s :: mid ++ fin /\ ev_kind s = START /\ Forall (fun e => ev_kind e = RUNNING) mid /\ length fin <= 1 /\ Forall is_end fin.
