(** What is expected of the spans of a program, and what of those of a stream of hooks. *)
From Verif Require Import Base SpanModel.

(** ** Programs that are traced with OpenTelemetry *)
Section Otel.
Context {E : Type}.
(** A span around what happens in it, ended with an exception or not; something that runs
    concurrently in a copy of the context; something that runs in a thread of its own. *)
Inductive act :=
| Within (x : name) (exc : option E) (body : list act)
| Spawn (body : list act)
| Thread (body : list act).

(** The spans that a reader expects, each with the names of the spans around it: a thread starts
    from nothing. *)
Fixpoint expected (path : list name) (a : act) : list (list name * option E) :=
  match a with
  | Within x exc body => (path ++ [x], exc) :: concat (map (expected (path ++ [x])) body)
  | Spawn body => concat (map (expected path) body)
  | Thread body => concat (map (expected []) body)
  end.

(** Executions: in any order, one of the threads does its next step. *)
Inductive item := Do (a : act) | Leave (exc : option E).
Definition threads := list (nat * list item).
Inductive steps : threads -> list (oevent E) -> threads -> Prop :=
| S_done ts : steps ts [] ts
| S_enter ts1 c x exc body k ts2 es ts' :
    steps (ts1 ++ (c, map Do body ++ Leave exc :: k) :: ts2) es ts' ->
    steps (ts1 ++ (c, Do (Within x exc body) :: k) :: ts2) (OEnter c x :: es) ts'
| S_leave ts1 c exc k ts2 es ts' :
    steps (ts1 ++ (c, k) :: ts2) es ts' -> steps (ts1 ++ (c, Leave exc :: k) :: ts2) (OExit c exc :: es) ts'
| S_spawn ts1 c c' body k ts2 es ts' :
    c' ∉ map fst (ts1 ++ (c, k) :: ts2) ->
    steps (ts1 ++ (c, k) :: ts2 ++ [(c', map Do body)]) es ts' ->
    steps (ts1 ++ (c, Do (Spawn body) :: k) :: ts2) (OFork c c' :: es) ts'
| S_thread ts1 c c' body k ts2 es ts' :
    c' ∉ map fst (ts1 ++ (c, k) :: ts2) ->
    steps (ts1 ++ (c, k) :: ts2 ++ [(c', map Do body)]) es ts' ->
    steps (ts1 ++ (c, Do (Thread body) :: k) :: ts2) es ts'.
Definition finished (ts : threads) : Prop := Forall (fun t => t.2 = []) ts.

(** The threads at the beginning, and the spans of all of them. *)
Definition begin (progs : list (nat * list act)) : threads := map (fun p => (p.1, map Do p.2)) progs.
Definition wanted (progs : list (nat * list act)) : list (list name * option E) := concat (map (fun p => concat (map (expected []) p.2)) progs).

(** The names of the spans around a span, by its parents. *)
Inductive trail (sps : list (span E)) : nat -> list name -> Prop :=
| T_root i s : sps !! i = Some s -> sp_parent s = None -> trail sps i [sp_name s]
| T_child i s j p : sps !! i = Some s -> sp_parent s = Some j -> trail sps j p -> trail sps i (p ++ [sp_name s]).

(** The spans are those expected: each ended once, as it should. *)
Definition right (sps : list (span E)) (want : list (list name * option E)) : Prop :=
  exists paths, length paths = length sps /\ (forall i p, paths !! i = Some p -> trail sps i p) /\
    zip paths (map sp_ends sps) ≡ₚ map (fun w => (w.1, [match w.2 with Some e => SError e | None => SOk end])) want.
End Otel.
Arguments act : clear implicits.
Arguments threads : clear implicits.

(** ** Streams of hooks that are traced with Datadog *)
Inductive key := KRun (r : name) | KTask (r t : name) | KNode (r : name) (t : option name) (x : name).
#[global] Instance key_eq_dec : EqDecision key.
Proof. solve_decision. Defined.
Section Datadog.
Context {E O : Type}.
Notation devent := (devent E O).
Definition starts (e : devent) : option key :=
  match e with DGraph r _ => Some (KRun r) | DTask r t => Some (KTask r t) | DNode r t x _ => Some (KNode r t x) | _ => None end.
Definition ends (e : devent) : option (key * option E) :=
  match e with DGraphEnd r er => Some (KRun r, er) | DTaskEnd r t er => Some (KTask r t, er) | DNodeEnd r t x er => Some (KNode r t x, er) | _ => None end.
Definition run_of (k : key) : name := match k with KRun r => r | KTask r _ => r | KNode r _ _ => r end.
Definition was_started (es : list devent) (k : key) : Prop := exists e, e ∈ es /\ starts e = Some k.
Definition was_ended (es : list devent) (k : key) : Prop := exists e er, e ∈ es /\ ends e = Some (k, er).

(** Every run, task and node starts once and ends after it has started, while its run is on; the
    rest is left open: threads, several runs at a time, tasks that end before their nodes. *)
Definition sensible (es : list devent) : Prop := forall i e, es !! i = Some e ->
  (forall k, starts e = Some k -> ~ was_started (take i es) k /\ (k <> KRun (run_of k) -> was_started (take i es) (KRun (run_of k)) /\ ~ was_ended (take i es) (KRun (run_of k)))) /\
  (forall k er, ends e = Some (k, er) -> was_started (take i es) k /\ ~ was_ended (take i es) (KRun (run_of k))).

(** The number of the span that [k] was given: how many were started before. *)
Definition number (es : list devent) (k : key) (id : nat) : Prop :=
  exists i e, es !! i = Some e /\ starts e = Some k /\ id = length (omap starts (take i es)).
(** How [k] was ended, in order. *)
Definition endings (es : list devent) (k : key) : list (status E) :=
  omap (fun e => match ends e with Some (k', er) => if bool_decide (k' = k) then Some (match er with Some x => SError x | None => SOk end) else None | None => None end) es.
End Datadog.

Section Describe.
Context {E O : Type}.
Notation devent := (devent E O).
(** The span that [e] starts, [pre] having happened before: a task's parent is its run, a node's
    its task if that has been started and else its run; it is linked to those inputs that have
    been started in the same task. *)
Definition key_name (k : key) : name :=
  match k with KRun r => r | KTask _ t => t | KNode _ None x => x | KNode _ (Some t) x => (t ++ ":" ++ x)%string end.
Definition right_parent (pre : list devent) (e : devent) (p : parent O) : Prop :=
  match e with
  | DGraph _ outer => p = match outer with Some o => POuter o | None => PNone end
  | DTask r _ => exists id, number pre (KRun r) id /\ p = PSpan id
  | DNode r t _ _ => exists id, p = PSpan id /\
      ((exists t', t = Some t' /\ number pre (KTask r t') id) \/
       (~ (exists t', t = Some t' /\ was_started pre (KTask r t')) /\ number pre (KRun r) id))
  | _ => False
  end.
Definition right_links (links : bool) (pre : list devent) (e : devent) (ls : list (name * nat)) : Prop :=
  forall y id, (y, id) ∈ ls <->
    exists r t x kwargs, e = DNode r t x kwargs /\ links = true /\ y ∈ kwargs /\ number pre (KNode r t y) id.
(** A run that is on. *)
Definition running (es : list devent) (r : name) : Prop := was_started es (KRun r) /\ ~ was_ended es (KRun r).
End Describe.
