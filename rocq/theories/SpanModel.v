(** The tracers that report runs, tasks and nodes as spans: hamilton/plugins/h_opentelemetry.py
    and hamilton/plugins/h_ddog.py. *)
From Verif Require Import Base.

(** How a span was ended. *)
Inductive status (E : Type) := SOk | SError (e : E).
Arguments SOk {E}. Arguments SError {E} e.

(** ** OpenTelemetry *)
Section Otel.
(** Exceptions; [true_ e] is [bool(e)], which an exception class can define. *)
Context {E : Type}.
Variable true_ : E -> bool.

(** A span of the library: its name, its parent (by number) and how often and how it was ended
    ([set_status] and [end]). Attributes are left out. *)
Record span := Span { sp_name : name; sp_parent : option nat; sp_ends : list (status E) }.
(** The variables of one context (PEP 567): the current span of the library, and the stack of
    h_opentelemetry.py 25 with its tokens. A token knows the context it was made in and the span
    that was current before. A context not heard of (a new thread) has the defaults. *)
Record cstate := CS { c_cur : option nat; c_stack : option (list ((nat * option nat) * nat)) }.
Definition no_ctx : cstate := CS None None.
Record tstate := TS { t_spans : list span; t_ctxs : gmap nat cstate }.
Definition ctx_of (st : tstate) (c : nat) : cstate := default no_ctx (t_ctxs st !! c).

Inductive oerr := ONoStack (* TypeError: None[:] *) | OEmpty (* IndexError: pop from empty list *).

(** h_opentelemetry.py 42-58 [_enter_span] in the context [c]: the new span is a child of the
    current one and becomes the current one. *)
Definition enter_span (c : nat) (x : name) (st : tstate) : tstate :=
  let cs := ctx_of st c in
  let id := length (t_spans st) in
  let token := (c, c_cur cs) in
  TS (t_spans st ++ [Span x (c_cur cs) []])
     (<[c := CS (Some id) (Some (default [] (c_stack cs) ++ [(token, id)]))]> (t_ctxs st)).

(** 28-39 [_exit_span]; [context.detach] of a token of another context only logs an error. *)
Definition exit_span (c : nat) (exc : option E) (st : tstate) : res oerr tstate :=
  let cs := ctx_of st c in
  match c_stack cs with
  | None => Err ONoStack
  | Some stack =>
      match last stack with
      | None => Err OEmpty
      | Some ((tc, before), id) =>
          let cur := if decide (tc = c) then before else c_cur cs in
          let s := match exc with Some e => if true_ e then SError e else SOk | None => SOk end in
          Ok (TS (alter (fun sp => Span (sp_name sp) (sp_parent sp) (sp_ends sp ++ [s])) id (t_spans st))
                 (<[c := CS cur (Some (take (length stack - 1) stack))]> (t_ctxs st)))
      end
  end.

(** What happens: a hook before (84-140) or after (142-149) a run, a task or a node, in some
    context; and the copy of a context ([asyncio.create_task], [copy_context]). *)
Inductive oevent := OEnter (c : nat) (x : name) | OExit (c : nat) (exc : option E) | OFork (c c' : nat).
Definition ostep (st : tstate) (e : oevent) : res oerr tstate :=
  match e with
  | OEnter c x => Ok (enter_span c x st)
  | OExit c exc => exit_span c exc st
  | OFork c c' => Ok (TS (t_spans st) (<[c' := ctx_of st c]> (t_ctxs st)))
  end.
Fixpoint orun (es : list oevent) (st : tstate) : res oerr tstate :=
  match es with
  | [] => Ok st
  | e :: es => match ostep st e with Ok st' => orun es st' | Err x => Err x end
  end.
Definition otel0 : tstate := TS [] ∅.
End Otel.
Arguments span : clear implicits.
Arguments tstate : clear implicits.
Arguments oevent : clear implicits.

(** ** Datadog *)
Section Datadog.
(** [O]: the trace context that is active outside, if any *)
Context {E O : Type}.

Inductive parent := PNone | POuter (o : O) | PSpan (id : nat).
(** A span: its name, its parent, the spans it is linked to (with the name of the input) and how
    it was finished ([__exit__]). *)
Record dspan := DSpan { d_name : name; d_parent : parent; d_links : list (name * nat); d_ends : list (status E) }.
(** h_ddog.py 36-38: the caches; [task_id] is [None] outside of tasks. *)
Record dstate := DS {
  d_spans : list dspan;
  d_runs : gmap name nat;
  d_tasks : gmap name (gmap name nat);
  d_nodes : gmap name (gmap (option name * name) nat) }.
Inductive devent :=
| DGraph (r : name) (outer : option O)
| DTask (r t : name)
| DNode (r : name) (t : option name) (x : name) (kwargs : list name)
| DGraphEnd (r : name) (err : option E)
| DTaskEnd (r t : name) (err : option E)
| DNodeEnd (r : name) (t : option name) (x : name) (err : option E).

(** 189-196, 208-215, 251-258: [span.__exit__] with the exception, if any; [None]: KeyError *)
Definition outcome (err : option E) : status E := match err with Some e => SError e | None => SOk end.
Definition finish (id : nat) (err : option E) (sps : list dspan) : list dspan :=
  alter (fun s => DSpan (d_name s) (d_parent s) (d_links s) (d_ends s ++ [outcome err])) id sps.

Definition dstep (links : bool) (st : dstate) (e : devent) : option dstate :=
  let id := length (d_spans st) in
  match e with
  | DGraph r outer => (* 112-125; the root's name is the same for all runs, here the run's *)
      Some (DS (d_spans st ++ [DSpan r (match outer with Some o => POuter o | None => PNone end) [] []])
               (<[r := id]> (d_runs st)) (<[r := ∅]> (d_tasks st)) (<[r := ∅]> (d_nodes st)))
  | DTask r t => (* 220-233 *)
      p ← d_runs st !! r; ts ← d_tasks st !! r;
      Some (DS (d_spans st ++ [DSpan t (PSpan p) [] []]) (d_runs st) (<[r := <[t := id]> ts]> (d_tasks st)) (d_nodes st))
  | DNode r t x kwargs => (* 127-169 *)
      ts ← d_tasks st !! r;
      p ← match t ≫= (ts !!.) with Some p => Some p | None => d_runs st !! r end;
      ns ← d_nodes st !! r;
      let ls := if links then omap (fun k => (fun i => (k, i)) <$> ns !! (t, k)) kwargs else [] in
      let nm := match t with Some t => (t ++ ":" ++ x)%string | None => x end in
      Some (DS (d_spans st ++ [DSpan nm (PSpan p) ls []]) (d_runs st) (d_tasks st) (<[r := <[(t, x) := id]> ns]> (d_nodes st)))
  | DNodeEnd r t x err => (* 171-196 *)
      ns ← d_nodes st !! r; i ← ns !! (t, x);
      Some (DS (finish i err (d_spans st)) (d_runs st) (d_tasks st) (d_nodes st))
  | DGraphEnd r err => (* 198-218 *)
      i ← d_runs st !! r;
      Some (DS (finish i err (d_spans st)) (delete r (d_runs st)) (delete r (d_tasks st)) (delete r (d_nodes st)))
  | DTaskEnd r t err => (* 235-258 *)
      ts ← d_tasks st !! r; i ← ts !! t;
      Some (DS (finish i err (d_spans st)) (d_runs st) (d_tasks st) (d_nodes st))
  end.
Fixpoint drun (links : bool) (es : list devent) (st : dstate) : option dstate :=
  match es with
  | [] => Some st
  | e :: es => st' ← dstep links st e; drun links es st'
  end.
Definition ddog0 : dstate := DS [] ∅ ∅ ∅.
End Datadog.
Arguments dspan : clear implicits.
Arguments dstate : clear implicits.
Arguments devent : clear implicits.
Arguments parent : clear implicits.
