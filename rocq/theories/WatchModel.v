(** Adapters that show what a run does: the filter of nodes and PrintLn, hamilton/lifecycle/default.py
    25-157, and the progress bar, hamilton/plugins/h_tqdm.py. *)
From Coq Require Import ZArith.
From Verif Require Import Base Dict ExecModel TraverseModel HubModel.

Inductive werr := WValue | WKey.

(** ** Filters *)
Section Filter.
Context {tags : Type}.
(** What users give: nothing, a name, a list of names, a function, or something else *)
Inductive nfilter := FNone | FName (s : string) | FList (l : list string) | FFun (f : string -> tags -> bool) | FOther.
(** default.py 35-44 [should_run_node] *)
Definition should_run_node (x : string) (t : tags) (f : nfilter) : res werr bool :=
  match f with
  | FNone => Ok true
  | FName s => Ok (bool_decide (x = s))
  | FList l => Ok (bool_decide (x ∈ l))
  | FFun f => Ok (f x t)
  | FOther => Err WValue
  end.
End Filter.
Arguments nfilter : clear implicits.

(** ** PrintLn *)
Section Print.
Context {tags : Type}.
(** The tags of nodes; [_format_time_delta] (52-60), which rounds floating-point numbers *)
Variable tags_of : string -> tags.
Variable format_time_delta : Z -> string.

Record printer := Printer { pr_verbosity : Z; pr_filter : nfilter tags }.
(** 62-66, 75-97 [__init__] *)
Definition println (verbosity : Z) (f : nfilter tags) : res werr printer :=
  if decide (verbosity ∈ [1; 2]%Z) then Ok (Printer verbosity (match f with FNone => FFun (fun _ _ => true) | f => f end)) else Err WValue.
(** 68-73 [_format_node_name] *)
Definition format_node_name (x : string) (task_id : option string) : string := match task_id with Some t => (t ++ ":" ++ x)%string | None => x end.

(** The two hooks as they are called, with the time (any unit) and how inputs, result and error are
    printed by pprint *)
Inductive pevent :=
| PBefore (x : string) (task_id : option string) (time : Z) (inputs : string)
| PAfter (x : string) (task_id : option string) (time : Z) (success : bool) (result error : string).
(** [timer_dict] and what was printed *)
Record pstate := PState { ps_timers : dict Z; ps_out : list string }.
Definition nl : string := String (Ascii.ascii_of_nat 10) "".
Definition before_message (v : Z) (id inputs : string) : string :=
  ("Executing node: " ++ id ++ "." ++ (if decide (v = 2%Z) then " Inputs: " ++ nl ++ inputs else ""))%string.
Definition after_message (v : Z) (id delta : string) (success : bool) (result error : string) : string :=
  ("Finished debugging node: " ++ id ++ " in " ++ delta ++ ". Status: " ++ (if success then "Success" else "Failure") ++ "." ++
   (if decide (v = 2%Z) then if success then " Result: " ++ nl ++ result ++ nl else " Error: " ++ nl ++ error else ""))%string.
Definition ddel {A} (d : dict A) (k : string) : dict A := filter (fun kv => kv.1 <> k) d.
(** 99-123 and 125-157 *)
Definition pstep (p : printer) (st : pstate) (e : pevent) : res werr unit * pstate :=
  match e with
  | PBefore x t now inputs =>
      match should_run_node x (tags_of x) (pr_filter p) with
      | Err er => (Err er, st)
      | Ok false => (Ok tt, st)
      | Ok true =>
          let id := format_node_name x t in
          (Ok tt, PState (dset (ps_timers st) id now) (ps_out st ++ [before_message (pr_verbosity p) id inputs]))
      end
  | PAfter x t now success result error =>
      match should_run_node x (tags_of x) (pr_filter p) with
      | Err er => (Err er, st)
      | Ok false => (Ok tt, st)
      | Ok true =>
          let id := format_node_name x t in
          match dget (ps_timers st) id with
          | None => (Err WKey, st)
          | Some began =>
              let out := ps_out st ++ [after_message (pr_verbosity p) id (format_time_delta (now - began)%Z) success result error] in
              match dget (ps_timers st) x with
              | None => (Err WKey, PState (ps_timers st) out)
              | Some _ => (Ok tt, PState (ddel (ps_timers st) x) out)
              end
          end
      end
  end.
(** The hooks of a run; the first that fails ends it *)
Fixpoint prun (p : printer) (st : pstate) (es : list pevent) : res werr unit * pstate :=
  match es with
  | [] => (Ok tt, st)
  | e :: es => match pstep p st e with (Ok _, st') => prun p st' es | (Err er, st') => (Err er, st') end
  end.
Definition quiet : pstate := PState [] [].
End Print.
Arguments printer : clear implicits.

(** ** The progress bar *)
(** [s[:k]] *)
Definition upto (k : Z) (s : string) : string := stake (Z.to_nat (if decide (0 <= k)%Z then k else Z.of_nat (String.length s) + k)%Z) s.
Fixpoint spaces (n : nat) : string := match n with 0 => EmptyString | S n => String (Ascii.ascii_of_nat 32) (spaces n) end.
(** h_tqdm.py 50-59 [_get_node_name_display] *)
Definition name_display (w : Z) (x : string) : string :=
  let out := if decide (Z.of_nat (String.length x) <= w)%Z then x else (upto (w - 3) x ++ "...")%string in
  if decide (Z.of_nat (String.length out) < w)%Z then (out ++ spaces (Z.to_nat (w - Z.of_nat (String.length out))))%string else out.

(** A bar of tqdm: its total, its count, what it says, whether it was closed *)
Record bar := Bar { b_total : nat; b_count : nat; b_text : string; b_closed : bool }.
(** 35-48: the description, the cap of the width, the width once it is known, and the bar *)
Record progress := Progress { pg_desc : string; pg_max : Z; pg_width : option Z; pg_bar : option bar }.
Definition progress_bar (desc : string) (max : Z) : progress := Progress desc max None None.
Definition longest (path : list string) : Z := foldr (fun x m => Z.max (Z.of_nat (String.length x)) m) 0%Z path.
Inductive gevent := GStart (path : list string) | GBefore (x : string) | GAfter | GEnd (success : bool).
Definition set_bar (p : progress) (b : bar) : progress := Progress (pg_desc p) (pg_max p) (pg_width p) (Some b).
Definition says (p : progress) (b : bar) (what : string) (closed : bool) : progress :=
  set_bar p (Bar (b_total b) (b_count b) (pg_desc p ++ " -> " ++ what) closed).
(** 61-80, 82-94, 96-97, 99-108. Hooks of nodes outside of a run are left out ([WKey]). *)
Definition gstep (p : progress) (e : gevent) : res werr progress :=
  match e with
  | GStart [] => Err WValue (* max of an empty list *)
  | GStart path =>
      let w := match pg_width p with Some w => w | None => Z.min (longest path) (pg_max p) end in
      Ok (Progress (pg_desc p) (pg_max p) (Some w) (Some (Bar (length path) 0 (pg_desc p) false)))
  | GBefore x => match pg_width p, pg_bar p with Some w, Some b => Ok (says p b (name_display w x) (b_closed b)) | _, _ => Err WKey end
  | GAfter => match pg_bar p with Some b => Ok (set_bar p (Bar (b_total b) (S (b_count b)) (b_text b) (b_closed b))) | _ => Err WKey end
  | GEnd _ =>
      match pg_width p, pg_bar p with
      | Some w, Some b =>
          let part := "Execution Complete!" in
          let padding := if decide (w < Z.of_nat (String.length part))%Z then EmptyString else spaces (Z.to_nat (w - Z.of_nat (String.length part))) in
          Ok (says p b (part ++ padding) true)
      | _, _ => Err WKey
      end
  end.
Fixpoint grun (p : progress) (es : list gevent) : res werr progress :=
  match es with [] => Ok p | e :: es => match gstep p e with Ok p' => grun p' es | Err er => Err er end end.

(** lifecycle/api.py 297-317: the nodes that a run is announced to execute, in some order *)
Definition execution_path {V} (g : graph) (config : gmap name V) (inputs overrides : option (gmap name V)) (fv : list name) : option (gset name) :=
  match get_upstream_nodes g config inputs overrides fv with Found nodes users => Some (nodes ∖ users) | _ => None end.
