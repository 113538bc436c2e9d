(** The adapter that caches on disk: hamilton/plugins/h_diskcache.py. *)
From Verif Require Import Base Dict NodeModel DecorModel.

(** [V]: values, as pickled (two values are the same key if their pickles are; an object that occurs twice in the arguments, which
    changes the pickle, is left out); [none]: None; [E]: what functions raise. *)
Section Model.
Context {V E : Type} `{EqDecision V}.
Variable none : V.

(** A node: its name, the hash of the source of its callable (graph_types.py 65-86), the nodes it needs (in the order of the
    keyword arguments), its callable. *)
Record cnode := CNode { cn_name : name; cn_hash : string; cn_deps : list name; cn_run : list (name * V) -> res E V }.
(** 111, 135: [(node_hash, *node_kwargs.values())]. *)
Notation key := (string * list V)%type.
Definition cache_key (h : string) (kw : list (name * V)) : key := (h, map snd kw).
(** 136: f"{node_name}.{node_hash}". A hash has no dots, so the text tells both. *)
Notation tag := (name * string)%type.
(** diskcache.Cache: entries with tags; the history, which is the value of the key "_nodes_history" (a text, so no [key]). *)
Record cache := Cache { k_entries : list (key * (V * tag)); k_history : option (dict (list string)) }.
Fixpoint kget (l : list (key * (V * tag))) (k : key) : option V :=
  match l with [] => None | (k', (v, _)) :: l => if decide (k = k') then Some v else kget l k end.
(** [Cache.add]: "only adds if key doesn't exist" *)
Definition kadd (l : list (key * (V * tag))) (k : key) (v : V) (t : tag) : list (key * (V * tag)) :=
  match kget l k with Some _ => l | None => l ++ [(k, (v, t))] end.
(** [Cache.evict(tag)] *)
Definition kevict (t : tag) (l : list (key * (V * tag))) : list (key * (V * tag)) := filter (fun e => e.2.2 <> t) l.

(** The adapter, 79-88. [a_calls]: the callables called so far (it is not in the code; it tells what is computed). *)
Record adapter := Adapter { a_vars : list name; a_history : dict (list string); a_used : dict string; a_calls : list (name * list (name * V)) }.
Definition init (vars : list name) (c : cache) : adapter := Adapter vars (match k_history c with Some h => h | None => [] end) [] [].
(** 97-100 *)
Definition before_graph (names : list name) (a : adapter) : adapter :=
  Adapter (match a_vars a with [] => names | l => l end) (a_history a) (a_used a) (a_calls a).

(** KeyError (of [used_nodes_hash]); a value that is not there; what a function raises; ValueError (of [list.remove]); AttributeError. *)
Inductive xd := DKey | DMissing | DUser (e : E) | DValue | DAttribute.

(** 102-128 [run_to_execute_node] *)
Definition call (n : cnode) (kw : list (name * V)) (a : adapter) : res E V * adapter :=
  (cn_run n kw, Adapter (a_vars a) (a_history a) (a_used a) (a_calls a ++ [(cn_name n, kw)])).
Definition execute (n : cnode) (kw : list (name * V)) (c : cache) (a : adapter) : res E V * adapter :=
  if decide (cn_name n ∈ a_vars a) then
    let a := Adapter (a_vars a) (a_history a) (dset (a_used a) (cn_name n) (cn_hash n)) (a_calls a) in
    let compute := call n kw (Adapter (a_vars a) (dset (a_history a) (cn_name n) (match dget (a_history a) (cn_name n) with Some h => h | None => [] end ++ [cn_hash n]))
                               (a_used a) (a_calls a)) in
    match kget (k_entries c) (cache_key (cn_hash n) kw) with
    | Some v => if decide (v = none) then compute else (Ok v, a)
    | None => compute
    end
  else call n kw a.
(** 130-138 [run_after_node_execution] *)
Definition after_execution (n : name) (kw : list (name * V)) (result : V) (c : cache) (a : adapter) : res xd cache :=
  if decide (n ∈ a_vars a) then
    match dget (a_used a) n with
    | None => Err DKey
    | Some h => Ok (Cache (kadd (k_entries c) (cache_key h kw) result (n, h)) (k_history c))
    end
  else Ok c.
(** hamilton/execution/graph_functions.py 275-331: the hook is called also after a failure, then with the result None. *)
Definition step (n : cnode) (kw : list (name * V)) (c : cache) (a : adapter) : res xd (res E V * cache * adapter) :=
  let ra := execute n kw c a in
  bindr (after_execution (cn_name n) kw (match ra.1 with Ok v => v | Err _ => none end) c ra.2) (fun c => Ok (ra.1, c, ra.2)).

(** The nodes of an execution, in order, each with the values of those it needs. *)
Definition arguments (deps : list name) (env : dict V) : option (list (name * V)) :=
  foldr (fun d o => match o, dget env d with Some l, Some v => Some ((d, v) :: l) | _, _ => None end) (Some []) deps.
Fixpoint run_nodes (ns : list cnode) (env : dict V) (c : cache) (a : adapter) : res xd (dict V) * cache * adapter :=
  match ns with
  | [] => (Ok env, c, a)
  | n :: ns =>
    match arguments (cn_deps n) env with
    | None => (Err DMissing, c, a)
    | Some kw =>
      match step n kw c a with
      | Err x => (Err x, c, a)
      | Ok (Err e, c, a) => (Err (DUser e), c, a)
      | Ok (Ok v, c, a) => run_nodes ns (dset env (cn_name n) v) c a
      end
    end
  end.
(** driver.py 616-652: the hook after the graph (140-143) is called also after a failure. *)
Definition run_graph (ns : list cnode) (env : dict V) (c : cache) (a : adapter) : res xd (dict V) * cache * adapter :=
  let '(r, c, a) := run_nodes ns env c (before_graph (map cn_name ns) a) in
  (r, Cache (k_entries c) (Some (a_history a)), a).

(** [list.remove]: the first occurrence. *)
Fixpoint remove_first (h : string) (l : list string) : option (list string) :=
  match l with [] => None | x :: l => if decide (x = h) then Some l else match remove_first h l with Some l => Some (x :: l) | None => None end end.
(** 23-35: the loop over the history. *)
Fixpoint evict_loop (keep : dict string) (hist : dict (list string)) (es : list (key * (V * tag))) (new : dict (list string)) :
  res xd (list (key * (V * tag)) * dict (list string)) * list (key * (V * tag)) :=
  match hist with
  | [] => (Ok (es, new), es)
  | (n, hs) :: hist =>
    match hs with
    | [] => evict_loop keep hist es new
    | _ =>
      match dget keep n with
      | Some h =>
        match remove_first h hs with
        | None => (Err DValue, es)
        | Some hs => evict_loop keep hist (foldl (fun es h => kevict (n, h) es) es hs) (dset new n [h])
        end
      | None => evict_loop keep hist (foldl (fun es h => kevict (n, h) es) es hs) new
      end
    end
  end.
(** 15-38 [evict_all_except]; [keep]: the nodes to keep, each with the hash of its source. The counter is left out. *)
Definition evict_all_except (keep : dict string) (c : cache) : res xd unit * cache :=
  match k_history c with
  | None => (Err DAttribute, c)
  | Some hist =>
    match evict_loop keep hist (k_entries c) [] with
    | (Err x, es) => (Err x, Cache es (k_history c))
    | (Ok (es, new), _) => (Ok tt, Cache es (Some new))
    end
  end.

(** What can happen to a directory, one adapter at a time. *)
Inductive event := New (vars : list name) | Run (ns : list cnode) (env : dict V) | Evict (keep : dict string).
Definition happen (ca : cache * adapter) (e : event) : cache * adapter :=
  match e with
  | New vars => (ca.1, init vars ca.1)
  | Run ns env => let '(_, c, a) := run_graph ns env ca.1 ca.2 in (c, a)
  | Evict keep => ((evict_all_except keep ca.1).2, ca.2)
  end.
Definition fresh : cache * adapter := (Cache [] None, Adapter [] [] [] []).
End Model.
