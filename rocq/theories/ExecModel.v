(** Model of the default (in-process, depth-first) execution of a graph. *)
From Verif Require Import Base.

Section Exec.
Context {V E : Type}.

(** Exceptions that leave [execute_subdag]: the one raised by a node's function (or by
    the lifecycle adapters around it), and the NotImplementedError of
    hamilton/execution/graph_functions.py 195-197. *)
Inductive exn :=
| EUser (e : E)
| EMissing (x : name).

(** Observable events of a run, in order of occurrence.
    [Call x kw r]: the function of node [x] was invoked with keyword arguments [kw] and
    returned/raised [r]; [Store x v]: a value for [x] was put in [computed];
    [Drop x]: it was deleted from [computed] (graph_functions.py 243). *)
Inductive event :=
| Call (x : name) (kw : gmap name V) (r : res E V)
| Store (x : name) (v : V)
| Drop (x : name).

Record state := State { computed : gmap name V; trace : list event }.

Inductive outcome :=
| Done (s : state)                (* normal return *)
| Raise (s : state) (e : exn)     (* a Python exception propagates *)
| Fuel                            (* recursion deeper than the fuel: excluded by theorem *)
| Stuck.                          (* a dependency that is no node: excluded by [wf_graph] *)

(** The user's functions. They may be stateful: the result may depend on everything that
    happened in the run before ([list event]). *)
Variable F : list event -> name -> gmap name V -> res E V.
Variable g : graph.
Variable inputs overrides : gmap name V.
(** [nodes_to_compute], graph_functions.py 173. *)
Variable roots : list name.

Definition emit (s : state) (e : event) : state := State (computed s) (trace s ++ [e]).

(** [computed[x] = v] *)
Definition store (s : state) (x : name) (v : V) : state :=
  State (<[x := v]> (computed s)) (trace s ++ [Store x v]).

(** [del computed[x]] *)
Definition drop_ (s : state) (x : name) : state :=
  State (delete x (computed s)) (trace s ++ [Drop x]).

(** graph_functions.py 234-243: the for/else over [dep.depended_on_by]; true when no
    [break] happens. *)
Definition may_drop (s : state) (nd : node) : bool :=
  forallb (fun w => bool_decide (is_Some (computed s !! w)) && negb (bool_decide (w ∈ roots)))
          (nd_rdeps nd).

(** graph_functions.py 232-243: the pruning loop over [node_.dependencies]. *)
Fixpoint prune (s : state) (ds : list name) : state :=
  match ds with
  | [] => s
  | d :: ds' =>
      let s' :=
        match computed s !! d, g !! d with
        | Some _, Some nd =>
            if bool_decide (d ∈ roots) then s
            else if may_drop s nd then drop_ s d else s
        | _, _ => s
        end in
      prune s' ds'
  end.

(** graph_functions.py 201-204: keyword arguments from the dependencies that are in
    [computed]. *)
Definition gather (s : state) (ds : list name) : gmap name V :=
  foldl (fun kw d => match computed s !! d with Some v => <[d := v]> kw | None => kw end) ∅ ds.

(** graph_functions.py 186-189: visit the dependencies that are not in [computed], with
    the dependency type found in [input_types]. *)
Fixpoint visit_deps (rec : state -> name -> deptype -> outcome)
         (s : state) (ds : list (name * deptype)) : outcome :=
  match ds with
  | [] => Done s
  | (d, dt) :: ds' =>
      match computed s !! d with
      | Some _ => visit_deps rec s ds'
      | None =>
          match rec s d dt with
          | Done s' => visit_deps rec s' ds'
          | o => o
          end
      end
  end.

(** graph_functions.py 178-243, [dfs_traverse]. *)
Fixpoint dfs (fuel : nat) (s : state) (x : name) (dt : deptype) : outcome :=
  match fuel with
  | 0 => Fuel
  | S fuel' =>
      match g !! x with
      | None => Stuck
      | Some nd =>
          match computed s !! x with
          | Some _ => Done s                                            (* 181-182 *)
          | None =>
              match overrides !! x with
              | Some v => Done (store s x v)                            (* 183-185 *)
              | None =>
                  match visit_deps (dfs fuel') s (nd_deps nd) with      (* 186-189 *)
                  | Done s1 =>
                      if nd_ext nd then                                 (* 192-199 *)
                        match inputs !! x with
                        | None =>
                            match dt with
                            | OPTIONAL => Done s1
                            | REQUIRED => Raise s1 (EMissing x)
                            end
                        | Some v => Done (prune (store s1 x v) (dep_names nd))
                        end
                      else                                              (* 200-243 *)
                        let kw := gather s1 (dep_names nd) in
                        let r := F (trace s1) x kw in
                        let s2 := emit s1 (Call x kw r) in
                        match r with
                        | Err e => Raise s2 (EUser e)
                        | Ok v => Done (prune (store s2 x v) (dep_names nd))
                        end
                  | o => o
                  end
              end
          end
      end
  end.

(** graph_functions.py 245-250: the loop over the requested nodes; a requested external
    node is treated as optional. *)
Fixpoint run_roots (fuel : nat) (s : state) (xs : list name) : outcome :=
  match xs with
  | [] => Done s
  | x :: xs' =>
      match g !! x with
      | None => Stuck
      | Some nd =>
          match dfs fuel s x (if nd_ext nd then OPTIONAL else REQUIRED) with
          | Done s' => run_roots fuel s' xs'
          | o => o
          end
      end
  end.

(** graph_functions.py 149-251 with [computed = {}] on entry (as DefaultGraphExecutor
    and base_execute_task call it). The fuel bounds the depth of the Python recursion. *)
Definition execute_subdag : outcome :=
  run_roots (S (size g)) (State ∅ []) roots.

End Exec.

Arguments EUser {E} e.
Arguments EMissing {E} x.
Arguments exn : clear implicits.
Arguments event : clear implicits.
Arguments state : clear implicits.
Arguments outcome : clear implicits.

Section DefaultExecutor.
Context {V E : Type}.
Variable F : list (event V E) -> name -> gmap name V -> res E V.
Variable g : graph.

(** hamilton/execution/graph_functions.py 84-97. *)
Definition combine_config_and_inputs (config inputs : gmap name V) : option (gmap name V) :=
  if bool_decide (map_Forall (fun k _ => config !! k = None) inputs)
  then Some (inputs ∪ config)   (* {**config, **inputs}: inputs win, but they are disjoint *)
  else None.                    (* ValueError *)

(** Result of the executor: a dictionary with an entry for every requested variable
    ([None] models Python's None for an absent optional input), or an exception. *)
Inductive answer :=
| Answer (out : list (name * option V)) (tr : list (event V E))
| Failed (e : exn E) (tr : list (event V E))
| Clash            (* ValueError of combine_config_and_inputs *)
| Diverged.        (* Fuel / Stuck *)

(** hamilton/driver.py 163-183 [DefaultGraphExecutor.execute] and hamilton/graph.py
    1076-1106 [FunctionGraph.execute]: requested names that are no nodes are not executed
    (driver.py 174) but may be answered from the runtime inputs (driver.py 179). *)
Definition default_execute (config inputs overrides : gmap name V) (final_vars : list name)
  : answer :=
  let nodes := filter (fun x => is_Some (g !! x)) final_vars in
  match combine_config_and_inputs config inputs with
  | None => Clash
  | Some all_inputs =>
      match execute_subdag F g all_inputs overrides nodes with
      | Done s =>
          Answer (map (fun x => (x, match computed s !! x with
                                    | Some v => Some v
                                    | None => inputs !! x
                                    end)) final_vars)
                 (trace s)
      | Raise s e => Failed e (trace s)
      | Fuel | Stuck => Diverged
      end
  end.
End DefaultExecutor.
Arguments answer : clear implicits.
