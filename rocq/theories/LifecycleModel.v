(** Model of the lifecycle adapters: hamilton/lifecycle/base.py 756-1006 (LifecycleAdapterSet),
    hamilton/execution/graph_functions.py 255-331 (execute_lifecycle_for_node) and the hook
    brackets of hamilton/driver.py 584-652 (Driver.execute). Async hooks and validators are
    not modelled here. *)
From Verif Require Import Base Dict.

(** ** The adapter set *)
(** An adapter object: [ad_id] is [id(adapter)], [ad_eq] the class under Python's [==]
    (equal to the identity unless the adapter class defines __eq__), [ad_hooks]/[ad_methods]
    the SYNC_HOOK/SYNC_METHOD attributes met along [inspect.getmro] (base.py 813-822, 834-841);
    the same attribute is met several times because subclasses inherit it. *)
Record adapter := Adapter {
  ad_id : nat; ad_eq : nat; ad_hooks : list string; ad_methods : list string }.

(** base.py 775-789, [_uniqify_adapters]: by identity. *)
Fixpoint uniqify (seen : list nat) (l : list adapter) : list adapter :=
  match l with
  | [] => []
  | a :: l' => if decide (ad_id a ∈ seen) then uniqify seen l'
               else a :: uniqify (ad_id a :: seen) l'
  end.

(** [adapter not in list]: by [==]. *)
Definition py_in (a : adapter) (l : list adapter) : bool := existsb (fun b => ad_eq a =? ad_eq b) l.

Definition dlist {A} (o : option (list A)) : list A := match o with Some l => l | None => [] end.

(** base.py 802-825, [_get_lifecycle_hooks] (sync part). *)
Definition add_hook (m : list (string * list adapter)) (a : adapter) (h : string) : list (string * list adapter) :=
  let l := dlist (dget m h) in
  if py_in a l then m else dset m h (l ++ [a]).
Definition add_hooks (m : list (string * list adapter)) (a : adapter) := foldl (fun m h => add_hook m a h) m (ad_hooks a).
Definition lifecycle_hooks (l : list adapter) : list (string * list adapter) := foldl add_hooks [] l.

(** base.py 827-858, [_get_lifecycle_methods] (sync part): sets of adapters ([==]/hash). *)
Definition add_method (m : list (string * list adapter)) (a : adapter) (h : string) : list (string * list adapter) :=
  let l := dlist (dget m h) in
  if py_in a l then m else dset m h (l ++ [a]).
Definition add_methods (m : list (string * list adapter)) (a : adapter) := foldl (fun m h => add_method m a h) m (ad_methods a).
Definition lifecycle_methods (l : list adapter) : list (string * list adapter) := foldl add_methods [] l.

Record adapter_set := AdapterSet {
  as_adapters : list adapter;
  as_hooks : list (string * list adapter);
  as_methods : list (string * list adapter) }.

(** base.py 764-773; [None]: ValueError, several implementations of one method. *)
Definition make_set (l : list adapter) : option adapter_set :=
  let u := uniqify [] l in
  let ms := lifecycle_methods u in
  if existsb (fun p => 1 <? length p.2) ms then None
  else Some (AdapterSet u (lifecycle_hooks u) ms).

(** [self.sync_hooks.get(hook_name, [])], and [(adapter,) = self.sync_methods[name]]. *)
Definition hooks_of (s : adapter_set) (h : string) : list adapter := dlist (dget (as_hooks s) h).
Definition method_of (s : adapter_set) (h : string) : option adapter := head (dlist (dget (as_methods s) h)).

(** ** Hooks around a node *)
Section Node.
Context {E V : Type}.
(** [isinstance(e, Exception)]: false for KeyboardInterrupt, SystemExit, ... *)
Variable catchable : E -> bool.

Inductive hev :=
| HPre (a : nat) (x : name) (kw : gmap name V) (r : option E)
| HExec (a : option nat) (x : name) (kw : gmap name V) (r : res E V)
| HPost (a : nat) (x : name) (kw : gmap name V) (success : bool) (error : option E) (result : option V) (r : option E).

(** The user's code: hooks may depend on everything that happened before; [Some e] = raises. *)
Variable pre_h : list hev -> nat -> name -> gmap name V -> option E.
Variable exec_h : list hev -> option nat -> name -> gmap name V -> res E V.
Variable post_h : list hev -> nat -> name -> gmap name V -> bool -> option E -> option V -> option E.
(** [create_error_message] (graph_functions.py 124-146) calls [repr] on the arguments, which may raise. *)
Variable describe : name -> gmap name V -> option E.

(** base.py 916-924, [call_all_lifecycle_hooks_sync] *)
Fixpoint call_all (h : list hev -> nat -> option E) (mk : nat -> option E -> hev)
         (tr : list hev) (l : list nat) : list hev * option E :=
  match l with
  | [] => (tr, None)
  | a :: l' =>
      let r := h tr a in
      let tr' := tr ++ [mk a r] in
      match r with
      | Some e => (tr', Some e)
      | None => call_all h mk tr' l'
      end
  end.

(** graph_functions.py 280-331; [pre]/[post] are the adapters with the hook, [m] the one with
    do_node_execute. *)
Definition execute_lifecycle (pre post : list nat) (m : option nat)
    (tr : list hev) (x : name) (kw : gmap name V) : list hev * res E V :=
  (* 285-296 *)
  let '(tr1, p) := call_all (fun tr a => pre_h tr a x kw) (fun a r => HPre a x kw r) tr pre in
  (* 297-309 *)
  let '(tr2, r, pre_errored) :=
    match p with
    | Some e => (tr1, Err e, catchable e)
    | None => let r := exec_h tr1 m x kw in (tr1 ++ [HExec m x kw r], r, false)
    end in
  let result := match r with Ok v => Some v | Err _ => None end in
  (* 311-317: except Exception *)
  let '(success, error, raised) :=
    match r with
    | Ok v => (true, None, Ok v)
    | Err e => if catchable e
               then (false, Some e, Err (match describe x kw with Some e' => e' | None => e end))
               else (true, None, Err e)
    end in
  (* 318-331: finally *)
  if pre_errored then (tr2, raised)
  else
    let '(tr3, q) := call_all (fun tr a => post_h tr a x kw success error result)
                              (fun a r => HPost a x kw success error result r) tr2 post in
    match q with
    | Some e => (tr3, Err (if catchable e then match describe x kw with Some e' => e' | None => e end else e))
    | None => (tr3, raised)
    end.
End Node.
Arguments hev : clear implicits.

(** ** Hooks around a run *)
Section Graph.
Context {E V R T : Type}.   (* V: raw results; R: built results; T: inner events *)
Variable catchable : E -> bool.

Inductive gev :=
| GPre (a : nat) (r : option E)
| GInner (t : list T)
| GBuild (r : res E R)
| GPost (a : nat) (success : bool) (error : option E) (results : option (V + R)) (r : option E).

Variable pre_h : list gev -> nat -> option E.
Variable post_h : list gev -> nat -> bool -> option E -> option (V + R) -> option E.
(** [__raw_execute]: inner events and result. *)
Variable raw : list T * res E V.
(** [do_build_result], if an adapter has it. *)
Variable build : option (V -> res E R).

Fixpoint gcall_all (h : list gev -> nat -> option E) (mk : nat -> option E -> gev)
         (tr : list gev) (l : list nat) : list gev * option E :=
  match l with
  | [] => (tr, None)
  | a :: l' =>
      let r := h tr a in
      let tr' := tr ++ [mk a r] in
      match r with
      | Some e => (tr', Some e)
      | None => gcall_all h mk tr' l'
      end
  end.

(** driver.py 607-652. Telemetry (650-652) never raises (driver.py 690-700) and is left out. *)
Definition driver_execute (pre post : list nat) : list gev * res E (V + R) :=
  match gcall_all pre_h GPre [] pre with
  | (tr0, Some e) => (tr0, Err e)                               (* 615-623, outside the try *)
  | (tr0, None) =>
      let tr1 := tr0 ++ [GInner raw.1] in
      let '(tr2, outputs, r) :=                                  (* 624-632 *)
        match raw.2 with
        | Err e => (tr1, None, Err e)
        | Ok v =>
            match build with
            | None => (tr1, Some (inl v), Ok (inl v))
            | Some b =>
                let rb := b v in
                match rb with
                | Ok o => (tr1 ++ [GBuild rb], Some (inr o), Ok (inr o))
                | Err e => (tr1 ++ [GBuild rb], Some (inl v), Err e)
                end
            end
        end in
      let '(success, error) :=                                   (* 634-639 *)
        match r with
        | Err e => if catchable e then (false, Some e) else (true, None)
        | Ok _ => (true, None)
        end in
      let '(tr3, q) := gcall_all (fun tr a => post_h tr a success error outputs)
                                 (fun a r => GPost a success error outputs r) tr2 post in
      match q with
      | Some e => (tr3, Err e)
      | None => (tr3, r)
      end
  end.
End Graph.
Arguments gev : clear implicits.
