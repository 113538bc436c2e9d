(** Builders and the drivers they build (hamilton/driver.py 1860-2191, 401-463). *)
From Verif Require Import Base Dict NodeModel.

(** Adapters, modules, materializers and executors are objects, known by their identity;
    of an adapter it matters whether it is a HamiltonCacheAdapter. *)
Record adapter := Adapter { ad_id : nat; ad_cache : bool }.
Global Instance adapter_eq_dec : EqDecision adapter.
Proof. solve_decision. Defined.

Section Builder.
Context {V : Type}.

(** driver.py 1861-1885. The configuration is a dict object, here an address, because a
    driver keeps a reference to it (401-463); the lists are copied when a driver is built
    ([*modules], [LifecycleAdapterSet( *adapter)]) or only read. *)
Record builder := B {
  b_v2 : bool;
  b_config : nat;
  b_modules : list nat;
  b_materializers : list nat;
  b_overrides : bool;
  b_legacy : option adapter;
  b_adapters : list adapter;
  b_manager : option nat;
  b_local : option nat;
  b_remote : option nat;
  b_grouping : option nat;
}.

(** What runs the graph (2143-2160): the default executor, a given execution manager, or the
    default one with given or default (None) executors; and the grouping strategy. *)
Inductive gexec := GDefault | GManager (m : nat) (grouping : option nat) | GExecutors (local remote grouping : option nat).

(** driver.py 401-463: a driver. [d_built] is the configuration with which its graph was
    built (nodes are resolved by from_modules); [d_config] is the dict that it reads when
    it executes (graph.py 713, 1098). *)
Record driver := D {
  d_config : nat;
  d_built : dict V;
  d_modules : list nat;
  d_materializers : list nat;
  d_overrides : bool;
  d_adapters : list adapter;
  d_exec : gexec;
}.

Record bstate := St { st_heap : list (dict V); st_builders : list builder; st_drivers : list driver }.

Inductive op :=
| Enable (allow : bool) | WithConfig (c : dict V) | WithModules (ms : list nat) | WithAdapter (a : adapter)
| WithAdapters (l : list adapter) | WithMaterializers (ms : list nat) | WithCache (id : nat)
| WithManager (m : nat) | WithRemote (r : nat) | WithLocal (l : nat) | WithGrouping (g : nat) | AllowOverrides.

(** driver.py 2049-2059 [cache] *)
Definition has_cache (b : builder) : bool := existsb ad_cache (b_adapters b).

(** The methods of a builder (1896-2130); None: ValueError. [with_config] updates the dict. *)
Definition apply (b : builder) (c : dict V) (o : op) : option (builder * dict V) :=
  let '(B v2 cl ms mz ov lg ads mg lo re gr) := b in
  match o with
  | Enable allow => if allow then Some (B true cl ms mz ov lg ads mg lo re gr, c) else None
  | WithConfig c' => Some (b, dupd c c')
  | WithModules ms' => Some (B v2 cl (ms ++ ms') mz ov lg ads mg lo re gr, c)
  | WithAdapter a => match lg with Some _ => None | None => Some (B v2 cl ms mz ov (Some a) ads mg lo re gr, c) end
  | WithAdapters l => if existsb ad_cache l && has_cache b then None else Some (B v2 cl ms mz ov lg (ads ++ l) mg lo re gr, c)
  | WithMaterializers mz' => Some (B v2 cl ms (mz ++ mz') ov lg ads mg lo re gr, c)
  | WithCache id => if has_cache b then None else Some (B v2 cl ms mz ov lg (ads ++ [Adapter id true]) mg lo re gr, c)
  | WithManager m => if v2 then match mg, re with None, None => Some (B v2 cl ms mz ov lg ads (Some m) lo re gr, c) | _, _ => None end else None
  | WithRemote r => if v2 then match re, mg with None, None => Some (B v2 cl ms mz ov lg ads mg lo (Some r) gr, c) | _, _ => None end else None
  | WithLocal l => if v2 then match lo, mg with None, None => Some (B v2 cl ms mz ov lg ads mg (Some l) re gr, c) | _, _ => None end else None
  | WithGrouping g => if v2 then match gr with None => Some (B v2 cl ms mz ov lg ads mg lo re (Some g), c) | Some _ => None end else None
  | AllowOverrides => Some (B v2 cl ms mz true lg ads mg lo re gr, c)
  end.

(** lifecycle/base.py 773-785 [_uniqify_adapters]: the first occurrence of each object. *)
Fixpoint uniqify (seen : list nat) (l : list adapter) : list adapter :=
  match l with
  | [] => []
  | a :: l' => if decide (ad_id a ∈ seen) then uniqify seen l' else a :: uniqify (ad_id a :: seen) l'
  end.

(** driver.py 2132-2171 [build]; the legacy adapter is appended to the builder's own list. *)
Definition built_adapters (b : builder) : list adapter :=
  match b_legacy b with Some a => b_adapters b ++ [a] | None => b_adapters b end.
Definition after_build (b : builder) : builder :=
  B (b_v2 b) (b_config b) (b_modules b) (b_materializers b) (b_overrides b) (b_legacy b) (built_adapters b)
    (b_manager b) (b_local b) (b_remote b) (b_grouping b).
Definition build_exec (b : builder) : gexec :=
  if b_v2 b then match b_manager b with Some m => GManager m (b_grouping b) | None => GExecutors (b_local b) (b_remote b) (b_grouping b) end
  else GDefault.
Definition build (b : builder) (c : dict V) : driver :=
  D (b_config b) c (b_modules b) (b_materializers b) (b_overrides b) (uniqify [] (built_adapters b)) (build_exec b).

(** driver.py 2173-2191 [copy]; [new] is the address of the copied configuration. *)
Definition copy (b : builder) (new : nat) : builder :=
  B (b_v2 b) new (b_modules b) (b_materializers b) false (b_legacy b) (b_adapters b)
    (b_manager b) (b_local b) (b_remote b) (b_grouping b).

(** A program: builders are numbered in the order of their creation. *)
Inductive cmd := New | Copy (b : nat) | Call (b : nat) (o : op) | Build (b : nat).
Definition step (s : bstate) (c : cmd) : bstate :=
  match c with
  | New => St (st_heap s ++ [[]]) (st_builders s ++ [B false (length (st_heap s)) [] [] false None [] None None None None]) (st_drivers s)
  | Copy i =>
      match st_builders s !! i with
      | None => s
      | Some b => St (st_heap s ++ [default [] (st_heap s !! b_config b)]) (st_builders s ++ [copy b (length (st_heap s))]) (st_drivers s)
      end
  | Call i o =>
      match st_builders s !! i with
      | None => s
      | Some b =>
          match apply b (default [] (st_heap s !! b_config b)) o with
          | None => s (* raises *)
          | Some (b', c') => St (<[b_config b := c']> (st_heap s)) (<[i := b']> (st_builders s)) (st_drivers s)
          end
      end
  | Build i =>
      match st_builders s !! i with
      | None => s
      | Some b => St (st_heap s) (<[i := after_build b]> (st_builders s)) (st_drivers s ++ [build b (default [] (st_heap s !! b_config b))])
      end
  end.
Definition run (s : bstate) (cs : list cmd) : bstate := foldl step s cs.
Definition init : bstate := St [] [] [].
(** The configuration that a driver uses when it executes. *)
Definition exec_config (s : bstate) (d : driver) : dict V := default [] (st_heap s !! d_config d).
End Builder.
Arguments builder : clear implicits.
Arguments driver : clear implicits.
Arguments op : clear implicits.
Arguments cmd : clear implicits.
Arguments bstate : clear implicits.
