(** Lifecycle adapters: C11, C12, C13. *)
From Verif Require Import Base Dict ExecModel ExecSpec ExecProofs ExecResults ExecProps LifecycleModel LifecycleProofs.

(** ** C11 *)
(** One node execution is one bracket: pre hooks in order; if one raises, nothing else happens and
    that exception is the outcome; otherwise the function (or do_node_execute) is called once, and
    the post hooks in order with success/error/result describing exactly that call. *)
Theorem C11_node_bracket :
  forall (E V : Type) (catchable : E -> bool) pre_h exec_h post_h describe pre post m
         (tr : list (hev E V)) (x : name) (kw : gmap name V),
    (forall e, catchable e = true) -> (forall x kw, describe x kw = None) ->
    exists evs r,
      execute_lifecycle catchable pre_h exec_h post_h describe pre post m tr x kw = (tr ++ evs, r) /\
      bracket pre post m x kw evs r.
Proof. intros. by apply lifecycle_bracket. Qed.
Print Assumptions C11_node_bracket.

(** A whole run of the default executor with hooks around every function: the hook history is the
    concatenation of one bracket per function call, in call order; every node has at most one
    bracket; the recorded outcomes are those of the user's code. *)
Theorem C11_run_brackets :
  forall (E V : Type) (catchable : E -> bool) pre_h exec_h post_h describe pre post m (g : graph)
         (config inputs overrides : gmap name V) (fv : list name),
    wf_graph g -> acyclic g ->
    (forall e, catchable e = true) -> (forall x kw, describe x kw = None) ->
    let F := hooked catchable pre_h exec_h post_h describe pre post m in
    let tr := trace_of (default_execute F g config inputs overrides fv) in
    let h := hist catchable pre_h exec_h post_h describe pre post m tr in
    NoDup (calls_of tr) /\ all_honest pre_h exec_h post_h [] h /\
    exists bs, h = concat bs /\
      Forall2 (fun c evs => bracket pre post m c.1.1 c.1.2 evs c.2) (call_list tr) bs.
Proof.
  intros E V catchable pre_h exec_h post_h describe pre post m g config inputs overrides fv Hwf Hac Hc Hd F tr h.
  split_and!.
  - by apply run_calls_nodup.
  - apply hist_honest.
  - apply hist_brackets; [done|done|]. intros t1 x kw r t2 Htr.
    by destruct (run_call_args g Hwf Hac F config inputs overrides fv t1 x kw r t2 Htr) as [-> _].
Qed.
Print Assumptions C11_run_brackets.

(** Two adapters with both hooks around the example graph; "d" raises. *)
Definition ex_exec (_ : list (hev string nat)) (_ : option nat) (x : name) (kw : gmap name nat) : res string nat :=
  if decide (x = "d") then Err "boom" else ex_f x kw.
Example C11_nonvacuous :
  let F := hooked (fun _ => true) (fun _ _ _ _ => None) ex_exec (fun _ _ _ _ _ _ _ => None) (fun _ _ => None) [1; 2] [1; 2] None in
  let tr := trace_of (default_execute F ex_graph ∅ (<["a" := 10]> ∅) ∅ ["d"]) in
  map (fun ev => match ev with HPre a x _ _ => ("pre", a, x) | HExec _ x _ _ => ("run", 0, x)
                 | HPost a x _ true _ _ _ => ("ok", a, x) | HPost a x _ false _ _ _ => ("failed", a, x) end)
      (hist (fun _ => true) (fun _ _ _ _ => None) ex_exec (fun _ _ _ _ _ _ _ => None) (fun _ _ => None) [1; 2] [1; 2] None tr)
  = [("pre", 1, "b"); ("pre", 2, "b"); ("run", 0, "b"); ("ok", 1, "b"); ("ok", 2, "b");
     ("pre", 1, "c"); ("pre", 2, "c"); ("run", 0, "c"); ("ok", 1, "c"); ("ok", 2, "c");
     ("pre", 1, "d"); ("pre", 2, "d"); ("run", 0, "d"); ("failed", 1, "d"); ("failed", 2, "d")].
Proof. vm_compute. reflexivity. Qed.

(** Finding: a BaseException (KeyboardInterrupt, SystemExit) from a function is reported to the post
    hooks as a success with result None; and one raised by a pre hook does not keep the post hooks
    from running. *)
Theorem C53_node_interrupt_refuted :
  exists (catchable : string -> bool) pre_h exec_h post_h describe (x : name) (kw : gmap name nat),
    execute_lifecycle (E:=string) (V:=nat) catchable pre_h exec_h post_h describe [] [1] None [] x kw
      = ([HExec None x kw (Err "KeyboardInterrupt"); HPost 1 x kw true None None None], Err "KeyboardInterrupt") /\
    exists pre_h', execute_lifecycle catchable pre_h' exec_h post_h describe [1] [1] None [] x kw
      = ([HPre 1 x kw (Some "KeyboardInterrupt"); HPost 1 x kw true None None None], Err "KeyboardInterrupt").
Proof.
  exists (fun e => negb (String.eqb e "KeyboardInterrupt")), (fun _ _ _ _ => None), (fun _ _ _ _ => Err "KeyboardInterrupt"),
    (fun _ _ _ _ _ _ _ => None), (fun _ _ => None), "x", ∅.
  split; [vm_compute; reflexivity|]. exists (fun _ _ _ _ => Some "KeyboardInterrupt"). vm_compute. reflexivity.
Qed.
Print Assumptions C53_node_interrupt_refuted.

(** Finding: if describing the arguments (repr) raises, the caller does not see the function's exception. *)
Theorem C53_masked_exception_refuted :
  exists pre_h exec_h post_h describe (x : name) (kw : gmap name nat),
    exec_h [] None x kw = Err "original" /\
    (execute_lifecycle (E:=string) (V:=nat) (fun _ => true) pre_h exec_h post_h describe [] [] None [] x kw).2 = Err "repr failed".
Proof.
  exists (fun _ _ _ _ => None), (fun _ _ _ _ => Err "original"), (fun _ _ _ _ _ _ _ => None), (fun _ _ => Some "repr failed"), "x", ∅.
  split; vm_compute; reflexivity.
Qed.
Print Assumptions C53_masked_exception_refuted.

(** ** C12 *)
Theorem C12_hook_adapters :
  forall (l : list adapter) (s : adapter_set) (h : string),
    (forall a b, a ∈ l -> b ∈ l -> ad_id a = ad_id b -> a = b) ->     (* object identity *)
    (forall a b, a ∈ l -> b ∈ l -> ad_eq a = ad_eq b -> a = b) ->     (* no custom == *)
    make_set l = Some s ->
    NoDup (hooks_of s h) /\
    (forall a, a ∈ hooks_of s h <-> a ∈ l /\ h ∈ ad_hooks a) /\
    (forall u1 a u2 b, hooks_of s h = u1 ++ a :: u2 -> b ∈ u2 -> before l a b).
Proof. intros. by apply make_set_hooks. Qed.
Print Assumptions C12_hook_adapters.

Theorem C12_one_method_implementation :
  forall (l : list adapter),
    (forall a b, a ∈ l -> b ∈ l -> ad_id a = ad_id b -> a = b) ->
    (forall a b, a ∈ l -> b ∈ l -> ad_eq a = ad_eq b -> a = b) ->
    match make_set l with
    | None => exists h a b, a ∈ l /\ b ∈ l /\ a <> b /\ h ∈ ad_methods a /\ h ∈ ad_methods b
    | Some s =>
        (forall h a b, a ∈ l -> b ∈ l -> h ∈ ad_methods a -> h ∈ ad_methods b -> a = b) /\
        (forall h a, method_of s h = Some a <-> a ∈ l /\ h ∈ ad_methods a)
    end.
Proof. intros. by apply make_set_methods. Qed.
Print Assumptions C12_one_method_implementation.

(** Calling all adapters of a hook: each once, in order, until one raises. *)
Theorem C12_calls_in_order :
  forall (E V : Type) (h : list (hev E V) -> nat -> option E) mk (l : list nat) (tr : list (hev E V)),
    (call_all h mk tr l = (tr ++ map (fun a => mk a None) l, None)) \/
    (exists l1 a l2 e, l = l1 ++ a :: l2 /\
       call_all h mk tr l = (tr ++ map (fun a => mk a None) l1 ++ [mk a (Some e)], Some e) /\
       h (tr ++ map (fun a => mk a None) l1) a = Some e).
Proof. intros. apply call_all_cases. Qed.
Print Assumptions C12_calls_in_order.

Definition ad1 := Adapter 1 1 ["pre"; "post"; "pre"] ["do"].
Definition ad2 := Adapter 2 2 ["post"] [].
Definition ad3 := Adapter 3 3 ["pre"] ["do"].
Example C12_nonvacuous :
  (forall a b, a ∈ [ad2; ad1; ad2] -> b ∈ [ad2; ad1; ad2] -> ad_id a = ad_id b -> a = b) /\
  (forall a b, a ∈ [ad2; ad1; ad2] -> b ∈ [ad2; ad1; ad2] -> ad_eq a = ad_eq b -> a = b) /\
  (exists s, make_set [ad2; ad1; ad2] = Some s /\ hooks_of s "post" = [ad2; ad1] /\ hooks_of s "pre" = [ad1] /\
             method_of s "do" = Some ad1) /\
  make_set [ad1; ad3] = None.
Proof.
  assert (H : forall a, a ∈ [ad2; ad1; ad2] -> a = ad1 \/ a = ad2).
  { intros a. rewrite !elem_of_cons, elem_of_nil. naive_solver. }
  split_and!.
  - intros a b [-> | ->]%H [-> | ->]%H; done.
  - intros a b [-> | ->]%H [-> | ->]%H; done.
  - eexists. split; [vm_compute; reflexivity|]. vm_compute. done.
  - vm_compute. reflexivity.
Qed.

(** Finding: two distinct adapters that compare equal (for instance two equal dataclass instances):
    the second one's hooks are never called. *)
Theorem C54_equal_adapters_refuted :
  exists l s a h, make_set l = Some s /\ NoDup (map ad_id l) /\ a ∈ l /\ h ∈ ad_hooks a /\ a ∉ hooks_of s h.
Proof.
  exists [Adapter 1 7 ["pre"] []; Adapter 2 7 ["pre"] []].
  eexists. exists (Adapter 2 7 ["pre"] []), "pre". split_and!.
  - vm_compute. reflexivity.
  - apply (bool_decide_unpack _). vm_compute. done.
  - right. by left.
  - by left.
  - apply (bool_decide_unpack _). vm_compute. done.
Qed.
Print Assumptions C54_equal_adapters_refuted.

(** ** C13 *)
Theorem C13_run_bracket :
  forall (E V R T : Type) (catchable : E -> bool) pre_h post_h (raw : list T * res E V) (build : option (V -> res E R)) pre post,
    (forall e, catchable e = true) ->
    gbracket raw build pre post (driver_execute catchable pre_h post_h raw build pre post).1
                                (driver_execute catchable pre_h post_h raw build pre post).2 /\
    all_ghonest pre_h post_h (driver_execute catchable pre_h post_h raw build pre post).1.
Proof. intros. split; [by apply driver_bracket|apply driver_honest]. Qed.
Print Assumptions C13_run_bracket.

Example C13_nonvacuous :
  driver_execute (E:=string) (V:=nat) (R:=nat) (T:=nat) (fun _ => true) (fun _ _ => None) (fun _ _ _ _ _ => None)
     ([7], Ok 3) (Some (fun v => Ok (v + 1))) [1; 2] [2] =
    ([GPre 1 None; GPre 2 None; GInner [7]; GBuild (Ok 4); GPost 2 true None (Some (inr 4)) None], Ok (inr 4)) /\
  driver_execute (E:=string) (V:=nat) (R:=nat) (T:=nat) (fun _ => true) (fun _ _ => None) (fun _ _ _ _ _ => None)
     ([7], Err "boom") (Some (fun v => Ok (v + 1))) [1] [2] =
    ([GPre 1 None; GInner [7]; GPost 2 false (Some "boom") None None], Err "boom").
Proof. split; vm_compute; reflexivity. Qed.

(** Finding: a BaseException is reported to post_graph_execute as success with no results. *)
Theorem C53_run_interrupt_refuted :
  exists (catchable : string -> bool) raw,
    driver_execute (E:=string) (V:=nat) (R:=nat) (T:=nat) catchable (fun _ _ => None) (fun _ _ _ _ _ => None) raw None [] [1]
    = ([GInner []; GPost 1 true None None None], Err "KeyboardInterrupt").
Proof. exists (fun e => negb (String.eqb e "KeyboardInterrupt")), ([], Err "KeyboardInterrupt"). vm_compute. reflexivity. Qed.
Print Assumptions C53_run_interrupt_refuted.
