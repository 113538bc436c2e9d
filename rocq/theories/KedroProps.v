(** C92: drivers made of Kedro pipelines. *)
From Verif Require Import Base Dict KedroModel KedroSpec KedroProofs.

Section Props.
Context {V : Type}.
Variable members : V -> option (list V).
Variable mkdict : list (string * V) -> V.
Variable field : V -> string -> option V.

(** Plain pipelines are converted, and the driver has one node for each dataset that is computed, and one for
    each function that has not one dataset. *)
Theorem C92_nodes_partial (p : list (knode V)) : plain p -> exists l anns, convert [] p = (Ok l, anns) /\ map hn_name l = p ≫= names.
Proof.
  intros Hp. destruct (convert_ok [] p (pn_nodes _ Hp) (pn_names _ Hp)) as [anns E]; [by intros ? ?|]. exists (p ≫= h_nodes), anns. split; [done|]. apply convert_names.
Qed.
(** An input that a function has no default for has to be there: if the first parameter's is neither computed nor given,
    the driver says that it is missing, and the function is not called. *)
Theorem C92_missing (g : dict (hnode V)) (given : dict V) k (f : kfun V) u r p ps m : dget g k = Some (HNode k (HFun f u) r) -> kf_params f = (p, None) :: ps ->
  dget g (renamed r p) = None -> dget given (renamed r p) = None -> hrun members mkdict field (S (S m)) g given k = Err KMissing.
Proof.
  intros Hg Hp H1 H2. rewrite hrun_step, Hg. unfold needs. cbn [hn_body hn_rename params_of]. rewrite Hp. cbn [map fst snd gather andb]. by rewrite hrun_step, H1, H2.
Qed.
(** Each dataset has in the driver the value it has in Kedro, parameters being named without prefix, for plain
    pipelines: every parameter has an input and no two the same one; several outputs are those of a function
    annotated as Tuple, or as Dict with the datasets' names as keys; names do not clash. Missing: other
    pipelines (refuted below). *)
Theorem C92_values_partial (p : list (knode V)) gk gh : (forall l k, NoDup (map fst l) -> field (mkdict l) k = dget l k) -> plain p -> same_inputs p gk gh ->
  exists l anns, convert [] p = (Ok l, anns) /\
  forall m d v t, krun members field m p gk d = Ok v -> unprefixed d t -> exists m0, forall m', m0 <= m' -> hrun members mkdict field m' (by_name l) gh t = Ok v.
Proof.
  intros Hlaw Hp Hs. destruct (convert_ok [] p (pn_nodes _ Hp) (pn_names _ Hp)) as [anns E]; [by intros ? ?|]. exists (p ≫= h_nodes), anns. split; [done|].
  intros m d v t H Ht. destruct (values members mkdict field Hlaw p gk gh m d v t Hp Hs H Ht) as [m0 H0]. exists m0. intros m' Hm. by apply (hrun_le _ _ _ m0).
Qed.
(** Parameters lose their prefix, and nothing else changes its name. *)
Theorem C92_prefix s t : clean s = t <-> unprefixed s t.
Proof. apply clean_iff. Qed.
(** What the driver computes does not depend on how deep it was looked for. *)
Theorem C92_depth m m' g (given : dict V) k v : m <= m' -> hrun members mkdict field m g given k = Ok v -> hrun members mkdict field m' g given k = Ok v.
Proof. apply hrun_le. Qed.
End Props.

(** ** Examples: numbers, tuples and dictionaries *)
Inductive kv := N (n : nat) | T (l : list kv) | D (m : list (string * kv)).
Definition tmembers (v : kv) : option (list kv) := match v with T l => Some l | _ => None end.
Definition dfield (v : kv) (k : string) : option kv := match v with D m => dget m k | _ => None end.
Notation kr := (krun tmembers dfield).
Notation hr := (hrun tmembers D dfield).
Definition num (v : kv) : nat := match v with N n => n | _ => 0 end.
Definition load : kfun kv := KFun "load" [("path", None)] AOther (fun vs => match vs with [v] => Ok (N (num v + 10)) | _ => Err KType end).
Definition split_ : kfun kv := KFun "split" [("data", None); ("size", None)] ATuple (fun vs => match vs with [v; w] => Ok (T [N (num v - num w); w]) | _ => Err KType end).
Definition stats : kfun kv := KFun "stats" [("x", None)] ADict (fun vs => match vs with [v] => Ok (D [("mean", v); ("max", N (num v + 1))]) | _ => Err KType end).
Definition pipeline : list (knode kv) :=
  [KNode load (KList ["raw"]) (OStr "data");
   KNode split_ (KMap [("size", "params:size"); ("data", "data")]) (OList ["train"; "test"]);
   KNode stats (KList ["train"]) (ODict [("mean", "mean"); ("max", "max")])].
Definition kgiven : dict kv := [("raw", N 5); ("params:size", N 3)].
Definition hgiven : dict kv := [("raw", N 5); ("size", N 3)].

Lemma unprefixed_iff s t : unprefixed s t <-> clean s = t.
Proof. symmetry. apply clean_iff. Qed.
Ltac idx := repeat match goal with H : (_ :: _) !! ?i = Some _ |- _ => destruct i as [|i]; cbn in H; [injection H as <-|] | H : [] !! _ = Some _ |- _ => done end.
(** C92_values_partial's hypotheses are met. *)
Example C92_plain : plain pipeline.
Proof.
  split.
  - repeat apply Forall_cons_2; [| | |apply Forall_nil_2]; (split; [by apply (bool_decide_unpack _)| | | |]).
    + done.
    + intros i j p q x y t H1 H2. cbn in H1, H2. idx. done.
    + done.
    + cbn. lia.
    + intros p Hp. cbn in Hp. repeat (apply elem_of_cons in Hp as [->|Hp]; [by eexists|]). by apply elem_of_nil in Hp.
    + intros i j p q x y t H1 H2 H3 H4 H5 H6. cbn in H1, H2. idx; [done| | |done]; cbn in H3, H4; injection H3 as <-; injection H4 as <-;
        apply unprefixed_iff in H5; apply unprefixed_iff in H6; subst t; by vm_compute in H6.
    + cbn. split; [lia|]. split; [by apply (bool_decide_unpack _)|done].
    + intros _. split; [by apply (bool_decide_unpack _)|]. intros i p x H1 H2 H3. cbn in H1. apply unprefixed_iff in H3. idx; cbn in H2; injection H2 as <-; by vm_compute in H3.
    + done.
    + intros i j p q x y t H1 H2. cbn in H1, H2. idx. done.
    + cbn. split; [lia|]. split; [done|]. intros k x Hk. repeat (apply elem_of_cons in Hk as [[= -> ->]|Hk]; [done|]). by apply elem_of_nil in Hk.
    + intros _. split; [by apply (bool_decide_unpack _)|]. intros i p x H1 H2 H3. cbn in H1. apply unprefixed_iff in H3. idx; cbn in H2; injection H2 as <-; by vm_compute in H3.
  - by apply (bool_decide_unpack _).
Qed.
Example C92_same : same_inputs pipeline kgiven hgiven.
Proof.
  split.
  - intros d n H u ->. destruct (producer_in _ _ _ H) as [Hn Hd]. repeat (apply elem_of_cons in Hn as [->|Hn]; [cbn in Hd; repeat (apply elem_of_cons in Hd as [Hd|Hd]; [done|]); by apply elem_of_nil in Hd|]). by apply elem_of_nil in Hn.
  - intros d v t Hd _ Ht. apply unprefixed_iff in Ht. subst t. cbn in Hd. destruct (decide (d = "raw")) as [->|]; [injection Hd as <-; split; [done|]; by apply (bool_decide_unpack _)|].
    destruct (decide (d = "params:size")) as [->|]; [|done]. injection Hd as <-. split; [done|]. by apply (bool_decide_unpack _).
Qed.
Example C92_law l k : NoDup (map fst l) -> dfield (D l) k = dget l k.
Proof. done. Qed.
Definition driver_of (anns : dict ann) (p : list (knode kv)) : dict (hnode kv) := match (convert anns p).1 with Ok l => by_name l | Err _ => [] end.
Example C92_run : map (fun d => (kr 9 pipeline kgiven d, hr 9 (driver_of [] pipeline) hgiven d)) ["data"; "train"; "test"; "mean"; "max"] =
  map (fun v => (Ok (N v), Ok (N v))) [15; 12; 3; 12; 13].
Proof. by vm_compute. Qed.

Example C92_missing_case : hr 9 (driver_of [] pipeline) [] "data" = Err KMissing /\ hr 9 (driver_of [] pipeline) [("size", N 1)] "train" = Err KMissing.
Proof. by vm_compute. Qed.
(** That pipelines can be converted twice: the conversion changes the annotations of functions, and the next
    one takes tuples for dictionaries. *)
Theorem C92_twice_refuted : exists p gk gh anns, plain p /\ same_inputs p gk gh /\ (convert [] p).2 = anns /\ kr 9 p gk "train" = Ok (N 12) /\
  hr 9 (driver_of [] p) gh "train" = Ok (N 12) /\ hr 9 (driver_of anns p) gh "train" = Err KField.
Proof. exists pipeline, kgiven, hgiven. eexists. split; [apply C92_plain|]. split; [apply C92_same|]. split; [done|]. by vm_compute. Qed.
(** That a function may be used for several nodes: if it has several outputs, all have those of the last one. *)
Definition stats_twice : list (knode kv) :=
  let f x := KFun "stats" [("x", None)] ADict (fun vs => match vs with [v] => Ok (D [("a", v); ("b", v); ("c", v); ("d", v)]) | _ => Err KType end) in
  [KNode (f 0) (KList ["p"]) (ODict [("a", "a"); ("b", "b")]); KNode (f 0) (KList ["q"]) (ODict [("c", "c"); ("d", "d")])].
Theorem C92_function_refuted : exists p g, kr 9 p g "a" = Ok (N 1) /\ hr 9 (driver_of [] p) g "a" = Ok (N 2).
Proof. exists stats_twice, [("p", N 1); ("q", N 2)]. by vm_compute. Qed.
(** That outputs by keys are looked up by keys: they are looked up by the names of the datasets, ... *)
Theorem C92_keys_refuted : exists p g, kr 9 p g "average" = Ok (N 1) /\ hr 9 (driver_of [] p) g "average" = Err KField.
Proof. exists [KNode stats (KList ["p"]) (ODict [("mean", "average"); ("max", "top")])], [("p", N 1)]. by vm_compute. Qed.
(** ... and one output is not looked up at all. *)
Theorem C92_key_refuted : exists p g, kr 9 p g "mean" = Ok (N 1) /\ hr 9 (driver_of [] p) g "mean" = Ok (D [("mean", N 1); ("max", N 2)]).
Proof. exists [KNode stats (KList ["p"]) (ODict [("mean", "mean")])], [("p", N 1)]. by vm_compute. Qed.
(** That a list of one output is unpacked *)
Theorem C92_single_refuted : exists p g, kr 9 p g "x" = Ok (N 1) /\ hr 9 (driver_of [] p) g "x" = Ok (T [N 1]).
Proof. exists [KNode (KFun "one" [("y", None)] ATuple (fun vs => Ok (T vs))) (KList ["y"]) (OList ["x"])], [("y", N 1)]. by vm_compute. Qed.
(** That one dataset may be the input of two parameters *)
Theorem C92_same_input_refuted : exists p g, kr 9 p g "z" = Ok (N 4) /\ hr 9 (driver_of [] p) g "z" = Err KType.
Proof. exists [KNode (KFun "add" [("x", None); ("y", None)] AOther (fun vs => match vs with [v; w] => Ok (N (num v + num w)) | _ => Err KType end)) (KList ["a"; "a"]) (OStr "z")], [("a", N 2)]. by vm_compute. Qed.
(** That parameters without input have their default: there may be a dataset of that name. *)
Definition scale : kfun kv := KFun "scale" [("x", None); ("factor", Some (N 1)); ("shift", Some (N 0))] AOther (fun vs => match vs with [v; w; u] => Ok (N (num v * num w + num u)) | _ => Err KType end).
Theorem C92_default_refuted : exists p g, kr 9 p g "z" = Ok (N 5) /\ hr 9 (driver_of [] p) g "z" = Ok (N 15).
Proof. exists [KNode scale (KList ["a"]) (OStr "z"); KNode load (KList ["factor"]) (OStr "w")], [("a", N 5); ("factor", N 3)]. by vm_compute. Qed.
(** That inputs by name go to the parameters named: if a parameter with a default has none, they go to the one before. *)
Theorem C92_named_refuted : exists p g, kr 9 p g "z" = Ok (N 7) /\ hr 9 (driver_of [] p) g "z" = Ok (N 10).
Proof. exists [KNode scale (KMap [("x", "a"); ("shift", "b")]) (OStr "z")], [("a", N 5); ("b", N 2)]. by vm_compute. Qed.
(** That parameters and datasets are told apart *)
Theorem C92_clash_refuted : exists p gk gh, dget gk "params:data" = dget gh "data" /\ dget gk "raw" = dget gh "raw" /\ kr 9 p gk "z" = Ok (N 1) /\ hr 9 (driver_of [] p) gh "z" = Ok (N 15).
Proof.
  exists [KNode load (KList ["raw"]) (OStr "data"); KNode (KFun "same" [("x", None)] AOther (fun vs => match vs with [v] => Ok v | _ => Err KType end)) (KList ["params:data"]) (OStr "z")],
    [("raw", N 5); ("params:data", N 1)], [("raw", N 5); ("data", N 1)]. by vm_compute.
Qed.
(** That functions annotated as Tuple[...], and functions without annotations, can be used *)
Theorem C92_annotation_refuted : exists p q g, kr 9 p g "train" = Ok (N 1) /\ (convert [] p).1 = Err KNoClass /\ kr 9 q g "z" = Ok (N 1) /\ (convert [] q).1 = Err KNoType.
Proof.
  exists [KNode (KFun "split" [("x", None)] ATupleOf (fun vs => match vs with [v] => Ok (T [v; v]) | _ => Err KType end)) (KList ["x"]) (OList ["train"; "test"])],
    [KNode (KFun "same" [("x", None)] ANone (fun vs => match vs with [v] => Ok v | _ => Err KType end)) (KList ["x"]) (OStr "z")], [("x", N 1)]. by vm_compute.
Qed.

Print Assumptions C92_nodes_partial.
Print Assumptions C92_missing.
Print Assumptions C92_values_partial.
Print Assumptions C92_prefix.
Print Assumptions C92_depth.
Print Assumptions C92_twice_refuted.
Print Assumptions C92_function_refuted.
Print Assumptions C92_keys_refuted.
Print Assumptions C92_key_refuted.
Print Assumptions C92_single_refuted.
Print Assumptions C92_same_input_refuted.
Print Assumptions C92_default_refuted.
Print Assumptions C92_named_refuted.
Print Assumptions C92_clash_refuted.
Print Assumptions C92_annotation_refuted.
