(** Theorems about @config (C39) and about building repeatedly (C40). *)
From Coq Require Import Ascii.
From Verif Require Import Base Dict Strings ConfigModel ConfigProofs.

Section Props.
Context {V P : Type} (eqv : V -> V -> bool) (inv : V -> list V -> bool) (none pfalse : V).
Notation config := (gmap name V).
Notation resolves := (resolves eqv inv none).
Notation build := (build (P := P) eqv inv none pfalse).
Notation built := (built (P := P) eqv inv none pfalse).

(** ** C39 *)
(** config.when(k=v) and config.when_not(k=v), and likewise when_in and when_not_in, are
    complementary, for every configuration. *)
Theorem C39_complementary (c : config) k v vs :
  resolves (WhenNot [(k, v)]) c = negb (resolves (When [(k, v)]) c) /\
  resolves (WhenNotIn [(k, vs)]) c = negb (resolves (WhenIn [(k, vs)]) c).
Proof. cbn. by rewrite !andb_true_r. Qed.

(** What a resolver sees of the configuration is enough for its answer. *)
Theorem C39_filtered_config r (c : config) :
  resolves r (filter_config none pfalse c (config_used r)) = resolves r c.
Proof. apply filter_irrelevant. Qed.

(** Two functions x__a and x__b decorated with complementary resolvers: in every graph built
    from them (and other functions), x is computed by the one whose resolver accepts. *)
Theorem C39_one_variant (c : config) fs st st' nodes x a b ra rb fa fb pa pb k v vs :
  (ra, rb) ∈ [(When [(k, v)], WhenNot [(k, v)]); (WhenIn [(k, vs)], WhenNotIn [(k, vs)])] ->
  NoDup (map f_id fs) -> fa ∈ fs -> fb ∈ fs ->
  x <> ""%string -> hidden x = false -> ~ has2 ("_" ++ a) -> ~ has2 ("_" ++ b) -> c !! x = None ->
  st !! f_id fa = Some (x ++ "__" ++ a)%string -> st !! f_id fb = Some (x ++ "__" ++ b)%string ->
  f_decs fa = [CDec ra None] -> f_decs fb = [CDec rb None] ->
  (forall nm, f_gen fa nm c = [(nm, pa)]) -> (forall nm, f_gen fb nm c = [(nm, pb)]) ->
  build c fs st = (st', inr nodes) ->
  dget nodes x = Some (if resolves ra c then pa else pb).
Proof.
  intros R. apply one_variant.
  apply elem_of_cons in R as [[= -> ->]|[[= -> ->]|[]%elem_of_nil]%elem_of_cons];
    [exact (proj1 (C39_complementary c k v vs))|exact (proj2 (C39_complementary c k v vs))].
Qed.

(** A graph contains exactly what the public functions whose resolvers accept generate. *)
Theorem C39_build_exact (c : config) fs st st' nodes x p : NoDup (map f_id fs) -> build c fs st = (st', inr nodes) ->
  dget nodes x = Some p <->
  c !! x = None /\ exists f nm, f ∈ fs /\ hidden (default ""%string (st !! f_id f)) = false /\
    resolve_fn eqv inv none pfalse c (f_decs f) (default ""%string (st !! f_id f)) = (nm, true) /\ (x, p) ∈ f_gen f nm c.
Proof. apply build_exact. Qed.

(** ** C40 *)
(** After any number of builds with any configurations, a build gives the result a first
    build would have given, if the name of each decorated function contains, without its
    suffix, no further double underscore; or its decorators all name the same target. *)
Theorem C40_repeatable_partial fs st (cs : list config) c : NoDup (map f_id fs) ->
  (forall f, f ∈ fs ->
     let n := default ""%string (st !! f_id f) in
     (forall d, d ∈ f_decs f -> cd_target d = None) /\ ~ has2 (sanitize n) \/
     (exists t, hidden t = hidden n /\ forall d, d ∈ f_decs f -> cd_target d = Some t)) ->
  (build c fs (built cs fs st)).2 = (build c fs st).2.
Proof.
  intros N H.
  assert (G : exists tgt : nat -> name, forall f, f ∈ fs -> hidden (default ""%string (st !! f_id f)) = false ->
     stable (f_decs f) (default ""%string (st !! f_id f)) (tgt (f_id f))).
  { assert (S : forall f, f ∈ fs -> exists t, hidden (default ""%string (st !! f_id f)) = false ->
      stable (f_decs f) (default ""%string (st !! f_id f)) t).
    { intros f Hf. destruct (H f Hf) as [[A B]|(t & A & B)].
      - exists (sanitize (default ""%string (st !! f_id f))). intros Hh. split; [by rewrite hidden_sanitize|].
        intros d Hd. unfold renamed. rewrite (A d Hd). split; [done|]. by apply sanitize_id.
      - exists t. intros _. split; [done|]. intros d Hd. unfold renamed. by rewrite (B d Hd). }
    clear H. induction fs as [|f gs IH].
    { exists (fun _ => ""%string). intros f Hf. by apply elem_of_nil in Hf. }
    cbn in N. apply NoDup_cons in N as [N1 N2].
    destruct IH as [tgt G]; [done|intros; apply S; by right|].
    destruct (S f ltac:(left)) as [t Ht].
    exists (fun i => if decide (i = f_id f) then t else tgt i). intros g [-> | Hg]%elem_of_cons Hh.
    - rewrite decide_True by done. by apply Ht.
    - rewrite decide_False; [by apply G|]. intros E. apply N1. rewrite <- E. apply elem_of_list_fmap. by exists g. }
  destruct G as [tgt G]. by apply (build_again eqv inv none pfalse fs st N tgt).
Qed.
End Props.

(** ** Non-vacuity: configurations with natural numbers *)
Definition ieq (a b : nat) := Nat.eqb a b.
Definition iin (a : nat) (l : list nat) := existsb (Nat.eqb a) l.
Definition plain (p : nat) (nm : name) (_ : gmap name nat) : list (name * nat) := [(nm, p)].
Definition mods : list (func (V := nat) (P := nat)) :=
  [Func 0 [CDec (When [("region", 1)]) None] (plain 10);
   Func 1 [CDec (WhenNot [("region", 1)]) None] (plain 11);
   Func 2 [] (plain 12);
   Func 3 [CDec (WhenIn [("k", [2; 3])]) (Some "z")] (plain 13)].
Definition mod_names : gmap nat name := {[0 := "x__us"; 1 := "x__row"; 2 := "helper__two__parts"; 3 := "other"]}.
Notation ibuild := (build ieq iin 0 7).
Example mods_us : (ibuild {["region" := 1]} mods mod_names).2 = inr [("x", 10); ("helper__two__parts", 12)].
Proof. by vm_compute. Qed.
Example mods_row : (ibuild {["region" := 2; "k" := 3]} mods mod_names).2 = inr [("x", 11); ("helper__two__parts", 12); ("z", 13)].
Proof. by vm_compute. Qed.
Example mods_again :
  (ibuild {["region" := 2; "k" := 3]} mods (built ieq iin 0 7 [{["region" := 1]}; ∅; {["k" := 3]}] mods mod_names)).2 =
  inr [("x", 11); ("helper__two__parts", 12); ("z", 13)].
Proof.
  rewrite C40_repeatable_partial; [by vm_compute|apply (bool_decide_unpack _); by vm_compute|].
  intros f Hf. unfold mods in Hf. repeat (apply elem_of_cons in Hf as [-> | Hf]); [..|by apply elem_of_nil in Hf].
  - left. split; [|apply rfind2_none; by vm_compute]. by intros d ->%elem_of_list_singleton.
  - left. split; [|apply rfind2_none; by vm_compute]. by intros d ->%elem_of_list_singleton.
  - right. exists "helper". split; [by vm_compute|]. intros d Hd. by apply elem_of_nil in Hd.
  - right. exists "z". split; [by vm_compute|]. by intros d ->%elem_of_list_singleton.
Qed.
Example variant_names : hidden "x" = false /\ ~ has2 ("_" ++ "us") /\ ~ has2 ("_" ++ "row").
Proof. split_and!; [done|apply rfind2_none; by vm_compute..]. Qed.

(** ** Refutations *)
(** With several keys, when and when_not are not complementary: neither accepts. *)
Theorem C39_several_keys_refuted : exists (c : gmap name nat) kv,
  resolves ieq iin 0 (When kv) c = false /\ resolves ieq iin 0 (WhenNot kv) c = false.
Proof. exists {["a" := 1; "b" := 2]}, [("a", 1); ("b", 1)]. split; by vm_compute. Qed.

(** A decorated function whose name keeps a double underscore after dropping its suffix is
    a different node in the second build. *)
Theorem C40_suffix_refuted : exists (c : gmap name nat) fs st,
  NoDup (map f_id fs) /\
  (ibuild c fs st).2 = inr [("foo__a", 10)] /\
  (ibuild c fs (built ieq iin 0 7 [c] fs st)).2 = inr [("foo", 10)].
Proof.
  exists {["k" := 1]}, [Func 0 [CDec (When [("k", 1)]) None] (plain 10)], {[0 := "foo__a__b"]}.
  split_and!; [apply NoDup_singleton|by vm_compute..].
Qed.
(** A function renamed with [name=] to a name with a leading underscore is missing from the
    second build. *)
Theorem C40_hidden_target_refuted : exists (c : gmap name nat) fs st,
  NoDup (map f_id fs) /\
  (ibuild c fs st).2 = inr [("_x", 10)] /\
  (ibuild c fs (built ieq iin 0 7 [c] fs st)).2 = inr [].
Proof.
  exists {["k" := 1]}, [Func 0 [CDec (When [("k", 1)]) (Some "_x")] (plain 10)], {[0 := "x"]}.
  split_and!; [apply NoDup_singleton|by vm_compute..].
Qed.

Print Assumptions C39_complementary.
Print Assumptions C39_filtered_config.
Print Assumptions C39_one_variant.
Print Assumptions C39_build_exact.
Print Assumptions C40_repeatable_partial.
Print Assumptions C39_several_keys_refuted.
Print Assumptions C40_suffix_refuted.
Print Assumptions C40_hidden_target_refuted.
