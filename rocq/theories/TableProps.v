(** C97: parameterizations given as tables. *)
From Verif Require Import Base Dict TableModel TableSpec.

(** ** Levels of the index *)
Definition pairs (index : list (list string)) (args types : list string) : Prop := Forall2 (fun t p => t = [p.1; p.2]) index (zip args types) /\ length args = length types.
Lemma add_keys_same out keys : length keys = length out -> add_keys out keys = Some (zip_with (fun l k => l ++ [k]) out keys).
Proof. revert keys. induction out as [|l out IH]; intros [|k keys] H; try done. injection H as H. cbn. by rewrite IH. Qed.
Lemma fold_levels n index out : Forall (fun t => length t = n) index -> length out = n ->
  exists out', fold_left (fun out t => match out with Some out => add_keys out t | None => None end) index (Some out) = Some out' /\ length out' = n.
Proof.
  revert out. induction index as [|t index IH]; intros out Hf Ho; [by exists out|]. apply Forall_cons in Hf as [Ht Hf]. cbn [fold_left]. rewrite add_keys_same by congruence. apply IH; [done|]. rewrite zip_with_length. lia.
Qed.
Lemma fold_two index a0 t0 : Forall (fun t => length t = 2) index -> exists args types, fold_left (fun out t => match out with Some out => add_keys out t | None => None end) index (Some [a0; t0]) = Some [a0 ++ args; t0 ++ types] /\ pairs index args types.
Proof.
  revert a0 t0. induction index as [|t index IH]; intros a0 t0 Hf; [exists [], []; rewrite !app_nil_r; split; [done|split; [constructor|done]]|].
  apply Forall_cons in Hf as [Ht Hf]. destruct t as [|a [|ty [|? ?]]]; try done. cbn [fold_left add_keys]. destruct (IH (a0 ++ [a]) (t0 ++ [ty]) Hf) as (args & types & E & [Hp Hl]). exists (a :: args), (ty :: types).
  rewrite E. rewrite <- !app_assoc. split; [done|]. split; [|cbn; by rewrite Hl]. cbn. by constructor.
Qed.
Lemma pairs_lookup index args types i a t : pairs index args types -> index !! i = Some [a; t] <-> args !! i = Some a /\ types !! i = Some t.
Proof.
  intros [Hp Hl]. revert args types Hp Hl i. induction index as [|x index IH]; intros args types Hp Hl i.
  - inversion Hp as [E|]; subst. destruct args, types; try done. cbn. split; [done|by intros [? ?]].
  - destruct args as [|a' args], types as [|t' types]; try done; try (by inversion Hp). cbn in Hp. inversion Hp as [|? ? ? ? Hx Hp']; subst. injection Hl as Hl. cbn in *. destruct i as [|i]; cbn; [naive_solver|]. by apply IH.
Qed.
Lemma types_in index args types t : pairs index args types -> t ∈ types <-> exists a, [a; t] ∈ index.
Proof.
  intros Hp. rewrite elem_of_list_lookup. split.
  - intros [i Hi]. destruct (lookup_lt_is_Some_2 args i) as [a Ha]; [destruct Hp as [_ ->]; by eapply lookup_lt_Some|]. exists a. apply elem_of_list_lookup. exists i. by apply (pairs_lookup index args types).
  - intros [a Ha]. apply elem_of_list_lookup in Ha as [i Hi]. exists i. by apply (pairs_lookup index args types) in Hi as [_ Hi].
Qed.

Section Props.
Context {C : Type}.
Lemma dep_type_known t : is_Some (get_dep_type t) <-> known t.
Proof. unfold get_dep_type, known. repeat case_decide; split; try (by eexists); try tauto. by intros [? [=]]. Qed.
Lemma dep_types_iff ts : match dep_types ts with Ok ks => (forall t, t ∈ ts -> known t) /\ Forall2 (fun t k => get_dep_type t = Some k) ts ks | Err e => e = TValue /\ ~ forall t, t ∈ ts -> known t end.
Proof.
  induction ts as [|t ts IH]; cbn; [split; [by intros t ?%elem_of_nil|constructor]|]. destruct (get_dep_type t) as [k|] eqn:E.
  - assert (Hk : known t) by (apply dep_type_known; by eexists). destruct (dep_types ts) as [ks|e].
    + destruct IH as [H1 H2]. split; [|by constructor]. intros t' [->|Ht]%elem_of_cons; auto.
    + destruct IH as [-> H]. split; [done|]. intros Ha. apply H. intros t' Ht. apply Ha. by right.
  - split; [done|]. intros Ha. assert (Hk : known t) by (apply Ha; by left). apply dep_type_known in Hk. rewrite E in Hk. by destruct Hk.
Qed.
(** A table whose columns have the same number of levels is accepted exactly if there are two, each column is "out",
    "source" or "value", and one is "out"; otherwise the decorator fails, with InvalidDecoratorException unless
    only the kind of a column is unknown. *)
Theorem C97_accepted (n : nat) index (rows : list (list C)) : index <> [] -> Forall (fun t => length t = n) index ->
  match convert C index rows with
  | Ok _ => n = 2 /\ (exists a, [a; "out"] ∈ index) /\ forall a t, [a; t] ∈ index -> known t
  | Err TInvalid => n <> 2 \/ ~ exists a, [a; "out"] ∈ index
  | Err TValue => n = 2 /\ (exists a, [a; "out"] ∈ index) /\ ~ forall a t, [a; t] ∈ index -> known t
  | Err TIndex => False
  end.
Proof.
  intros Hne Hf. unfold convert, get_index_levels. destruct index as [|t0 index0] eqn:Ei; [done|]. rewrite <- Ei in *. assert (H0 : length t0 = n) by (subst index; by apply Forall_cons in Hf as [? _]).
  destruct (decide (n = 2)) as [->|Hn].
  - destruct t0 as [|x [|y [|? ?]]]; try done. cbn [map]. destruct (fold_two index [] [] Hf) as (args & types & E & Hp). rewrite E. cbn [app].
    pose proof (fun t => types_in index args types t Hp) as Ht. destruct (decide ("out" ∈ types)) as [Ho|Ho].
    + pose proof (dep_types_iff types) as Hd. destruct (dep_types types) as [ks|e].
      * split; [done|]. split; [by apply Ht|]. intros a t Hin. apply Hd. apply Ht. by exists a.
      * destruct Hd as [-> Hd]. split; [done|]. split; [by apply Ht|]. intros Ha. apply Hd. intros t [a Hin]%Ht. by eapply Ha.
    + right. intros Ha. apply Ho. by apply Ht.
  - destruct (fold_levels n index (map (fun _ => []) t0) Hf) as (out & E & Hl); [by rewrite map_length|]. rewrite E. destruct out as [|? [|? [|? ?]]]; try (by left). cbn in Hl. congruence.
Qed.
Lemma params_spec args (row : list C) types ks acc index a d : pairs index args types -> length row = length types -> Forall2 (fun t k => get_dep_type t = Some k) types ks ->
  dget (params C args row ks acc) a = Some d <-> binds index row a d \/ (dget acc a = Some d /\ forall i t c d', column index row i a t c -> ~ says t c d').
Proof.
  intros Hp Hr Hk. revert args row index acc Hp Hr. induction Hk as [|t k types ks Ht Hk IH]; intros args row index acc Hp Hr.
  - destruct row; [|done]. destruct Hp as [Hp Hl]. destruct args; [|done]. inversion Hp; subst. cbn. split; [intros H; right; split; [done|]; by intros i t c d' [? ?]|]. intros [(i & t & c & [H _] & _)|[H _]]; [done|done].
  - destruct row as [|c row]; [done|]. injection Hr as Hr. destruct Hp as [Hp Hl]. destruct args as [|a0 args]; [done|]. injection Hl as Hl. cbn in Hp. inversion Hp as [|x p index' ? Hx Hp']; subst. cbn [fst snd] in *. cbn [params].
    rewrite (IH args row index' _ (conj Hp' Hl) Hr). clear IH.
    assert (HS : forall i a t' c', column ([a0; t] :: index') (c :: row) (S i) a t' c' <-> column index' row i a t' c') by done.
    assert (H0 : forall a t' c', column ([a0; t] :: index') (c :: row) 0 a t' c' <-> a = a0 /\ t' = t /\ c' = c) by (intros; unfold column; cbn; naive_solver).
    set (acc' := match k with KOut => acc | KValue => dset acc a0 (Value c) | KSource => dset acc a0 (Source c) end).
    assert (Hacc : dget acc' a = Some d <-> (a = a0 /\ says t c d) \/ (dget acc a = Some d /\ (a = a0 -> forall d', ~ says t c d'))).
    { unfold get_dep_type in Ht. unfold acc', says. repeat case_decide; simplify_eq; try done.
      - split; [intros H; right; split; [done|]; intros _ d' [[? _]|[? _]]; done|]. intros [[_ [[? _]|[? _]]]|[H _]]; done.
      - destruct (decide (a = a0)) as [->|Hne]; [rewrite dget_dset_eq|rewrite dget_dset_ne by done]; naive_solver.
      - destruct (decide (a = a0)) as [->|Hne]; [rewrite dget_dset_eq|rewrite dget_dset_ne by done]; naive_solver. }
    rewrite Hacc. split.
    + intros [(i & t' & c' & Hc & Hs & Hno)|[[[-> Hs]|[Hd Hn]] Hno]].
      * left. exists (S i), t', c'. split; [by apply HS|]. split; [done|]. intros [|j] t2 c2 d2 Hj; [lia|]. rewrite HS. apply Hno. lia.
      * left. exists 0, t, c. split; [by apply H0|]. split; [done|]. intros [|j] t2 c2 d2 Hj; [lia|]. rewrite HS. apply Hno.
      * right. split; [done|]. intros [|i] t2 c2 d2; [intros (-> & -> & ->)%H0; by apply Hn|rewrite HS; apply Hno].
    + intros [(i & t' & c' & Hc & Hs & Hno)|[Hd Hno]].
      * destruct i as [|i].
        -- apply H0 in Hc as (-> & -> & ->). right. split; [by left|]. intros i t2 c2 d2 H2. apply (Hno (S i) t2 c2 d2); [lia|by apply HS].
        -- left. exists i, t', c'. split; [by apply HS|]. split; [done|]. intros j t2 c2 d2 Hj H2. apply (Hno (S j) t2 c2 d2); [lia|by apply HS].
      * right. split; [right; split; [done|]; intros -> d'; apply (Hno 0 t c d'); by apply H0|]. intros i t2 c2 d2 H2. apply (Hno (S i) t2 c2 d2). by apply HS.
Qed.
Lemma outputs_spec args types index (row : list C) : pairs index args types -> length row = length types -> below_out index row (outputs C row types).
Proof.
  intros [Hp Hl]. revert args index row Hp Hl. induction types as [|t types IH]; intros args index row Hp Hl Hr; destruct args as [|a args]; try done; destruct row as [|c row]; try done.
  - inversion Hp; subst. constructor.
  - injection Hr as Hr. injection Hl as Hl. cbn in Hp. inversion Hp as [|? ? ? ? Hx Hp']; subst. cbn [fst snd outputs]. destruct (decide (t = "out")) as [->|Hn]; constructor; try done; by eapply IH.
Qed.
(** Each row is one parameterization: its outputs are the cells below "out" from left to right, and each parameter is
    bound to the cell of the last column that binds it, as a source or as a value, and no other is bound. *)
Theorem C97_rows index (rows : list (list C)) l : (forall row, row ∈ rows -> length row = length index) -> Forall (fun t => length t = 2) index -> convert C index rows = Ok l ->
  Forall2 (fun row e => below_out index row (ex_outputs e) /\ forall a d, dget (ex_params e) a = Some d <-> binds index row a d) rows l.
Proof.
  intros Hr Hf H. unfold convert, get_index_levels in H. destruct index as [|t0 index0] eqn:Ei; [done|]. rewrite <- Ei in *. assert (H0 : length t0 = 2) by (subst index; by apply Forall_cons in Hf as [? _]).
  destruct t0 as [|x [|y [|? ?]]]; try done. cbn [map] in H. destruct (fold_two index [] [] Hf) as (args & types & E & Hp). rewrite E in H. cbn [app] in H. destruct (decide ("out" ∈ types)) as [Ho|Ho]; [|done].
  pose proof (dep_types_iff types) as Hd. destruct (dep_types types) as [ks|e]; [|done]. injection H as <-. destruct Hd as [_ Hk]. clear Ei.
  assert (Hlen : length types = length index). { destruct Hp as [Hp Hl]. apply Forall2_length in Hp. rewrite Hp, zip_with_length. lia. }
  induction rows as [|row rows IH]; [constructor|]. cbn [map]. constructor.
  - assert (Hrow : length row = length types) by (rewrite Hlen; apply Hr; by left). cbn [ex_outputs ex_params]. split; [by eapply outputs_spec|]. intros a d. rewrite (params_spec args row types ks [] index a d Hp Hrow Hk). cbn. split; [by intros [?|[? _]]|by left].
  - apply IH. intros r Hin. apply Hr. by right.
Qed.
End Props.

(** ** Examples: the table of the documentation *)
Definition head : list (list string) := [["output1"; "out"]; ["output2"; "out"]; ["input1"; "source"]; ["input3"; "value"]].
Example C97_case : convert string head [["a1"; "a2"; "in_a"; "5"]; ["b1"; "b2"; "in_b"; "6"]] =
  Ok [Extract ["a1"; "a2"] [("input1", Source "in_a"); ("input3", Value "5")]; Extract ["b1"; "b2"] [("input1", Source "in_b"); ("input3", Value "6")]] /\ Forall (fun t => length t = 2) head.
Proof. split; [by vm_compute|repeat constructor]. Qed.
Example C97_refused_case : convert string [["x"; "source"]] [] = Err TInvalid /\ convert string [["x"; "out"; "y"]] [] = Err TInvalid /\ convert string [["o"; "u"; "t"]; ["i"; "n"]] [] = Err TInvalid.
Proof. by vm_compute. Qed.

(** That every column is used: of two that bind the same parameter the first is ignored *)
Theorem C97_twice_refuted : exists e, convert string [["o"; "out"]; ["x"; "source"]; ["x"; "value"]] [["n"; "up"; "1"]] = Ok [e] /\ ex_params e = [("x", Value "1")].
Proof. eexists. by vm_compute. Qed.
(** That tables which are not accepted are invalid decorators: there are ValueErrors for unknown kinds, and IndexErrors
    without columns and for columns without levels whose first name is shorter *)
Theorem C97_errors_refuted : exists i1 i2 i3, convert string i1 [] = Err TValue /\ convert string i2 [] = Err TIndex /\ convert string i3 [] = Err TIndex /\ i1 = [["o"; "out"]; ["x"; "input"]] /\ i2 = [] /\ i3 = [["x"]; ["o"; "u"; "t"]].
Proof. exists [["o"; "out"]; ["x"; "input"]], [], [["x"]; ["o"; "u"; "t"]]. by vm_compute. Qed.

Print Assumptions C97_accepted.
Print Assumptions C97_rows.
Print Assumptions C97_twice_refuted.
Print Assumptions C97_errors_refuted.
