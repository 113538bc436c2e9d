(** C75: what the result builders make of the outputs. *)
From Verif Require Import Base Dict NodeModel DecorModel DecorProofs ResultModel ResultSpec ResultProofs.

Section Props.
Context {L C : Type} `{EqDecision L}.
Variable nan : C.
Variable union : list (index L) -> index L.
Variable range : nat -> index L.
Hypothesis Hunion : joins union.
Hypothesis Hrange : forall n, length (ix_labels (range n)) = n.
Variable int_key : name.
Notation build_result := (build_result nan union range true int_key).
Notation build_strict := (build_strict nan union range true int_key).
Notation value := (value L C).
Implicit Types (outs : dict value) (fr : frame L C).

Definition single outs : Prop := exists k ix cs, outs = [(k, DataFrame ix cs)].
Definition list_like (v : value) : Prop := forall c, v <> Col (Scalar c).

Lemma build_flat outs : ~ single outs -> (exists k v, (k, v) ∈ outs /\ list_like v) -> NoDup (dkeys (columns_of outs)) ->
  build_result outs = pd_frame nan union range (columns_of outs).
Proof.
  intros Hs (k & v & Hin & Hv) Hn. unfold ResultModel.build_result. destruct (types_ok int_key outs) as (t & -> & _). cbn [bindr].
  assert (He : existsb is_list_like (map snd outs) = true).
  { apply existsb_exists. exists v. split; [|by destruct v as [|[]]; [..|destruct (Hv c)]]. apply in_map_iff. exists (k, v). split; [done|by apply elem_of_list_In]. }
  assert (Hr : (if negb (existsb is_list_like (map snd outs)) then Ok (Frame (range 1) (scalars_of outs))
    else if existsb is_frame (map snd outs) then build_with_dataframes nan union range outs else pd_frame nan union range (cols_of outs)) = pd_frame nan union range (columns_of outs)).
  { rewrite He. cbn [negb]. destruct (existsb is_frame (map snd outs)) eqn:Ef; [|by rewrite cols_of_columns].
    unfold build_with_dataframes. by rewrite (flatten_columns outs []). }
  destruct outs as [|[k0 [ix cs|c]] [|x outs]]; try apply Hr. destruct Hs. by exists k0, ix, cs.
Qed.

(** A DataFrame alone is the result. *)
Theorem C75_single k ix cs : build_result [(k, DataFrame ix cs)] = Ok (Frame ix cs).
Proof. unfold ResultModel.build_result. destruct (types_ok int_key [(k, DataFrame ix cs)]) as (t & -> & _). done. Qed.

(** Outputs that are not list-like make one row. *)
Theorem C75_scalars outs : (forall k v, (k, v) ∈ outs -> ~ list_like v) -> exists fr, build_result outs = Ok fr /\
  length (ix_labels (fr_index fr)) = 1 /\ Forall2 (fun kv kd => kd.1 = kv.1 /\ exists c, kv.2 = Col (Scalar c) /\ kd.2 = [c]) outs (fr_cols fr).
Proof.
  intros H. assert (Hs : forall k v, (k, v) ∈ outs -> exists c, v = Col (Scalar c)).
  { intros k v Hin. apply H in Hin. destruct v as [ix cs|[ix cs|cs|cs|c]]; [by destruct Hin..|by exists c]. }
  exists (Frame (range 1) (scalars_of outs)). split_and!; [|apply Hrange|].
  - unfold ResultModel.build_result. destruct (types_ok int_key outs) as (t & -> & _). cbn [bindr].
    assert (He : existsb is_list_like (map snd outs) = false).
    { apply not_true_is_false. intros (v & ([k v'] & Heq & Hin)%in_map_iff & Hl)%existsb_exists. cbn in Heq. subst v'. destruct (Hs k v) as [c ->]; [by apply elem_of_list_In|done]. }
    assert (Hr : (if negb (existsb is_list_like (map snd outs)) then Ok (Frame (range 1) (scalars_of outs))
      else if existsb is_frame (map snd outs) then build_with_dataframes nan union range outs else pd_frame nan union range (cols_of outs)) = Ok (Frame (range 1) (scalars_of outs))) by (by rewrite He).
    destruct outs as [|[k0 [ix cs|c]] [|x outs]]; try apply Hr. by destruct (Hs k0 (DataFrame ix cs) ltac:(by left)).
  - cbn [fr_cols]. clear H. induction outs as [|[k v] outs IH]; [constructor|]. destruct (Hs k v ltac:(by left)) as [c ->].
    change (scalars_of ((k, Col (Scalar c)) :: outs)) with ((k, [c]) :: scalars_of outs). constructor; [split; [done|by exists c]|].
    apply IH. intros; eapply Hs; by right.
Qed.

(** Otherwise the result is the outer join: a column for each output, and for each column of each DataFrame, in their
    order; a row for each label of a Series; in each row the cells with its label. *)
Theorem C75_value outs fr : (forall k v, (k, v) ∈ outs -> wf_value v) -> ~ single outs -> (exists k v, (k, v) ∈ outs /\ list_like v) ->
  NoDup (dkeys (columns_of outs)) -> build_result outs = Ok fr -> joined nan (columns_of outs) fr.
Proof.
  intros Hw Hs Hl Hn Hb. rewrite build_flat in Hb by done. revert Hb. apply (pd_frame_joined nan union range Hunion Hrange). by apply columns_wf.
Qed.

(** It is built if the other list-likes have as many cells as there are rows. Series that repeat labels must all have the
    same. *)
Theorem C75_built outs n : ~ single outs -> NoDup (dkeys (columns_of outs)) -> has_series (columns_of outs) -> rows (columns_of outs) n ->
  (exists fr, build_result outs = Ok fr) <-> arrays_fit (columns_of outs) n.
Proof.
  intros Hs Hn Hser Hr. rewrite <- (pd_frame_series nan union range Hunion (columns_of outs) n Hser Hr). rewrite build_flat; [done|done| |done].
  destruct Hser as (k & ix & cs & Hin). apply elem_of_concat in Hin as (l & Hin & ([k' v] & -> & Hin')%elem_of_list_fmap). cbn in Hin.
  exists k', v. split; [done|]. intros c ->. by apply elem_of_list_singleton in Hin.
Qed.
(** Without Series: if the list-likes have one length. *)
Theorem C75_built_arrays outs : ~ single outs -> NoDup (dkeys (columns_of outs)) -> has_array (columns_of outs) -> ~ has_series (columns_of outs) ->
  (exists fr, build_result outs = Ok fr) <-> exists n, arrays_fit (columns_of outs) n.
Proof.
  intros Hs Hn Har Hser. rewrite build_flat; [|done| |done].
  - rewrite pd_frame_arrays by done. split; [|by right]. intros [H | [_ H]]; [|done]. destruct Har as (k & cs & Hin). rewrite H in Hin. by destruct Hin as [?%elem_of_nil | ?%elem_of_nil].
  - destruct Har as (k & cs & Hin). assert (exists c, (k, c) ∈ columns_of outs /\ forall x, c <> Scalar x) as (c & Hc & Hx) by (destruct Hin; by eexists).
    apply elem_of_concat in Hc as (l & Hc & ([k' v] & -> & Hin')%elem_of_list_fmap). cbn in Hc. exists k', v. split; [done|]. intros x ->. apply elem_of_list_singleton in Hc.
    injection Hc as -> ->. by apply (Hx x).
Qed.

(** An output other than a DataFrame whose name is that of a column before it is refused. *)
Theorem C75_refused o1 k c o2 : k ∈ dkeys (columns_of o1) -> (exists k' ix cs, (k', DataFrame ix cs) ∈ o1 ++ o2) -> forall fr, build_result (o1 ++ (k, Col c) :: o2) <> Ok fr.
Proof.
  intros Hk (k' & ix & cs & Hf) fr H. unfold ResultModel.build_result in H. destruct (types_ok int_key (o1 ++ (k, Col c) :: o2)) as (t & Ht & _). rewrite Ht in H. cbn [bindr] in H.
  assert (Hin : (k', DataFrame ix cs) ∈ o1 ++ (k, Col c) :: o2) by (apply elem_of_app in Hf as [?|?]; apply elem_of_app; [by left|right; by right]).
  assert (existsb is_list_like (map snd (o1 ++ (k, Col c) :: o2)) = true /\ existsb is_frame (map snd (o1 ++ (k, Col c) :: o2)) = true) as [He1 He2].
  { split; apply existsb_exists; exists (DataFrame ix cs); (split; [|done]); apply in_map_iff; exists (k', DataFrame ix cs); (split; [done|by apply elem_of_list_In]). }
  assert (Hb : build_with_dataframes nan union range (o1 ++ (k, Col c) :: o2) = Ok fr).
  { rewrite He1, He2 in H. cbn [negb] in H. destruct o1 as [|[k0 [ix0 cs0|c0]] [|x o1]]; done. }
  unfold build_with_dataframes in Hb. apply bindr_ok in Hb as (flat & Hb & _). rewrite foldr_app in Hb. apply bindr_ok in Hb as (flat1 & H1 & Hb). cbn [foldr_] in Hb.
  apply bindr_ok in Hb as (flat2 & H2 & _). unfold flatten_step in H2. cbn [fst snd] in H2. destruct (decide _) as [|Hn]; [done|]. apply Hn. apply (flatten_keys o1 [] flat1 H1). by right.
Qed.

(** The strict builder makes the same, if and only if the outputs that have an index type have one and the same, and some do. *)
Theorem C75_strict outs fr : (forall k v, (k, v) ∈ outs -> index_type int_key v <> Some "no-index") ->
  build_strict outs = Ok fr <-> build_result outs = Ok fr /\
  exists t, (exists k v, (k, v) ∈ outs /\ index_type int_key v = Some t) /\ forall k v t', (k, v) ∈ outs -> index_type int_key v = Some t' -> t' = t.
Proof.
  intros Hno. unfold ResultModel.build_strict. destruct (types_ok int_key outs) as (t & Ht & Hty). rewrite Ht. cbn [bindr].
  rewrite <- (check_iff int_key outs t Hno Hty). destruct (check_match t); [naive_solver|]. split; [done|]. by intros [_ ?].
Qed.
End Props.

Section Numpy.
Context {C : Type}.
Implicit Types (outs : dict (nvalue C)).
(** Vectors and numbers make a matrix if the vectors have one length, a column for each in their order; but with vectors of
    length 1 there must not be numbers. *)
Theorem C75_matrix outs m : has_vector outs -> build_matrix outs = Ok m <->
  exists n, fits_rows outs n /\ (n = 1 -> forall k c, (k, Number c) ∉ outs) /\ Forall2 (fun kv => matrix_column n kv.2) outs m.
Proof.
  intros Hv. unfold build_matrix. rewrite bindr_ok. setoid_rewrite measure_none. setoid_rewrite mapr_ok. split.
  - intros (s & [(H & _) | (_ & n & Hf & ->)] & Hm); [done|]. cbn [fst snd app] in Hm. exists n. split; [done|]. apply Forall2_fmap_l in Hm. clear Hv. split.
    + intros -> k c Hin. apply elem_of_list_lookup in Hin as [i Hi]. destruct (Forall2_lookup_l _ _ _ _ _ Hm Hi) as (x & _ & Hx).
      unfold compose, with_length, expand in Hx. cbn [fst snd] in Hx. rewrite decide_False in Hx by (intros [? _]; done). by rewrite decide_True in Hx.
    + assert (Hf' : Forall (fun kv : name * nvalue C => match kv.2 with Sized cs => length cs = n | Number _ => True | Unsized => False end) outs).
      { apply Forall_forall. intros [k v] Hin. by apply (Hf k v). }
      clear Hf. induction Hm as [|[k v] ds outs m Hx _ IH]; [constructor|]. apply Forall_cons_1 in Hf' as [Hk Hf']. constructor; [|by apply IH].
      unfold compose, with_length, expand in Hx. cbn [fst snd] in Hx, Hk |- *. destruct v as [c|cs|]; [| |done].
      * destruct (decide _) as [[Hne _] | Hd].
        -- injection Hx as <-. rewrite Nat2Z.id. cbn. split; [apply repeat_length|]. intros d Hd. by apply elem_of_list_In, repeat_spec in Hd.
        -- destruct (decide (1%Z = Z.of_nat n)); [done|]. destruct Hd. done.
      * destruct (decide _) as [[? _] | _]; [done|]. destruct (decide _); [|done]. by injection Hx as <-.
  - intros (n & Hf & Hone & Hm). exists (Z.of_nat n, [] ++ map (with_length n) outs). split; [right; split; [done|by exists n]|]. cbn [fst snd app]. apply Forall2_fmap_l.
    assert (Ho' : Forall (fun kv : name * nvalue C => n = 1 -> forall c, kv.2 <> Number c) outs).
    { apply Forall_forall. intros [k v] Hin Hn c Heq. cbn in Heq. subst v. by apply (Hone Hn k c). }
    assert (Hf' : Forall (fun kv : name * nvalue C => match kv.2 with Sized cs => length cs = n | Number _ => True | Unsized => False end) outs).
    { apply Forall_forall. intros [k v] Hin. by apply (Hf k v). }
    clear Hf Hone Hv. induction Hm as [|[k v] ds outs m Hx _ IH]; [constructor|]. apply Forall_cons_1 in Hf' as [Hk Hf']. apply Forall_cons_1 in Ho' as [Hn Ho']. constructor; [|by apply IH].
    unfold compose, with_length, expand. cbn [fst snd] in Hx, Hk, Hn |- *. destruct v as [c|cs|]; cbn in Hx; [| |done].
    + assert (n <> 1) by (intros ->; by apply (Hn eq_refl c)). rewrite decide_True by (split; [lia|done]). f_equal. rewrite Nat2Z.id. destruct Hx as [<- Hx]. clear -Hx.
      induction ds as [|d ds IH]; [done|]. cbn. rewrite (Hx d) by (by left). f_equal. apply IH. intros; apply Hx; by right.
    + rewrite decide_False by (intros [? _]; done). rewrite decide_True by done. by subst ds.
Qed.
End Numpy.
Print Assumptions C75_single.
Print Assumptions C75_scalars.
Print Assumptions C75_value.
Print Assumptions C75_built.
Print Assumptions C75_built_arrays.
Print Assumptions C75_refused.
Print Assumptions C75_strict.
Print Assumptions C75_matrix.

(** ** Examples *)
Notation xix := (index nat).
Definition xunion (ixs : list xix) : xix :=
  match ixs with
  | [] => Index "Index:::object" false []
  | ix :: ixs' => if forallb (fun i => bool_decide (ix_labels i = ix_labels ix)) ixs' then ix
                  else Index (ix_key ix) (ix_time ix) (remove_dups (concat (map ix_labels ixs)))
  end.
Definition xrange (n : nat) : xix := Index "RangeIndex:::int64" false (seq 0 n).
Lemma xjoins : joins xunion.
Proof.
  split.
  - intros [|ix ixs] l; cbn -[concat]; [split; [intros H; by apply elem_of_nil in H|by intros (? & ?%elem_of_nil & _)]|]. destruct (forallb _ _) eqn:E.
    + rewrite forallb_forall in E. split; [intros H; exists ix; split; [by left|done]|]. intros (i & [-> | Hi]%elem_of_cons & Hl); [done|].
      apply elem_of_list_In, E, bool_decide_eq_true in Hi. by rewrite <- Hi.
    + cbn [ix_labels]. change (ix_labels ix :: map ix_labels ixs) with (map ix_labels (ix :: ixs)). rewrite elem_of_remove_dups, elem_of_concat. split.
      * intros (ls & Hl & (i & -> & Hi)%elem_of_list_fmap). by exists i.
      * intros (i & Hi & Hl). exists (ix_labels i). split; [done|]. apply elem_of_list_fmap. by exists i.
  - intros [|ix ixs] ls Hne H; [done|]. cbn -[concat]. assert (Hix := H ix ltac:(by left)). rewrite (proj2 (forallb_forall _ _)); [done|].
    intros i Hi%elem_of_list_In. apply bool_decide_eq_true. rewrite Hix. apply H. by right.
  - intros [|ix ixs] H; cbn -[concat]; [constructor|]. destruct (forallb _ _); [apply H; by left|]. apply NoDup_remove_dups.
Qed.
Notation xval := (value nat (option nat)).
Notation xbuild := (build_result None xunion xrange true "Index:::int64").
Notation xstrict := (build_strict None xunion xrange true "Index:::int64").
Definition ix1 : xix := Index "Index:::int64" false [1; 2; 3].
Definition ix2 : xix := Index "Index:::int64" false [3; 2; 4].
Definition xouts : list (name * xval) :=
  [("a", Col (Series ix1 [Some 10; Some 20; Some 30])); ("df", DataFrame ix2 [("x", [Some 7; Some 8; Some 9]); ("y", [Some 1; None; Some 2])]);
   ("one", Col (Scalar (Some 5))); ("l", Col (Arr [Some 0; Some 1; Some 2; Some 3]))].
Example ex_result : (forall k v, (k, v) ∈ xouts -> wf_value v) /\ ~ single xouts /\ (exists k v, (k, v) ∈ xouts /\ list_like v) /\ NoDup (dkeys (columns_of xouts)) /\
  xbuild xouts = Ok (Frame (Index "Index:::int64" false [1; 3; 2; 4])
    [("a", [Some 10; Some 30; Some 20; None]); ("df.x", [None; Some 7; Some 8; Some 9]); ("df.y", [None; Some 1; None; Some 2]);
     ("one", [Some 5; Some 5; Some 5; Some 5]); ("l", [Some 0; Some 1; Some 2; Some 3])]) /\ xstrict xouts = xbuild xouts.
Proof.
  split_and!.
  - intros k v Hin. unfold xouts in Hin. repeat (apply elem_of_cons in Hin as [Heq | Hin]; [injection Heq as -> ->; cbn; try done|]); [|by apply elem_of_nil in Hin].
    intros k c Hc. repeat (apply elem_of_cons in Hc as [Heq | Hc]; [injection Heq as -> ->; done|]). by apply elem_of_nil in Hc.
  - by intros (k & ix & cs & H).
  - exists "a", (Col (Series ix1 [Some 10; Some 20; Some 30])). split; [by left|]. by intros c.
  - apply (bool_decide_unpack _). vm_compute. exact I.
  - vm_compute. reflexivity.
  - vm_compute. reflexivity.
Qed.
Lemma xseries (P : index nat -> list (option nat) -> Prop) : P ix1 [Some 10; Some 20; Some 30] -> P ix2 [Some 7; Some 8; Some 9] -> P ix2 [Some 1; None; Some 2] ->
  forall k ix cs, (k, Series ix cs) ∈ columns_of xouts -> P ix cs.
Proof.
  intros H1 H2 H3 k ix cs Hin. unfold xouts, columns_of in Hin. cbn -[String.append] in Hin.
  repeat (apply elem_of_cons in Hin as [Heq | Hin]; [injection Heq; intros; subst; try done|]). by apply elem_of_nil in Hin.
Qed.
Example ex_built : has_series (columns_of xouts) /\ rows (columns_of xouts) 4 /\ arrays_fit (columns_of xouts) 4.
Proof.
  split_and!.
  - exists "a", ix1, [Some 10; Some 20; Some 30]. by left.
  - apply (rows_once _ [1; 2; 3; 4]).
    + intros k ix cs. apply (xseries (fun ix _ => NoDup (ix_labels ix))); apply (bool_decide_unpack _); by vm_compute.
    + apply (bool_decide_unpack _). by vm_compute.
    + intros l. split.
      * intros Hl. assert (l ∈ [1; 2; 3] \/ l ∈ [3; 2; 4]) as [H | H] by set_solver.
        -- exists "a", ix1, [Some 10; Some 20; Some 30]. split; [by left|done].
        -- exists "df.x", ix2, [Some 7; Some 8; Some 9]. split; [right; by left|done].
      * intros (k & ix & cs & Hin & Hl). revert Hl. revert k ix cs Hin. refine (xseries (fun ix _ => l ∈ ix_labels ix -> l ∈ [1; 2; 3; 4]) _ _ _); cbn; set_solver.
  - intros k cs Hin. unfold xouts, columns_of in Hin. cbn -[String.append] in Hin.
    destruct Hin as [Hin | Hin]; repeat (apply elem_of_cons in Hin as [Heq | Hin]; [injection Heq; intros; subst; done|]); by apply elem_of_nil in Hin.
Qed.
Example ex_built_arrays : xbuild [("l", Col (Arr [Some 1; Some 2])); ("c", Col (Scalar None))] = Ok (Frame (xrange 2) [("l", [Some 1; Some 2]); ("c", [None; None])]) /\
  xbuild [("l", Col (Arr [Some 1; Some 2])); ("m", Col (PIndex [None]))] = Err ELengths.
Proof. split; vm_compute; reflexivity. Qed.
Example ex_scalars : xbuild [("a", Col (Scalar (Some 1))); ("b", Col (Scalar None))] = Ok (Frame (xrange 1) [("a", [Some 1]); ("b", [None])]).
Proof. vm_compute. reflexivity. Qed.
Example ex_refused : "ns.x" ∈ dkeys (columns_of [("ns", DataFrame ix1 [("x", [Some 1; Some 2; Some 3])] : xval)]) /\
  xbuild [("ns", DataFrame ix1 [("x", [Some 1; Some 2; Some 3])]); ("ns.x", Col (Scalar (Some 1)))] = Err EExists.
Proof. split; [by left|vm_compute; reflexivity]. Qed.
Example ex_strict : xstrict [("a", Col (Series ix1 [Some 1; Some 2; Some 3])); ("b", Col (Series (xrange 3) [Some 1; Some 2; Some 3]))] = Err EMismatch /\
  is_Some (match xbuild [("a", Col (Series ix1 [Some 1; Some 2; Some 3])); ("b", Col (Series (xrange 3) [Some 1; Some 2; Some 3]))] with Ok fr => Some fr | Err _ => None end).
Proof. split; [vm_compute; reflexivity|by eexists]. Qed.
Example ex_matrix : build_matrix [("a", Sized [1; 2; 3]); ("b", Number 7); ("c", Sized [4; 5; 6])] =
  Ok [[Number 1; Number 2; Number 3]; [Number 7; Number 7; Number 7]; [Number 4; Number 5; Number 6]].
Proof. vm_compute. reflexivity. Qed.

(** ** What is not so *)
(** A column is lost, without a word: that of an output named like a column of a DataFrame after it. *)
Theorem C75_overwritten_refuted : exists outs : dict xval, NoDup (dkeys outs) /\ length (columns_of outs) = 2 /\
  xbuild outs = Ok (Frame ix1 [("ns.x", [Some 1; Some 2; Some 3])]) /\ dget outs "ns.x" = Some (Col (Series ix1 [Some 7; Some 8; Some 9])).
Proof.
  exists [("ns.x", Col (Series ix1 [Some 7; Some 8; Some 9])); ("ns", DataFrame ix1 [("x", [Some 1; Some 2; Some 3])])].
  split_and!; [apply (bool_decide_unpack _); vm_compute; exact I|done|vm_compute; reflexivity|done].
Qed.
(** So is a column of a DataFrame that has two of the name, beside another output. *)
Theorem C75_same_column_refuted : exists outs : dict xval, NoDup (dkeys outs) /\ length (columns_of outs) = 3 /\
  xbuild outs = Ok (Frame ix1 [("df.x", [Some 4; Some 5; Some 6]); ("one", [Some 1; Some 1; Some 1])]).
Proof.
  exists [("df", DataFrame ix1 [("x", [Some 1; Some 2; Some 3]); ("x", [Some 4; Some 5; Some 6])]); ("one", Col (Scalar (Some 1)))].
  split_and!; [apply (bool_decide_unpack _); vm_compute; exact I|done|vm_compute; reflexivity].
Qed.
(** The rows of a DataFrame without columns are not in the result, and with scalars there is none. *)
Theorem C75_no_columns_refuted : xbuild ([("df", DataFrame ix1 [])] : dict xval) = Ok (Frame ix1 []) /\
  xbuild [("df", DataFrame ix1 []); ("one", Col (Scalar (Some 1)))] = Err EScalars /\
  xbuild [("df", DataFrame ix1 []); ("l", Col (Arr [Some 1]))] = Ok (Frame (xrange 1) [("l", [Some 1])]).
Proof. split_and!; vm_compute; reflexivity. Qed.
(** A [pd.Index], which has no index, counts as one of an integer index that is not the usual one: the strict builder refuses it
    beside a Series with the usual index, but accepts the same as a list. *)
Theorem C75_pd_index_refuted : let s : xval := Col (Series (xrange 2) [Some 1; Some 2]) in
  xstrict [("s", s); ("i", Col (Arr [Some 3; Some 4]))] = Ok (Frame (xrange 2) [("s", [Some 1; Some 2]); ("i", [Some 3; Some 4])]) /\
  xstrict [("s", s); ("i", Col (PIndex [Some 3; Some 4]))] = Err EMismatch.
Proof. split; vm_compute; reflexivity. Qed.
(** With a pandas that lacks the class, "not worth breaking for", every output with an index breaks. *)
Theorem C75_no_class_refuted : build_result None xunion xrange false "Index:::int64" [("s", Col (Series (xrange 1) [Some 1]))] = Err EType /\
  xbuild [("s", Col (Series (xrange 1) [Some 1]))] = Ok (Frame (xrange 1) [("s", [Some 1])]).
Proof. split; vm_compute; reflexivity. Qed.
(** A matrix of numbers only has no rows; a number beside a vector of length 1 is an error. *)
Theorem C75_matrix_refuted : build_matrix [("a", Number 1); ("b", Number 2)] = Ok [[]; []] /\ build_matrix [("a", Sized [1]); ("b", Number 2)] = Err EType.
Proof. split; vm_compute; reflexivity. Qed.
Print Assumptions C75_overwritten_refuted.
Print Assumptions C75_same_column_refuted.
Print Assumptions C75_no_columns_refuted.
Print Assumptions C75_pd_index_refuted.
Print Assumptions C75_no_class_refuted.
Print Assumptions C75_matrix_refuted.
