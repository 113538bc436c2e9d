From Coq Require Import ZArith.
From Verif Require Import Base Dict ExecModel ExecSpec ExecResults ExecProps TraverseModel TraverseProofs HubModel WatchModel WatchSpec.

Section Print.
Context {tags : Type}.
Variable tags_of : string -> tags.
Variable format_time_delta : Z -> string.

Lemma should_chosen f x b : should_run_node x (tags_of x) f = Ok b -> (b = true <-> chosen tags_of f x).
Proof. destruct f; cbn; intros [= <-]; rewrite ?bool_decide_eq_true; done. Qed.

Lemma dget_ddel_eq {A} (d : dict A) k : dget (ddel d k) k = None.
Proof.
  unfold ddel. change (list (name * A)) with (list (string * A)). induction d as [|[m v] d IH]; [done|]. change (dget (filter (fun kv : string * A => kv.1 <> k) ((m, v) :: d)) k = None).
  rewrite filter_cons. cbn [fst]. case_decide as Hm; [|done]. cbn. rewrite decide_False; [done|congruence].
Qed.
Lemma dget_ddel_ne {A} (d : dict A) k k' : k' <> k -> dget (ddel d k) k' = dget d k'.
Proof.
  intros Hk. unfold ddel. induction d as [|[m v] d IH]; [done|]. change (dget (filter (fun kv : string * A => kv.1 <> k) ((m, v) :: d)) k' = dget ((m, v) :: d) k').
  rewrite filter_cons. cbn [fst]. case_decide as Hm; cbn; [by case_decide|]. rewrite decide_False; [exact IH|]. intros ->. by apply Hk, dec_stable.
Qed.

Lemma prun_lines (p : printer tags) past es st : pr_filter p <> FOther -> sensible past es ->
  (forall x, chosen tags_of (pr_filter p) x -> dget (ps_timers st) x = began past x) ->
  exists l st', prun tags_of format_time_delta p st es = (Ok tt, st') /\ ps_out st' = ps_out st ++ l /\ lines tags_of format_time_delta (pr_verbosity p) (pr_filter p) past es l /\
    (forall x, chosen tags_of (pr_filter p) x -> dget (ps_timers st') x = began (rev es ++ past) x).
Proof.
  intros Hf. revert past st. induction es as [|e es IH]; intros past st Hs Ht.
  { exists [], st. rewrite app_nil_r. split_and!; [done|done|constructor|done]. }
  assert (Hd : forall x, exists b, should_run_node x (tags_of x) (pr_filter p) = Ok b) by (intros x; destruct (pr_filter p); [by eexists..|done]).
  destruct e as [x t now i|x t now s r er]; cbn [sensible] in Hs.
  - destruct Hs as [-> Hs]. destruct (Hd x) as [b Hb]. cbn [prun pstep]. rewrite Hb. pose proof (should_chosen _ _ _ Hb) as Hc. destruct b.
    + edestruct (IH (PBefore x None now i :: past)) as (l & st' & E & E1 & E2 & E3); [done| |].
      2:{ rewrite E. eexists _, st'. split; [done|]. split; [rewrite E1; cbn [ps_out]; by rewrite <- app_assoc|]. split.
          - by apply lines_before; [apply Hc|].
          - intros y Hy. rewrite E3 by done. cbn [rev]. by rewrite <- app_assoc. }
      intros y Hy. cbn [ps_timers format_node_name began]. case_decide as Hxy; [subst; by rewrite dget_dset_eq|]. rewrite dget_dset_ne by done. by apply Ht.
    + destruct (IH (PBefore x None now i :: past) st) as (l & st' & E & E1 & E2 & E3); [done| |].
      { intros y Hy. cbn [began]. case_decide as Hxy; [subst; by apply Hc in Hy|]. by apply Ht. }
      rewrite E. exists l, st'. split_and!; [done|done| |].
      * apply lines_skip; [|done]. intros Hy. by apply Hc in Hy.
      * intros y Hy. rewrite E3 by done. cbn [rev]. by rewrite <- app_assoc.
  - destruct Hs as [-> [[t0 H0] Hs]]. destruct (Hd x) as [b Hb]. cbn [prun pstep]. rewrite Hb. pose proof (should_chosen _ _ _ Hb) as Hc. destruct b.
    + cbn [format_node_name]. rewrite (Ht x) by by apply Hc. rewrite H0. 
      edestruct (IH (PAfter x None now s r er :: past)) as (l & st' & E & E1 & E2 & E3); [done| |].
      2:{ rewrite E. eexists _, st'. split; [done|]. split; [rewrite E1; cbn [ps_out]; by rewrite <- app_assoc|]. split.
          - by eapply lines_after; [apply Hc|..].
          - intros y Hy. rewrite E3 by done. cbn [rev]. by rewrite <- app_assoc. }
      intros y Hy. cbn [ps_timers began]. case_decide as Hxy; [subst; by rewrite dget_ddel_eq|]. rewrite dget_ddel_ne by done. by apply Ht.
    + destruct (IH (PAfter x None now s r er :: past) st) as (l & st' & E & E1 & E2 & E3); [done| |].
      { intros y Hy. cbn [began]. case_decide as Hxy; [subst; by apply Hc in Hy|]. by apply Ht. }
      rewrite E. exists l, st'. split_and!; [done|done| |].
      * apply lines_skip; [|done]. intros Hy. by apply Hc in Hy.
      * intros y Hy. rewrite E3 by done. cbn [rev]. by rewrite <- app_assoc.
Qed.
End Print.

(** ** Widths *)
Lemma stake_length n s : String.length (stake n s) = Nat.min n (String.length s).
Proof. revert s. induction n as [|n IH]; intros [|a s]; cbn; [done..|]. by rewrite IH. Qed.
Lemma slength_app a b : String.length (a ++ b)%string = String.length a + String.length b.
Proof. induction a as [|x a IH]; [done|]. exact (f_equal S IH). Qed.
Lemma spaces_length n : String.length (spaces n) = n.
Proof. induction n as [|n IH]; [done|]. exact (f_equal S IH). Qed.
Lemma stake_prefix n s : exists rest, s = (stake n s ++ rest)%string.
Proof.
  revert s. induction n as [|n IH]; intros [|a s]; [by exists ""|by exists (String a s)|by exists ""|]. destruct (IH s) as [rest E]. exists rest. exact (f_equal (String a) E).
Qed.
Lemma display_length w x : (3 <= w)%Z -> Z.of_nat (String.length (name_display w x)) = w.
Proof.
  intros Hw. unfold name_display. destruct (decide (Z.of_nat (String.length x) <= w)%Z) as [H1|H1].
  - destruct (decide (Z.of_nat (String.length x) < w)%Z) as [H2|H2]; [|lia]. rewrite slength_app, spaces_length. lia.
  - assert (Hl : Z.of_nat (String.length (upto (w - 3) x ++ "...")) = w).
    { rewrite slength_app. unfold upto. rewrite decide_True by lia. rewrite stake_length. cbn [String.length]. lia. }
    rewrite decide_False by lia. done.
Qed.
Lemma longest_cons x path : longest (x :: path) = Z.max (Z.of_nat (String.length x)) (longest path).
Proof. done. Qed.
Lemma longest_ge path x : x ∈ path -> (Z.of_nat (String.length x) <= longest path)%Z.
Proof. induction 1 as [x l|x y l _ IH]; rewrite longest_cons; lia. Qed.
Lemma longest_in path : path <> [] -> exists x, x ∈ path /\ longest path = Z.of_nat (String.length x).
Proof.
  induction path as [|x path IH]; [done|]. intros _. destruct path as [|y path].
  - exists x. split; [left|]. rewrite longest_cons. change (longest []) with 0%Z. lia.
  - destruct IH as (z & Hz & E); [done|]. change (longest (x :: y :: path)) with (Z.max (Z.of_nat (String.length x)) (longest (y :: path))).
    destruct (Z.max_spec (Z.of_nat (String.length x)) (longest (y :: path))) as [[_ ->]|[_ ->]]; [exists z; split; [by right|done]|exists x; split; [left|done]].
Qed.

(** ** The bar *)
Lemma grun_app p es es' : grun p (es ++ es') = match grun p es with Ok p' => grun p' es' | Err er => Err er end.
Proof. revert p. induction es as [|e es IH]; intros p; [done|]. cbn. destruct (gstep p e); [apply IH|done]. Qed.
Lemma grun_within p w b es : within_run es -> pg_width p = Some w -> pg_bar p = Some b ->
  exists p' b', grun p es = Ok p' /\ pg_width p' = Some w /\ pg_bar p' = Some b' /\ b_total b' = b_total b /\ b_count b' = b_count b + ended es /\ b_closed b' = b_closed b /\ pg_desc p' = pg_desc p /\ pg_max p' = pg_max p.
Proof.
  intros H. revert p b. induction H as [|e es He _ IH]; intros p b Hw Hb.
  - exists p, b. change (ended []) with 0. rewrite Nat.add_0_r. by split_and!.
  - destruct e as [|x| |]; try done; cbn [grun gstep]; rewrite ?Hw, Hb.
    + edestruct (IH (says p b (name_display w x) (b_closed b))) as (p' & b' & E & E1 & E2 & E3 & E4 & E5 & E6 & E7); [done|done|]. exists p', b'. by split_and!.
    + edestruct (IH (set_bar p (Bar (b_total b) (S (b_count b)) (b_text b) (b_closed b)))) as (p' & b' & E & E1 & E2 & E3 & E4 & E5 & E6 & E7); [done|done|].
      exists p', b'. rewrite E4. split_and!; try done. change (ended (GAfter :: es)) with (S (ended es)). cbn [b_count]. lia.
Qed.

(** ** What is announced and what is executed *)
Section Path.
Context {V : Type}.
Variable g : graph.
Hypothesis Hwf : wf_graph g.
Variable config : gmap name V.
Variables inputs overrides : option (gmap name V).
Variable fv : list name.
Notation ov := (default ∅ overrides).
Notation req := (requested g fv).

Lemma ext_edge x d : is_ext g x = true -> ~ edge g x d.
Proof. unfold is_ext. intros Hx (nd & Hg & Hd). rewrite Hg in Hx. pose proof (wf_ext g Hwf x nd Hg Hx) as Hn. unfold dep_names in Hd. rewrite Hn in Hd. by apply elem_of_nil in Hd. Qed.
Lemma path_needed path x : execution_path g config inputs overrides fv = Some path ->
  (x ∈ path /\ ov !! x = None <-> needed g ov req x /\ exists nd, g !! x = Some nd /\ nd_ext nd = false).
Proof.
  unfold execution_path. pose proof (upstream_ok g Hwf config inputs overrides fv) as H. destruct (get_upstream_nodes _ _ _ _ _) as [nodes users|m|]; [|done..].
  destruct H as (_ & Hn & Hu). intros [= <-]. rewrite elem_of_difference, Hu.
  assert (Hnext : forall a b, b ∈ upstream_next g config inputs overrides a -> edge g a b /\ ov !! a = None).
  { intros a b Hab. split; [by eapply upstream_next_edge|]. unfold upstream_next in Hab. destruct (g !! a) as [nd|]; [|by apply elem_of_nil in Hab].
    destruct overrides as [o|]; cbn in *; [|apply lookup_empty]. case_bool_decide as Hd; [by apply elem_of_nil in Hab|]. by apply eq_None_not_Some. }
  assert (Hback : forall a b, edge g a b -> ov !! a = None -> is_ext g b = false -> b ∈ upstream_next g config inputs overrides a).
  { intros a b (nd & Hg & Hb) Ho He. unfold upstream_next. rewrite Hg.
    assert (Hno : match overrides with Some o => bool_decide (is_Some (o !! a)) | None => false end = false).
    { destruct overrides as [o|]; [|done]. cbn in Ho. apply bool_decide_eq_false. by rewrite Ho, <- eq_None_not_Some. }
    rewrite Hno. destruct inputs as [inp|]; [|done]. unfold dep_names in Hb. apply elem_of_list_fmap in Hb as ([b' dt] & -> & Hin).
    apply elem_of_list_fmap. exists (b', dt). split; [done|]. apply elem_of_list_filter. split; [|done]. cbn [fst snd] in *. by rewrite He. }
  split.
  - intros [[Hx Hnx] Ho]. assert (He : is_ext g x = false) by (destruct (is_ext g x); tauto). apply Hn in Hx as (s & Hs & Hgs & Hr).
    assert (K : forall a, rtc (fun a b => b ∈ upstream_next g config inputs overrides a) a x -> is_Some (g !! a) -> (ov !! a = None -> needed g ov req a) ->
       needed g ov req x /\ is_Some (g !! x)).
    { induction 1 as [a|a b c Hab Hbc IH]; intros Ha Hna; [by split; [apply Hna|]|]. destruct (Hnext _ _ Hab) as [Hed Hoa].
      apply IH; try done; [by eapply wf_closed|]. intros Hb. eapply needed_dep; [by apply Hna|done|done]. }
    destruct (K s Hr Hgs) as [Hneed [nd Hg]]; [intros; apply needed_root; [by apply requested_elem|done]|]. split; [done|]. exists nd. split; [done|].
    unfold is_ext in He. by rewrite Hg in He.
  - intros [Hneed (nd & Hg & Hext)]. assert (He : is_ext g x = false) by (unfold is_ext; by rewrite Hg).
    assert (Ho : ov !! x = None) by by inversion Hneed. split; [|done]. split; [|rewrite He; by intros [? _]]. apply Hn. clear nd Hg Hext Ho.
    induction Hneed as [x Hx Ho|x d Hx IH Hed Ho].
    + apply requested_elem in Hx as [Hx Hgx]. exists x. split_and!; [done|done|constructor].
    + destruct (is_ext g x) eqn:Hxe; [by eapply ext_edge in Hed|]. destruct IH as (s & Hs & Hgs & Hr); [done|]. exists s. split_and!; [done|done|].
      eapply rtc_r; [done|]. apply Hback; [done| |done]. by inversion Hx.
Qed.
End Path.
