(** C79: versions tell code apart, whatever the documentation; a diff says what is new, gone and changed. *)
From stdpp Require Import sorting countable pretty.
From Verif Require Import Base Dict CacheKeyModel FingerprintModel VersionModel VersionSpec VersionProofs.

Section Props.
Variable hash : tree -> string.
Variable sha : list (option string) -> string.
Variable params : string -> list name.
Notation graph_of := (graph_of params).
Notation hash_nodes := (hash_nodes hash).
Notation variable := (variable params).
Notation tells := (tells hash).
Implicit Types (config : list name) (fns : list fn).

(** Two functions have one version exactly if they differ in nothing but documentation. *)
Theorem C79_code f f' : f_readable f = true -> f_readable f' = true -> tells [f; f'] -> hash_source hash f = hash_source hash f' <-> same_code (tree_of f) (tree_of f').
Proof.
  intros Hr Hr' Ht. rewrite !readable_hash by done. rewrite <- drop_same. unfold code. split; [|by intros ->]. intros [= He]. apply Ht; [by left|right; by left|done].
Qed.

(** What is new and what is gone. *)
Theorem C79_added config fns config' fns' x : program fns -> program fns' ->
  x ∈ current_only (diff_versions (hash_nodes (graph_of config fns)) (hash_nodes (graph_of config' fns'))) <-> variable config fns x /\ ~ variable config' fns' x.
Proof. intros Hp Hp'. rewrite current_only_elem, hash_nodes_keys, program_version by done. by rewrite graph_keys by apply Hp. Qed.
Theorem C79_removed config fns config' fns' x : program fns -> program fns' ->
  x ∈ reference_only (diff_versions (hash_nodes (graph_of config fns)) (hash_nodes (graph_of config' fns'))) <-> variable config' fns' x /\ ~ variable config fns x.
Proof. intros Hp Hp'. rewrite reference_only_elem, hash_nodes_keys, program_version by done. by rewrite graph_keys by apply Hp'. Qed.
(** What is changed, of the functions. In full this would hold for all variables; see [C79_input_refuted]. *)
Theorem C79_edited_partial config fns config' fns' f f' : program fns -> program fns' -> tells (fns ++ fns') -> live config fns f -> live config' fns' f' -> f_name f = f_name f' ->
  f_name f ∈ edit (diff_versions (hash_nodes (graph_of config fns)) (hash_nodes (graph_of config' fns'))) <-> ~ same_code (tree_of f) (tree_of f').
Proof.
  intros Hp Hp' Ht Hl Hl' Hx. rewrite edit_elem by (rewrite hash_nodes_keys; destruct (graph_get params config fns (f_name f) (proj1 Hp)); done).
  rewrite (live_version hash params config fns f Hp Hl). rewrite Hx, (live_version hash params config' fns' f' Hp' Hl'). rewrite <- drop_same. split.
  - intros (v & w & [= <-] & [= <-] & Hne) He. apply Hne. unfold code. by rewrite He.
  - intros Hne. exists (Some (code hash f)), (code hash f'). split; [done|]. split; [done|]. intros [= He]. apply Hne, Ht; [apply elem_of_app; left; apply Hl|apply elem_of_app; right; apply Hl'|done].
Qed.
(** The command names the function of every node. *)
Theorem C79_functions config fns config' fns' : program fns -> program fns' -> let d := diff_versions (hash_nodes (graph_of config fns)) (hash_nodes (graph_of config' fns')) in
  exists a r e, full_diff hash (graph_of config fns) (graph_of config' fns') = Some (a, r, e) /\ dkeys a = current_only d /\ dkeys r = reference_only d /\ dkeys e = edit d /\
  (forall f, live config fns f -> (f_name f ∈ current_only d -> dget a (f_name f) = Some (Some (f_name f))) /\ (f_name f ∈ edit d -> dget e (f_name f) = Some (Some (f_name f)))) /\
  (forall f, live config' fns' f -> f_name f ∈ reference_only d -> dget r (f_name f) = Some (Some (f_name f))).
Proof.
  intros Hp Hp' d. destruct (map_nodes_some _ (graph_origins params config fns (proj1 Hp))) as [fc Hfc]. destruct (map_nodes_some _ (graph_origins params config' fns' (proj1 Hp'))) as [fr Hfr].
  unfold full_diff. rewrite Hfc, Hfr. fold d. do 3 eexists. split; [reflexivity|].
  assert (Hk : forall xs, dkeys (with_functions fc fr xs) = xs) by (intros xs; unfold dkeys, with_functions; induction xs as [|x xs IH]; [done|]; cbn [map]; rewrite fmap_cons; by rewrite IH).
  assert (Hg : forall xs x, x ∈ xs -> dget (with_functions fc fr xs) x = Some (match dget fc x with Some f => Some f | None => dget fr x end)).
  { intros xs x. unfold with_functions. induction xs as [|y xs IH]; [by intros ?%elem_of_nil|]. intros Hin. cbn [map dget]. destruct (decide (x = y)) as [-> |Hne]; [done|]. apply IH. apply elem_of_cons in Hin as [?|?]; [done|done]. }
  assert (Hc : forall f, live config fns f -> dget fc (f_name f) = Some (f_name f)).
  { intros f Hl. rewrite (map_nodes_get _ fc _ (proj1 (graph_get params config fns (f_name f) (proj1 Hp))) Hfc). by rewrite (live_get params config fns f (proj1 Hp) Hl). }
  assert (Hc' : forall f, live config' fns' f -> dget fr (f_name f) = Some (f_name f)).
  { intros f Hl. rewrite (map_nodes_get _ fr _ (proj1 (graph_get params config' fns' (f_name f) (proj1 Hp'))) Hfr). by rewrite (live_get params config' fns' f (proj1 Hp') Hl). }
  split_and!; [apply Hk..| |].
  - intros f Hl. split; intros Hin; rewrite Hg by done; by rewrite Hc.
  - intros f Hl Hin. rewrite Hg by done. destruct (dget fc (f_name f)) as [o|] eqn:Eo; [|by rewrite Hc'].
    exfalso. apply C79_removed in Hin as [_ Hnv]; [|done|done]. apply Hnv. apply graph_keys; [apply Hp|]. apply dget_Some_key.
    rewrite (map_nodes_get _ fc _ (proj1 (graph_get params config fns (f_name f) (proj1 Hp))) Hfc) in Eo. destruct (dget (graph_of config fns) (f_name f)); [by eexists|done].
Qed.

(** Documentation, comments and layout are not seen. *)
Theorem C79_documentation config fns fns' : program fns -> program fns' -> Forall2 (fun f f' => same_code (tree_of f) (tree_of f')) fns fns' ->
  let d := hash_nodes (graph_of config fns) in let d' := hash_nodes (graph_of config fns') in
  diff_versions d d' = Diff [] [] [] /\ hash_dataflow sha d = hash_dataflow sha d' /\ graph_version hash sha (graph_of config fns) = graph_version hash sha (graph_of config fns').
Proof.
  intros Hp Hp' Hs d d'. assert (He : d = d').
  { apply like_versions, like_graph. clear -Hp Hp' Hs. destruct Hp as [_ Hr], Hp' as [_ Hr']. induction Hs as [|f f' fns fns' Hf _ IH]; constructor.
    - split; [done|]. rewrite Hr, Hr'; [done|by left|by left].
    - apply IH; [intros f0 ?; apply Hr; by right|intros f0 ?; apply Hr'; by right]. }
  split; [|split; [by rewrite He|unfold graph_version; fold d d'; by rewrite He]]. rewrite <- He. apply (diff_self params).
  - unfold d. rewrite hash_nodes_keys. destruct (graph_get params config fns "" (proj1 Hp)); done.
  - intros x v Hin ->. destruct (values_program hash params config fns None Hp) as (s & ? & _); [|done]. apply elem_of_list_fmap. by exists (x, None).
Qed.
(** Every dataflow has a version, and two dataflows of one version have the same functions. In full the converse would hold too, and
    for all nodes; see [C79_order_refuted], [C79_columns_refuted]. *)
Theorem C79_dataflow_partial config fns config' fns' : program fns -> program fns' -> tells (fns ++ fns') -> no_name hash (fns ++ fns') (config ++ config') -> sha_tells sha ->
  is_Some (hash_dataflow sha (hash_nodes (graph_of config fns))) /\
  (hash_dataflow sha (hash_nodes (graph_of config fns)) = hash_dataflow sha (hash_nodes (graph_of config' fns')) ->
   (forall f, live config fns f -> exists f', live config' fns' f' /\ same_code (tree_of f) (tree_of f')) /\
   (forall f', live config' fns' f' -> exists f, live config fns f /\ same_code (tree_of f) (tree_of f'))).
Proof.
  intros Hp Hp' Ht Hnn Hsha.
  assert (Hv : forall c fs v, program fs -> v ∈ map snd (hash_nodes (graph_of c fs)) -> exists s, v = Some s).
  { intros c fs v Hpp Hin. destruct (values_program hash params c fs v Hpp Hin) as (s & -> & _). by eexists. }
  split; [rewrite hash_dataflow_ok; [by eexists|]; intros v; by apply Hv|]. intros He. assert (Hperm := hash_dataflow_values sha _ _ Hsha (fun v => Hv _ _ v Hp) (fun v => Hv _ _ v Hp') He).
  assert (Hin : forall c fs f, program fs -> live c fs f -> Some (code hash f) ∈ map snd (hash_nodes (graph_of c fs))).
  { intros c fs f Hpp Hl. apply elem_of_list_fmap. exists (f_name f, Some (code hash f)). split; [done|]. apply dget_elem. by apply live_version. }
  split.
  - intros f Hl. assert (Hf := Hin config fns f Hp Hl). rewrite Hperm in Hf. destruct (values_program hash params config' fns' _ Hp' Hf) as (s & [= <-] & [(f' & Hl' & Hc)|Hc]).
    + exists f'. split; [done|]. apply drop_same. apply Ht; [apply elem_of_app; left; apply Hl|apply elem_of_app; right; apply Hl'|done].
    + exfalso. refine (Hnn f _ _ _ eq_refl); [apply elem_of_app; left; apply Hl|]. apply elem_of_app. by right.
  - intros f' Hl'. assert (Hf := Hin config' fns' f' Hp' Hl'). rewrite <- Hperm in Hf. destruct (values_program hash params config fns _ Hp Hf) as (s & [= <-] & [(f & Hl & Hc)|Hc]).
    + exists f. split; [done|]. apply drop_same. apply Ht; [apply elem_of_app; left; apply Hl|apply elem_of_app; right; apply Hl'|done].
    + exfalso. refine (Hnn f' _ _ _ eq_refl); [apply elem_of_app; right; apply Hl'|]. apply elem_of_app. by left.
Qed.

(** The driver's version of the graph (graph_types.py) is the dataflow hash of the command line. *)
Theorem C79_graph_version config fns : program fns ->
  hash_dataflow sha (hash_nodes (graph_of config fns)) = Some (graph_version hash sha (graph_of config fns)).
Proof. intros Hp. apply hash_dataflow_ok. intros v Hv. destruct (values_program hash params config fns v Hp Hv) as (s & -> & _). by exists s. Qed.

(** The diff against the functions of a module, when all of the config is used. In full this would hold for any config, and what is
    removed would be the functions that are gone; see [C79_against_refuted]. *)
Theorem C79_against_partial config fns fns' n2o origins : program fns -> program fns' -> tells (fns ++ fns') -> (forall x, x ∈ config -> exists f, live config fns f /\ x ∈ params_of params f) ->
  map_nodes (graph_of config fns) = Some n2o -> hash_functions hash fns' = Some origins ->
  exists added code_ removed, diff_against (hash_nodes (graph_of config fns)) origins n2o = Some (added, code_, removed) /\
  (forall f, live config fns f -> (f_name f ∈ added <-> forall f', f' ∈ fns' -> f_name f' <> f_name f) /\
                                  (f_name f ∈ code_ <-> exists f', f' ∈ fns' /\ f_name f' = f_name f /\ ~ same_code (tree_of f) (tree_of f'))) /\
  (forall f', f' ∈ fns' -> f_name f' ∈ removed <-> forall f, live config fns f -> ~ same_code (tree_of f) (tree_of f')).
Proof.
  intros Hp Hp' Ht Hcfg Hn Ho. rewrite hash_functions_ok in Ho by apply Hp'. injection Ho as <-. set (origins := map _ fns'). set (g := graph_of config fns) in *.
  assert (Hnd : NoDup (dkeys g)) by (destruct (graph_get params config fns "" (proj1 Hp)); done).
  assert (Hgetn : forall x, dget n2o x = match dget g x with Some n => match h_origins n with Some (f :: _) => Some (f_name f) | _ => None end | None => None end) by (intros x; by apply map_nodes_get).
  assert (Hlive : forall f, live config fns f -> dget n2o (f_name f) = Some (f_name f)) by (intros f Hl; rewrite Hgetn; unfold g; by rewrite (live_get params config fns f (proj1 Hp) Hl)).
  destruct (against_some (hash_nodes g) origins n2o) as [[added code_] Hag].
  { intros x Hx. rewrite hash_nodes_keys in Hx. rewrite Hgetn. unfold g in *. apply graph_keys in Hx; [|apply Hp].
    destruct (graph_get params config fns x (proj1 Hp)) as [_ [(f & _ & _ & ->)|[(_ & f & _ & _ & ->)|[(_ & Hno & Hc & _)|[Hv _]]]]]; [done|done| |done]. destruct (Hcfg x Hc) as (f & Hl & Hpp). by destruct (Hno f Hl). }
  destruct (against_elem _ _ _ _ _ Hag) as [HA HC]. unfold diff_against. rewrite Hag. do 3 eexists. split; [reflexivity|].
  assert (Hver : forall f v, live config fns f -> (f_name f, v) ∈ hash_nodes g -> v = Some (code hash f)).
  { intros f v Hl Hin. apply elem_dget in Hin; [|by rewrite hash_nodes_keys]. unfold g in Hin. rewrite (live_version hash params config fns f Hp Hl) in Hin. by injection Hin. }
  assert (Hver' : forall f, live config fns f -> (f_name f, Some (code hash f)) ∈ hash_nodes g) by (intros f Hl; apply dget_elem; by apply live_version).
  assert (Hsame : forall f f', live config fns f -> f' ∈ fns' -> code hash f = code hash f' <-> same_code (tree_of f) (tree_of f')).
  { intros f f' Hl Hf'. rewrite <- drop_same. unfold code. split; [|by intros ->]. apply Ht; [apply elem_of_app; left; apply Hl|apply elem_of_app; by right]. }
  split.
  - intros f Hl. assert (Hg := functions_get hash fns' (f_name f) (proj1 Hp')). fold origins in Hg. split; [rewrite HA|rewrite HC].
    + split.
      * intros (v & o & Hin & Ho & Hno). rewrite (Hlive f Hl) in Ho. injection Ho as <-. rewrite Hno in Hg. done.
      * intros Hno. exists (Some (code hash f)), (f_name f). split; [by apply Hver'|]. split; [by apply Hlive|]. destruct (dget origins (f_name f)); [|done]. destruct Hg as (f' & Hf' & Hx & _). by destruct (Hno f' Hf').
    + split.
      * intros (v & o & w & Hin & Ho & Hw & Hne). rewrite (Hlive f Hl) in Ho. injection Ho as <-. rewrite Hw in Hg. destruct Hg as (f' & Hf' & Hx & ->). exists f'. split; [done|]. split; [done|].
        intros Hs. apply (Hsame f f' Hl Hf') in Hs. apply Hne. rewrite (Hver f v Hl Hin). by rewrite Hs.
      * intros (f' & Hf' & Hx & Hns). exists (Some (code hash f)), (f_name f). destruct (dget origins (f_name f)) as [w|]; [|by destruct (Hg f' Hf')].
        destruct Hg as (f2 & Hf2 & Hx2 & ->). assert (f2 = f') as ->. { clear -Hp' Hf2 Hf' Hx Hx2. destruct Hp' as [Hn _]. revert Hn Hf2 Hf'. induction fns' as [|a l IH]; [by intros _ ?%elem_of_nil|]. cbn [map]. intros [Ha Hn]%NoDup_cons [-> |H2]%elem_of_cons [-> |H1]%elem_of_cons; [done| | |by apply IH].
          - destruct Ha. rewrite Hx2, <- Hx. apply elem_of_list_fmap. by exists f'.
          - destruct Ha. rewrite Hx, <- Hx2. apply elem_of_list_fmap. by exists f2. }
        exists (code hash f'). split; [by apply Hver'|]. split; [by apply Hlive|]. split; [done|]. intros [= He]. by apply Hns, (Hsame f f' Hl Hf').
  - intros f' Hf'. split.
    + intros ([k w] & Hk & [Hno Hin]%elem_of_list_filter)%elem_of_list_fmap f Hl Hs. cbn in Hk, Hno. apply elem_of_list_fmap in Hin as (f2 & [= -> ->] & Hf2).
      assert (f2 = f') as ->. { clear -Hp' Hf2 Hf' Hk. destruct Hp' as [Hn _]. revert Hn Hf2 Hf'. induction fns' as [|a l IH]; [by intros _ ?%elem_of_nil|]. cbn [map]. intros [Ha Hn]%NoDup_cons [-> |H2]%elem_of_cons [-> |H1]%elem_of_cons; [done| | |by apply IH].
          - destruct Ha. rewrite <- Hk. apply elem_of_list_fmap. by exists f'.
          - destruct Ha. rewrite Hk. apply elem_of_list_fmap. by exists f2. }
      apply Hno. apply (Hsame f f' Hl Hf') in Hs. rewrite <- Hs. apply elem_of_list_fmap. exists (f_name f, Some (code hash f)). split; [done|]. by apply Hver'.
    + intros Hall. apply elem_of_list_fmap. exists (f_name f', code hash f'). split; [done|]. apply elem_of_list_filter. split; [|apply elem_of_list_fmap; by exists f'].
      cbn. intros ([x v] & Hv & Hin)%elem_of_list_fmap. cbn in Hv. subst v. apply elem_dget in Hin; [|by rewrite hash_nodes_keys]. unfold g in Hin. rewrite hash_nodes_get in Hin.
      destruct (graph_get params config fns x (proj1 Hp)) as [_ [(f & Hl & _ & Hg)|[(_ & f & Hl & _ & Hg)|[(_ & Hno & Hc & _)|[_ Hg]]]]]; [| | |by rewrite Hg in Hin].
      1,2: rewrite Hg in Hin; unfold version in Hin; cbn in Hin; rewrite readable_hash in Hin by apply Hp, Hl; injection Hin as Hin; by apply (Hall f Hl), (Hsame f f' Hl Hf').
      destruct (Hcfg x Hc) as (f & Hl & Hpp). by destruct (Hno f Hl).
Qed.
End Props.

(** ** Examples *)
(** For the examples, a hash is the text itself. *)
Fixpoint show (t : tree) : string :=
  match t with
  | Def n h b => "def " +:+ n +:+ h +:+ "{" +:+ String.concat ";" (map show b) +:+ "}"
  | Text s => "'" +:+ s +:+ "'"
  | Other h b => h +:+ "{" +:+ String.concat ";" (map show b) +:+ "}"
  end.
Definition show_list (l : list (option string)) : string := String.concat "," (map (fun v => match v with Some s => s | None => "None" end) l).
Definition pars (h : string) : list name := if decide (h = "(x)") then ["x"] else if decide (h = "(b)") then ["b"] else [].
Definition F (n : name) (h : string) (b : list tree) : fn := Fn n h b true.
Definition ret (s : string) : tree := Other ("return " +:+ s) [].
(** A reference: [b] of an input, [c] of [b]; and its current state: [b] edited, [c] documented, [d] new. *)
Definition b1 : fn := F "b" "(x)" [Text "Adds one."; ret "x+1"].
Definition b2 : fn := F "b" "(x)" [Text "Adds two."; ret "x+2"].
Definition c1 : fn := F "c" "(b)" [ret "2*b"].
Definition c2 : fn := F "c" "(b)" [Text "Doubles."; ret "2*b"].
Definition d1 : fn := F "d" "(b)" [ret "b"].

Example C79_diff_ex : let g := graph_of pars [] [b2; c2; d1] in let g' := graph_of pars [] [b1; c1] in
  program [b2; c2; d1] /\ program [b1; c1] /\
  diff_versions (hash_nodes show g) (hash_nodes show g') = Diff ["d"] [] ["b"; "x"] /\
  full_diff show g g' = Some ([("d", Some "d")], [], [("b", Some "b"); ("x", Some "b")]) /\
  same_code (tree_of c1) (tree_of c2) /\ hash_source show c1 = hash_source show c2 /\ hash_source show b1 <> hash_source show b2.
Proof.
  cbn zeta. split_and!; try (vm_compute; reflexivity).
  - split; [apply (bool_decide_unpack _); vm_compute; exact I|]. intros f [-> |[-> |[-> |H]%elem_of_cons]%elem_of_cons]%elem_of_cons; [done..|by apply elem_of_nil in H].
  - split; [apply (bool_decide_unpack _); vm_compute; exact I|]. intros f [-> |[-> |H]%elem_of_cons]%elem_of_cons; [done..|by apply elem_of_nil in H].
  - apply drop_same. reflexivity.
  - vm_compute. discriminate.
Qed.
(** The hash of the example tells these functions apart. *)
Example C79_tells_ex : tells show [b1; b2; c1; c2; d1] /\ no_name show [b1; b2; c1; c2; d1] ["x"; "mode"].
Proof.
  split.
  - intros f f' [-> |[-> |[-> |[-> |[-> |H]%elem_of_cons]%elem_of_cons]%elem_of_cons]%elem_of_cons]%elem_of_cons; [..|by apply elem_of_nil in H];
      intros [-> |[-> |[-> |[-> |[-> |H]%elem_of_cons]%elem_of_cons]%elem_of_cons]%elem_of_cons]%elem_of_cons; try (by apply elem_of_nil in H); try (intros _; vm_compute; reflexivity); vm_compute; discriminate.
  - intros f x [-> |[-> |[-> |[-> |[-> |H]%elem_of_cons]%elem_of_cons]%elem_of_cons]%elem_of_cons]%elem_of_cons; [..|by apply elem_of_nil in H];
      intros [-> |[-> |H]%elem_of_cons]%elem_of_cons; try (by apply elem_of_nil in H); vm_compute; discriminate.
Qed.
Example C79_sha_ex : exists sha, sha_tells sha.
Proof. exists (fun l => pretty (N.pos (encode l))). intros l l' H. apply (inj pretty) in H. injection H as H. by apply (inj encode) in H. Qed.
Example C79_against_ex : let g := graph_of pars ["x"] [b2; c2; d1] in exists n2o origins, map_nodes g = Some n2o /\ hash_functions show [b1; c1] = Some origins /\
  diff_against (hash_nodes show g) origins n2o = Some (["d"], ["b"; "x"], ["b"]).
Proof. cbn zeta. do 2 eexists. split; [vm_compute; reflexivity|]. split; [vm_compute; reflexivity|]. vm_compute. reflexivity. Qed.

(** ** Disagreements *)
(** An input has the version of the first function that asks for it: it is reported as edited when that function is, and also when
    another function is added before it and nothing else is changed. *)
Theorem C79_input_refuted : exists fns fns' more x, program fns /\ program fns' /\ ~ computed [] fns x /\ ~ computed [] fns' x /\
  x ∈ edit (diff_versions (hash_nodes show (graph_of pars [] fns)) (hash_nodes show (graph_of pars [] fns'))) /\
  diff_versions (hash_nodes show (graph_of pars [] (more :: fns'))) (hash_nodes show (graph_of pars [] fns')) = Diff [f_name more] [] [x].
Proof.
  exists [b2], [b1], (F "a" "(x)" [ret "x"]), "x".
  split_and!; [split; [apply (bool_decide_unpack _); vm_compute; exact I|intros f [-> |H]%elem_of_cons; [done|by apply elem_of_nil in H]]..| | | |vm_compute; reflexivity].
  - intros (f & [[-> |H]%elem_of_cons _] & Hx); [done|by apply elem_of_nil in H].
  - intros (f & [[-> |H]%elem_of_cons _] & Hx); [done|by apply elem_of_nil in H].
  - apply (bool_decide_unpack _); vm_compute; exact I.
Qed.
(** So the version of a dataflow depends on the order of the modules. *)
Theorem C79_order_refuted : exists fns fns', fns ≡ₚ fns' /\ program fns /\
  hash_dataflow show_list (hash_nodes show (graph_of pars [] fns)) <> hash_dataflow show_list (hash_nodes show (graph_of pars [] fns')) /\
  graph_version show show_list (graph_of pars [] fns) <> graph_version show show_list (graph_of pars [] fns') /\
  diff_versions (hash_nodes show (graph_of pars [] fns)) (hash_nodes show (graph_of pars [] fns')) = Diff [] [] ["x"].
Proof.
  exists [b1; F "a" "(x)" [ret "x"]], [F "a" "(x)" [ret "x"]; b1]. split_and!.
  - apply Permutation_swap.
  - split; [apply (bool_decide_unpack _); vm_compute; exact I|intros f [-> |[-> |H]%elem_of_cons]%elem_of_cons; [done..|by apply elem_of_nil in H]].
  - vm_compute. discriminate.
  - vm_compute. discriminate.
  - vm_compute. reflexivity.
Qed.
(** Nodes of one function share its version: [@extract_columns( *COLUMNS)] with other [COLUMNS] is another dataflow of the same
    version, whatever the hash. *)
Theorem C79_columns_refuted : exists g g' : hgraph, (forall x, ~ (x ∈ dkeys g /\ x ∈ dkeys g')) /\ dkeys g <> [] /\ forall hash sha,
  hash_dataflow sha (hash_nodes hash g) = hash_dataflow sha (hash_nodes hash g') /\ graph_version hash sha g = graph_version hash sha g'.
Proof.
  set (f := F "columns" "@extract_columns(*COLUMNS) def columns()" [ret "load()"]). set (n := HNode false (Some [f])).
  exists [("price", n); ("size", n)], [("age", n); ("city", n)]. split; [|split; [done|]].
  - intros x [[-> |[-> |H]%elem_of_cons]%elem_of_cons Hx]; [| |by apply elem_of_nil in H]; revert Hx; apply (bool_decide_unpack _); vm_compute; exact I.
  - intros hash sha. split; reflexivity.
Qed.
(** A function whose source cannot be read is both new and gone, and there is no version of the dataflow (TypeError), while
    [HamiltonGraph.version] leaves it out. *)
Theorem C79_unreadable_refuted : exists f fns, f ∈ fns /\ NoDup (map f_name fns) /\ let g := graph_of pars [] fns in
  diff_versions (hash_nodes show g) (hash_nodes show g) = Diff [f_name f] [f_name f] [] /\ hash_dataflow show_list (hash_nodes show g) = None /\
  graph_version show show_list g = graph_version show show_list (graph_of pars [] [b1]).
Proof.
  exists (Fn "c" "(b)" [ret "b"] false), [b1; Fn "c" "(b)" [ret "b"] false]. split; [right; by left|]. split; [apply (bool_decide_unpack _); vm_compute; exact I|]. cbn zeta.
  split_and!; vm_compute; reflexivity.
Qed.
(** The diff against functions: a KeyError for a config that no function uses; functions that are edited are also removed. *)
Theorem C79_against_refuted : exists fns fns' config f f', program fns /\ program fns' /\ f ∈ fns /\ f' ∈ fns' /\ f_name f = f_name f' /\
  (exists n2o origins, map_nodes (graph_of pars config fns) = Some n2o /\ hash_functions show fns' = Some origins /\ diff_against (hash_nodes show (graph_of pars config fns)) origins n2o = None) /\
  (exists n2o origins, map_nodes (graph_of pars [] fns) = Some n2o /\ hash_functions show fns' = Some origins /\
     diff_against (hash_nodes show (graph_of pars [] fns)) origins n2o = Some ([], ["b"; "x"], [f_name f'])).
Proof.
  exists [b2], [b1], ["mode"], b2, b1. split_and!; [split; [apply (bool_decide_unpack _); vm_compute; exact I|intros f [-> |H]%elem_of_cons; [done|by apply elem_of_nil in H]]..|by left|by left|done| |].
  - do 2 eexists. split; [vm_compute; reflexivity|]. split; [vm_compute; reflexivity|]. vm_compute. reflexivity.
  - do 2 eexists. split; [vm_compute; reflexivity|]. split; [vm_compute; reflexivity|]. vm_compute. reflexivity.
Qed.

Print Assumptions C79_code.
Print Assumptions C79_added.
Print Assumptions C79_removed.
Print Assumptions C79_edited_partial.
Print Assumptions C79_functions.
Print Assumptions C79_documentation.
Print Assumptions C79_dataflow_partial.
Print Assumptions C79_graph_version.
Print Assumptions C79_against_partial.
Print Assumptions C79_input_refuted.
Print Assumptions C79_order_refuted.
Print Assumptions C79_columns_refuted.
Print Assumptions C79_unreadable_refuted.
Print Assumptions C79_against_refuted.
