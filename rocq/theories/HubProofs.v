From Coq Require Import Ascii ZArith.
From stdpp Require Import pretty gmap.
From Verif Require Import Base Dict Strings GraphModel HubModel ValidatorProofs HubSpec.

(** * Text *)
Lemma sprefix_app pat s : String.prefix pat (pat +:+ s) = true.
Proof. induction pat as [|a pat IH]; [by destruct s|]. rewrite append_cons. cbn. by destruct (ascii_dec a a). Qed.
Lemma prefix_split pat s : String.prefix pat s = true -> exists r, s = pat +:+ r.
Proof.
  revert s. induction pat as [|a pat IH]; intros s H; [by exists s|]. destruct s as [|b s]; [done|]. cbn in H.
  destruct (ascii_dec a b) as [->|]; [|done]. destruct (IH s H) as [r ->]. by exists r.
Qed.
Lemma sdrop_app a b : sdrop (String.length a) (a +:+ b) = b.
Proof. induction a as [|x a IH]; [done|]. exact IH. Qed.
Lemma stake_app a b : stake (String.length a) (a +:+ b) = a.
Proof. induction a as [|x a IH]; [by destruct b|]. rewrite append_cons. cbn. by rewrite IH. Qed.
Lemma after_prefix pat s : String.prefix pat s = true -> after pat s = Some (sdrop (String.length pat) s).
Proof. intros H. destruct s; cbn [after]; by rewrite H. Qed.
Lemma after_first pat pre r : (forall a b, pre +:+ pat +:+ r = a +:+ pat +:+ b -> String.length pre <= String.length a) -> after pat (pre +:+ pat +:+ r) = Some r.
Proof.
  induction pre as [|x pre IH]; intros Hfirst.
  - change ("" +:+ pat +:+ r) with (pat +:+ r). rewrite after_prefix by apply sprefix_app. by rewrite sdrop_app.
  - rewrite append_cons. cbn [after]. destruct (String.prefix pat (String x (pre +:+ pat +:+ r))) eqn:E.
    + apply prefix_split in E as [b Hb]. exfalso. specialize (Hfirst "" b). rewrite append_cons in Hfirst. specialize (Hfirst Hb). cbn in Hfirst. lia.
    + apply IH. intros a b Hab. specialize (Hfirst (String x a) b). rewrite !append_cons, Hab in Hfirst. specialize (Hfirst eq_refl). cbn in Hfirst. lia.
Qed.
Lemma after_none pat s : after pat s = None -> forall a b, s <> a +:+ pat +:+ b.
Proof.
  induction s as [|x s IH]; cbn [after]; destruct (String.prefix pat _) eqn:E; try done.
  - intros _ a b H. destruct a as [|y a]; [|done]. change ("" +:+ pat +:+ b) with (pat +:+ b) in H. rewrite H, sprefix_app in E. done.
  - intros H a b Hab. destruct a as [|y a].
    + change ("" +:+ pat +:+ b) with (pat +:+ b) in Hab. rewrite Hab, sprefix_app in E. done.
    + rewrite append_cons in Hab. injection Hab as _ Hab. by eapply IH.
Qed.
Lemma find_char_lacks c s r : lacks c s -> find_char c (s +:+ String c r) = Some (String.length s).
Proof.
  induction s as [|x s IH]; [intros _; change (find_char c (String c r) = Some 0); cbn; by rewrite decide_True|]. intros [H1 H2]. rewrite append_cons. cbn. rewrite decide_False by done. by rewrite IH.
Qed.
Lemma find_char_none c s : lacks c s -> find_char c s = None.
Proof. induction s as [|x s IH]; [done|]. intros [H1 H2]. cbn. rewrite decide_False by done. by rewrite IH. Qed.
Lemma until_lacks c s r : lacks c s -> until c (s +:+ String c r) = s.
Proof. intros H. unfold until. rewrite find_char_lacks by done. apply stake_app. Qed.
Lemma find_char_app_ge c s r n : lacks c s -> find_char c (s +:+ r) = Some n -> String.length s <= n.
Proof.
  revert n. induction s as [|x s IH]; intros n H Hf; [cbn; lia|]. destruct H as [H1 H2]. rewrite append_cons in Hf. cbn in Hf. rewrite decide_False in Hf by done.
  destruct (find_char c (s +:+ r)) as [m|] eqn:E; [|done]. cbn in Hf. simplify_eq. specialize (IH m H2 eq_refl). cbn. lia.
Qed.

(** * The file system *)
Lemma mkdirs_keep fs qs p e : fs !! p = Some e -> (mkdirs fs qs).2 !! p = Some e.
Proof.
  revert fs. induction qs as [|q qs IH]; intros fs H; [done|]. cbn. unfold mkdir. destruct (fs !! q) as [[|c]|] eqn:E; cbn.
  - by apply IH.
  - done.
  - apply IH. rewrite lookup_insert_ne; [done|]. intros ->. congruence.
Qed.
Lemma mkdirs_new fs qs p e : (mkdirs fs qs).2 !! p = Some e -> fs !! p = Some e \/ (p ∈ qs /\ e = EDir).
Proof.
  revert fs. induction qs as [|q qs IH]; intros fs H; [by left|]. cbn in H. unfold mkdir in H. destruct (fs !! q) as [[|c]|] eqn:E; cbn in H.
  - destruct (IH _ H) as [?|[? ?]]; [by left|right; split; [by right|done]].
  - by left.
  - destruct (IH _ H) as [H'|[? ?]]; [|right; split; [by right|done]].
    destruct (decide (q = p)) as [->|Hne]; [rewrite lookup_insert in H'; simplify_eq; right; split; [left|done]|rewrite lookup_insert_ne in H' by done; by left].
Qed.
Lemma mkdirs_ok fs qs : (mkdirs fs qs).1 = Ok tt -> forall q, q ∈ qs -> (mkdirs fs qs).2 !! q = Some EDir.
Proof.
  revert fs. induction qs as [|q qs IH]; intros fs H p Hp; [by apply elem_of_nil in Hp|].
  cbn in H |- *. unfold mkdir in *. destruct (fs !! q) as [[|c]|] eqn:E; cbn in H |- *; [|done|].
  - apply elem_of_cons in Hp as [->|Hp]; [by apply mkdirs_keep|by apply IH].
  - apply elem_of_cons in Hp as [->|Hp]; [apply mkdirs_keep; by rewrite lookup_insert|by apply IH].
Qed.
Lemma elem_prefixes p q : q ∈ prefixes p <-> q <> [] /\ q `prefix_of` p.
Proof.
  unfold prefixes. rewrite elem_of_list_fmap. split.
  - intros (k & -> & Hk). apply elem_of_seq in Hk. split.
    + intros H. apply (f_equal length) in H. rewrite take_length in H. cbn in H. lia.
    + exists (drop k p). by rewrite take_drop.
  - intros [Hne [r ->]]. exists (length q). rewrite take_app. split; [done|]. apply elem_of_seq. rewrite app_length. destruct q; [done|]. cbn. lia.
Qed.
Lemma makedirs_dirs fs p : (makedirs fs p).1 = Ok tt -> forall q, q <> [] -> q `prefix_of` p -> (makedirs fs p).2 !! q = Some EDir.
Proof. intros H q Hne Hq. apply mkdirs_ok; [done|]. by apply elem_prefixes. Qed.
Lemma makedirs_new fs p q e : (makedirs fs p).2 !! q = Some e -> fs !! q = Some e \/ (q <> [] /\ q `prefix_of` p /\ e = EDir).
Proof. intros H. apply mkdirs_new in H as [?|[H ->]]; [by left|]. apply elem_prefixes in H as [? ?]. by right. Qed.

(** Directories come before what is in them. *)
Lemma mkdirs_closed fs (qs done' : list path) : closed fs ->
  (forall q, q ∈ done' -> fs !! q = Some EDir) ->
  (forall i q p n, qs !! i = Some q -> q = p ++ [n] -> p = [] \/ p ∈ done' \/ exists j, j < i /\ qs !! j = Some p) ->
  closed (mkdirs fs qs).2.
Proof.
  revert fs done'. induction qs as [|q qs IH]; intros fs done' Hc Hd Hq; [done|]. cbn.
  assert (forall fs', fs' = fs \/ (fs !! q = None /\ fs' = <[q := EDir]> fs) -> fs' !! q = Some EDir -> closed (mkdirs fs' qs).2) as Hgo.
  { intros fs' Hfs' Hq'. apply (IH fs' (q :: done')).
    - destruct Hfs' as [->|[Hnone ->]]; [done|]. intros p n [e He]. destruct (decide (q = p ++ [n])) as [Heq|Hne].
      + destruct (Hq 0 q p n eq_refl Heq) as [?|[Hin|(j & Hj & _)]]; [by left| |lia].
        right. rewrite lookup_insert_ne; [by apply Hd|]. intros ->. rewrite (Hd _ Hin) in Hnone. done.
      + rewrite lookup_insert_ne in He by done. destruct (Hc p n) as [?|Hp]; [by eexists|by left|]. right. rewrite lookup_insert_ne; [done|]. intros Heq. rewrite Heq, Hp in Hnone. done.
    - intros p Hp. apply elem_of_cons in Hp as [->|Hp]; [done|]. destruct Hfs' as [->|[Hnone ->]]; [by apply Hd|].
      rewrite lookup_insert_ne; [by apply Hd|]. intros ->. rewrite (Hd _ Hp) in Hnone. done.
    - intros i q' p n Hi Heq. destruct (Hq (S i) q' p n Hi Heq) as [?|[?|(j & Hj & Hjp)]]; [by left|right; left; by right|].
      destruct j as [|j]; [cbn in Hjp; simplify_eq; right; left; left|]. right. right. exists j. split; [lia|done]. }
  unfold mkdir. destruct (fs !! q) as [[|c]|] eqn:E; cbn.
  - apply Hgo; [by left|done].
  - done.
  - apply Hgo; [by right|]. by rewrite lookup_insert.
Qed.
Lemma makedirs_closed fs p : closed fs -> closed (makedirs fs p).2.
Proof.
  intros H. apply (mkdirs_closed fs (prefixes p) []); [done|by intros q Hq%elem_of_nil|].
  intros i q p' n Hi ->. unfold prefixes in Hi. apply list_lookup_fmap_inv in Hi as (k & Hk & Hi).
  apply lookup_seq in Hi as [-> Hi].
  destruct (decide (p' = [])) as [?|Hne]; [by left|]. right. right.
  assert (length p' = i) as Hlen. { apply (f_equal length) in Hk. rewrite app_length, take_length in Hk. cbn [length] in Hk. lia. }
  destruct i as [|i]; [by apply nil_length_inv in Hlen|]. exists i. split; [lia|].
  unfold prefixes. rewrite list_lookup_fmap, lookup_seq_lt by lia. cbn. f_equal.
  apply (f_equal (take (S i))) in Hk. rewrite <-Hlen in Hk at 1. rewrite take_app in Hk. rewrite Hk, take_take. f_equal. lia.
Qed.
Lemma write_closed fs p n c : closed fs -> p = [] \/ fs !! p = Some EDir -> closed (write fs (p ++ [n]) c).2.
Proof.
  intros Hc Hp. unfold write. destruct (fs !! (p ++ [n])) as [[|c']|] eqn:E; cbn; [done|..].
  all: intros q m [e He]; destruct (decide (p ++ [n] = q ++ [m])) as [Heq|Hne].
  1,3: apply app_inj_tail in Heq as [-> ->]; destruct Hp as [?|Hp]; [by left|]; right; rewrite lookup_insert_ne; [done|];
       intros Heq; apply (f_equal length) in Heq; rewrite app_length in Heq; cbn in Heq; lia.
  all: rewrite lookup_insert_ne in He by done; destruct (Hc q m) as [?|Hq]; [by eexists|by left|]; right;
       rewrite lookup_insert_ne; [done|]; intros Heq; rewrite Heq in E; congruence.
Qed.

(** * Pulling *)
Section Pull.
Variable folder : path.
Notation local_path := (local_path folder).
Notation fetch := (fetch folder).
Notation pull := (pull folder).

Lemma write_other fs p c q : q <> p -> (write fs p c).2 !! q = fs !! q.
Proof. intros H. unfold write. destruct (fs !! p) as [[|c']|]; [done|..]; cbn; by rewrite lookup_insert_ne. Qed.
Lemma write_dir fs p c q : fs !! q = Some EDir -> (write fs p c).2 !! q = Some EDir.
Proof.
  intros H. destruct (decide (q = p)) as [->|Hne]; [|by rewrite write_other]. unfold write. by rewrite H.
Qed.
Lemma write_ok fs p c : (write fs p c).1 = Ok tt -> (write fs p c).2 !! p = Some (EFile c).
Proof. unfold write. destruct (fs !! p) as [[|c']|]; [done|..]; intros _; cbn; by rewrite lookup_insert. Qed.

Lemma fetch_cons h v u d f hs fs : fetch h v u d (f :: hs) fs =
  let '(status, text) := files h v u d f in
  if decide (status = 404) then (Err (ENotFound f), fs)
  else if decide (status <> 200) then (Err (EStatus status), fs)
  else match write fs (local_path v u d ++ [f]) text with (Ok _, fs') => fetch h v u d hs fs' | (Err e, fs') => (Err e, fs') end.
Proof. done. Qed.
Lemma fetch_invariant (I : fsys -> Prop) h v u d hs fs :
  (forall fs f t, f ∈ hs -> files h v u d f = (200, t) -> I fs -> I (write fs (local_path v u d ++ [f]) t).2) -> I fs -> I (fetch h v u d hs fs).2.
Proof.
  revert fs. induction hs as [|f hs IH]; intros fs Hstep HI; [done|]. rewrite fetch_cons. destruct (files h v u d f) as [status text] eqn:Ef.
  case_decide; [done|]. case_decide as Hs; [done|]. subst status.
  pose proof (Hstep fs f text (elem_of_list_here _ _) Ef HI) as HI'.
  destruct (write fs (local_path v u d ++ [f]) text) as [[[]|e] fs'] eqn:Ew; cbn in HI'; [|done].
  apply IH; [|done]. intros. apply Hstep; [by right|done..].
Qed.
Lemma fetch_other h v u d hs fs q : (forall f, f ∈ hs -> q <> local_path v u d ++ [f]) -> (fetch h v u d hs fs).2 !! q = fs !! q.
Proof.
  intros Hq. apply (fetch_invariant (fun fs' => fs' !! q = fs !! q)); [|done].
  intros fs' f t Hf _ <-. apply write_other. by apply Hq.
Qed.
Lemma fetch_dir h v u d hs fs q : fs !! q = Some EDir -> (fetch h v u d hs fs).2 !! q = Some EDir.
Proof. intros Hq. apply (fetch_invariant (fun fs' => fs' !! q = Some EDir)); [|done]. intros. by apply write_dir. Qed.
Lemma fetch_closed h v u d hs fs : closed fs -> fs !! local_path v u d = Some EDir -> closed (fetch h v u d hs fs).2.
Proof.
  intros Hc Hd. apply (fetch_invariant (fun fs' => closed fs' /\ fs' !! local_path v u d = Some EDir)); [|done].
  intros fs' f t _ _ [H1 H2]. split; [apply write_closed; [done|by right]|by apply write_dir].
Qed.
Lemma fetch_ok h v u d hs fs : NoDup hs -> (fetch h v u d hs fs).1 = Ok tt ->
  forall f, f ∈ hs -> exists t, files h v u d f = (200, t) /\ (fetch h v u d hs fs).2 !! (local_path v u d ++ [f]) = Some (EFile t).
Proof.
  revert fs. induction hs as [|f hs IH]; intros fs Hnd Hok g Hg; [by apply elem_of_nil in Hg|].
  apply NoDup_cons in Hnd as [Hf Hnd]. rewrite fetch_cons in Hok |- *. destruct (files h v u d f) as [status text] eqn:Ef.
  case_decide; [done|]. case_decide as Hs; [done|]. subst status.
  pose proof (write_ok fs (local_path v u d ++ [f]) text) as Hw.
  destruct (write fs (local_path v u d ++ [f]) text) as [[[]|e] fs'] eqn:Ew; [|done]. cbn [fst snd] in Hw.
  apply elem_of_cons in Hg as [->|Hg]; [|by apply IH].
  exists text. split; [done|]. rewrite fetch_other; [by apply Hw|]. intros g Hg Heq. apply app_inj_tail in Heq as [_ ->]. done.
Qed.
Lemma h_files_nodup : NoDup h_files.
Proof. refine (bool_decide_unpack _ _). vm_compute. exact I. Qed.

(** What [pull] comes to *)
Lemma pull_cases h v u d o fs :
  (fs !! local_path v u d <> None /\ o = false /\ pull h v u d o fs = (Err EExists, fs)) \/
  ((fs !! local_path v u d = None \/ o = true) /\
   (exists e, (makedirs fs (local_path v u d)).1 = Err e /\ pull h v u d o fs = (Err e, (makedirs fs (local_path v u d)).2)) \/
   ((fs !! local_path v u d = None \/ o = true) /\ (makedirs fs (local_path v u d)).1 = Ok tt /\
     pull h v u d o fs = fetch h v u d h_files (makedirs fs (local_path v u d)).2)).
Proof.
  unfold pull, HubModel.pull, fexists.
  destruct (fs !! local_path v u d) as [e|] eqn:E.
  - rewrite bool_decide_true by done. destruct o; cbn [negb andb].
    + right. destruct (makedirs fs (local_path v u d)) as [[[]|e'] fs'] eqn:Em; cbn.
      * right. split_and!; [by right|done|done].
      * left. split; [by right|]. by exists e'.
    + left. done.
  - rewrite bool_decide_false by (intros [? ?]; done). cbn [negb andb]. right.
    destruct (makedirs fs (local_path v u d)) as [[[]|e'] fs'] eqn:Em; cbn.
    + right. split_and!; [by left|done|done].
    + left. split; [by left|]. by exists e'.
Qed.
Lemma local_nonempty v u d : local_path v u d <> [].
Proof. unfold HubModel.local_path. by destruct folder. Qed.
Lemma pull_ok_inv h v u d o fs : (pull h v u d o fs).1 = Ok tt ->
  (fs !! local_path v u d = None \/ o = true) /\ (makedirs fs (local_path v u d)).1 = Ok tt /\
  pull h v u d o fs = fetch h v u d h_files (makedirs fs (local_path v u d)).2.
Proof.
  intros H. destruct (pull_cases h v u d o fs) as [(_ & _ & E)|[(_ & e & _ & E)|?]]; [rewrite E in H; done..|done].
Qed.
Lemma pull_other h v u d o fs q : (forall f, f ∈ h_files -> q <> local_path v u d ++ [f]) ->
  (forall e, fs !! q = Some e -> (pull h v u d o fs).2 !! q = Some e) /\
  (forall e, (pull h v u d o fs).2 !! q = Some e -> fs !! q = Some e \/ (q `prefix_of` local_path v u d /\ e = EDir)).
Proof.
  intros Hq. destruct (pull_cases h v u d o fs) as [(_ & _ & E)|[(_ & e & _ & E)|(_ & _ & E)]]; rewrite E; cbn [snd].
  - split; [done|]. by left.
  - split; [intros; by apply mkdirs_keep|]. intros e' He. apply makedirs_new in He as [?|(_ & ? & ?)]; [by left|by right].
  - rewrite fetch_other by done. split; [intros; by apply mkdirs_keep|]. intros e' He. apply makedirs_new in He as [?|(_ & ? & ?)]; [by left|by right].
Qed.
Lemma pull_closed h v u d o fs : closed fs -> closed (pull h v u d o fs).2.
Proof.
  intros Hc. destruct (pull_cases h v u d o fs) as [(_ & _ & E)|[(_ & e & _ & E)|(_ & Hm & E)]]; rewrite E; cbn [snd]; [done|by apply makedirs_closed|].
  apply fetch_closed; [by apply makedirs_closed|]. apply makedirs_dirs; [done|apply local_nonempty|done].
Qed.
Lemma pull_keeps h v u d fs q e : closed fs -> fs !! q = Some e -> (pull h v u d false fs).2 !! q = Some e.
Proof.
  intros Hc Hq. destruct (pull_cases h v u d false fs) as [(_ & _ & E)|[(_ & x & _ & E)|([Hnone|?] & Hm & E)]]; [..|done]; rewrite E; cbn [snd].
  - done.
  - by apply mkdirs_keep.
  - rewrite fetch_other; [by apply mkdirs_keep|]. intros f _ ->. destruct (Hc (local_path v u d) f) as [Hp|Hp]; [by eexists|by apply local_nonempty in Hp|congruence].
Qed.

(** * Looking *)
Lemma under_some p q r : under p q = Some r <-> q = p ++ r.
Proof.
  unfold under. case_decide as H; split.
  - intros [= <-]. rewrite <-H at 1. by rewrite take_drop.
  - intros ->. by rewrite drop_app.
  - done.
  - intros ->. rewrite take_app in H. done.
Qed.
Lemma elem_children fs p n : n ∈ children fs p <-> is_Some (fs !! (p ++ [n])).
Proof.
  unfold children. rewrite elem_of_list_omap. split.
  - intros ([q e] & Hin & H). apply elem_of_map_to_list in Hin. cbn in H. destruct (under p q) as [r|] eqn:E; [|done].
    destruct r as [|m [|]]; try done. simplify_eq. apply under_some in E as ->. by eexists.
  - intros [e He]. exists (p ++ [n], e). split; [by apply elem_of_map_to_list|]. cbn. by rewrite (proj2 (under_some p (p ++ [n]) [n])).
Qed.
Lemma NoDup_omap {A B} (f : A -> option B) l : NoDup l -> (forall x y z, x ∈ l -> y ∈ l -> f x = Some z -> f y = Some z -> x = y) -> NoDup (omap f l).
Proof.
  induction l as [|x l IH]; intros Hnd Hinj; [constructor|]. apply NoDup_cons in Hnd as [Hx Hnd]. cbn.
  assert (NoDup (omap f l)) as IH'. { apply IH; [done|]. intros. eapply Hinj; [by right|by right|done..]. }
  destruct (f x) as [z|] eqn:E; [|done]. apply NoDup_cons. split; [|done]. intros Hz. apply elem_of_list_omap in Hz as (y & Hy & Hyz).
  assert (x = y) as ->; [|done]. eapply Hinj; [left|by right|done..].
Qed.
Lemma NoDup_children fs p : NoDup (children fs p).
Proof.
  unfold children. apply NoDup_omap.
  - apply NoDup_map_to_list.
  - intros [q e] [q' e'] n Hq Hq' H H'. apply elem_of_map_to_list in Hq, Hq'. cbn in H, H'.
    destruct (under p q) as [[|m [|]]|] eqn:E; try done. destruct (under p q') as [[|m' [|]]|] eqn:E'; try done. simplify_eq.
    apply under_some in E as ->. apply under_some in E' as ->. rewrite Hq in Hq'. by simplify_eq.
Qed.
Lemma visible_hidden n : hidden n = false <-> visible n.
Proof.
  unfold hidden, visible. split.
  - intros H s ->. change (String.prefix "." (String "."%char s)) with (String.prefix "" s) in H. by destruct s.
  - intros H. destruct n as [|a n]; [done|]. change (String.prefix "." (String a n)) with (if ascii_dec "."%char a then String.prefix "" n else false).
    destruct (ascii_dec "."%char a) as [<-|]; [|done]. exfalso. by apply (H n).
Qed.
Lemma wanted_ok want n : wanted want n = true <-> want_ok want n.
Proof.
  unfold wanted, want_ok, user_of. split.
  - intros H w -> Hw. destruct w; [done|]. by apply bool_decide_eq_true in H.
  - intros H. destruct want as [[|a w]|]; [done| |done]. apply bool_decide_eq_true. by apply H.
Qed.
Lemma elem_dirs fs p want n : n ∈ dirs fs p want (children fs p) <-> want_ok want n /\ visible n /\ fs !! (p ++ [n]) = Some EDir.
Proof.
  unfold dirs. rewrite elem_of_list_filter, elem_children. unfold isfile. rewrite <-visible_hidden, <-wanted_ok. split.
  - intros [H [e He]]. rewrite He in H |- *. apply andb_prop in H as [H Hh]. apply andb_prop in H as [Hw Hf]. apply negb_true_iff in Hf, Hh. destruct e; done.
  - intros (Hw & Hv & Hd). rewrite Hd, Hw, Hv. split; [done|]. by eexists.
Qed.
Lemma listdir_some fs p l : listdir fs p = Some l <-> fs !! p = Some EDir /\ l = children fs p.
Proof. unfold listdir. destruct (fs !! p) as [[|c]|]; split; try (intros; naive_solver). Qed.
Lemma traverse_some {A B} (f : A -> option (list B)) l : (forall x, x ∈ l -> is_Some (f x)) ->
  exists rs, traverse f l = Some rs /\ forall y, y ∈ rs <-> exists x r, x ∈ l /\ f x = Some r /\ y ∈ r.
Proof.
  induction l as [|x l IH]; intros H.
  - exists []. split; [done|]. intros y. split; [by intros ?%elem_of_nil|]. intros (? & ? & Hx & _). by apply elem_of_nil in Hx.
  - destruct (H x) as [r Hr]; [left|]. destruct IH as (rs & Hrs & Hel). { intros. apply H. by right. }
    exists (r ++ rs). cbn. rewrite Hr, Hrs. split; [done|]. intros y. rewrite elem_of_app, Hel. split.
    + intros [Hy|(x' & r' & Hx' & Hr' & Hy)]; [exists x, r; split; [left|done]|exists x', r'; split; [by right|done]].
    + intros (x' & r' & Hx' & Hr' & Hy). apply elem_of_cons in Hx' as [->|Hx']; [left; by simplify_eq|right; by exists x', r'].
Qed.
Lemma traverse_none {A B} (f : A -> option (list B)) l rs : traverse f l = Some rs -> forall x, x ∈ l -> is_Some (f x).
Proof.
  revert rs. induction l as [|y l IH]; intros rs H x Hx; [by apply elem_of_nil in Hx|]. cbn in H.
  destruct (f y) as [r|] eqn:E; [|done]. destruct (traverse f l) as [rs'|] eqn:E'; [|done].
  apply elem_of_cons in Hx as [->|Hx]; [by eexists|by eapply IH].
Qed.
Lemma traverse_nodup {A B C} (f : A -> option (list B)) (key : B -> C) (key' : A -> C) l rs : traverse f l = Some rs -> NoDup l ->
  (forall x r, x ∈ l -> f x = Some r -> NoDup r) ->
  (forall x x', key' x = key' x' -> x = x') -> (forall x r y, f x = Some r -> y ∈ r -> key y = key' x) -> NoDup rs.
Proof.
  revert rs. induction l as [|x l IH]; intros rs H Hnd Hr Hinj Hkey; cbn in H; [simplify_eq; constructor|].
  destruct (f x) as [r|] eqn:E; [|done]. destruct (traverse f l) as [rs'|] eqn:E'; [|done]. simplify_eq.
  apply NoDup_cons in Hnd as [Hx Hnd]. apply NoDup_app. split_and!.
  - eapply Hr; [left|done].
  - intros y Hy Hy'. destruct (traverse_some f l) as (rs2 & Hrs2 & Hel); [by eapply traverse_none|]. rewrite E' in Hrs2. simplify_eq.
    apply Hel in Hy' as (x' & r' & Hx' & Hr' & Hy'). assert (x = x') as ->; [|done]. apply Hinj. rewrite <-(Hkey _ _ _ E Hy). by rewrite <-(Hkey _ _ _ Hr' Hy').
  - eapply IH; [done|done| |done|done]. intros. eapply Hr; [by right|done].
Qed.

Notation user_dir := (user_dir folder).
Definition per_user (fs : fsys) (ci usr : string) : option (list (string * string * string)) :=
  match listdir fs (user_dir ci ++ [usr]) with None => None | Some dfs => Some (map (fun df => (ci, usr, df)) dfs) end.
Definition per_version (fs : fsys) (user : option string) (ci : string) : option (list (string * string * string)) :=
  match listdir fs (user_dir ci) with None => None | Some usrs => traverse (per_user fs ci) (dirs fs (user_dir ci) user usrs) end.
Lemma candidates_eq fs version user : candidates folder fs version user =
  match listdir fs folder with None => None | Some cis => traverse (per_version fs user) (dirs fs folder version cis) end.
Proof. done. Qed.
Definition candidate (fs : fsys) (version user : option string) (x : string * string * string) : Prop :=
  let '(ci, usr, df) := x in
  (want_ok version ci /\ visible ci /\ fs !! (folder ++ [ci]) = Some EDir) /\
  (want_ok user usr /\ visible usr /\ fs !! (user_dir ci ++ [usr]) = Some EDir) /\ is_Some (fs !! ((user_dir ci ++ [usr]) ++ [df])).
Lemma per_user_spec fs ci usr : fs !! (user_dir ci ++ [usr]) = Some EDir ->
  exists r, per_user fs ci usr = Some r /\ NoDup r /\ forall x, x ∈ r <-> exists df, x = (ci, usr, df) /\ is_Some (fs !! ((user_dir ci ++ [usr]) ++ [df])).
Proof.
  intros H. unfold per_user, listdir. rewrite H. eexists. split; [done|]. split.
  - apply NoDup_fmap_2_strong; [|apply NoDup_children]. intros. by simplify_eq.
  - intros x. rewrite elem_of_list_fmap. split.
    + intros (df & -> & Hdf). exists df. split; [done|]. by apply elem_children.
    + intros (df & -> & Hdf). exists df. split; [done|]. by apply elem_children.
Qed.
Lemma NoDup_dirs fs p want : NoDup (dirs fs p want (children fs p)).
Proof. apply NoDup_filter, NoDup_children. Qed.
Lemma per_version_spec fs user ci : fs !! user_dir ci = Some EDir ->
  exists r, per_version fs user ci = Some r /\ NoDup r /\
    forall x, x ∈ r <-> exists usr df, x = (ci, usr, df) /\ (want_ok user usr /\ visible usr /\ fs !! (user_dir ci ++ [usr]) = Some EDir) /\ is_Some (fs !! ((user_dir ci ++ [usr]) ++ [df])).
Proof.
  intros H. unfold per_version, listdir at 1. rewrite H.
  destruct (traverse_some (per_user fs ci) (dirs fs (user_dir ci) user (children fs (user_dir ci)))) as (rs & Hrs & Hel).
  { intros usr Hu. apply elem_dirs in Hu as (_ & _ & Hu). destruct (per_user_spec fs ci usr Hu) as (r & Hr & _). by eexists. }
  exists rs. split; [done|]. split.
  - eapply (traverse_nodup _ (fun x => x.1.2) id); [exact Hrs|apply NoDup_dirs|..].
    + intros usr r Hu Hr. apply elem_dirs in Hu as (_ & _ & Hu). destruct (per_user_spec fs ci usr Hu) as (r' & Hr' & Hnd & _). by simplify_eq.
    + done.
    + intros usr r y Hr Hy. unfold per_user in Hr. destruct (listdir fs (user_dir ci ++ [usr])); [|done]. simplify_eq.
      apply elem_of_list_fmap in Hy as (df & -> & _). done.
  - intros x. rewrite Hel. split.
    + intros (usr & r & Hu & Hr & Hx). apply elem_dirs in Hu. destruct (per_user_spec fs ci usr (proj2 (proj2 Hu))) as (r' & Hr' & _ & Hx'). simplify_eq.
      apply Hx' in Hx as (df & -> & Hdf). by exists usr, df.
    + intros (usr & df & -> & Hu & Hdf). destruct (per_user_spec fs ci usr (proj2 (proj2 Hu))) as (r' & Hr' & _ & Hx').
      exists usr, r'. split; [by apply elem_dirs|]. split; [done|]. apply Hx'. by exists df.
Qed.
Lemma candidates_spec fs version user : fs !! folder = Some EDir -> all_users folder fs version ->
  exists l, candidates folder fs version user = Some l /\ NoDup l /\ forall x, x ∈ l <-> candidate fs version user x.
Proof.
  intros H Hall. rewrite candidates_eq. unfold listdir. rewrite H.
  assert (forall ci, ci ∈ dirs fs folder version (children fs folder) -> fs !! user_dir ci = Some EDir) as Hud.
  { intros ci Hci. apply elem_dirs in Hci as (? & ? & ?). by apply Hall. }
  destruct (traverse_some (per_version fs user) (dirs fs folder version (children fs folder))) as (rs & Hrs & Hel).
  { intros ci Hci. destruct (per_version_spec fs user ci (Hud ci Hci)) as (r & Hr & _). by eexists. }
  exists rs. split; [done|]. split.
  - eapply (traverse_nodup _ (fun x => x.1.1) id); [exact Hrs|apply NoDup_dirs|..].
    + intros ci r Hci Hr. destruct (per_version_spec fs user ci (Hud ci Hci)) as (r' & Hr' & Hnd & _). by simplify_eq.
    + done.
    + intros ci r y Hr Hy. unfold per_version in Hr. destruct (listdir fs (user_dir ci)) as [usrs|]; [|done].
      destruct (traverse_some (per_user fs ci) (dirs fs (user_dir ci) user usrs)) as (rs' & Hrs' & Hel'); [by eapply traverse_none|]. simplify_eq.
      apply Hel' in Hy as (usr & r' & _ & Hr' & Hy). unfold per_user in Hr'. destruct (listdir fs (user_dir ci ++ [usr])); [|done]. simplify_eq.
      apply elem_of_list_fmap in Hy as (df & -> & _). done.
  - intros [[ci usr] df]. rewrite Hel. split.
    + intros (ci' & r & Hci & Hr & Hx). destruct (per_version_spec fs user ci' (Hud ci' Hci)) as (r' & Hr' & _ & Hx'). simplify_eq.
      apply Hx' in Hx as (usr' & df' & [= -> -> ->] & Hu & Hdf). apply elem_dirs in Hci. done.
    + intros (Hci & Hu & Hdf). apply elem_dirs in Hci. destruct (per_version_spec fs user ci (Hud ci Hci)) as (r' & Hr' & _ & Hx').
      exists ci, r'. split; [done|]. split; [done|]. apply Hx'. by exists usr, df.
Qed.
(** If it succeeds there was nothing in the way. *)
Lemma candidates_users fs version user l : candidates folder fs version user = Some l -> fs !! folder = Some EDir /\ all_users folder fs version.
Proof.
  rewrite candidates_eq. destruct (listdir fs folder) as [cis|] eqn:E; [|done]. apply listdir_some in E as [Hf ->]. intros H. split; [done|].
  intros ci Hv Hw Hd. pose proof (traverse_none _ _ _ H ci) as Hs. destruct Hs as [r Hr]; [by apply elem_dirs|].
  unfold per_version in Hr. destruct (listdir fs (user_dir ci)) as [usrs|] eqn:E; [|done]. by apply listdir_some in E as [? _].
Qed.
End Pull.
