(** Grouping by repeatable blocks keeps the meaning of supported dataflows. *)
From stdpp Require Import pretty.
From Coq Require Import Ascii.
From Verif Require Import Base Dict ExecModel ExecSpec TraverseModel TraverseProofs TopoModel GroupModel StateModel StateProofs StateLive
  Strings PlanProofs StateResults TaskSpec TaskLocal TaskProofs.

(** ** Dataflows the block grouping is meant for *)
Section Supported.
Context {V : Type}.
Variable g : graph.
Variable role_of : name -> role.
Variable carg : name -> name.
Variable ov inputs : gmap name V.
(** The variables used in the run. *)
Variable N : name -> Prop.

(** [inner c y]: [y] lies between the collector [c] and a Parallelizable variable. *)
Definition inner (c y : name) : Prop :=
  tc (fun a b => edge g a b /\ role_of b <> RExpand) c y /\ exists m, role_of m = RExpand /\ tc (edge g) y m.

(** [block c e]: a well-formed block from the Parallelizable variable [e] to the collector [c]. *)
Record block (c e : name) : Prop := {
  bl_expand : role_of e = RExpand;
  bl_edge : edge g c (carg c);
  bl_arg : inner c (carg c);
  bl_standard : forall y, inner c y -> role_of y = RStandard;
  (* only one Parallelizable variable *)
  bl_one : forall y m, y = c \/ inner c y -> edge g y m -> role_of m = RExpand -> m = e;
  (* values of the block leave it only through the collector *)
  bl_closed : forall w y, inner c y -> N w -> ov !! w = None -> edge g w y -> inner c w \/ (w = c /\ y = carg c);
  (* nothing of the block is supplied from outside *)
  bl_given : forall y, y = c \/ y = e \/ inner c y -> ov !! y = None;
  bl_inputs : forall y, inner c y -> inputs !! y = None;
}.

Record supported : Prop := {
  su_block : forall c, N c -> role_of c = RCollect -> exists e, block c e;
  su_distinct : forall c c' e, N c -> N c' -> role_of c = RCollect -> role_of c' = RCollect -> block c e -> block c' e -> c = c';
  su_names : forall x, is_Some (g !! x) -> lacks ":" x /\ lacks "-" x;
  su_keys : forall x, is_Some (ov !! x) \/ is_Some (inputs !! x) -> lacks ":" x;
  su_once : forall x v, ov !! x = Some v -> inputs !! x = None;
  (* a variable outside blocks that uses an expanded one also uses another computed one *)
  su_users : forall w c e, N w -> ov !! w = None -> role_of w <> RCollect -> N c -> role_of c = RCollect -> block c e ->
    ~ inner c w -> edge g w e -> exists d, N d /\ edge g w d /\ ov !! d = None /\ role_of d <> RExpand;
}.
End Supported.

(** ** Height of a variable *)
Section Height.
Variable g : graph.
Hypothesis Hwf : wf_graph g.
Hypothesis Hac : acyclic g.
Definition height (x : name) : nat :=
  match what_is_upstream_of g (∅ : gmap name nat) [x] with Found ns _ => size ns | _ => 0 end.
Lemma height_edge x d : edge g x d -> height d < height x.
Proof.
  intros He. assert (Hx : is_Some (g !! x)) by (destruct He as (nd & ? & _); by eexists).
  assert (Hd : is_Some (g !! d)) by (by eapply wf_closed).
  unfold height.
  destruct (upstream_reach g Hwf (∅ : gmap name nat) [x]) as (ns & us & -> & H1); [by intros y ->%elem_of_list_singleton|].
  destruct (upstream_reach g Hwf (∅ : gmap name nat) [d]) as (ns' & us' & -> & H2); [by intros y ->%elem_of_list_singleton|].
  apply subset_size. split.
  - intros y Hy. apply H2 in Hy as (z & ->%elem_of_list_singleton & Hr). apply H1. exists x. split; [by left|]. by eapply rtc_l.
  - intros Hsub. assert (x ∈ ns') as Hin.
    { apply Hsub, H1. exists x. split; [by left|done]. }
    apply H2 in Hin as (z & ->%elem_of_list_singleton & Hr). eapply Hac, tc_rtc_trans; [by apply tc_once|done].
Qed.
Lemma height_tc x d : tc (edge g) x d -> height d < height x.
Proof. induction 1 as [x d He|x y d He _ IH]; [by apply height_edge|]. apply height_edge in He. lia. Qed.
End Height.

Section Blocks.
Context {V : Type}.
Variable g : graph.
Variable role_of : name -> role.
Variable carg : name -> name.
Variable ov inputs : gmap name V.
Variable ord : gset name -> list name.
Hypothesis Hord : forall s x, x ∈ ord s <-> x ∈ s.
Hypothesis Hwf : wf_graph g.
Hypothesis Hac : acyclic g.
(** The nodes to group. *)
Variable nodes : list name.
Notation N := (fun x => x ∈ nodes).
Hypothesis Hnodup : NoDup nodes.
Hypothesis Hne : nodes <> [].
Hypothesis Hg : forall x, x ∈ nodes -> is_Some (g !! x).
Hypothesis Hclosed : forall x d, x ∈ nodes -> ov !! x = None -> edge g x d -> ov !! d = None -> d ∈ nodes \/ absent g inputs ov d.
Hypothesis Hsup : supported g role_of carg ov inputs N.
Hypothesis Hext : forall x, role_of x = RExpand -> is_ext g x = false.

Notation inner := (inner g role_of).
Notation block := (block g role_of carg ov inputs N).
Definition coll (c : name) : Prop := c ∈ nodes /\ role_of c = RCollect.

(** *** Blocks *)
Lemma has_dep_not_absent y d : edge g y d -> ~ absent g inputs ov y.
Proof.
  intros (nd & Hgy & Hd) (_ & _ & nd' & Hg' & Hx). assert (nd' = nd) as -> by congruence.
  unfold dep_names in Hd. rewrite (wf_ext _ Hwf _ _ Hgy Hx) in Hd. by apply elem_of_nil in Hd.
Qed.
Lemma tc_first {R : relation name} a b : tc R a b -> exists d, R a d.
Proof. destruct 1; eauto. Qed.

(** Prefixes of paths to an inner variable are inner. *)
Lemma inner_prefix c a y : tc (fun a b => edge g a b /\ role_of b <> RExpand) c a ->
  rtc (edge g) a y -> inner c y -> inner c a.
Proof.
  intros Ha Hr [_ (m & Hm & Hym)]. split; [done|]. exists m. split; [done|].
  clear -Hr Hym. induction Hr as [|a b d Hab _ IH]; [done|]. eapply tc_l; [done|by apply IH].
Qed.
Lemma inner_in c e y : coll c -> block c e -> inner c y -> y ∈ nodes.
Proof.
  intros [Hc _] Hb Hy.
  assert (H : forall a, rtc (fun a b => edge g a b /\ role_of b <> RExpand) c a -> rtc (edge g) a y -> a ∈ nodes /\ (a = c \/ inner c a)).
  { intros a Ha. pattern a. eapply rtc_ind_r; [| |exact Ha]; clear a Ha; [intros _; split; [done|by left]|].
    intros a b Ha [Hab Hbr] IH Hay. assert (Hib : inner c b). { eapply inner_prefix; [|done|done]. eapply tc_rtc_l; [done|by apply tc_once]. }
    split; [|by right]. destruct IH as [Han Ha']; [by eapply rtc_l|].
    assert (Hoa : ov !! a = None) by (apply (bl_given _ _ _ _ _ _ _ _ Hb); tauto).
    destruct (Hclosed a b Han Hoa Hab (bl_given _ _ _ _ _ _ _ _ Hb b (or_intror (or_intror Hib)))) as [?|Habs]; [done|]. exfalso.
    destruct Hib as [_ (m & _ & Hbm)]. apply tc_first in Hbm as [d Hbd]. by eapply has_dep_not_absent. }
  destruct (H y) as [? _]; [|done|done]. apply tc_rtc. apply Hy.
Qed.
(** The Parallelizable variable is used in the block. *)
Lemma inner_expander c e y : block c e -> inner c y -> exists x, (x = y \/ inner c x) /\ inner c x /\ edge g x e.
Proof.
  intros Hb Hy. destruct Hy as [Hp (m & Hm & Hym)].
  assert (H : forall a, tc (edge g) a m -> tc (fun a b => edge g a b /\ role_of b <> RExpand) c a -> exists x, inner c x /\ edge g x e).
  { clear Hp Hym. intros a Ham. induction Ham as [a m Ham|a b m Hab Hbm IH]; intros Hp.
    - exists a. assert (inner c a) by (split; [done|]; exists m; split; [done|by apply tc_once]). split; [done|].
      rewrite <-(bl_one _ _ _ _ _ _ _ _ Hb a m); [done|by right|done|done].
    - destruct (decide (role_of b = RExpand)) as [Hbr|Hbr].
      + assert (inner c a) by (split; [done|]; exists b; split; [done|by apply tc_once]).
        exists a. split; [done|]. rewrite <-(bl_one _ _ _ _ _ _ _ _ Hb a b); [done|by right|done|done].
      + apply IH; [done|]. eapply tc_r; [done|done]. }
  destruct (H y Hym Hp) as (x & ? & ?). exists x. auto.
Qed.
Lemma block_fun c e e' : block c e -> block c e' -> e = e'.
Proof.
  intros Hb Hb'. destruct (inner_expander c e (carg c) Hb (bl_arg _ _ _ _ _ _ _ _ Hb)) as (x & _ & Hx & Hxe).
  eapply (bl_one _ _ _ _ _ _ _ _ Hb' x e); [by right|done|]. apply (bl_expand _ _ _ _ _ _ _ _ Hb).
Qed.
Lemma inner_not_expander c y : inner c y -> role_of y <> RExpand.
Proof. intros [Hp _]. inversion Hp as [? ? [? ?]|? ? ? ? Hr]; [done|]. clear -Hp. induction Hp as [? ? [_ ?]|]; auto. Qed.
(** Blocks of different collectors are disjoint. *)
Lemma inner_disjoint c c' e e' y : coll c -> coll c' -> block c e -> block c' e' -> inner c y -> inner c' y -> c = c'.
Proof.
  intros [Hc1 Hc2] [Hc1' Hc2'] Hb Hb' Hy Hy'.
  assert (H : exists x, inner c x /\ inner c' x /\ edge g x e).
  { destruct Hy as [Hp (m & Hm & Hym)], Hy' as [Hp' _].
    revert Hp Hp'. induction Hym as [a m Ham|a b m Hab Hbm IH]; intros Hp Hp'.
    - assert (Hia : inner c a) by (split; [done|]; exists m; split; [done|by apply tc_once]).
      exists a. split_and!; [done|split; [done|]; exists m; split; [done|by apply tc_once]|].
      rewrite <-(bl_one _ _ _ _ _ _ _ _ Hb a m); [done|by right|done|done].
    - destruct (decide (role_of b = RExpand)) as [Hbr|Hbr].
      + assert (Hia : inner c a) by (split; [done|]; exists b; split; [done|by apply tc_once]).
        exists a. split_and!; [done|split; [done|]; exists b; split; [done|by apply tc_once]|].
        rewrite <-(bl_one _ _ _ _ _ _ _ _ Hb a b); [done|by right|done|done].
      + apply IH; [done|by eapply tc_r|by eapply tc_r]. }
  destruct H as (x & Hx & Hx' & Hxe).
  assert (e = e') as <- by (apply (bl_one _ _ _ _ _ _ _ _ Hb' x e); [by right|done|apply (bl_expand _ _ _ _ _ _ _ _ Hb)]).
  by eapply (su_distinct _ _ _ _ _ _ Hsup).
Qed.
Lemma arg_feeds c e : block c e -> feeds g role_of e (carg c).
Proof.
  intros Hb. split; [apply (bl_expand _ _ _ _ _ _ _ _ Hb)|]. pose proof (bl_arg _ _ _ _ _ _ _ _ Hb) as [Hp (m & Hm & Hym)].
  induction Hym as [a m Ham|a b m Hab Hbm IH].
  - assert (Hia : inner c a) by (split; [done|]; exists m; split; [done|by apply tc_once]).
    rewrite <-(bl_one _ _ _ _ _ _ _ _ Hb a m); [|by right|done|done]. apply rtc_once. split; [|done].
    by apply (bl_standard _ _ _ _ _ _ _ _ Hb).
  - destruct (decide (role_of b = RExpand)) as [Hbr|Hbr].
    + assert (Hia : inner c a) by (split; [done|]; exists b; split; [done|by apply tc_once]).
      rewrite <-(bl_one _ _ _ _ _ _ _ _ Hb a b); [|by right|done|done]. apply rtc_once. split; [|done].
      by apply (bl_standard _ _ _ _ _ _ _ _ Hb).
    + eapply rtc_l; [split; [|done]|].
      * apply (bl_standard _ _ _ _ _ _ _ _ Hb). split; [done|]. exists m. split; [done|]. by eapply tc_l.
      * apply IH; try done. by eapply tc_r.
Qed.

(** *** The groups *)
Notation is_exp := (is_expander role_of).
Lemma between c : coll c -> exists e blk, block c e /\ nodes_between g is_exp c = Some (Some e, blk) /\ e ∈ nodes /\
  forall y, y ∈ blk <-> inner c y.
Proof.
  clear Hne.
  intros Hc. pose proof Hc as [Hcn Hcr]. destruct (su_block _ _ _ _ _ _ Hsup c Hcn Hcr) as (e & Hb).
  destruct (nodes_between_ok g Hwf Hac is_exp c (Hg c Hcn)) as (found & out & Heq & Hout & Hfound).
  assert (Hpl : forall c y, tc (TraverseProofs.plain g is_exp) c y <-> tc (fun a b => edge g a b /\ role_of b <> RExpand) c y).
  { clear. intros c y. split; intros H.
    - induction H as [a b [? Hn]|a b d [? Hn] _ IH]; [apply tc_once|eapply tc_l; [|exact IH]]; (split; [done|]);
        unfold is_expander in Hn; by apply bool_decide_eq_false in Hn.
    - induction H as [a b [? Hn]|a b d [? Hn] _ IH]; [apply tc_once|eapply tc_l; [|exact IH]]; (split; [done|]);
        unfold is_expander; by apply bool_decide_eq_false. }
  assert (Hre : forall y, reaches g is_exp y <-> exists m, role_of m = RExpand /\ tc (edge g) y m).
  { intros y. unfold reaches. split; intros (m & Hm & Hr); exists m; (split; [|done]); unfold is_expander in *;
      [by apply bool_decide_eq_true in Hm|by apply bool_decide_eq_true]. }
  assert (Hblk : forall y, y ∈ out <-> inner c y). { intros y. rewrite Hout, Hpl, Hre. done. }
  assert (Hxin : e ∈ nodes).
  { destruct (inner_expander c e (carg c) Hb (bl_arg _ _ _ _ _ _ _ _ Hb)) as (x & _ & Hx & Hxe).
    destruct (Hclosed x e) as [?|(_ & _ & nd & Hge & Hxe')]; [by eapply inner_in| |done| |done|].
    - apply (bl_given _ _ _ _ _ _ _ _ Hb). auto.
    - apply (bl_given _ _ _ _ _ _ _ _ Hb). auto.
    - pose proof (Hext e (bl_expand _ _ _ _ _ _ _ _ Hb)) as Hn. unfold is_ext in Hn. rewrite Hge in Hn. congruence. }
  destruct found as [m|].
  - exists e, out. split_and!; [done| |done|done]. rewrite Heq. do 2 f_equal. destruct Hfound as [Hm (y & Hcy & Hym)].
    unfold is_expander in Hm. apply bool_decide_eq_true in Hm. f_equal. apply (bl_one _ _ _ _ _ _ _ _ Hb y m); [|done|done].
    apply rtc_tc_inv in Hcy as [->|Hcy]; [by left|right]. apply Hblk, Hout. split; [done|]. apply Hre. exists m. split; [done|by apply tc_once].
  - exfalso. apply Hfound, Hre. destruct (bl_arg _ _ _ _ _ _ _ _ Hb) as [_ (m & Hm & Hr)]. exists m. split; [done|].
    eapply tc_l; [apply (bl_edge _ _ _ _ _ _ _ _ Hb)|done].
Qed.

Inductive kind : ngroup -> Prop :=
| k_expand c e : coll c -> block c e -> kind (NGroup ("expand-" +:+ e) None [e] EXPAND)
| k_block c e blk : coll c -> block c e -> (forall y, y ∈ blk <-> inner c y) ->
    kind (NGroup ("block-" +:+ e) (Some ("expand-" +:+ e)) blk BLOCK)
| k_collect c e : coll c -> block c e -> kind (NGroup ("collect-" +:+ e) (Some ("expand-" +:+ e)) [c] GATHER)
| k_single x : x ∈ nodes -> role_of x <> RCollect -> (forall c e, coll c -> block c e -> x <> e /\ ~ inner c x) ->
    kind (NGroup x None [x] SINGLE).

Definition triple (c e : name) (blk : list name) : list ngroup :=
  [NGroup ("expand-" +:+ e) None [e] EXPAND; NGroup ("block-" +:+ e) (Some ("expand-" +:+ e)) blk BLOCK;
   NGroup ("collect-" +:+ e) (Some ("expand-" +:+ e)) [c] GATHER].

Lemma collectors_ok cs : (forall c, c ∈ cs -> coll c) -> NoDup cs ->
  exists gs vs, group_collectors g role_of ord nodes cs = Some (gs, vs) /\
    (forall ng, ng ∈ gs -> exists c e blk, c ∈ cs /\ block c e /\ (forall y, y ∈ blk <-> inner c y) /\ ng ∈ triple c e blk) /\
    (forall c e, c ∈ cs -> block c e -> exists blk, (forall y, y ∈ blk <-> inner c y) /\ forall ng, ng ∈ triple c e blk -> ng ∈ gs) /\
    (forall x, x ∈ vs <-> exists c e, c ∈ cs /\ block c e /\ (x = c \/ x = e \/ inner c x)) /\
    NoDup (map ng_base gs).
Proof.
  clear Hne.
  induction cs as [|c cs IH]; intros Hcs Hnd.
  - exists [], []. split_and!; [done|by intros ? ?%elem_of_nil|by intros ? ? ?%elem_of_nil| |constructor].
    intros x. split; [by intros ?%elem_of_nil|intros (? & ? & H & _); by apply elem_of_nil in H].
  - apply NoDup_cons in Hnd as [Hcn Hnd]. destruct IH as (gs & vs & Heq & H1 & H2 & H3 & H4); [|done|].
    { intros c' Hc'. apply Hcs. by right. }
    assert (Hc : coll c) by (apply Hcs; by left).
    destruct (between c Hc) as (e & blk & Hb & Hbt & Hen & Hblk).
    exists (triple c e (ord blk) ++ gs), ((ord blk ++ [e; c]) ++ vs). split_and!.
    + cbn [group_collectors]. unfold group_collector. rewrite Hbt, bool_decide_true by done. rewrite Heq. done.
    + intros ng [Hng|Hng]%elem_of_app.
      * exists c, e, (ord blk). split_and!; [by left|done| |done]. intros y. by rewrite Hord.
      * destruct (H1 ng Hng) as (c' & e' & blk' & ? & ? & ? & ?). exists c', e', blk'. split_and!; try done. by right.
    + intros c' e' [->|Hc']%elem_of_cons Hb'.
      * rewrite (block_fun c e' e Hb' Hb). exists (ord blk). split; [intros y; by rewrite Hord|].
        intros ng Hng. apply elem_of_app. by left.
      * destruct (H2 c' e' Hc' Hb') as (blk' & ? & H). exists blk'. split; [done|]. intros ng Hng. apply elem_of_app. right. by apply H.
    + intros x. rewrite !elem_of_app, H3, Hord, Hblk. split.
      * intros [[Hx|Hx]|(c' & e' & ? & ? & ?)].
        -- exists c, e. split_and!; [by left|done|auto].
        -- rewrite !elem_of_cons, elem_of_nil in Hx. destruct Hx as [->|[->|[]]]; exists c, e; (split_and!; [by left|done|auto]).
        -- exists c', e'. split_and!; [by right|done|done].
      * intros (c' & e' & [->|Hc']%elem_of_cons & Hb' & Hx).
        -- left. rewrite (block_fun c e' e Hb' Hb) in Hx. destruct Hx as [->|[->|?]]; [right; right; by left|right; by left|by left].
        -- right. by exists c', e'.
    + rewrite map_app. apply NoDup_app. split_and!; [| |done].
      * cbn. repeat constructor; rewrite ?elem_of_cons, ?elem_of_nil; naive_solver.
      * intros b Hb1 Hb2. apply elem_of_list_In, in_map_iff in Hb2 as (ng & <- & Hng). apply elem_of_list_In in Hng.
        destruct (H1 ng Hng) as (c' & e' & blk' & Hc' & Hb' & _ & Htr).
        assert (e' = e) as ->.
        { unfold triple in Hb1, Htr. cbn [map ng_base] in Hb1. rewrite !elem_of_cons, elem_of_nil in Hb1. rewrite !elem_of_cons, elem_of_nil in Htr.
          destruct Htr as [->|[->|[->|[]]]]; cbn [ng_base] in Hb1; destruct Hb1 as [[= ?]|[[= ?]|[[= ?]|[]]]]; done. }
        apply Hcn. destruct (Hcs c') as [? ?]; [by right|]. destruct Hc as [? ?].
        rewrite (su_distinct _ _ _ _ _ _ Hsup c c' e) by done. done.
Qed.

Definition groups_spec (groups : list ngroup) : Prop :=
  (forall ng, ng ∈ groups -> kind ng) /\
  (forall c e, coll c -> block c e -> exists blk, (forall y, y ∈ blk <-> inner c y) /\ forall ng, ng ∈ triple c e blk -> ng ∈ groups) /\
  (forall x, x ∈ nodes -> role_of x <> RCollect -> (forall c e, coll c -> block c e -> x <> e /\ ~ inner c x) -> NGroup x None [x] SINGLE ∈ groups) /\
  (forall x, x ∈ nodes -> exists ng, ng ∈ groups /\ x ∈ ng_nodes ng) /\
  NoDup (map ng_base groups).

Lemma blocks_ok : exists groups, group_by_blocks g role_of ord nodes = Some groups /\ groups_spec groups.
Proof.
  clear Hne.
  destruct (collectors_ok (filter (fun x => role_of x = RCollect) nodes)) as (gs & vs & Heq & H1 & H2 & H3 & H4).
  { intros c Hc. apply elem_of_list_filter in Hc as [? ?]. by split. }
  { by apply NoDup_filter. }
  assert (Hfil : forall c, c ∈ filter (fun x => role_of x = RCollect) nodes <-> coll c).
  { intros c. rewrite elem_of_list_filter. unfold coll. tauto. }
  unfold group_by_blocks. rewrite Heq. eexists. split; [done|]. split_and!.
  - intros ng [Hng|Hng]%elem_of_app.
    + destruct (H1 ng Hng) as (c & e & blk & Hc & Hb & Hblk & Htr). apply Hfil in Hc.
      unfold triple in Htr. rewrite !elem_of_cons, elem_of_nil in Htr. destruct Htr as [->|[->|[->|[]]]]; by econstructor.
    + apply elem_of_list_In, in_map_iff in Hng as (x & <- & Hx). apply elem_of_list_In, elem_of_list_filter in Hx as [Hx Hxn].
      apply k_single; [done| |].
      * intros Hr. destruct (su_block _ _ _ _ _ _ Hsup x Hxn Hr) as (e & Hb). apply Hx, H3. exists x, e. split_and!; [by apply Hfil|done|auto].
      * intros c e Hc Hb. split; intros ?; apply Hx, H3; exists c, e; (split_and!; [by apply Hfil|done|auto]).
  - intros c e Hc Hb. destruct (H2 c e) as (blk & ? & H); [by apply Hfil|done|]. exists blk. split; [done|].
    intros ng Hng. apply elem_of_app. left. by apply H.
  - intros x Hx Hr Hno. apply elem_of_app. right. apply elem_of_list_In, in_map_iff. exists x. split; [done|].
    apply elem_of_list_In, elem_of_list_filter. split; [|done]. intros (c & e & Hc & Hb & Hcase)%H3. apply Hfil in Hc.
    destruct (Hno c e Hc Hb) as [? ?]. destruct Hcase as [->|[?|?]]; [|done|done]. by destruct Hc.
  - intros x Hx. destruct (decide (x ∈ vs)) as [Hv|Hv].
    + apply H3 in Hv as (c & e & Hc & Hb & Hcase). destruct (H2 c e Hc Hb) as (blk & Hblk & Htr).
      destruct Hcase as [->|[->|Hi]].
      * exists (NGroup ("collect-" +:+ e) (Some ("expand-" +:+ e)) [c] GATHER). split; [|by left]. apply elem_of_app. left. apply Htr. do 2 right. by left.
      * exists (NGroup ("expand-" +:+ e) None [e] EXPAND). split; [|by left]. apply elem_of_app. left. apply Htr. by left.
      * exists (NGroup ("block-" +:+ e) (Some ("expand-" +:+ e)) blk BLOCK). split; [|by apply Hblk]. apply elem_of_app. left. apply Htr. right. by left.
    + exists (NGroup x None [x] SINGLE). split; [|by left]. apply elem_of_app. right. apply elem_of_list_In, in_map_iff. exists x. split; [done|].
      by apply elem_of_list_In, elem_of_list_filter.
  - rewrite map_app, map_map. cbn. rewrite map_id. apply NoDup_app. split_and!; [done| |by apply NoDup_filter].
    intros b Hb1 Hb2. apply elem_of_list_filter in Hb2 as [_ Hb2]. apply elem_of_list_In, in_map_iff in Hb1 as (ng & <- & Hng).
    apply elem_of_list_In in Hng. destruct (H1 ng Hng) as (c & e & blk & _ & _ & _ & Htr).
    destruct (su_names _ _ _ _ _ _ Hsup _ (Hg _ Hb2)) as [_ Hd].
    unfold triple in Htr. rewrite !elem_of_cons, elem_of_nil in Htr. destruct Htr as [->|[->|[->|[]]]]; cbn [ng_base] in Hd; apply lacks_app in Hd as [Hd _]; cbn in Hd; tauto.
Qed.

(** *** What the groups are *)
Section Groups.
Variable groups : list ngroup.
Hypothesis Hgr : groups_spec groups.

Lemma gr_kind ng : ng ∈ groups -> kind ng.
Proof. apply Hgr. Qed.
Lemma expander_in c e : coll c -> block c e -> e ∈ nodes.
Proof. intros Hc Hb. destruct (between c Hc) as (e' & blk & Hb' & _ & Hin & _). by rewrite (block_fun c e e' Hb Hb'). Qed.
Lemma expander_reach c e : block c e -> tc (edge g) c e.
Proof.
  intros Hb. destruct (inner_expander c e (carg c) Hb (bl_arg _ _ _ _ _ _ _ _ Hb)) as (x & _ & [Hx _] & Hxe).
  eapply tc_r; [|done]. clear -Hx. induction Hx as [? ? [? _]|? ? ? [? _] _ IH]; [by apply tc_once|by eapply tc_l].
Qed.
Lemma inner_reach c y : inner c y -> tc (edge g) c y.
Proof. intros [Hx _]. induction Hx as [? ? [? _]|? ? ? [? _] _ IH]; [by apply tc_once|by eapply tc_l]. Qed.

(** Where a variable can be found. *)
Lemma kind_cases ng x : kind ng -> x ∈ ng_nodes ng ->
  x ∈ nodes /\
  ((exists c, coll c /\ block c x /\ ng = NGroup ("expand-" +:+ x) None [x] EXPAND) \/
   (exists c e blk, coll c /\ block c e /\ (forall y, y ∈ blk <-> inner c y) /\ inner c x /\ ng = NGroup ("block-" +:+ e) (Some ("expand-" +:+ e)) blk BLOCK) \/
   (exists e, coll x /\ block x e /\ ng = NGroup ("collect-" +:+ e) (Some ("expand-" +:+ e)) [x] GATHER) \/
   (role_of x <> RCollect /\ (forall c e, coll c -> block c e -> x <> e /\ ~ inner c x) /\ ng = NGroup x None [x] SINGLE)).
Proof.
  intros Hk Hx. destruct Hk as [c e Hc Hb|c e blk Hc Hb Hblk|c e Hc Hb|y Hy Hr Hno]; cbn [ng_nodes] in Hx.
  - apply elem_of_list_singleton in Hx as ->. split; [by eapply expander_in|]. left. by exists c.
  - apply Hblk in Hx. split; [by eapply inner_in|]. right. left. exists c, e, blk. split_and!; try done; by apply Hblk.
  - apply elem_of_list_singleton in Hx as ->. split; [apply Hc|]. right. right. left. by exists e.
  - apply elem_of_list_singleton in Hx as ->. split; [done|]. auto 10.
Qed.

Lemma blocks_disjoint : disjoint_groups groups.
Proof.
  intros ng ng' x Hng Hng' Hx Hx'. apply gr_kind in Hng, Hng'.
  apply (kind_cases ng x Hng) in Hx as [_ Hx]. apply (kind_cases ng' x Hng') in Hx' as [_ Hx'].
  destruct Hx as [(c & Hc & Hb & ->)|[(c & e & blk & Hc & Hb & Hblk & Hi & ->)|[(e & Hc & Hb & ->)|(Hr & Hno & ->)]]];
  destruct Hx' as [(c' & Hc' & Hb' & ->)|[(c' & e' & blk' & Hc' & Hb' & Hblk' & Hi' & ->)|[(e' & Hc' & Hb' & ->)|(Hr' & Hno' & ->)]]];
    cbn [ng_base]; try done.
  - exfalso. by eapply inner_not_expander, bl_expand.
  - exfalso. pose proof (bl_expand _ _ _ _ _ _ _ _ Hb). destruct Hc'. congruence.
  - exfalso. by destruct (Hno' c x).
  - exfalso. by eapply inner_not_expander, bl_expand.
  - assert (c = c') as <- by by eapply inner_disjoint. by rewrite (block_fun c e e' Hb Hb').
  - exfalso. pose proof (bl_standard _ _ _ _ _ _ _ _ Hb x Hi). destruct Hc'. congruence.
  - exfalso. by destruct (Hno' c e).
  - exfalso. pose proof (bl_expand _ _ _ _ _ _ _ _ Hb'). destruct Hc. congruence.
  - exfalso. pose proof (bl_standard _ _ _ _ _ _ _ _ Hb' x Hi'). destruct Hc. congruence.
  - by rewrite (block_fun x e e' Hb Hb').
  - exfalso. destruct Hc. done.
  - exfalso. by destruct (Hno c' x).
  - exfalso. by destruct (Hno c' e').
  - exfalso. destruct Hc'. done.
Qed.

Lemma gr_expand c e : coll c -> block c e -> expand_group g role_of ov groups ("expand-" +:+ e) e.
Proof.
  intros Hc Hb. destruct Hgr as (_ & H & _). destruct (H c e Hc Hb) as (blk & _ & Htr).
  exists (NGroup ("expand-" +:+ e) None [e] EXPAND). split_and!; try done; [apply Htr; by left|by eapply bl_expand| |by eapply Hext, bl_expand].
  apply (bl_given _ _ _ _ _ _ _ _ Hb). auto.
Qed.
Lemma gr_block T ng : block_group groups T ng -> exists c e, T = "expand-" +:+ e /\ coll c /\ block c e /\
  (forall y, y ∈ ng_nodes ng <-> inner c y) /\ ng_base ng = "block-" +:+ e.
Proof.
  intros (Hng & HT & H1 & H2). apply gr_kind in Hng. destruct Hng as [c e Hc Hb|c e blk Hc Hb Hblk|c e Hc Hb|y Hy Hr Hno]; try done.
  injection HT as <-. by exists c, e.
Qed.
Lemma name_colon x : x ∈ nodes -> lacks ":" x.
Proof. intros Hx. by apply (su_names _ _ _ _ _ _ Hsup x), Hg. Qed.
Lemma name_dash x : x ∈ nodes -> lacks "-" x.
Proof. intros Hx. by apply (su_names _ _ _ _ _ _ Hsup x), Hg. Qed.
Lemma expand_inj e e' : "expand-" +:+ e = "expand-" +:+ e' -> e = e'.
Proof. by intros [= ?]. Qed.

Lemma blocks_good : good_groups g role_of carg ov inputs groups.
Proof.
  constructor; try done.
  - apply blocks_disjoint.
  - intros ng x Hng Hx. apply Hg. by apply (kind_cases ng x (gr_kind _ Hng) Hx).
  - intros x Hx. by apply (su_names _ _ _ _ _ _ Hsup x).
  - apply (su_keys _ _ _ _ _ _ Hsup).
  - intros ng T Hng HT. apply gr_kind in Hng. destruct Hng as [c e Hc Hb|c e blk Hc Hb Hblk|c e Hc Hb|y Hy Hr Hno]; try done;
      injection HT as <-; apply lacks_app; (split; [by cbn; repeat split|by eapply name_colon, expander_in]).
  - apply (su_once _ _ _ _ _ _ Hsup).
  - intros ng x d Hng Hx Hox Hxd Hod. apply gr_kind in Hng. apply (kind_cases ng x Hng) in Hx as [Hx _].
    destruct (Hclosed x d Hx Hox Hxd Hod) as [Hd|?]; [left|by right]. destruct Hgr as (_ & _ & _ & H & _). by apply H.
  - intros ng Hng Hsp. pose proof Hng as Hk. apply gr_kind in Hk. destruct Hk as [c e Hc Hb|c e blk Hc Hb Hblk|c e Hc Hb|y Hy Hr Hno]; try done.
    + right. exists e. split_and!; [by eapply gr_expand|done|done].
    + left. split_and!; try done. by intros x ->%elem_of_list_singleton.
  - intros T ng Hbg. destruct (gr_block T ng Hbg) as (c & e & -> & Hc & Hb & Hblk & _). exists e. split_and!.
    + by eapply gr_expand.
    + intros x Hx. apply Hblk in Hx. split_and!; [by rewrite (bl_standard _ _ _ _ _ _ _ _ Hb x Hx)| |by apply (bl_inputs _ _ _ _ _ _ _ _ Hb)].
      apply (bl_given _ _ _ _ _ _ _ _ Hb). auto.
    + intros x d Hx Hxd Hd Hne' Hr. apply Hblk in Hx. apply Hd, Hblk.
      assert (Hdr : role_of d <> RExpand). { intros Hdr. apply Hne'. apply (bl_one _ _ _ _ _ _ _ _ Hb x d); [by right|done|done]. }
      split; [eapply tc_r; [apply Hx|done]|]. exists e. split; [by eapply bl_expand|].
      apply rtc_tc_inv in Hr as [->|?]; done.
  - intros T ng Hng HT Hpu. pose proof Hng as Hk. apply gr_kind in Hk. destruct Hk as [c e Hc Hb|c e blk Hc Hb Hblk|c e Hc Hb|y Hy Hr Hno]; try done.
    injection HT as <-. destruct Hgr as (_ & H & _). destruct (H c e Hc Hb) as (blk & Hblk & Htr).
    exists c, e, (NGroup ("block-" +:+ e) (Some ("expand-" +:+ e)) blk BLOCK). split_and!.
    + by eapply gr_expand.
    + split_and!; try done. apply Htr. right. by left.
    + done.
    + apply Hc.
    + apply (bl_given _ _ _ _ _ _ _ _ Hb). auto.
    + by eapply bl_edge.
    + apply Hblk. by eapply bl_arg.
    + by apply arg_feeds.
  - intros T ng ng' H1 H2. destruct (gr_block T ng H1) as (c & e & -> & Hc & Hb & _ & ->).
    destruct (gr_block _ ng' H2) as (c' & e' & Heq & Hc' & Hb' & _ & ->). apply expand_inj in Heq. by subst.
  - intros ng T Hng HT. apply gr_kind in Hng. by destruct Hng.
  - intros T ngB ng x w HB Hx Hng Hw How Hwx. destruct (gr_block T ngB HB) as (c & e & -> & Hc & Hb & Hblk & _).
    apply Hblk in Hx. pose proof (gr_kind _ Hng) as Hk. pose proof (kind_cases ng w Hk Hw) as [Hwn _].
    destruct (bl_closed _ _ _ _ _ _ _ _ Hb w x Hx Hwn How Hwx) as [?|[-> ->]]; [left; by apply Hblk|right].
    apply (kind_cases ng c Hk) in Hw as [_ [(c' & Hc' & Hb' & ->)|[(c' & e' & blk' & Hc' & Hb' & Hblk' & Hi' & ->)|[(e' & Hc' & Hb' & ->)|(Hr' & Hno' & ->)]]]].
    + exfalso. pose proof (bl_expand _ _ _ _ _ _ _ _ Hb'). destruct Hc. congruence.
    + exfalso. pose proof (bl_standard _ _ _ _ _ _ _ _ Hb' c Hi'). destruct Hc. congruence.
    + by rewrite (block_fun c e e' Hb Hb').
    + exfalso. by destruct Hc.
Qed.

(** *** The plan *)
Variable outputs : list name.
Variable tasks : list (tspec V).
Hypothesis Htasks : create_task_plan g ov groups outputs = Some tasks.

Lemma blocks_wf_plan : wf_plan tasks.
Proof.
  destruct (plan_spec g ov groups outputs tasks Hwf blocks_disjoint Htasks) as (Hbase & Ht & Hng).
  assert (Hex : forall c e, coll c -> block c e -> NGroup ("expand-" +:+ e) None [e] EXPAND ∈ groups).
  { intros c e Hc Hb. destruct Hgr as (_ & H & _). destruct (H c e Hc Hb) as (blk & _ & Htr). apply Htr. by left. }
  apply wf_plan_ids.
  - rewrite Hbase. apply Hgr.
  - intros t Htt Hp. destruct (Ht t Htt) as (ng & Hin & _ & -> & _ & Hpu & _). rewrite Hpu in Hp. apply gr_kind in Hin. by destruct Hin.
  - intros t T Htt HT. destruct (Ht t Htt) as (ng & Hin & _ & Hs & _ & Hpu & _ & Hd & _). rewrite Hs in HT.
    apply gr_kind in Hin. destruct Hin as [c e Hc Hb|c e blk Hc Hb Hblk|c e Hc Hb|y Hy Hr Hno]; try done.
    + destruct (inner_expander c e (carg c) Hb (bl_arg _ _ _ _ _ _ _ _ Hb)) as (x & _ & Hx & Hxe).
      assert (Hin : "expand-" +:+ e ∈ ts_deps t); [|intros Hn; rewrite Hn in Hin; by apply elem_of_nil in Hin].
      apply Hd. exists x, e, (NGroup ("expand-" +:+ e) None [e] EXPAND). split_and!; try done; [by eapply Hex|by apply Hblk|by left| | |].
      * intros Hi%Hblk. by eapply inner_not_expander, bl_expand.
      * apply (bl_given _ _ _ _ _ _ _ _ Hb). auto.
      * apply (bl_given _ _ _ _ _ _ _ _ Hb). auto.
    + assert (Hin : "block-" +:+ e ∈ ts_deps t); [|intros Hn; rewrite Hn in Hin; by apply elem_of_nil in Hin].
      destruct Hgr as (_ & H & _). destruct (H c e Hc Hb) as (blk & Hblk & Htr).
      apply Hd. exists c, (carg c), (NGroup ("block-" +:+ e) (Some ("expand-" +:+ e)) blk BLOCK). split_and!; try done.
      * apply Htr. right. by left.
      * by left.
      * by eapply bl_edge.
      * apply Hblk. by eapply bl_arg.
      * cbn. intros Heq%elem_of_list_singleton. eapply (Hac c). apply tc_once. rewrite <-Heq at 2. by eapply bl_edge.
      * apply (bl_given _ _ _ _ _ _ _ _ Hb). auto.
      * apply (bl_given _ _ _ _ _ _ _ _ Hb). right. right. by eapply bl_arg.
  - intros t T Htt HT. destruct (Ht t Htt) as (ng & Hin & -> & Hs & _). rewrite Hs in HT.
    apply gr_kind in Hin. destruct Hin as [c e Hc Hb|c e blk Hc Hb Hblk|c e Hc Hb|y Hy Hr Hno]; try done; injection HT as <-.
    + exists e, "block". split_and!; try done; by eapply name_dash, expander_in.
    + exists e, "collect". split_and!; try done; by eapply name_dash, expander_in.
  - intros t Htt. destruct (Ht t Htt) as (ng & Hin & -> & _).
    apply gr_kind in Hin. destruct Hin as [c e Hc Hb|c e blk Hc Hb Hblk|c e Hc Hb|y Hy Hr Hno]; cbn [ng_base].
    + exists e. split; [by eapply name_dash, expander_in|]. right. by exists "expand".
    + exists e. split; [by eapply name_dash, expander_in|]. right. by exists "block".
    + exists e. split; [by eapply name_dash, expander_in|]. right. by exists "collect".
    + exists y. split; [by apply name_dash|]. by left.
Qed.

Definition top (ng : ngroup) : nat := list_max (map (height g) (ng_nodes ng)).
Definition grank (ng : ngroup) : nat := 2 * top ng + (if decide (ng_purpose ng = BLOCK) then 1 else 0).
Definition rank (b : string) : nat := default 0 (list_to_map (M:=gmap string nat) (map (fun ng => (ng_base ng, grank ng)) groups) !! b).
Lemma rank_eq ng : ng ∈ groups -> rank (ng_base ng) = grank ng.
Proof.
  intros Hin. unfold rank. erewrite (elem_of_list_to_map_1 _ (ng_base ng) (grank ng)); [done| |].
  - rewrite <-list_fmap_compose. apply Hgr.
  - apply elem_of_list_In, in_map_iff. exists ng. split; [done|by apply elem_of_list_In].
Qed.
Lemma top_ge ng x : x ∈ ng_nodes ng -> height g x <= top ng.
Proof.
  intros Hx. unfold top. assert (H : Forall (fun k => k <= list_max (map (height g) (ng_nodes ng))) (map (height g) (ng_nodes ng))) by by apply list_max_le.
  eapply Forall_forall in H; [exact H|]. apply elem_of_list_In, in_map. by apply elem_of_list_In.
Qed.
Lemma top_lt ng h : ng_nodes ng <> [] -> (forall x, x ∈ ng_nodes ng -> height g x < h) -> top ng < h.
Proof.
  intros Hn H. unfold top. apply list_max_lt; [by destruct (ng_nodes ng)|]. apply Forall_forall. intros k Hk.
  apply elem_of_list_In, in_map_iff in Hk as (x & <- & Hx). apply H. by apply elem_of_list_In.
Qed.

(** Only the collector's group depends on a block. *)
Lemma dep_block ng x c e d : kind ng -> x ∈ ng_nodes ng -> edge g x d -> coll c -> block c e -> inner c d -> ov !! x = None -> d ∉ ng_nodes ng ->
  x = c /\ ng = NGroup ("collect-" +:+ e) (Some ("expand-" +:+ e)) [c] GATHER.
Proof.
  intros Hk Hx Hxd Hc Hb Hd Hox Hnin. pose proof (kind_cases ng x Hk Hx) as [Hxn Hcase].
  destruct (bl_closed _ _ _ _ _ _ _ _ Hb x d Hd Hxn Hox Hxd) as [Hi|[-> ->]].
  - exfalso. destruct Hcase as [(c' & Hc' & Hb' & ->)|[(c' & e' & blk' & Hc' & Hb' & Hblk' & Hi' & ->)|[(e' & Hc' & Hb' & ->)|(Hr' & Hno' & ->)]]].
    + by eapply inner_not_expander, bl_expand.
    + apply Hnin, Hblk'. assert (c = c') as <-; [by eapply inner_disjoint|done].
    + pose proof (bl_standard _ _ _ _ _ _ _ _ Hb x Hi). destruct Hc'. congruence.
    + by destruct (Hno' c e).
  - split; [done|]. destruct Hcase as [(c' & Hc' & Hb' & ->)|[(c' & e' & blk' & Hc' & Hb' & Hblk' & Hi' & ->)|[(e' & Hc' & Hb' & ->)|(Hr' & Hno' & ->)]]].
    + exfalso. pose proof (bl_expand _ _ _ _ _ _ _ _ Hb'). destruct Hc. congruence.
    + exfalso. pose proof (bl_standard _ _ _ _ _ _ _ _ Hb' c Hi'). destruct Hc. congruence.
    + by rewrite (block_fun c e e' Hb Hb').
    + exfalso. by destruct Hc.
Qed.

Lemma blocks_live_plan : live_plan tasks.
Proof.
  destruct (plan_spec g ov groups outputs tasks Hwf blocks_disjoint Htasks) as (Hbase & Ht & Hng).
  assert (Hex : forall c e, coll c -> block c e -> NGroup ("expand-" +:+ e) None [e] EXPAND ∈ groups).
  { intros c e Hc Hb. destruct Hgr as (_ & H & _). destruct (H c e Hc Hb) as (blk & _ & Htr). apply Htr. by left. }
  assert (Hcov : forall x, x ∈ nodes -> exists ng, ng ∈ groups /\ x ∈ ng_nodes ng) by apply Hgr.
  constructor.
  - assert (exists x0, x0 ∈ nodes) as [x0 Hx0] by (clear -Hne; destruct nodes as [|x0 ?]; [done|exists x0; by left]).
    destruct (Hcov x0 Hx0) as (ng & Hin & _).
    destruct (Hng ng Hin) as (t & Htt & _). intros ->. by apply elem_of_nil in Htt.
  - exists rank. split.
    + intros sp u Hsp Hu. destruct (Ht sp Hsp) as (ng & Hin & -> & _ & _ & _ & _ & Hd & _).
      destruct (proj1 (Hd u) Hu) as (x & d & ng' & Hin' & <- & Hx & Hxd & Hd' & Hnin & Hox & Hod). rewrite !rank_eq by done.
      pose proof (height_edge g Hwf Hac x d Hxd) as Hh. pose proof (gr_kind _ Hin') as Hk'. pose proof (gr_kind _ Hin) as Hk.
      clear Hd Hin Hin'. destruct Hk' as [c e Hc Hb|c e blk Hc Hb Hblk|c e Hc Hb|y Hy Hr Hno].
      2:{ cbn [ng_nodes] in Hd'. apply Hblk in Hd'. destruct (dep_block ng x c e d) as [-> ->]; try done.
          assert (Hlt : top (NGroup ("block-" +:+ e) (Some ("expand-" +:+ e)) blk BLOCK) < height g c).
          { apply top_lt; cbn [ng_nodes].
            - apply Hblk in Hd'. intros ->. by apply elem_of_nil in Hd'.
            - intros y Hy. apply (height_tc g Hwf Hac), inner_reach. by apply Hblk. }
          pose proof (top_ge (NGroup ("collect-" +:+ e) (Some ("expand-" +:+ e)) [c] GATHER) c ltac:(by left)).
          unfold grank. cbn [ng_purpose]. rewrite decide_True by done. rewrite decide_False by done. lia. }
      all: cbn [ng_nodes] in Hd'; apply elem_of_list_singleton in Hd' as ->; pose proof (top_ge ng x Hx); unfold grank at 1; cbn [ng_purpose];
        rewrite decide_False by done; unfold grank, top at 1; cbn; lia.
    + intros sp T Hsp HT. destruct (Ht sp Hsp) as (ng & Hin & -> & Hs & _). rewrite Hs in HT.
      pose proof (gr_kind _ Hin) as Hk. rewrite (rank_eq ng) by done. clear Hin Hs.
      destruct Hk as [c e Hc Hb|c e blk Hc Hb Hblk|c e Hc Hb|y Hy Hr Hno]; try done; injection HT as <-.
      * change ("expand-" +:+ e) with (ng_base (NGroup ("expand-" +:+ e) None [e] EXPAND)). rewrite rank_eq by by eapply Hex.
        destruct (inner_expander c e (carg c) Hb (bl_arg _ _ _ _ _ _ _ _ Hb)) as (x & _ & Hx & Hxe).
        pose proof (height_edge g Hwf Hac x e Hxe). apply Hblk in Hx.
        pose proof (top_ge (NGroup ("block-" +:+ e) (Some (ng_base (NGroup ("expand-" +:+ e) None [e] EXPAND))) blk BLOCK) x Hx).
        unfold grank. cbn [ng_purpose]. rewrite decide_False by done. rewrite decide_True by done. unfold top at 1. cbn [ng_nodes map list_max foldr]. lia.
      * change ("expand-" +:+ e) with (ng_base (NGroup ("expand-" +:+ e) None [e] EXPAND)). rewrite rank_eq by by eapply Hex.
        pose proof (height_tc g Hwf Hac c e (expander_reach c e Hb)).
        unfold grank. cbn [ng_purpose]. rewrite !decide_False by done. unfold top. cbn [ng_nodes map list_max foldr]. lia.
  - intros sp u Hsp Hu. destruct (Ht sp Hsp) as (ng & Hin & _ & Hs & _ & Hpu & _ & Hd & _).
    destruct (proj1 (Hd u) Hu) as (x & d & ng' & Hin' & <- & Hx & Hxd & Hd' & Hnin & Hox & Hod).
    destruct (Hng ng' Hin') as (t' & Ht' & Hb' & _ & Hs' & Hp'). exists t'. split_and!; [done|done|].
    rewrite Hs, Hpu. unfold repeated. rewrite Hs', Hp'. pose proof (gr_kind _ Hin') as Hk'. pose proof (gr_kind _ Hin) as Hk.
    clear Hd Hin Hin' Hs' Hp' Hb'. destruct Hk' as [c e Hc Hb|c e blk Hc Hb Hblk|c e Hc Hb|y Hy Hr Hno]; cbn [ng_spawn ng_purpose].
    { by intros [[? [=]] _]. } 2:{ by intros [_ []]. } 2:{ by intros [[? [=]] _]. } intros _.
    cbn [ng_nodes] in Hd'. apply Hblk in Hd'. destruct (dep_block ng x c e d) as [-> ->]; done.
  - intros sp T Hsp HT. destruct (Ht sp Hsp) as (ng & Hin & _ & Hs & _). rewrite Hs in HT.
    pose proof (gr_kind _ Hin) as Hk. clear Hin Hs.
    assert (Hres : forall c e, coll c -> block c e -> exists sp', sp' ∈ tasks /\ ts_base sp' = "expand-" +:+ e /\ ts_purpose sp' = EXPAND).
    { intros c e Hc Hb. destruct (Hng _ (Hex c e Hc Hb)) as (t & ? & ? & _ & _ & ?). by exists t. }
    destruct Hk as [c e Hc Hb|c e blk Hc Hb Hblk|c e Hc Hb|y Hy Hr Hno]; try done; injection HT as <-; by eapply Hres.
  - intros sp Hsp Hs0 Hdne. destruct (Ht sp Hsp) as (ng & Hin & _ & Hs & _ & Hpu & _ & Hd & _). rewrite Hs in Hs0.
    destruct (ts_deps sp) as [|u us] eqn:Hds; [done|]. assert (Hu : u ∈ u :: us) by left.
    destruct (proj1 (Hd u) Hu) as (x & d & ng' & Hin' & <- & Hx & Hxd & Hd' & Hnin & Hox & Hod).
    destruct (decide (ng_purpose ng' = EXPAND)) as [Hp|Hp].
    + pose proof (gr_kind _ Hin') as Hk'. destruct Hk' as [c e Hc Hb|c e blk Hc Hb Hblk|c e Hc Hb|y Hy Hr Hno]; try done.
      cbn [ng_nodes] in Hd'. apply elem_of_list_singleton in Hd' as ->.
      pose proof (gr_kind _ Hin) as Hk. pose proof (kind_cases ng x Hk Hx) as [Hxn _].
      assert (Hxc : role_of x <> RCollect /\ ~ inner c x /\ ng_nodes ng = [x]).
      { apply (kind_cases ng x Hk) in Hx as [_ [(c' & Hc' & Hb' & ->)|[(c' & e' & blk' & Hc' & Hb' & Hblk' & Hi' & ->)|[(e' & Hc' & Hb' & ->)|(Hr' & Hno' & ->)]]]]; try done.
        - split_and!; [by rewrite (bl_expand _ _ _ _ _ _ _ _ Hb')| |done]. intros Hi. by eapply inner_not_expander, bl_expand.
        - split_and!; [done| |done]. by destruct (Hno' c e). }
      destruct Hxc as (Hxr & Hxi & Hxs). destruct Hc as [Hcn Hcr].
      destruct (su_users _ _ _ _ _ _ Hsup x c e) as (d' & Hdn & Hxd' & Hod' & Hdr); try done.
      destruct (Hcov d' Hdn) as (ng2 & Hin2 & Hd2). destruct (Hng ng2 Hin2) as (t2 & Ht2 & Hb2 & _ & _ & Hp2).
      exists t2. split_and!; [done| |].
      * rewrite Hb2. apply Hd. exists x, d', ng2. split_and!; try done. rewrite Hxs. intros ->%elem_of_list_singleton.
        eapply (Hac x). by apply tc_once.
      * rewrite Hp2. pose proof (gr_kind _ Hin2) as Hk2. destruct Hk2 as [c2 e2 Hc2 Hb3|? ? ? ? ? ?|? ? ? ?|? ? ? ?]; try done.
        exfalso. apply Hdr. cbn [ng_nodes] in Hd2. apply elem_of_list_singleton in Hd2 as ->. by eapply bl_expand.
    + destruct (Hng ng' Hin') as (t' & Ht' & Hb' & _ & _ & Hp'). exists t'. split_and!; [done| |by rewrite Hp'].
      rewrite Hb'. apply Hd. by exists x, d, ng'.
Qed.
End Groups.
End Blocks.
