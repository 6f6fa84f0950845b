(** * Fully interconnected multiplex networks with one aspect: links, copies, isomorphisms *)
From stdpp Require Import prelude sorting.
From Verif Require Import Base Net NetSpec NetHist NetIter Supra MpxSpec MpxFacts MpxHist MpxIter MpxTrans MpxBuild PropsMpx MpxRelabel MpxSub PropsMpxSub PropsMpxEq OverlapFacts MpxEdges
  IsomSpec PropsIsomMpx EnumSpec.
Local Open Scope nat_scope.

Lemma tied_lrd p l x y : tied p l x y <-> lrd p (LBare l) x y <> 0%Z.
Proof.
  unfold tied. rewrite agetitem_lrd. destruct (pA p (LBare l)) as [m|] eqn:E.
  - split; [by intros (w & [= <-] & ?)|eauto].
  - split; [by intros (w & ? & _)|]. unfold lrd. by rewrite E.
Qed.
Lemma unit_lrd p : unit_weights p <-> forall l x y, lrd p (LBare l) x y = 0%Z \/ lrd p (LBare l) x y = 1%Z.
Proof.
  unfold unit_weights. setoid_rewrite agetitem_lrd. split.
  - intros H l x y. specialize (H l x y). destruct (pA p (LBare l)) as [m|] eqn:E; [by apply H|]. left. unfold lrd. by rewrite E.
  - intros H l x y w. destruct (pA p (LBare l)); [|done]. by intros [= <-].
Qed.
Global Instance tied_dec p l x y : Decision (tied p l x y).
Proof. destruct (decide (lrd p (LBare l) x y <> 0%Z)); [left|right]; by rewrite tied_lrd. Defined.

Lemma mhas_lem p k x : mhas p k x \/ ~ mhas p k x.
Proof. rewrite <- psl_mhas. unfold psl. destruct (mslices p !! k) as [s|]; [|right; by intros (? & ? & _)]. destruct (decide (x ∈ s)); [left; by exists s|right]. by intros (? & [= <-] & ?). Qed.

Section net.
  Context (c : coupling) (h : list call) (p : mpx) (Hh : mhist [c] false 0 true h p).
  Let Hi : pinv [c] false 0 true h p := mhist_inv _ _ _ _ _ _ Hh.
  Let Hp : pwf p := pi_wf _ _ _ _ _ _ Hi.
  Lemma en_asp : maspects p = 1.
  Proof using Hh. exact (pinv_masp _ _ _ _ _ _ Hi). Qed.
  Lemma en_pA l : mhas p 1 l <-> is_Some (pA p (LBare l)).
  Proof using Hh.
    split.
    - intros Hl. destruct (lay_pA p (LBare l) Hp) as [m Hm]; [| |by exists m]; unfold lay_in, full_form; rewrite en_asp; [|done]. split; [done|]. by apply psl_mhas.
    - intros [m Hm]. destruct (pA_lay p _ m Hp Hm) as [Hl _]. unfold lay_in in Hl. apply psl_mhas. apply Hl.
  Qed.
  Lemma en_exists a : mexists p a <-> exists x l, a = [x; l] /\ mhas p 0 x /\ mhas p 1 l.
  Proof using Hh.
    rewrite mexists_iff by done. rewrite (pi_fic _ _ _ _ _ _ Hi), en_asp. setoid_rewrite psl_mhas. split.
    - intros [Hl H]. destruct a as [|x [|l []]]; try done. exists x, l. split; [done|]. split; [by apply (H 0)|by apply (H 1)].
    - intros (x & l & -> & Hx & Hl). split; [done|]. intros [|[|k]] y; [by intros [= <-]|by intros [= <-]|done].
  Qed.
  Lemma en_tied l x y : tied p l x y -> mhas p 0 x /\ mhas p 0 y /\ mhas p 1 l.
  Proof using Hh.
    rewrite tied_lrd. intros Ht. assert (exists m, pA p (LBare l) = Some m) as [m Hm].
    { destruct (pA p (LBare l)) as [m|] eqn:E; [by exists m|]. unfold lrd in Ht. by rewrite E in Ht. }
    destruct (lrd_nodes _ _ _ _ _ _ _ _ _ _ Hi Hm Ht) as [H1 H2].
    assert (mhas p 1 l) as Hl by (apply en_pA; by eexists). split_and!; [..|done]; apply psl_mhas, mnodes_psl; by rewrite <- (pA_nodes_fic p _ m Hm (pi_fic _ _ _ _ _ _ Hi)).
  Qed.
  Lemma en_sym l x y : tied p l x y -> tied p l y x.
  Proof using Hh.
    rewrite !tied_lrd, !(lrd_spec _ _ _ _ _ _ _ _ _ Hi). by rewrite (mspec_sym _ _ h x y).
  Qed.
  Lemma en_intra l x y : mhas p 0 x -> mhas p 0 y -> mhas p 1 l -> mlinked p [x; l] [y; l] <-> x <> y /\ tied p l x y.
  Proof using Hh.
    intros Hx Hy Hl. unfold mlinked. rewrite (pi_noe _ _ _ _ _ _ Hi). setoid_rewrite mreads_pair; [|by rewrite en_asp..].
    destruct (decide (x = y)) as [->|Hne].
    - split; [|by intros [? _]]. intros (w & E & Hw). rewrite pget_pair_none in E; [|done|].
      + injection E as <-. by rewrite (pi_noe _ _ _ _ _ _ Hi) in Hw.
      + intros d (_ & Hd & H). destruct (H d) as [H1 _]. by destruct (H1 eq_refl).
    - assert (differ_at 0 [x; l] [y; l]) as Hd.
      { split; [done|]. split; [cbn; lia|]. intros [|[|k]]; cbn; [|done|done]. split; [congruence|done]. }
      rewrite (pget_pair_intra p _ _ Hd). rewrite en_asp. change (lkey 1 (tail [x; l])) with (LBare l). unfold tied, agetitem.
      apply en_pA in Hl as [m Hm]. rewrite Hm. cbn [node_of hd default length decide_rel]. split; [intros (w & ? & ?); split; [done|]; by exists w|by intros [_ ?]].
  Qed.
  (** Links between layers depend on the coupling and the layers only. *)
  Definition crosses (l l' : name) : Prop :=
    match c with CCat w => w <> 0%Z | COrd w => w <> 0%Z /\ adjacent l l' = Ok true | _ => False end.
  Lemma en_cross x y l l' : no_net c -> l <> l' -> mhas p 0 x -> mhas p 0 y -> mhas p 1 l -> mhas p 1 l' ->
    mlinked p [x; l] [y; l'] <-> x = y /\ crosses l l'.
  Proof using Hh.
    intros Hnn Hll Hx Hy Hl Hl'. unfold mlinked. rewrite (pi_noe _ _ _ _ _ _ Hi). setoid_rewrite mreads_pair; [|by rewrite en_asp..].
    assert (mexists p [x; l] /\ mexists p [y; l']) as [E1 E2] by (split; apply en_exists; eauto 10).
    destruct (decide (x = y)) as [<-|Hne].
    - assert (differ_at 1 [x; l] [x; l']) as Hd.
      { split; [done|]. split; [cbn; lia|]. intros [|[|k]]; cbn; [done| |done]. split; [congruence|done]. }
      rewrite (pget_pair_coup_ex p 0 _ _ Hp E1 E2 Hd). unfold cread, crosses. rewrite (pi_coup _ _ _ _ _ _ Hi), (pi_noe _ _ _ _ _ _ Hi). cbn.
      destruct c as [w|w|w|m]; [| | |done].
      + split; [by intros (? & [= <-] & ?)|]. intros [_ ?]. eauto.
      + destruct (adjacent l l') as [[]|e]; cbn.
        * split; [by intros (? & [= <-] & ?)|]. intros (_ & ? & _). eauto.
        * split; [by intros (? & [= <-] & ?)|by intros (_ & _ & ?)].
        * split; [by intros (? & ? & _)|by intros (_ & _ & ?)].
      + split; [by intros (? & ? & _)|by intros [_ ?]].
    - split; [|by intros [? _]]. intros (w & E & Hw). rewrite pget_pair_none in E; [|done|].
      + injection E as <-. by rewrite (pi_noe _ _ _ _ _ _ Hi) in Hw.
      + intros d (_ & Hd & H). cbn in Hd. destruct d as [|[|d]]; [| |lia].
        * destruct (H 1) as [_ H1]. cbn in H1. specialize (H1 ltac:(lia)). congruence.
        * destruct (H 0) as [_ H1]. cbn in H1. specialize (H1 ltac:(lia)). congruence.
  Qed.
End net.

(** ** Adding links *)
Definition put_ops (w : Z) (ts : list (name * name * name)) : list mop := (fun t => MSet [t.1.1; t.1.2; t.2] w) <$> ts.
Notation set_ops := (put_ops 1).
Lemma mwrite_one x y l l' w : x <> y -> mwrite 1 false (LBare l) (MSet [x; y; l'] w, Ok tt) = if decide (l = l') then Some (x, y, w) else None.
Proof.
  intros Hne. unfold mwrite. cbn [fst]. change (wl 1 (LBare l) (Some ([x; l'], [y; l'], w)) = if decide (l = l') then Some (x, y, w) else None). unfold wl.
  change (player_of 1 [x; l']) with (LBare l'). change (player_of 1 [y; l']) with (LBare l'). cbn [node_of hd default].
  destruct (decide (l = l')) as [->|Hl].
  - rewrite decide_True by (split; [lia|done]). done.
  - rewrite decide_False; [done|]. intros (_ & [= ?] & _). done.
Qed.
Lemma put_links c h p w ts ls : mhist [c] false 0 true h p -> (forall x y l, (x, y, l) ∈ ts -> x <> y) ->
  exists q g, mbuild p (put_ops w ts ++ ((fun l => MAddLayer l 1) <$> ls)) = Ok q /\ mhist [c] false 0 true g q /\
    (forall x, mhas q 0 x <-> mhas p 0 x \/ exists y l, (x, y, l) ∈ ts \/ (y, x, l) ∈ ts) /\
    (forall l, mhas q 1 l <-> mhas p 1 l \/ l ∈ ls \/ exists x y, (x, y, l) ∈ ts) /\
    (forall l x y, lrd q (LBare l) x y = if decide ((x, y, l) ∈ ts \/ (y, x, l) ∈ ts) then w else lrd p (LBare l) x y).
Proof.
  intros Hh Hne. set (os := put_ops w ts ++ _).
  assert (forall o, o ∈ os <-> (exists x y l, (x, y, l) ∈ ts /\ o = MSet [x; y; l] w) \/ exists l, l ∈ ls /\ o = MAddLayer l 1) as Hos.
  { intros o. unfold os, put_ops. rewrite elem_of_app, !elem_of_list_fmap. split.
    - intros [([[x y] l] & -> & Ht)|(l & -> & Hl)]; [left; by exists x, y, l|right; by exists l].
    - intros [(x & y & l & Ht & ->)|(l & Hl & ->)]; [left; by exists (x, y, l)|right; by exists l]. }
  destruct (mbuild_ok [c] false 0 true os h p Hh) as (q & E & Hq); [done| |].
  { apply Forall_forall. intros o [(x & y & l & Ht & ->)|(l & _ & ->)]%Hos; [|cbn; lia]. exists [x; l], [y; l].
    split; [by apply names_link1g|]. split; [cbn; lia|]. split; [done|]. cbn. by eapply Hne. }
  exists q, (h ++ went os). split; [done|]. split; [done|].
  assert (forall k x, mhas q k x <-> mhas p k x \/ exists o, o ∈ os /\ mmentions 1 true (o, Ok tt) k x) as Hm.
  { intros k x. rewrite (C51_nodes_layers_exact _ _ _ _ _ _ Hq), (C51_nodes_layers_exact _ _ _ _ _ _ Hh) by done. setoid_rewrite elem_of_app. setoid_rewrite elem_of_went. split.
    - intros (e & [He|(o & Ho & ->)] & Hm); [left; by exists e|right; by exists o].
    - intros [(e & He & Hm)|(o & Ho & Hm)]; [exists e; auto|]. exists (o, Ok tt). split; [|done]. right. by exists o. }
  assert (forall x y l k z, mmentions 1 true (MSet [x; y; l] w, Ok tt) k z <-> (k = 0 /\ (z = x \/ z = y)) \/ (k = 1 /\ z = l)) as Hms.
  { intros x y l k z. unfold mmentions. cbn [fst mentions writes]. split.
    - intros (a & b & v & [_ [-> ->]%names_link1g] & Hz). destruct k as [|[|k]]; cbn in Hz; [left|right|by destruct Hz]; destruct Hz as [[= ->]|[= ->]]; auto.
    - intros H. exists [x; l], [y; l], w. split; [split; [done|by apply names_link1g]|]. destruct H as [[-> [-> | ->]]|[-> ->]]; cbn; auto. }
  split; [|split].
  - intros x. rewrite Hm. setoid_rewrite Hos. split; (intros [?|H]; [by left|right]).
    + destruct H as (o & [(a & b & l & Ht & ->)|(l & _ & ->)] & Hx); [|by destruct Hx]. apply Hms in Hx as [[_ [-> | ->]]|[? _]]; [..|done]; eauto.
    + destruct H as (y & l & [Ht|Ht]); (eexists; split; [left; eauto|]; apply Hms; auto).
  - intros l. rewrite Hm. setoid_rewrite Hos. split; (intros [?|H]; [by left|right]).
    + destruct H as (o & [(a & b & l' & Ht & ->)|(l' & Hl & ->)] & Hx); [apply Hms in Hx as [[? _]|[_ ->]]; [done|]; eauto|]. destruct Hx as (_ & -> & _). by left.
    + destruct H as [Hl|(x & y & Ht)]; [exists (MAddLayer l 1); split; [right; eauto|done]|]. eexists. split; [left; eauto|]. apply Hms. auto.
  - intros l x y. rewrite (lrd_spec _ _ _ _ _ _ _ _ _ (mhist_inv _ _ _ _ _ _ Hq)), (lrd_spec _ _ _ _ _ _ _ _ _ (mhist_inv _ _ _ _ _ _ Hh)). cbn [length].
    unfold mspec. rewrite fold_left_app.
    assert (forall e i j v, e ∈ went os -> mwrite 1 false (LBare l) e = Some (i, j, v) -> v = w /\ (i, j, l) ∈ ts) as Hw.
    { intros e i j v (o & [(a & b & l' & Ht & ->)|(l' & _ & ->)]%Hos & ->)%elem_of_went; [|done]. rewrite mwrite_one by (by eapply Hne).
      destruct (decide (l = l')) as [<-|]; [|done]. by intros [= <- <- <-]. }
    destruct (decide _) as [Hin|Hin].
    + apply mspec_fold_agree; [intros e i j v He Hwr _; by apply (Hw e i j v)|]. left. destruct Hin as [Hin|Hin].
      * exists (MSet [x; y; l] w, Ok tt), x, y, w. split; [apply elem_of_went; eexists; split; [apply Hos; left; eauto|done]|]. rewrite mwrite_one by (by eapply Hne).
        rewrite decide_True by done. split; [done|]. by left.
      * exists (MSet [y; x; l] w, Ok tt), y, x, w. split; [apply elem_of_went; eexists; split; [apply Hos; left; eauto|done]|]. rewrite mwrite_one by (by eapply Hne).
        rewrite decide_True by done. split; [done|]. by right.
    + apply mspec_fold_agree; [|by right]. intros e i j v He Hwr Hn. apply Hw in Hwr as [-> Ht]; [|done]. exfalso. apply Hin. destruct Hn as [[-> ->]|(_ & -> & ->)]; auto.
Qed.
Lemma add_links c h p ts ls : mhist [c] false 0 true h p -> (forall x y l, (x, y, l) ∈ ts -> x <> y) ->
  exists q g, mbuild p (set_ops ts ++ ((fun l => MAddLayer l 1) <$> ls)) = Ok q /\ mhist [c] false 0 true g q /\
    (forall x, mhas q 0 x <-> mhas p 0 x \/ exists y l, (x, y, l) ∈ ts \/ (y, x, l) ∈ ts) /\
    (forall l, mhas q 1 l <-> mhas p 1 l \/ l ∈ ls \/ exists x y, (x, y, l) ∈ ts) /\
    (forall l x y, lrd q (LBare l) x y = if decide ((x, y, l) ∈ ts \/ (y, x, l) ∈ ts) then 1%Z else lrd p (LBare l) x y).
Proof. apply put_links. Qed.
Lemma add_tied p q (ts : list (name * name * name)) l x y : (forall l x y, lrd q (LBare l) x y = if decide ((x, y, l) ∈ ts \/ (y, x, l) ∈ ts) then 1%Z else lrd p (LBare l) x y) ->
  tied q l x y <-> tied p l x y \/ (x, y, l) ∈ ts \/ (y, x, l) ∈ ts.
Proof. intros H. rewrite !tied_lrd, H. destruct (decide _); naive_solver. Qed.

(** ** Subnetworks *)
Lemma sub_net c h p N ls : mhist [c] false 0 true h p -> no_net c -> (forall l, l ∈ ls <-> mhas p 1 l) ->
  exists q g, msubnet p [Some N; Some ls] false = Ok q /\ mhist [c] false 0 true g q /\
    (forall x, mhas q 0 x <-> mhas p 0 x /\ x ∈ N) /\ (forall l, mhas q 1 l <-> mhas p 1 l) /\
    (forall l x y, lrd q (LBare l) x y = if decide (x ∈ N /\ y ∈ N) then lrd p (LBare l) x y else 0%Z).
Proof.
  intros Hh Hnn Hls. pose proof (mhist_inv _ _ _ _ _ _ Hh) as Hi.
  destruct (C69_subnet [c] false 0 true h p [Some N; Some ls] Hh) as (q & g & E & Hq & (S1 & _ & S3) & _ & Hr); [done| |done| |].
  { intros m Hm%elem_of_list_singleton. by subst c. }
  { intros [|k] l x; cbn; [|done]. intros [= <-]. by rewrite Hls. }
  assert (forall x, mhas q 0 x <-> mhas p 0 x /\ x ∈ N) as H0.
  { intros x. rewrite S1 by (left; by apply Hi). cbn. split; [intros (? & o & [= <-] & ?); done|]. intros [? ?]. split; [done|]. by eexists. }
  assert (forall l, mhas q 1 l <-> mhas p 1 l) as H1.
  { intros l. rewrite S1 by (left; by apply Hi). cbn. split; [intros (? & o & [= <-] & ?); done|]. intros ?. split; [done|]. eexists. split; [done|]. by apply Hls. }
  exists q, g. split; [done|]. split; [done|]. split; [done|]. split; [done|].
  intros l x y. assert ((mhas q 1 l /\ mhas q 0 x /\ mhas q 0 y) \/ ~ (mhas q 1 l /\ mhas q 0 x /\ mhas q 0 y)) as [(Hl & Hx & Hy)|Hno] by (pose proof (mhas_lem q 1 l); pose proof (mhas_lem q 0 x); pose proof (mhas_lem q 0 y); tauto).
  - assert (forall z, mhas q 0 z -> mexists q (nl_of z (LBare l))) as Hex. { intros z Hz. apply (en_exists _ _ _ Hq). by exists z, l. }
    apply H0 in Hx as Hx', Hy as Hy'. rewrite decide_True by tauto.
    destruct (proj1 (en_pA _ _ _ Hq l) Hl) as [m Hm]. destruct (proj1 (en_pA _ _ _ Hh l) (proj1 (H1 l) Hl)) as [m' Hm'].
    specialize (Hr (LBare l) x y (Hex x Hx) (Hex y Hy)). rewrite !agetitem_lrd, Hm, Hm' in Hr. enough (LBare l ∈ mlayers q) as Hlay; [by injection (Hr Hlay)|].
    apply mlayers_form; [apply (mhist_inv _ _ _ _ _ _ Hq)|]. by exists m.
  - assert (lrd q (LBare l) x y = 0%Z) as ->.
    { destruct (decide (lrd q (LBare l) x y = 0%Z)) as [?|Ht]; [done|]. exfalso. apply Hno. apply tied_lrd, (en_tied _ _ _ Hq) in Ht. tauto. }
    destruct (decide _) as [[Hx Hy]|]; [|done]. destruct (decide (lrd p (LBare l) x y = 0%Z)) as [?|Ht]; [done|]. exfalso. apply Hno. apply tied_lrd, (en_tied _ _ _ Hh) in Ht.
    rewrite !H0, H1. tauto.
Qed.

(** ** Isomorphisms *)
Section iso.
  Context (c : coupling) (hp hq : list call) (p q : mpx) (Hp : mhist [c] false 0 true hp p) (Hq : mhist [c] false 0 true hq q) (Hnn : no_net c).
  Context (A : nat -> Prop) (m : nat -> name -> name) (H0 : A 0) (HA1 : A 1 \/ ~ A 1).
  (** The conditions for an isomorphism in terms of nodes, layers and links. *)
  Record shape_iso : Prop := {
    si_node : bijective (mhas p 0) (mhas q 0) (m 0);
    si_lay : bijective (mhas p 1) (mhas q 1) (m 1);
    si_fix : forall a x, ~ A a -> m a x = x;
    si_top : forall a, A a -> a <= 1;
    si_tied : forall l x y, mhas p 1 l -> mhas p 0 x -> mhas p 0 y -> x <> y -> tied p l x y <-> tied q (m 1 l) (m 0 x) (m 0 y);
    si_cross : forall l l', mhas p 1 l -> mhas p 1 l' -> l <> l' -> crosses c l l' <-> crosses c (m 1 l) (m 1 l') }.
  Lemma shape_misomorphism : shape_iso -> misomorphism A m p q.
  Proof using Hp Hq Hnn.
    intros [(N1 & N2 & N3) (L1 & L2 & L3) Hf Htop Ht Hc]. split; [|split; [done|split]].
    - intros a Ha. specialize (Htop a Ha). destruct a as [|[|a]]; [by split|by split|lia].
    - intros b. rewrite (en_exists _ _ _ Hq). setoid_rewrite (en_exists _ _ _ Hp). split.
      + intros (y & l & -> & (x & Hx & <-)%N3 & (k & Hk & <-)%L3). exists [x; k]. split; [eauto|done].
      + intros (a & (x & l & -> & Hx & Hl) & ->). exists (m 0 x), (m 1 l). split; [done|]. auto.
    - intros a b (x & l & -> & Hx & Hl)%(en_exists _ _ _ Hp) (y & l' & -> & Hy & Hl')%(en_exists _ _ _ Hp).
      change (nl_image m [?u; ?v]) with [m 0 u; m 1 v]. destruct (decide (l = l')) as [<-|Hll].
      + rewrite (en_intra _ _ _ Hp), (en_intra _ _ _ Hq) by auto. split.
        * intros [Hne Hxy]. split; [intros E; by apply Hne, N2|by apply Ht].
        * intros [Hne Hxy]. assert (x <> y) by congruence. split; [done|by apply Ht].
      + assert (m 1 l <> m 1 l') by (intros E; by apply Hll, L2). rewrite (en_cross _ _ _ Hp), (en_cross _ _ _ Hq) by auto. rewrite (Hc l l') by done. split.
        * intros [-> ?]. done.
        * intros [E ?]. split; [by apply N2|done].
  Qed.
  Lemma misomorphism_shape : (forall a, A a -> a <= 1) -> (exists x, mhas p 0 x) -> misomorphism A m p q -> shape_iso.
  Proof using Hp Hq Hnn H0 HA1.
    intros Htop [x0 Hx0] (Hb & Hf & He & Hk). pose proof (Hb 0 H0) as Hb0. destruct Hb0 as (N1 & N2 & N3).
    assert (forall l, mhas p 1 l -> mhas q 1 (m 1 l)) as L1.
    { intros l Hl. assert (mexists q [m 0 x0; m 1 l]) as Hex. { apply He. exists [x0; l]. split; [|done]. apply (en_exists _ _ _ Hp). eauto. }
      apply (en_exists _ _ _ Hq) in Hex as (x & l' & E & _ & ?). injection E as _ ->. done. }
    assert (forall l, mhas q 1 l -> exists l', mhas p 1 l' /\ m 1 l' = l) as L3.
    { intros l Hl. assert (mexists q [m 0 x0; l]) as Hex by (apply (en_exists _ _ _ Hq); exists (m 0 x0), l; auto). apply He in Hex as (a & (x & l' & -> & _ & Hl')%(en_exists _ _ _ Hp) & E).
      injection E as _ ->. eauto. }
    assert (forall l l', mhas p 1 l -> mhas p 1 l' -> m 1 l = m 1 l' -> l = l') as L2.
    { destruct HA1 as [Ha|Ha]; [by apply (Hb 1)|]. intros l l' _ _. by rewrite !(Hf 1). }
    split; try done.
    - intros l x y Hl Hx Hy Hne. assert (mexists p [x; l] /\ mexists p [y; l]) as [E1 E2] by (split; apply (en_exists _ _ _ Hp); eauto).
      specialize (Hk _ _ E1 E2). change (nl_image m [?u; ?v]) with [m 0 u; m 1 v] in Hk. rewrite (en_intra _ _ _ Hp), (en_intra _ _ _ Hq) in Hk by auto.
      assert (m 0 x <> m 0 y) by (intros E; by apply Hne, N2). tauto.
    - intros l l' Hl Hl' Hne. assert (mexists p [x0; l] /\ mexists p [x0; l']) as [E1 E2] by (split; apply (en_exists _ _ _ Hp); eauto).
      specialize (Hk _ _ E1 E2). change (nl_image m [?u; ?v]) with [m 0 u; m 1 v] in Hk. rewrite (en_cross _ _ _ Hp), (en_cross _ _ _ Hq) in Hk by auto. tauto.
  Qed.
End iso.
