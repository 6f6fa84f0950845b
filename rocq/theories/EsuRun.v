(** * The ESU enumeration: all starting node-layers. *)
From stdpp Require Import prelude strings relations.
From Coq Require Import QArith.
From Verif Require Import Base Net NetSpec NetFacts NetHist NetIter NetEdges Build TransFacts Samp SampSpec SampFacts EsuFacts.
Local Open Scope nat_scope.

(** ** the two orders of the list of node-layers *)
Definition grouped (f : nl -> name) (l : list nl) : Prop :=
  forall pre v post a b, l = pre ++ v :: post -> a ∈ pre -> b ∈ post -> f a = f b -> f v = f a.
Lemma grouped_app f l1 l2 : grouped f l1 -> grouped f l2 -> (forall a b, a ∈ l1 -> b ∈ l2 -> f a <> f b) -> grouped f (l1 ++ l2).
Proof.
  intros H1 H2 Hd pre v post a b E Ha Hb Hab. symmetry in E. apply app_eq_inv in E as [(m & E1 & E2)|(m & E1 & E2)].
  - (* pre = l1 ++ m *)
    subst pre. apply elem_of_app in Ha as [Ha|Ha].
    + exfalso. apply (Hd a b); [done|rewrite E2; apply elem_of_app; right; by right|done].
    + by apply (H2 m v post a b).
  - (* pre ++ m = l1, v :: post = m ++ l2 *)
    destruct m as [|x m]; simpl in E2.
    + rewrite app_nil_r in E1. exfalso. apply (Hd a b); [by rewrite E1|rewrite <- E2; by right|done].
    + injection E2 as -> ->. apply elem_of_app in Hb as [Hb|Hb]; [by apply (H1 pre x m a b)|].
      exfalso. apply (Hd a b); [rewrite E1; apply elem_of_app; by left|done|done].
Qed.
Lemma grouped_const f (l : list nl) c : (forall a, a ∈ l -> f a = c) -> grouped f l.
Proof. intros H pre v post a b -> Ha Hb _. rewrite (H v), (H a); [done|..]; apply elem_of_app; [by left|right; by left]. Qed.
Lemma grouped_bind {S} (f : nl -> name) (key : S -> name) (g : S -> list nl) (s : list S) :
  NoDup (key <$> s) -> (forall x a, x ∈ s -> a ∈ g x -> f a = key x) -> grouped f (s ≫= g).
Proof.
  induction s as [|x s IH]; intros Hn Hk; [by intros pre v post a b E; destruct pre|].
  rewrite bind_cons. rewrite fmap_cons in Hn. apply NoDup_cons in Hn as [Hx Hn]. apply grouped_app.
  - apply (grouped_const _ _ (key x)). intros a. apply Hk. by left.
  - apply IH; [done|]. intros y a Hy. apply Hk. by right.
  - intros a b Ha (y & Hb & Hy)%elem_of_list_bind. rewrite (Hk x a), (Hk y b); [|by right|done|by left|done].
    intros E. apply Hx. rewrite E. by apply elem_of_list_fmap_1.
Qed.
Lemma nls_grouped n : good n -> aspects n = 1 -> grouped lay1 (iter_node_layers n) \/ grouped node_of (iter_node_layers n).
Proof.
  intros [HS HL] Ha. unfold iter_node_layers. destruct (slices n) as [|S0 [|S1 [|]]] eqn:Es; try (pose proof (wfS_len _ HS) as Hl; rewrite Es, Ha in Hl; done).
  pose proof (wfS_nodup _ HS) as Hn. rewrite Es in Hn. apply Forall_cons in Hn as [HN0 Hn]. apply Forall_cons in Hn as [HN1 _].
  destruct (fic n).
  - right. cbn [cart]. apply (grouped_bind _ (fun x => x)); [by rewrite list_fmap_id|]. intros x a _ Ha'. apply elem_of_list_fmap in Ha' as (t & -> & _). done.
  - left. apply (grouped_bind _ (fun l => lay1 (nl_of (NInt 0) l))).
    + unfold iter_layers. rewrite Ha, Es. simpl. rewrite <- list_fmap_compose. simpl. by rewrite list_fmap_id.
    + intros l a Hl (x & -> & _)%elem_of_list_fmap. unfold iter_layers in Hl. rewrite Ha in Hl. apply elem_of_list_fmap in Hl as (y & -> & _). done.
Qed.

(** Names that may join a starting node-layer. *)
Lemma safe_names (pre post : list nl) sn sl : NoDup (pre ++ [sn; sl] :: post) ->
  grouped lay1 (pre ++ [sn; sl] :: post) \/ grouped node_of (pre ++ [sn; sl] :: post) ->
  exists CN CL : name -> Prop, CN sn /\ CL sl /\ (forall x, [x; sl] ∉ pre -> (exists l, [x; l] ∈ post) -> CN x) /\
    (forall l, [sn; l] ∉ pre -> (exists x, [x; l] ∈ post) -> CL l) /\ forall x l, CN x -> CL l -> [x; l] ∉ pre.
Proof.
  intros Hnd. assert ([sn; sl] ∉ pre) as Hv. { apply NoDup_app in Hnd as (_ & H & _). intros Hin. apply (H _ Hin). by left. }
  intros [Hg|Hg].
  - exists (fun x => [x; sl] ∉ pre), (fun l => l = sl \/ exists x, [x; l] ∈ post). split; [done|]. split; [by left|]. split; [done|]. split; [by right|].
    intros x l Hx [->|[x0 Hx0]] Hp; [done|]. pose proof (Hg _ _ _ _ _ eq_refl Hp Hx0 eq_refl) as E. cbn in E. by subst.
  - exists (fun x => x = sn \/ exists l, [x; l] ∈ post), (fun l => [sn; l] ∉ pre). split; [by left|]. split; [done|]. split; [by right|]. split; [done|].
    intros x l [->|[x0 Hx0]] Hx Hp; [done|]. pose proof (Hg _ _ _ _ _ eq_refl Hp Hx0 eq_refl) as E. cbn in E. by subst.
Qed.

(** ** removing the links of a finished node-layer *)
Lemma drop_links_ok n v : reachable n -> aspects n = 1 -> directed n = false -> noEdge n = 0%Z -> v ∈ iter_node_layers n ->
  (forall a, ~ linked n a a) ->
  exists n', drop_links n v = Ok n' /\ reachable n' /\ aspects n' = 1 /\ directed n' = false /\ noEdge n' = 0%Z /\
    (forall a, a ∈ iter_node_layers n' <-> a ∈ iter_node_layers n) /\
    (forall a b, linked n' a b <-> linked n a b /\ a <> v /\ b <> v).
Proof.
  intros Hr Ha Hd Hn Hv Hloop. pose proof (reachable_good _ Hr) as Hg. destruct Hr as (asp & noe & dir & fi & h & Hh).
  pose proof (hist_inv _ _ _ _ _ _ Hh) as [HS HL Ha' Hn' Hd' Hf']. rewrite Ha in Ha'. rewrite Hn in Hn'. rewrite Hd in Hd'. subst asp noe dir.
  set (os := (fun b => OpNodeSet b v 0%Z) <$> iter_total n v None).
  assert (forall b, b ∈ iter_total n v None <-> linked n v b) as Hit.
  { intros b. rewrite elem_of_iter_total_any, linked_lnk by done. rewrite Hd. naive_solver. }
  assert (length v = 2) as Hlv by (rewrite (present_len n v) by done; by rewrite Ha).
  assert (forall b, linked n v b -> length b = 2 /\ b ∈ iter_node_layers n /\ b <> v) as Hb2.
  { intros b Hb. split; [destruct Hb as (_ & H & _); by rewrite Ha in H|]. split; [apply linked_lnk in Hb as [w Hw]; [|done]; by destruct (wfL_present _ HL _ _ _ Hw)|]. intros ->. by apply (Hloop v). }
  destruct (build_ok 1 0 false fi os h n Hh) as (n' & E & Hh').
  { apply Forall_forall. intros o Ho. apply elem_of_list_fmap in Ho as (b & -> & Hb%Hit). destruct (Hb2 b Hb) as (H1 & H2 & H3).
    exists b, v, 0%Z. split; [by apply nodeset_write|]. right. by right. }
  exists n'. split; [exact E|]. pose proof (hist_good _ _ _ _ _ _ Hh') as Hg'. pose proof (hist_inv _ _ _ _ _ _ Hh') as [HS' HL' Ha2 Hn2 Hd2 Hf2].
  split; [by exists 1, 0%Z, false, fi, (h ++ os)|]. do 3 (split; [done|]). split.
  - (* node-layers *)
    assert (forall o c, o ∈ os -> creates 1 o c -> c ∈ iter_node_layers n) as Hcr.
    { intros o c Ho Hc. apply elem_of_list_fmap in Ho as (b & -> & Hb%Hit). destruct (Hb2 b Hb) as (H1 & H2 & H3). apply nodeset_creates in Hc; [|done|done]. by destruct Hc as [->| ->]. }
    assert (forall o k x fi', o ∈ os -> mentions 1 fi' o k x -> sl n k x) as Hme.
    { intros o k x fi' Ho Hc. apply elem_of_list_fmap in Ho as (b & -> & Hb%Hit). destruct (Hb2 b Hb) as (H1 & H2 & H3). apply nodeset_mentions in Hc; [|done|done].
      assert (forall c, c ∈ iter_node_layers n -> c !! k = Some x -> sl n k x) as Hin.
      { intros c Hc1 Hc2. apply elem_of_iter_node_layers in Hc1 as [Hc1 _]; [|done]. apply nl_in_slices_sl in Hc1 as [_ Hc1]. by apply Hc1. }
      destruct Hc as [Hc|Hc]; [by apply (Hin b)|by apply (Hin v)]. }
    intros a. destruct fi.
    + simpl in Hf', Hf2. assert (forall m, fic m = true -> wfS m -> aspects m = 1 -> a ∈ iter_node_layers m <-> length a = 2 /\ forall k x, a !! k = Some x -> sl m k x) as Hp.
      { intros m Hfm HSm Ham. rewrite elem_of_iter_node_layers, nl_in_slices_sl, (wfS_len _ HSm), Ham by done. split; [tauto|]. intros ?. split; [done|congruence]. }
      rewrite !Hp by done. assert (forall k x, sl n' k x <-> sl n k x) as Hsl.
      { intros k x. rewrite (hist_sl _ _ _ _ _ _ Hh'), (hist_sl _ _ _ _ _ _ Hh). setoid_rewrite elem_of_app. split.
        - intros (o & [Ho|Ho] & Hm); [eauto|]. apply (Hme o k x _ Ho) in Hm. by apply (hist_sl _ _ _ _ _ _ Hh) in Hm.
        - intros (o & Ho & Hm). eauto. }
      by setoid_rewrite Hsl.
    + rewrite (hist_present_nonfic _ _ _ _ _ Hh'), (hist_present_nonfic _ _ _ _ _ Hh) by done. setoid_rewrite elem_of_app. split.
      * intros (o & [Ho|Ho] & Hm); [eauto|]. apply (Hcr o a Ho) in Hm. by apply (hist_present_nonfic _ _ _ _ _ Hh) in Hm.
      * intros (o & Ho & Hm). eauto.
  - intros a b. rewrite !linked_lnk by done. rewrite <- !rd_noEdge by done. rewrite Hn2, Hn, (hist_refines _ _ _ _ _ _ Hh'), spec_run_app.
    assert (forall o a b w, o ∈ os -> write_of 1 o = Some (a, b, w) -> w = 0%Z /\ b = v /\ linked n v a) as Hw.
    { intros o a' b' w Ho Hw. apply elem_of_list_fmap in Ho as (b0 & -> & Hb%Hit). destruct (Hb2 b0 Hb) as (H1 & _). rewrite nodeset_write in Hw by done. by injection Hw as -> <- <-. }
    destruct (hits_dec 1 false os a b) as [Hx|Hx].
    + rewrite (spec_fold_agree 1 false os _ a b 0%Z); [|intros o a' b' w Ho Hw' _; by destruct (Hw _ _ _ _ Ho Hw')|done].
      split; [done|]. intros (_ & Hav & Hbv). exfalso. destruct Hx as (o & a' & b' & w & Ho & Hw' & Hh2). destruct (Hw _ _ _ _ Ho Hw') as (_ & -> & _).
      destruct Hh2 as [[-> ->]|(_ & -> & ->)]; done.
    + rewrite spec_fold_miss; [|intros o a' b' w Ho Hw' Hh2; apply Hx; eauto 10]. rewrite <- (hist_refines _ _ _ _ _ _ Hh). split; [|tauto].
      intros Hl. split; [done|]. rewrite <- Hn in Hl. apply rd_noEdge in Hl; [|done].
      split; intros ->.
      * apply Hx. exists (OpNodeSet b v 0), b, v, 0%Z. assert (linked n v b) as Hb by by apply linked_lnk. split; [apply elem_of_list_fmap; exists b; split; [done|]; by apply Hit|].
        split; [apply nodeset_write; [by apply Hb2|done]|]. right. done.
      * apply Hx. rewrite (wfL_sym n HL Hd) in Hl. exists (OpNodeSet a v 0), a, v, 0%Z. assert (linked n v a) as Hb by by apply linked_lnk. split; [apply elem_of_list_fmap; exists a; split; [done|]; by apply Hit|].
        split; [apply nodeset_write; [by apply Hb2|done]|]. by left.
Qed.

(** ** all starting node-layers *)
Section run.
Context (n : mlnet) (nls : list nl) (copy : bool) (chk : checker) (rn rl : Z) (p : list Q) (P : list name -> list name -> Prop).
Context (Hnd : NoDup nls) (Hlen : forall a, a ∈ nls -> length a = 2) (Hgr : grouped lay1 nls \/ grouped node_of nls).
Context (Hnls : forall a, a ∈ iter_node_layers n <-> a ∈ nls).
Context (Hdec : decides n rn rl chk P) (Hrn : (1 <= rn)%Z) (Hrl : (1 <= rl)%Z) (Hp : (rn + rl - 1 <= Z.of_nat (length p))%Z).

(** The working network when the node-layers [pre] are finished. *)
Definition work_ok (m : mlnet) (pre : list nl) : Prop :=
  reachable m /\ aspects m = 1 /\ directed m = false /\ (forall a, a ∈ iter_node_layers m <-> a ∈ nls) /\
  (forall a b, a ∉ pre -> b ∉ pre -> linked m a b <-> linked n a b) /\
  (copy = true -> noEdge m = 0%Z /\ forall a, ~ linked m a a).
Definition avoids (pre : list nl) (r : list name * list name) : Prop := forall x l, x ∈ r.1 -> l ∈ r.2 -> [x; l] ∉ pre.
Definition contains (v : nl) (r : list name * list name) : Prop := exists x l, v = [x; l] /\ x ∈ r.1 /\ l ∈ r.2.
Notation pass := (passes p).

Lemma work_same m pre A B : work_ok m pre -> avoids pre (A, B) -> same_induced n m A B.
Proof.
  intros (_ & _ & _ & Hm & Hl & _) Hav.
  assert (forall a, sel_in n A B a <-> sel_in m A B a) as Hs. { intros a. unfold sel_in. by rewrite Hm, Hnls. }
  split; [done|]. intros a b. unfold sel_linked. rewrite <- !Hs. split; intros (H1 & H2 & H3); (split; [done|]); (split; [done|]).
  - apply Hl; [..|done].
    + destruct H1 as (_ & x & l & -> & Hx & Hl'). by apply Hav.
    + destruct H2 as (_ & x & l & -> & Hx & Hl'). by apply Hav.
  - apply Hl; [..|done].
    + destruct H1 as (_ & x & l & -> & Hx & Hl'). by apply Hav.
    + destruct H2 as (_ & x & l & -> & Hx & Hl'). by apply Hav.
Qed.
Lemma not_same_avoids v pre (r r' : list name * list name) : v ∈ pre -> contains v r -> avoids pre r' -> ~ same_sel r r'.
Proof. intros Hv (x & l & -> & Hx & Hl) Hav [H1 H2]. apply (Hav x l); [by apply H1|by apply H2|done]. Qed.

(** A connected selection can be grown from any part of it. *)
Lemma grow X Y A B v : sel_connected n X Y -> sel_full n X Y -> A ⊆ X -> B ⊆ Y -> v ∈ cart [A; B] -> v ∈ nls ->
  (exists x, x ∈ X /\ x ∉ A) \/ (exists l, l ∈ Y /\ l ∉ B) ->
  exists a b, a ∈ cart [A; B] /\ sel_linked n X Y a b /\ b ∉ cart [A; B].
Proof.
  intros [_ Hc] [Hf1 Hf2] HA HB Hv Hvn Hex.
  assert (exists b, sel_in n X Y b /\ b ∉ cart [A; B]) as (b & Hb & Hbn).
  { destruct Hex as [(x & Hx & Hxn)|(l & Hl & Hln)].
    - destruct (Hf1 x Hx) as (l & Hl & Hin). exists [x; l]. split; [split; [done|]; eauto|]. intros (y & m & [= <- <-] & ? & ?)%elem_cart2. done.
    - destruct (Hf2 l Hl) as (x & Hx & Hin). exists [x; l]. split; [split; [done|]; eauto|]. intros (y & m & [= <- <-] & ? & ?)%elem_cart2. done. }
  assert (sel_in n X Y v) as Hvs. { split; [by apply Hnls|]. apply elem_cart2 in Hv as (x & l & -> & Hx & Hl). exists x, l. auto. }
  pose proof (Hc v b Hvs Hb) as Hrt. clear Hc Hb Hex Hvs Hvn. induction Hrt as [v|v c b Hs Hrt IH]; [done|].
  destruct (decide (c ∈ cart [A; B])) as [Hcin|Hcin]; [by apply IH|]. by exists v, c.
Qed.

Lemma elem_total m a b : good m -> directed m = false -> b ∈ iter_total m a None <-> linked m a b.
Proof. intros Hg Hd. rewrite elem_of_iter_total_any, linked_lnk by done. rewrite Hd. naive_solver. Qed.
Lemma linked_present m a b : good m -> linked m a b -> a ∈ iter_node_layers m /\ b ∈ iter_node_layers m.
Proof. intros Hg H. apply linked_lnk in H as [w Hw]; [|done]. by apply (wfL_present _ (proj2 Hg) _ _ _ Hw). Qed.

Lemma root_ok m pre v post rs orc : nls = pre ++ v :: post -> work_ok m pre ->
  match esu_root copy nls chk rn rl p (m, rs, orc) v with
  | Err e => e = OutOfFuel
  | Ok (m', rs', orc') => (exists used, orc = used ++ orc') /\ exists new, rs' = rs ++ new /\ work_ok m' (pre ++ [v]) /\
      (forall r, r ∈ new -> wanted rn rl P r /\ contains v r /\ avoids pre r) /\ sels_distinct new /\
      (pass orc -> forall r, wanted rn rl P r -> contains v r -> avoids pre r -> exists r', r' ∈ new /\ same_sel r' r)
  end.
Proof.
  intros Hsplit Hw. pose proof Hw as (Hr & Ha & Hd & Hm & Hl & Hcopy). pose proof (reachable_good _ Hr) as Hg.
  assert (v ∈ nls) as Hv by (rewrite Hsplit; apply elem_of_app; right; by left).
  assert (exists sn sl, v = [sn; sl]) as (sn & sl & ->). { specialize (Hlen v Hv). destruct v as [|sn [|sl [|]]]; try done. eauto. }
  destruct (safe_names pre post sn sl) as (CN & CL & S1 & S2 & S3 & S4 & S5); [by rewrite <- Hsplit|by rewrite <- Hsplit|].
  assert (forall a b, lk m a b -> a ∈ nls /\ b ∈ nls) as Hlk.
  { intros a b H. apply elem_total in H; [|done|done]. rewrite <- !Hm. by apply linked_present. }
  cbn [esu_root]. destruct orc as [|[i q] orc]; [done|].
  assert (exists p0 ps, p = p0 :: ps) as (p0 & ps & Ep). { destruct p as [|p0 ps]; [simpl in Hp; lia|eauto]. }
  replace (match p with [] => Err IndexError | p1 :: _ => _ end) with
    (let? r := if qlt q p0 then
                  let e := root_ext m nls [sn; sl] in
                  esu_extend m nls chk [sn; sl] rn rl p (S (Z.to_nat rn + Z.to_nat rl)) 1 [sn] [sl] (e.1) (e.2) rs orc
                else Ok (rs, orc) in
      let? n' := if copy then drop_links m [sn; sl] else Ok m in
      Ok (n', r.1, r.2)) by (by rewrite Ep).
  assert (forall rs1 orc1 new, (exists used, orc = used ++ orc1) -> rs1 = rs ++ new ->
    (forall r, r ∈ new -> wanted rn rl P r /\ contains [sn; sl] r /\ avoids pre r) -> sels_distinct new ->
    (pass ((i, q) :: orc) -> forall r, wanted rn rl P r -> contains [sn; sl] r -> avoids pre r -> exists r', r' ∈ new /\ same_sel r' r) ->
    match (let? n' := if copy then drop_links m [sn; sl] else Ok m in Ok (n', rs1, orc1)) with
    | Err e => e = OutOfFuel
    | Ok (m', rs', orc') => (exists used, (i, q) :: orc = used ++ orc') /\ exists new, rs' = rs ++ new /\ work_ok m' (pre ++ [[sn; sl]]) /\
      (forall r, r ∈ new -> wanted rn rl P r /\ contains [sn; sl] r /\ avoids pre r) /\ sels_distinct new /\
      (pass ((i, q) :: orc) -> forall r, wanted rn rl P r -> contains [sn; sl] r -> avoids pre r -> exists r', r' ∈ new /\ same_sel r' r)
    end) as Hfin.
  { intros rs1 orc1 new [used ->] -> N1 N2 N3. destruct copy eqn:Ecopy.
    - destruct (Hcopy eq_refl) as [Hn0 Hloop].
      destruct (drop_links_ok m [sn; sl] Hr Ha Hd Hn0 (proj2 (Hm _) Hv) Hloop) as (m' & E & Hr' & Ha' & Hd' & Hn' & Hi' & Hl'). rewrite E. cbn [rbind].
      split; [by exists ((i, q) :: used)|]. exists new. split; [done|]. split; [|done].
      split; [done|]. split; [done|]. split; [done|]. split; [intros a; by rewrite Hi', Hm|]. split.
      + intros a b Ha1 Hb1. rewrite Hl'. rewrite not_elem_of_app, elem_of_list_singleton in Ha1, Hb1. rewrite (Hl a b) by tauto. tauto.
      + intros _. split; [done|]. intros a [H _]%Hl'. by apply (Hloop a).
    - cbn [rbind]. split; [by exists ((i, q) :: used)|]. exists new. split; [done|]. split; [|done].
      split; [done|]. split; [done|]. split; [done|]. split; [done|]. split; [|intros Hcc; congruence].
      intros a b Ha1 Hb1. rewrite not_elem_of_app in Ha1, Hb1. apply Hl; tauto. }
  destruct (qlt q p0) eqn:Eq.
  2:{ cbn [rbind fst snd]. apply (Hfin rs orc []); [by exists []|by rewrite app_nil_r|by intros r ?%elem_of_nil|apply sels_distinct_nil|].
      intros Hpass. exfalso. specialize (Hpass (i, q) p0 (ltac:(by left))). rewrite Ep in Hpass. specialize (Hpass (ltac:(by left))). simpl in Hpass. congruence. }
  cbv zeta.
  pose proof (root_ext_spec m pre post sn sl) as Hroot. rewrite <- Hsplit in Hroot. specialize (Hroot Hnd). destruct Hroot as (R1 & R2 & R3 & R4).
  assert (inv m pre post sn sl CN CL [sn] [sl] (root_ext m nls [sn; sl]).1 (root_ext m nls [sn; sl]).2) as Hinv.
  { assert (forall b, b ∈ post -> b = [node_of b; lay1 b]) as Hpost.
    { intros b Hb. assert (length b = 2) as H2 by (apply Hlen; rewrite Hsplit; apply elem_of_app; right; by right). destruct b as [|x [|l [|]]]; done. }
    split; [split; [apply NoDup_singleton|]; split; [apply NoDup_singleton|done]|]. split; [split; [by intros x [? _]%R3|by intros x [? _]%R4]|].
    split; [split|split; by left].
    - intros x [->%elem_of_list_singleton|[(_ & a & b & _ & _ & _ & Hb & <-) Hx]%R3]; [done|]. apply S3; [done|]. exists (lay1 b). by rewrite <- Hpost.
    - intros x [->%elem_of_list_singleton|[(_ & a & b & _ & _ & _ & Hb & <-) Hx]%R4]; [done|]. apply S4; [done|]. exists (node_of b). by rewrite <- Hpost. }
  assert (forall A B, (forall x, x ∈ A -> CN x) -> (forall l, l ∈ B -> CL l) -> avoids pre (A, B)) as Hsafe.
  { intros A B HA HB x l Hx Hl'. apply S5; [by apply HA|by apply HB]. }
  assert (forall A B, NoDup A -> NoDup B -> Z.of_nat (length A) = rn -> Z.of_nat (length B) = rl -> avoids pre (A, B) ->
    exists b, chk m A B = Ok b /\ (b = true <-> P A B)) as Hchk.
  { intros A B H1 H2 H3 H4 H5. apply (proj1 Hdec); try done; [intros a; by rewrite Hm, Hnls|]. by apply (work_same m pre). }
  pose proof (esu_extend_ok m pre post sn sl) as HE. rewrite <- Hsplit in HE.
  specialize (HE Hnd Hlen Hlk CN CL S3 S4 chk rn rl p).
  specialize (HE (ltac:(intros A B H1 H2 H3 H4 H5 H6; destruct (Hchk A B) as (b & Eb & _); eauto)) Hp (S (Z.to_nat rn + Z.to_nat rl)) 1 [sn] [sl] _ _ rs orc Hinv eq_refl).
  destruct (esu_extend _ _ _ _ _ _ _ _ _ _ _ _ _ _ _) as [[rs1 orc1]|e]; [|done]. cbn [rbind fst snd].
  destruct HE as (Hu & new & -> & G & D & F). apply (Hfin _ orc1 new); [done|done| |done|].
  - intros r Hr'. destruct (G r Hr') as ((G1 & G2 & G3 & G4 & G5) & (G6 & G7 & G8 & G9) & _).
    assert (avoids pre r) as Hav by (destruct r; by apply Hsafe).
    split; [|split; [|done]].
    + split; [done|]. split; [done|]. split; [done|]. split; [done|]. destruct (Hchk (r.1) (r.2)) as (b & Eb & Hb); try done. apply Hb. congruence.
    + exists sn, sl. split; [done|]. split; [apply G6; by left|apply G7; by left].
  - intros Hpass [X Y] (W1 & W2 & W3 & W4 & W5) (x0 & l0 & [= <- <-] & HX & HY) Hav. cbn [fst snd] in *.
    destruct (proj2 (proj2 Hdec) X Y W5) as [Hcon Hfull].
    destruct (F (ltac:(by apply (passes_app p [(i, q)]))) X Y) as (r & Hr' & Hs).
    + split; [|split].
      * do 4 (split; [done|]). intros A B HA HB. destruct (Hchk A B) as (b & -> & Hb); [by rewrite HA|by rewrite HB|by rewrite HA|by rewrite HB|intros x l; simpl; rewrite HA, HB; apply Hav|].
        f_equal. apply Hb. by apply (proj1 (proj2 Hdec) X Y).
      * intros x l Hx Hl'. by apply (Hav x l).
      * intros A B HA HB HsA HsB Hex. destruct (grow X Y A B [sn; sl] Hcon Hfull HA HB) as (a & b & Ha' & (Hsa & Hsb & Hlab) & Hb'); [apply elem_cart2; eauto|done|done|].
        exists a, b. split; [done|]. split; [rewrite <- Hsplit; apply Hnls, Hsa|]. split.
        { apply elem_total; [done|done|]. apply Hl; [..|done].
          - destruct Hsa as (_ & x & l & -> & Hx & Hl'). by apply (Hav x l).
          - destruct Hsb as (_ & x & l & -> & Hx & Hl'). by apply (Hav x l). }
        split; [|done]. apply elem_cart2. apply Hsb.
    + by intros z ->%elem_of_list_singleton.
    + by intros z ->%elem_of_list_singleton.
    + split.
      * intros x Hx. destruct (decide (x ∈ [sn])); [by left|]. destruct (decide (x ∈ (root_ext m nls [sn; sl]).1)) as [|Hx']; [by right; left|].
        right. right. intros Hnb. apply Hx', R3. split; [done|]. by apply (Hav x sl).
      * intros x Hx. destruct (decide (x ∈ [sl])); [by left|]. destruct (decide (x ∈ (root_ext m nls [sn; sl]).2)) as [|Hx']; [by right; left|].
        right. right. intros Hnb. apply Hx', R4. split; [done|]. by apply (Hav sn x).
    + exists r. done.
Qed.

Lemma roots_ok post : forall m pre rs orc, nls = pre ++ post -> work_ok m pre ->
  match rfold (esu_root copy nls chk rn rl p) (m, rs, orc) post with
  | Err e => e = OutOfFuel
  | Ok (m', rs', orc') => (exists used, orc = used ++ orc') /\ exists new, rs' = rs ++ new /\
      (forall r, r ∈ new -> wanted rn rl P r /\ avoids pre r) /\ sels_distinct new /\
      (pass orc -> forall r, wanted rn rl P r -> avoids pre r -> exists r', r' ∈ new /\ same_sel r' r)
  end.
Proof.
  induction post as [|v post IH]; intros m pre rs orc Hsplit Hw; cbn [rfold].
  - split; [by exists []|]. exists []. split; [by rewrite app_nil_r|]. split; [by intros r ?%elem_of_nil|]. split; [apply sels_distinct_nil|].
    intros _ r (W1 & W2 & W3 & W4 & W5) Hav. exfalso. destruct (proj2 (proj2 Hdec) _ _ W5) as [[(a & Ha & x & l & -> & Hx & Hl) _] _].
    apply Hnls in Ha. rewrite Hsplit, app_nil_r in Ha. by apply (Hav x l).
  - pose proof (root_ok m pre v post rs orc Hsplit Hw) as HR. destruct (esu_root copy nls chk rn rl p (m, rs, orc) v) as [[[m1 rs1] orc1]|e]; [|done].
    cbn [rbind]. destruct HR as ([u1 ->] & new1 & -> & Hw1 & G1 & D1 & F1).
    specialize (IH m1 (pre ++ [v]) (rs ++ new1) orc1 (ltac:(by rewrite <- app_assoc)) Hw1).
    destruct (rfold _ _ _) as [[[m2 rs2] orc2]|e]; [|done]. destruct IH as ([u2 ->] & new2 & -> & G2 & D2 & F2).
    assert (forall r, avoids (pre ++ [v]) r <-> avoids pre r /\ ~ contains v r) as Hsp.
    { intros r. unfold avoids, contains. setoid_rewrite not_elem_of_app. split.
      - intros H. split; [intros x l Hx Hl; by apply H|]. intros (x & l & -> & Hx & Hl). destruct (H x l Hx Hl) as [_ H']. apply H'. by left.
      - intros [H1 H2] x l Hx Hl. split; [by apply H1|]. intros Hv%elem_of_list_singleton. apply H2. eauto. }
    split; [exists (u1 ++ u2); by rewrite app_assoc|]. exists (new1 ++ new2). split; [by rewrite app_assoc|]. split; [|split].
    + intros r [Hr|Hr]%elem_of_app; [destruct (G1 r Hr) as (? & ? & ?); done|]. destruct (G2 r Hr) as [? [? _]%Hsp]. done.
    + apply sels_distinct_app; [done|done|]. intros r r' Hr Hr'. destruct (G1 r Hr) as (_ & Hc & _). destruct (G2 r' Hr') as [_ Hav].
      apply (not_same_avoids v (pre ++ [v])); [|done|done]. apply elem_of_app. right. by left.
    + intros Hpass r Hwt Hav. assert (Decision (contains v r)) as Hdc.
      { destruct v as [|x [|l [|]]]; try (right; intros (? & ? & ? & _); done).
        destruct (decide (x ∈ r.1)); [|right; intros (? & ? & [= -> ->] & ? & ?); done].
        destruct (decide (l ∈ r.2)); [|right; intros (? & ? & [= -> ->] & ? & ?); done]. left. exists x, l. done. }
      destruct Hdc as [Hc|Hc].
      * destruct (F1 Hpass r Hwt Hc Hav) as (r' & Hr' & Hs). exists r'. split; [apply elem_of_app; by left|done].
      * destruct (F2 (passes_app p u1 _ Hpass) r Hwt) as (r' & Hr' & Hs); [by apply Hsp|]. exists r'. split; [apply elem_of_app; by right|done].
Qed.

(** A run that is given enough random choices exists. *)
Lemma root_runs q0 m pre v post : nls = pre ++ v :: post -> work_ok m pre ->
  exists (o : oracle) m', (forall iq, iq ∈ o -> iq.2 = q0) /\ work_ok m' (pre ++ [v]) /\
    forall rs rest, exists rs', esu_root copy nls chk rn rl p (m, rs, o ++ rest) v = Ok (m', rs', rest).
Proof.
  intros Hsplit Hw. pose proof Hw as (Hr & Ha & Hd & Hm & Hl & Hcopy). pose proof (reachable_good _ Hr) as Hg.
  assert (v ∈ nls) as Hv by (rewrite Hsplit; apply elem_of_app; right; by left).
  assert (exists sn sl, v = [sn; sl]) as (sn & sl & ->). { specialize (Hlen v Hv). destruct v as [|sn [|sl [|]]]; try done. eauto. }
  destruct (safe_names pre post sn sl) as (CN & CL & S1 & S2 & S3 & S4 & S5); [by rewrite <- Hsplit|by rewrite <- Hsplit|].
  assert (forall a b, lk m a b -> a ∈ nls /\ b ∈ nls) as Hlk.
  { intros a b H. apply elem_total in H; [|done|done]. rewrite <- !Hm. by apply linked_present. }
  assert (exists p0 ps, p = p0 :: ps) as (p0 & ps & Ep). { destruct p as [|p0 ps]; [simpl in Hp; lia|eauto]. }
  assert (exists m', (if copy then drop_links m [sn; sl] else Ok m) = Ok m' /\ work_ok m' (pre ++ [[sn; sl]])) as (m' & Em & Hw').
  { destruct copy eqn:Ecopy.
    - destruct (Hcopy eq_refl) as [Hn0 Hloop].
      destruct (drop_links_ok m [sn; sl] Hr Ha Hd Hn0 (proj2 (Hm _) Hv) Hloop) as (m' & E & Hr' & Ha' & Hd' & Hn' & Hi' & Hl'). exists m'. split; [done|].
      split; [done|]. split; [done|]. split; [done|]. split; [intros a; by rewrite Hi', Hm|]. split.
      + intros a b Ha1 Hb1. rewrite Hl'. rewrite not_elem_of_app, elem_of_list_singleton in Ha1, Hb1. rewrite (Hl a b) by tauto. tauto.
      + intros _. split; [done|]. intros a [H _]%Hl'. by apply (Hloop a).
    - exists m. split; [done|]. split; [done|]. split; [done|]. split; [done|]. split; [done|]. split; [|intros Hcc; congruence].
      intros a b Ha1 Hb1. rewrite not_elem_of_app in Ha1, Hb1. apply Hl; tauto. }
  pose proof (root_ext_spec m pre post sn sl) as Hroot. rewrite <- Hsplit in Hroot. specialize (Hroot Hnd). destruct Hroot as (R1 & R2 & R3 & R4).
  assert (inv m pre post sn sl CN CL [sn] [sl] (root_ext m nls [sn; sl]).1 (root_ext m nls [sn; sl]).2) as Hinv.
  { assert (forall b, b ∈ post -> b = [node_of b; lay1 b]) as Hpost.
    { intros b Hb. assert (length b = 2) as H2 by (apply Hlen; rewrite Hsplit; apply elem_of_app; right; by right). destruct b as [|x [|l [|]]]; done. }
    split; [split; [apply NoDup_singleton|]; split; [apply NoDup_singleton|done]|]. split; [split; [by intros x [? _]%R3|by intros x [? _]%R4]|].
    split; [split|split; by left].
    - intros x [->%elem_of_list_singleton|[(_ & a & b & _ & _ & _ & Hb & <-) Hx]%R3]; [done|]. apply S3; [done|]. exists (lay1 b). by rewrite <- Hpost.
    - intros x [->%elem_of_list_singleton|[(_ & a & b & _ & _ & _ & Hb & <-) Hx]%R4]; [done|]. apply S4; [done|]. exists (node_of b). by rewrite <- Hpost. }
  pose proof (esu_extend_runs m pre post sn sl) as HE. rewrite <- Hsplit in HE. specialize (HE Hnd Hlen Hlk CN CL S3 S4 chk rn rl p).
  assert (forall A B, NoDup A -> NoDup B -> Z.of_nat (length A) = rn -> Z.of_nat (length B) = rl ->
    (forall x, x ∈ A -> CN x) -> (forall l, l ∈ B -> CL l) -> exists b, chk m A B = Ok b) as Hchk.
  { intros A B H1 H2 H3 H4 H5 H6. destruct (proj1 Hdec m A B) as (b & Eb & _); try done; [intros a; by rewrite Hm, Hnls| |eauto].
    apply (work_same m pre); [done|]. intros x l Hx Hl'. apply S5; [by apply H5|by apply H6]. }
  destruct (HE Hchk Hp q0 (S (Z.to_nat rn + Z.to_nat rl)) 1 [sn] [sl] _ _ Hinv eq_refl (ltac:(done)) (ltac:(simpl; lia))) as (o & Ho & Hrun).
  destruct (qlt q0 p0) eqn:Eq.
  - exists ((0, q0) :: o), m'. split; [intros iq [->|?]%elem_of_cons; [done|by apply Ho]|]. split; [done|].
    intros rs rest. destruct (Hrun rs rest) as [rs' E]. exists rs'. cbn [esu_root app].
    replace (match p with [] => Err IndexError | p1 :: _ => _ end) with
    (let? r := if qlt q0 p0 then
                  let e := root_ext m nls [sn; sl] in
                  esu_extend m nls chk [sn; sl] rn rl p (S (Z.to_nat rn + Z.to_nat rl)) 1 [sn] [sl] (e.1) (e.2) rs (o ++ rest)
                else Ok (rs, o ++ rest) in
      let? n' := if copy then drop_links m [sn; sl] else Ok m in
      Ok (n', r.1, r.2)) by (by rewrite Ep).
    rewrite Eq. cbv zeta. rewrite E. cbn [rbind fst snd]. by rewrite Em.
  - exists [(0, q0)], m'. split; [by intros iq ->%elem_of_list_singleton|]. split; [done|].
    intros rs rest. exists rs. cbn [esu_root app].
    replace (match p with [] => Err IndexError | p1 :: _ => _ end) with
    (let? r := if qlt q0 p0 then
                  let e := root_ext m nls [sn; sl] in
                  esu_extend m nls chk [sn; sl] rn rl p (S (Z.to_nat rn + Z.to_nat rl)) 1 [sn] [sl] (e.1) (e.2) rs rest
                else Ok (rs, rest) in
      let? n' := if copy then drop_links m [sn; sl] else Ok m in
      Ok (n', r.1, r.2)) by (by rewrite Ep).
    rewrite Eq. cbn [rbind fst snd]. by rewrite Em.
Qed.
Lemma roots_run q0 post : forall m pre, nls = pre ++ post -> work_ok m pre ->
  exists (o : oracle), (forall iq, iq ∈ o -> iq.2 = q0) /\
    forall rs, exists m' rs', rfold (esu_root copy nls chk rn rl p) (m, rs, o) post = Ok (m', rs', []).
Proof.
  induction post as [|v post IH]; intros m pre Hsplit Hw.
  - exists []. split; [by intros iq ?%elem_of_nil|]. intros rs. by exists m, rs.
  - destruct (root_runs q0 m pre v post Hsplit Hw) as (o1 & m1 & Ho1 & Hw1 & Hr1).
    destruct (IH m1 (pre ++ [v]) (ltac:(by rewrite <- app_assoc)) Hw1) as (o2 & Ho2 & Hr2).
    exists (o1 ++ o2). split; [intros iq [?|?]%elem_of_app; [by apply Ho1|by apply Ho2]|]. intros rs.
    destruct (Hr1 rs o2) as [rs1 E1]. destruct (Hr2 rs1) as (m2 & rs2 & E2). exists m2, rs2. cbn [rfold]. rewrite E1. cbn [rbind]. exact E2.
Qed.
End run.

(** ** the whole enumeration *)
Lemma qlt_true a b : qlt a b = true <-> (a < b)%Q.
Proof. unfold qlt. destruct (Qlt_le_dec a b); [done|]. split; [done|]. intros H. by apply Qlt_not_le in H. Qed.
Lemma esu_run_ok n m copy rn rl chk P p : reachable m -> aspects m = 1 -> directed m = false ->
  (forall a, a ∈ iter_node_layers m <-> a ∈ iter_node_layers n) -> (forall a b, linked m a b <-> linked n a b) ->
  (copy = true -> noEdge m = 0%Z /\ forall a, ~ linked m a a) ->
  decides n rn rl chk P -> (1 <= rn)%Z -> (1 <= rl)%Z -> (forall ps, p = Some ps -> (rn + rl - 1 <= Z.of_nat (length ps))%Z) ->
  (forall orc, esu_run copy m rn rl chk p orc = Err OutOfFuel \/ exists rs, esu_run copy m rn rl chk p orc = Ok rs /\
     only_wanted rn rl P rs /\ (draws_pass p orc -> all_wanted rn rl P rs)) /\
  (forall q, exists orc rs, (forall iq, iq ∈ orc -> iq.2 = q) /\ esu_run copy m rn rl chk p orc = Ok rs).
Proof.
  intros Hr Ha Hd Hm Hl Hc Hdec Hrn Hrl Hp. pose proof (reachable_good _ Hr) as Hg.
  assert (NoDup (iter_node_layers m)) as Hnd by apply NoDup_iter_node_layers, Hg.
  assert (forall a, a ∈ iter_node_layers m -> length a = 2) as Hlen. { intros a Ha'. rewrite (present_len m a) by done. by rewrite Ha. }
  pose proof (nls_grouped m Hg Ha) as Hgr.
  assert (forall a, a ∈ iter_node_layers n <-> a ∈ iter_node_layers m) as Hnls by (intros a; by rewrite Hm).
  set (p' := match p with Some p => p | None => replicate (Z.to_nat (rn - 1 + rl - 1 + 1)) 1%Q end).
  assert ((rn + rl - 1 <= Z.of_nat (length p'))%Z) as Hp'. { unfold p'. destruct p as [ps|]; [by apply Hp|]. rewrite replicate_length. lia. }
  assert (work_ok n (iter_node_layers m) copy m []) as Hw by done.
  split.
  - intros orc. unfold esu_run. fold p'.
    pose proof (roots_ok n (iter_node_layers m) copy chk rn rl p' P Hnd Hlen Hgr Hnls Hdec Hrn Hrl Hp' (iter_node_layers m) m [] [] orc eq_refl Hw) as HR.
    destruct (rfold _ _ _) as [[[m' rs'] orc']|e]; [|left; by rewrite HR]. right. cbn [rbind fst snd]. destruct HR as (_ & new & -> & G & D & F). exists new. split; [done|]. split.
    + split; [|done]. intros r Hr'. by destruct (G r Hr').
    + intros Hpass r Hwt. apply F; [|done|by intros x l _ _ ?%elem_of_nil]. intros iq pr Hiq Hpr. apply qlt_true. specialize (Hpass iq Hiq).
      unfold p' in Hpr. destruct p as [ps|]; [by apply Hpass|]. apply elem_of_replicate in Hpr as [-> _]. done.
  - intros q. destruct (roots_run n (iter_node_layers m) copy chk rn rl p' P Hnd Hlen Hgr Hnls Hdec Hrn Hrl Hp' q (iter_node_layers m) m [] eq_refl Hw) as (o & Ho & Hrun).
    destruct (Hrun []) as (m' & rs' & E). exists o, rs'. split; [done|]. unfold esu_run. fold p'. rewrite E. done.
Qed.

(** ** the working copy *)
Lemma copy_sel n : good n -> aspects n = 1 -> forall a, (forall k x, a !! k = Some x -> sl n k x) -> sel_nl (copy_args n) a.
Proof.
  intros Hg Ha a Hin k x o Hk Ho. specialize (Hin k x Hk). destruct Hin as (s & Hs & Hx). unfold copy_args in Ho.
  destruct k as [|[|k]]; simpl in Ho; [injection Ho as <-; simpl; by rewrite Hs|injection Ho as <-; simpl; by rewrite Hs|by rewrite lookup_nil in Ho].
Qed.
Lemma elem_of_copy_links n o : good n -> aspects n = 1 -> directed n = false ->
  o ∈ (cart (selection n (copy_args n)) ≫= copy_link_ops n (selection n (copy_args n))) <->
  exists a b, o = OpNodeSet a b (rd n a b) /\ is_Some (lnk n a b).
Proof.
  intros Hg Ha Hd. set (args := copy_args n). assert (length args = S (aspects n)) as Hl by by rewrite Ha.
  assert (length (selection n args) = length args) as Hls by (unfold selection; apply imap_length).
  assert (forall b, b ∈ cart (selection n args) -> length b = S (aspects n)) as Hlen.
  { intros b Hb%elem_of_cart%Forall2_length. congruence. }
  rewrite elem_of_list_bind. split.
  - intros (a & Ho & Hain). pose proof (Hlen a Hain) as Hla. unfold copy_link_ops in Ho. exists a.
    destruct (decide _) as [_|_]; apply elem_of_list_fmap in Ho as (b & -> & Hb); apply elem_of_list_filter in Hb as [Hb1 Hb2].
    + pose proof (Hlen b Hb2) as Hlb. rewrite weight_rd in * by congruence. exists b. split; [done|]. by apply rd_noEdge.
    + apply elem_of_iter_total_any in Hb2; [|done]. rewrite Hd in Hb2. exists b. destruct Hb2 as [Hb2|[? _]]; [|done].
      destruct (lnk_lengths n _ _ Hg Hb2). rewrite weight_rd by congruence. done.
  - intros (a & b & -> & Hk). destruct (lnk_slices n a b Hg Hk) as (_ & _ & Hsa & Hsb). destruct (lnk_lengths n a b Hg Hk) as [Hla Hlb].
    pose proof (copy_sel n Hg Ha a Hsa) as Sa. pose proof (copy_sel n Hg Ha b Hsb) as Sb.
    destruct (selected_iff n args a Hl Hla Hsa) as [_ Ea]. destruct (selected_iff n args b Hl Hlb Hsb) as [Eb1 Eb2].
    exists a. split; [|tauto]. rewrite <- weight_rd by congruence. unfold copy_link_ops.
    destruct (decide _) as [_|_]; apply elem_of_list_fmap; exists b; (split; [done|]); apply elem_of_list_filter; split.
    + rewrite weight_rd by congruence. by apply rd_noEdge.
    + tauto.
    + tauto.
    + apply elem_of_iter_total_any; [done|]. by left.
Qed.
Lemma esu_copy_ok n : reachable n -> aspects n = 1 -> directed n = false -> (forall a b, linked n a b -> ~ reads n a b 0) ->
  exists m, esu_copy n = Ok m /\ reachable m /\ aspects m = 1 /\ directed m = false /\ noEdge m = 0%Z /\
    (forall a, a ∈ iter_node_layers m <-> a ∈ iter_node_layers n) /\ (forall a b, linked m a b <-> linked n a b).
Proof.
  intros Hr Ha Hd Hnz. pose proof (reachable_good _ Hr) as Hg. pose proof Hg as [HS HL].
  set (args := copy_args n). set (sel := selection n args). assert (length args = S (aspects n)) as Hl by by rewrite Ha.
  set (lops := sub_layer_ops n sel). set (nops := (fun a => OpAddNode (node_of a) (Some (lay_arg (tail a)))) <$> sub_nls n sel).
  set (kops := cart sel ≫= copy_link_ops n sel).
  assert (forall a, a ∈ iter_node_layers n -> length a = 2 /\ (forall k x, a !! k = Some x -> sl n k x)) as Hnl.
  { intros a Ha'. split; [rewrite (present_len n a) by done; by rewrite Ha|]. apply elem_of_iter_node_layers in Ha' as [Ha' _]; [|done]. by apply nl_in_slices_sl in Ha' as [_ Ha']. }
  assert (forall a, a ∈ sub_nls n sel <-> a ∈ iter_node_layers n) as Hsn.
  { intros a. unfold sub_nls. rewrite elem_of_list_filter. split; [tauto|]. intros H. split; [|done]. destruct (Hnl a H) as [Hla Hsa].
    destruct (selected_iff n args a Hl (ltac:(by rewrite Ha)) Hsa) as [E _]. apply E. by apply copy_sel. }
  assert (forall o, o ∈ kops <-> exists a b, o = OpNodeSet a b (rd n a b) /\ is_Some (lnk n a b)) as Hko by (intros o; by apply elem_of_copy_links).
  assert (forall a b, is_Some (lnk n a b) -> length a = 2 /\ length b = 2 /\ a ∈ iter_node_layers n /\ b ∈ iter_node_layers n /\ rd n a b <> 0%Z) as Hk2.
  { intros a b Hk. destruct (lnk_lengths n a b Hg Hk) as [Hla Hlb]. destruct (lnk_slices n a b Hg Hk) as (? & ? & _). rewrite Ha in Hla, Hlb. do 4 (split; [done|]).
    intros Hz0. apply (Hnz a b); [by apply linked_lnk|]. apply reads_rd; [by rewrite Ha..|done]. }
  assert (forall a, a ∈ iter_node_layers n -> length (tail a) = 1 /\ a = node_of a :: tail a) as Htl.
  { intros a Ha'. destruct (Hnl a Ha') as [Hla _]. destruct a; simpl in *; [lia|]. split; [lia|done]. }
  destruct (build_new_ok 1 0 false false (lops ++ nops ++ kops)) as (m & E & Hh).
  { apply Forall_app. split; [|apply Forall_app; split]; apply Forall_forall; intros o Ho.
    - apply elem_of_sub_layer_ops in Ho as (k & x & arg & -> & Hs & _); [|done]. simpl. rewrite <- Ha. by eapply sl_le.
    - apply elem_of_list_fmap in Ho as (a & -> & Ha'%Hsn). destruct (Htl a Ha') as [Ht _]. simpl. right. right. apply lay_arg_form; [done|lia].
    - apply Hko in Ho as (a & b & -> & Hk). destruct (Hk2 a b Hk) as (Hla & Hlb & _ & _ & Hne). exists a, b, (rd n a b). split; [by apply nodeset_write|]. by left. }
  exists m. split.
  { unfold esu_copy. fold args sel lops nops. rewrite build_app in E. destruct (build _ lops) as [m0|e]; [|done]. cbn [rbind] in E |- *.
    rewrite build_app in E. destruct (build m0 nops) as [m1|e]; [|done]. cbn [rbind] in E |- *. etransitivity; [apply rfold_bind|exact E]. }
  pose proof (hist_good _ _ _ _ _ _ Hh) as Hgm. pose proof (hist_inv _ _ _ _ _ _ Hh) as [HSm HLm Ham Hnm Hdm Hfm].
  split; [by exists 1, 0%Z, false, false, (lops ++ nops ++ kops)|]. do 3 (split; [done|]). split.
  - intros a. rewrite (hist_present_nonfic _ _ _ _ _ Hh) by done. split.
    + intros (o & [Ho|[Ho|Ho]%elem_of_app]%elem_of_app & Hm).
      * apply elem_of_sub_layer_ops in Ho as (k' & x' & arg & -> & _); done.
      * apply elem_of_list_fmap in Ho as (a' & -> & Ha'%Hsn). destruct (Htl a' Ha') as [Ht Et].
        apply lay_arg_creates in Hm; [|done|lia]. rewrite <- Et in Hm. by subst.
      * apply Hko in Ho as (a' & b & -> & Hk). destruct (Hk2 a' b Hk) as (Hla & Hlb & Ha' & Hb' & _).
        apply nodeset_creates in Hm; [|done|done]. by destruct Hm as [->| ->].
    + intros Ha'. exists (OpAddNode (node_of a) (Some (lay_arg (tail a)))). split.
      { rewrite !elem_of_app. right. left. apply elem_of_list_fmap. exists a. split; [done|]. by apply Hsn. }
      destruct (Htl a Ha') as [Ht Et]. apply lay_arg_creates; [done|lia|done].
  - intros x y. rewrite (linked_lnk n) by done. rewrite (linked_lnk m) by done. rewrite <- (rd_noEdge m) by done. rewrite Hnm, (hist_refines _ _ _ _ _ _ Hh), app_assoc, spec_run_app.
    assert (forall o, o ∈ lops ++ nops -> write_of 1 o = None) as Hst.
    { intros o [Ho|Ho]%elem_of_app; [by apply elem_of_sub_layer_ops in Ho as (k & x' & arg & -> & _)|by apply elem_of_list_fmap in Ho as (a & -> & _)]. }
    destruct (hits_dec 1 false kops x y) as [Hx|Hx].
    + assert (is_Some (lnk n x y)) as Hk.
      { destruct Hx as (o & a & b & w & (a' & b' & -> & Hk)%Hko & Hw & Hh'). destruct (Hk2 a' b' Hk) as (Hla & Hlb & _). rewrite nodeset_write in Hw by done. injection Hw as -> -> <-.
        destruct Hh' as [[-> ->]|(_ & -> & ->)]; [done|]. by rewrite (wfL_sym n HL Hd). }
      rewrite (spec_fold_agree 1 false kops _ x y (rd n x y)); [|intros o a b w (a' & b' & -> & Hk')%Hko Hw Hh'|done].
      * split; [done|]. intros _. by apply Hk2.
      * destruct (Hk2 a' b' Hk') as (Hla & Hlb & _). rewrite nodeset_write in Hw by done. injection Hw as -> -> <-.
        destruct Hh' as [[-> ->]|(_ & -> & ->)]; [done|]. by apply rd_sym.
    + rewrite spec_fold_miss; [|intros o a b w Ho Hw Hh'; apply Hx; eauto 10].
      assert (spec_run 1 0 false (lops ++ nops) x y = 0%Z) as ->.
      { unfold spec_run. rewrite spec_fold_miss; [done|]. intros o a b w Ho Hw. rewrite Hst in Hw by done. done. }
      split; [done|]. intros Hk. exfalso. apply Hx. destruct (Hk2 x y Hk) as (Hla & Hlb & _). exists (OpNodeSet x y (rd n x y)), x, y, (rd n x y).
      split; [apply Hko; eauto|]. split; [by apply nodeset_write|by left].
Qed.

(** ** the exhaustive enumeration *)
Lemma rfold_collect {A B} (f : A -> res bool) (g : A -> B) (P : A -> Prop) l : forall rs, (forall x, x ∈ l -> exists b, f x = Ok b /\ (b = true <-> P x)) ->
  exists sel, rfold (fun rs x => let? b := f x in Ok (if b : bool then rs ++ [g x] else rs)) rs l = Ok (rs ++ (g <$> sel)) /\ sublist sel l /\ forall x, x ∈ sel <-> x ∈ l /\ P x.
Proof.
  induction l as [|x l IH]; intros rs H; cbn [rfold].
  - exists []. split; [by rewrite app_nil_r|]. split; [constructor|]. intros y. rewrite elem_of_nil. tauto.
  - destruct (H x) as (b & -> & Hb); [by left|]. cbn [rbind].
    destruct (IH (if b then rs ++ [g x] else rs)) as (sel & E & Hs & Hi); [intros y Hy; apply H; by right|].
    destruct b.
    + exists (x :: sel). split; [rewrite E, fmap_cons, <- app_assoc; done|]. split; [by constructor|]. intros y. rewrite !elem_of_cons, Hi. assert (P x) by by apply Hb. naive_solver.
    + exists sel. split; [done|]. split; [by constructor|]. intros y. rewrite elem_of_cons, Hi. assert (~ P x) by (intros ?%Hb; done). naive_solver.
Qed.
Lemma rfold_fmap {A B S} (f : S -> B -> res S) (g : A -> B) l : forall s, rfold f s (g <$> l) = rfold (fun s x => f s (g x)) s l.
Proof. induction l as [|x l IH]; intros s; [done|]. rewrite fmap_cons. cbn [rfold]. destruct (f s (g x)); [cbn [rbind]; apply IH|done]. Qed.
Lemma rfold_ext' {A S} (f g : S -> A -> res S) l : (forall s x, f s x = g s x) -> forall s, rfold f s l = rfold g s l.
Proof. intros H. induction l as [|x l IH]; intros s; [done|]. cbn [rfold]. rewrite H. destruct (g s x); [apply IH|done]. Qed.
Lemma dumb_run_ok n rn rl chk P : reachable n -> aspects n = 1 -> directed n = false -> decides n rn rl chk P -> (1 <= rn)%Z -> (1 <= rl)%Z ->
  exists rs, dumb_run n rn rl chk = Ok rs /\ only_wanted rn rl P rs /\ all_wanted rn rl P rs.
Proof.
  intros Hr Ha Hd (Hc & Hperm & Hful) Hrn Hrl. pose proof (reachable_good _ Hr) as Hg. pose proof Hg as [HS HL].
  assert (NoDup (net_nodes n)) as Hn0.
  { unfold net_nodes. destruct (slices n !! 0) as [s|] eqn:Es; simpl; [|constructor]. by eapply (Forall_lookup_1 _ _ _ _ (wfS_nodup _ HS)). }
  assert (NoDup (layers1 n)) as Hn1.
  { unfold layers1. destruct (slices n !! 1) as [s|] eqn:Es; simpl; [|constructor]. by eapply (Forall_lookup_1 _ _ _ _ (wfS_nodup _ HS)). }
  set (pl := combs (Z.to_nat rn) (net_nodes n) ≫= fun A => (fun B => (A, B)) <$> combs (Z.to_nat rl) (layers1 n)).
  assert (dumb_run n rn rl chk = rfold (fun rs q => let? b := chk n (q.1) (q.2) in Ok (if b : bool then rs ++ [q] else rs)) [] pl) as ->.
  { unfold dumb_run, combs_z. rewrite !decide_True by lia. cbn [rbind]. unfold pl. rewrite <- rfold_bind. apply rfold_ext'. intros s A. by rewrite rfold_fmap. }
  assert (forall q, q ∈ pl <-> sublist (q.1) (net_nodes n) /\ sublist (q.2) (layers1 n) /\ Z.of_nat (length (q.1)) = rn /\ Z.of_nat (length (q.2)) = rl) as Hpl.
  { intros [A B]. unfold pl. rewrite elem_of_list_bind. setoid_rewrite elem_of_list_fmap. setoid_rewrite elem_of_combs. split.
    - intros (A' & (B' & [= <- <-] & H1 & H2) & H3 & H4). cbn [fst snd]. split; [done|]. split; [done|]. lia.
    - cbn [fst snd]. intros (H1 & H2 & H3 & H4). exists A. split; [exists B; split; [done|]; split; [done|lia]|]. split; [done|lia]. }
  assert (NoDup pl) as Hnp.
  { unfold pl. apply NoDup_bind.
    - by apply NoDup_combs.
    - intros A _. apply NoDup_fmap_2; [by intros ? ? [= ->]|]. by apply NoDup_combs.
    - intros A A' [x B] _ _ (B1 & [= -> ->] & _)%elem_of_list_fmap (B2 & [= -> ->] & _)%elem_of_list_fmap. done. }
  destruct (rfold_collect (fun q => chk n (q.1) (q.2)) (fun q => q) (fun q => P (q.1) (q.2)) pl []) as (sel & E & Hsub & Hsel).
  { intros q (H1 & H2 & H3 & H4)%Hpl. apply Hc; try done; [by apply (sublist_NoDup' _ (net_nodes n))|by apply (sublist_NoDup' _ (layers1 n))]. }
  rewrite E. exists sel. split; [by rewrite list_fmap_id|]. split; [split|].
  - intros r [(H1 & H2 & H3 & H4)%Hpl H5]%Hsel. split; [by apply (sublist_NoDup' _ (net_nodes n))|]. split; [by apply (sublist_NoDup' _ (layers1 n))|]. done.
  - intros i j r r' Hi Hj [S1 S2].
    assert (r ∈ sel /\ r' ∈ sel) as [Hr1 Hr2] by (split; by eapply elem_of_list_lookup_2).
    apply Hsel in Hr1 as [(A1 & A2 & _)%Hpl _]. apply Hsel in Hr2 as [(B1 & B2 & _)%Hpl _].
    assert (r = r') as ->.
    { destruct r as [X Y], r' as [X' Y']. f_equal; [by apply (sublist_ext (net_nodes n))|by apply (sublist_ext (layers1 n))]. }
    eapply NoDup_lookup; [|done|done]. by apply (sublist_NoDup' _ pl).
  - intros [X Y] (W1 & W2 & W3 & W4 & W5). cbn [fst snd] in *. destruct (Hful _ _ W5) as [_ [F1 F2]].
    assert (forall a k x, a ∈ iter_node_layers n -> a !! k = Some x -> sl n k x) as Hin.
    { intros a k x Ha'. apply elem_of_iter_node_layers in Ha' as [Ha' _]; [|done]. apply nl_in_slices_sl in Ha' as [_ Ha']. apply Ha'. }
    destruct (sublist_of (net_nodes n) X Hn0 W1) as (X' & HX1 & HX2).
    { intros x Hx. destruct (F1 x Hx) as (l & _ & Hl). apply net_nodes_sl. by apply (Hin [x; l] 0). }
    destruct (sublist_of (layers1 n) Y Hn1 W2) as (Y' & HY1 & HY2).
    { intros l Hl'. destruct (F2 l Hl') as (x & _ & Hx). destruct (Hin [x; l] 1 l Hx eq_refl) as (s & Hs & Hs'). unfold layers1. by rewrite Hs. }
    exists (X', Y'). split.
    + apply Hsel. cbn [fst snd]. apply elem_of_combs in HX1 as [HX1 _]. apply elem_of_combs in HY1 as [HY1 _]. split; [|by apply (Hperm X Y)].
      apply Hpl. cbn [fst snd]. split; [done|]. split; [done|]. by rewrite HX2, HY2.
    + split; intros z; cbn [fst snd]; [by rewrite HX2|by rewrite HY2].
Qed.
