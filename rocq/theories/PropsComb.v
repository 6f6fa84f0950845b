(** * Property C97: combining two orbits *)
From stdpp Require Import prelude.
From Coq Require Import QArith.
From Verif Require Import Base Net NetSpec NetHist NetIter NetEdges Supra MpxSpec MpxFacts MpxHist MpxIter MpxTrans TransFacts2 MpxBuild PropsMpx MpxRelabel PropsMpxRelabel MpxSub PropsMpxEq MpxEdges PropsMpxEdges Samp SampFacts Graphlet GraphletSpec PartFacts
  Isom MpxIsom IsomSpec PropsIsom PropsIsomMpx EnumSpec EnumNet Enum EnumFacts PropsEnum OrbitCount CountSpec CountFacts OrbitEq EqSpec EqFacts OrbitGen.
Local Open Scope nat_scope.

(** [s] sends each layer to the next one in some cyclic order of all layers of [p]. *)
Definition cyclic (p : mpx) (s : name -> name) : Prop :=
  exists ls, lists_exactly ls (mhas p 1) /\ forall i l, ls !! i = Some l -> ls !! (S i mod length ls) = Some (s l).
(** [q] is [g1] together with a copy of [g2], whose layers are renamed by [s] and whose nodes
    are renamed to new negative numbers, except that [y] becomes the node [x] of [g1]. *)
Definition glued (g1 g2 : mpx) (x y : name) (s : name -> name) (q : mpx) : Prop :=
  exists f : name -> name, f y = x /\
    (forall u v, mhas g2 0 u -> mhas g2 0 v -> f u = f v -> u = v) /\
    (forall u, mhas g2 0 u -> u <> y -> ~ mhas g1 0 (f u) /\ exists z, f u = NInt z /\ (z < 0)%Z) /\
    (forall v, mhas q 0 v <-> mhas g1 0 v \/ exists l u w, tied g2 l u w /\ v = f u) /\
    (forall l, mhas q 1 l <-> mhas g1 1 l) /\
    (forall l v w, tied q l v w <-> tied g1 l v w \/ exists l' v' w', tied g2 l' v' w' /\ l = s l' /\ v = f v' /\ w = f w').

Lemma nodes_mhas p x : x ∈ mnodes p <-> mhas p 0 x.
Proof. unfold mnodes, mhas, mget_layers. destruct (mslices p !! 0) as [u|]; cbn; [naive_solver|]. split; [by intros ?%elem_of_nil|by intros (? & ? & _)]. Qed.
Lemma build_full c ts : forall h p, mhist [c] false 0 true h p ->
  mbuild p ((fun t : name * name * name => MSet [t.1.1; t.1.2; t.2; t.2] 1) <$> ts) = mbuild p (put_ops 1 ts).
Proof.
  unfold put_ops. induction ts as [|[[x y] l] ts IH]; intros h p Hh; [done|]. unfold mbuild in *. cbn [fmap list_fmap rfold fst snd].
  assert (mdo p (MSet [x; y; l; l] 1) = mdo p (MSet [x; y; l] 1)) as ->.
  { unfold mdo. cbn [mstep]. unfold psetitem, psetitem_link. by rewrite (en_asp _ _ _ Hh). }
  destruct (mdo p _) as [q|] eqn:E; [|done]. eapply IH. by eapply mdo_hist.
Qed.

Section comb.
Context (c : coupling) (layers : list name) (n_l : nat) (Hkind : EnumSpec.one_kind layers) (Hfit : coupling_fits c layers).
Context (al : option (list nat)) (Hal : aspects_ok 1 al) (Hal0 : 0 ∈ aspect_list 1 al).
Notation lay_ok := (on_layers layers n_l).
Lemma fit_no_net : no_net c.
Proof using Hfit. by destruct c. Qed.
Lemma relabel_plain g ds : plain c g -> lay_ok g -> (forall u v, mhas g 0 u -> mhas g 0 v -> renames ds 0 u = renames ds 0 v -> u = v) ->
  (forall u v, mhas g 1 u -> mhas g 1 v -> renames ds 1 u = renames ds 1 v -> u = v) -> (forall l, mhas g 1 l <-> exists l', mhas g 1 l' /\ l = renames ds 1 l') ->
  exists r, mrelabel g ds = Ok r /\ plain c r /\ lay_ok r /\ (forall x, mhas r 0 x <-> exists u, mhas g 0 u /\ x = renames ds 0 u) /\ (forall l, mhas r 1 l <-> mhas g 1 l) /\
    (forall l u v, mhas g 0 u -> mhas g 0 v -> mhas g 1 l -> lrd r (LBare (renames ds 1 l)) (renames ds 0 u) (renames ds 0 v) = lrd g (LBare l) u v).
Proof using Hfit.
  intros Hp Hl I0 I1 Hb. destruct (plain_ok c layers n_l Hfit g Hp Hl) as (h & Hh & _ & _). pose proof (mhist_inv _ _ _ _ _ _ Hh) as Hi. pose proof (pi_wf _ _ _ _ _ _ Hi) as Hw.
  destruct (relabel_facts [c] false 0 true h g ds Hi) as (r & gr & E & Hr & R1 & R2 & R3).
  - done.
  - constructor; [apply fit_no_net|constructor].
  - intros k x y Hx Hy. assert (k <= 1) as Hk by (by eapply (psl_le [c])). rewrite psl_mhas in Hx, Hy. destruct k as [|[|k]]; [by apply I0|by apply I1|lia].
  - apply no_self_lrd; [done|]. intros l x Hll. apply mlayers_form in Hll as [m Hm]; [|done]. assert (l ∈ dkeys (mA g)) as Hk.
    { apply elem_of_dkeys. unfold pA in Hm. destruct (dget (mA g) l); [by eexists|done]. }
    apply (pw_dom _ Hw) in Hk as [_ Hk]. rewrite (en_asp _ _ _ Hh) in Hk. destruct l as [l|ls]; [|cbn in Hk; lia]. rewrite agetitem_lrd, Hm. f_equal.
    destruct (decide (lrd g (LBare l) x x = 0%Z)) as [|Hne]; [done|]. apply tied_lrd in Hne. by apply (pl_loops _ _ Hp) in Hne.
  - exists r. split; [done|].
    assert (forall l, mhas r 1 l <-> mhas g 1 l) as L1. { intros l. rewrite <- psl_mhas, R1, Hb. by setoid_rewrite psl_mhas. }
    assert (forall x, mhas r 0 x <-> exists u, mhas g 0 u /\ x = renames ds 0 u) as L0. { intros x. rewrite <- psl_mhas, R1. by setoid_rewrite psl_mhas. }
    assert (forall l u v, mhas g 0 u -> mhas g 0 v -> mhas g 1 l -> lrd r (LBare (renames ds 1 l)) (renames ds 0 u) (renames ds 0 v) = lrd g (LBare l) u v) as L3.
    { intros l u v Hu Hv Hll. apply (R3 [l] u v); [done| |by apply psl_mhas..]. intros [|k] z; [|done]. intros [= <-]. by apply psl_mhas. }
    split; [|split; [|done]].
    + split; [by exists gr|]. intros l x Ht. pose proof Ht as (Hx & _ & Hlx)%(en_tied _ _ _ Hr). apply L0 in Hx as (u & Hu & ->). apply L1, Hb in Hlx as (l' & Hl' & ->).
      apply tied_lrd in Ht. rewrite L3 in Ht by done. apply tied_lrd in Ht. by apply (pl_loops _ _ Hp) in Ht.
    + destruct Hl as (t & [Nt Ht] & Hn & Hin). exists t. split; [split; [done|]|done]. intros l. by rewrite Ht, L1.
Qed.
Lemma overlay_ok g1 g2 ds : plain c g1 -> lay_ok g1 -> plain c g2 -> lay_ok g2 -> unit_weights g2 -> (forall l, mhas g1 1 l <-> mhas g2 1 l) ->
  (forall u v, mhas g2 0 u -> mhas g2 0 v -> renames ds 0 u = renames ds 0 v -> u = v) ->
  (forall u v, mhas g2 1 u -> mhas g2 1 v -> renames ds 1 u = renames ds 1 v -> u = v) -> (forall l, mhas g2 1 l <-> exists l', mhas g2 1 l' /\ l = renames ds 1 l') ->
  exists q, overlay g1 g2 ds = Ok q /\ plain c q /\ lay_ok q /\
    (forall v, mhas q 0 v <-> mhas g1 0 v \/ exists l u w, tied g2 l u w /\ v = renames ds 0 u) /\
    (forall l, mhas q 1 l <-> mhas g1 1 l) /\
    (forall l v w, tied q l v w <-> tied g1 l v w \/ exists l' v' w', tied g2 l' v' w' /\ l = renames ds 1 l' /\ v = renames ds 0 v' /\ w = renames ds 0 w').
Proof using Hfit.
  intros P1 L1 P2 L2 U2 Hlay I0 I1 Hb. destruct (pl_net _ _ P1) as [h1 H1]. destruct (pl_net _ _ P2) as [h2 H2]. unfold overlay.
  destruct (sub_net c h1 g1 (mnodes g1) (layers_of g1) H1 fit_no_net) as (n & gn & -> & Hn & N0 & N1 & Nl); [intros l; apply elem_of_layers_of|]. cbn [rbind].
  destruct (relabel_plain g2 ds P2 L2 I0 I1 Hb) as (r & -> & Pr & Lr & R0 & R1 & Rl). cbn [rbind].
  assert (forall l v w, tied r l v w <-> exists l' v' w', tied g2 l' v' w' /\ l = renames ds 1 l' /\ v = renames ds 0 v' /\ w = renames ds 0 w') as Hr.
  { intros l v w. destruct (pl_net _ _ Pr) as [hr Hr]. split.
    - intros Ht. pose proof Ht as (Hv & Hw & Hll)%(en_tied _ _ _ Hr). apply R0 in Hv as (v' & Hv & ->). apply R0 in Hw as (w' & Hw & ->). apply R1, Hb in Hll as (l' & Hl' & ->).
      exists l', v', w'. split; [|done]. apply tied_lrd. apply tied_lrd in Ht. by rewrite Rl in Ht.
    - intros (l' & v' & w' & Ht & -> & -> & ->). pose proof Ht as (Hv & Hw & Hll)%(en_tied _ _ _ H2). apply tied_lrd. rewrite Rl by done. by apply tied_lrd. }
  assert (forall l v w, tied r l v w -> lrd r (LBare l) v w = 1%Z) as Ur.
  { intros l v w Ht. pose proof Ht as (l' & v' & w' & Ht' & -> & -> & ->)%Hr. pose proof Ht' as (Hv & Hw & Hll)%(en_tied _ _ _ H2). rewrite Rl by done. apply tied_lrd in Ht'.
    destruct (proj1 (unit_lrd g2) U2 l' v' w'); done. }
  destruct (plain_ok c layers n_l Hfit r Pr Lr) as (hr & Hhr & Fr & Wr).
  destruct (C56_undirected_edges_exact [c] true hr r Hhr Fr Wr) as (E & -> & _ & _ & E1 & E2 & _). cbn [rbind].
  assert (forall e, e ∈ E -> exists x l y l', e.1 = [x; y; l; l'] /\ (x = y \/ x <> y /\ l = l' /\ e.2 = 1%Z /\ tied r l x y)) as He.
  { intros e (a & b & (Ha & Hbb & Hab) & Ht)%E1. apply medge_tuple_eq in Ht; [|by eapply ex_len..]. pose proof Ha as (x & l & -> & Hx & Hll)%(en_exists _ _ _ Hhr). pose proof Hbb as (y & l' & -> & Hy & Hl')%(en_exists _ _ _ Hhr).
    exists x, l, y, l'. subst e. split; [done|]. destruct (decide (x = y)) as [|Hne]; [by left|]. right. split; [done|]. destruct (decide (l = l')) as [<-|Hll']; [|by apply (en_cross _ _ _ Hhr) in Hab as [? _]; [|apply fit_no_net|..]].
    split; [done|]. pose proof Hab as Hab'. apply (en_intra _ _ _ Hhr) in Hab as [_ Ht]; [|done..]. split; [|done]. cbn [snd]. unfold MR.
    assert (differ_at 0 [x; l] [y; l]) as Hd. { split; [done|]. split; [cbn; lia|]. intros [|[|k]]; cbn; [|done|done]. split; [congruence|done]. }
    rewrite (pget_pair_intra r _ _ Hd), (en_asp _ _ _ Hhr). change (lkey 1 (tail [x; l])) with (LBare l). cbn [node_of hd default]. specialize (Ur l x y Ht). apply (en_pA _ _ _ Hhr) in Hll as [m Hm].
    assert (agetitem r (LBare l) [x; y] = Ok 1%Z) as Eg by (by rewrite agetitem_lrd, Hm, Ur).
    unfold agetitem in Eg. rewrite Hm in *. cbn in Eg |- *. injection Eg as ->. done. }
  set (ts := omap (fun e : list name * Z => match e.1 with x :: y :: l :: _ => if decide (x = y) then None else Some (x, y, l) | _ => None end) E).
  assert (omap (fun e : list name * Z => match e.1 with x :: y :: _ => if decide (x = y) then None else Some (MSet (e.1) (e.2)) | _ => None end) E =
    (fun t : name * name * name => MSet [t.1.1; t.1.2; t.2; t.2] 1) <$> ts) as ->.
  { unfold ts. clear -He. induction E as [|e E IH]; [done|]. cbn [omap list_omap]. rewrite IH by (intros e' He'; apply He; by right). destruct (He e) as (x & l & y & l' & Ee & Hor); [left|].
    rewrite Ee. destruct (decide (x = y)) as [|Hne]; [done|]. destruct Hor as [|(_ & <- & -> & _)]; [done|]. done. }
  rewrite (build_full c ts gn n Hn).
  assert (forall x y l, (x, y, l) ∈ ts -> x <> y /\ tied r l x y) as T1.
  { intros x y l (e & Hin & Hm)%elem_of_list_omap. destruct (He e Hin) as (x' & l0 & y' & l' & Ee & Hor). rewrite Ee in Hm. destruct (decide (x' = y')); [done|]. injection Hm as -> -> ->. destruct Hor as [|(? & _ & _ & ?)]; done. }
  assert (forall l x y, tied r l x y -> (x, y, l) ∈ ts \/ (y, x, l) ∈ ts) as T2.
  { intros l x y Ht. assert (x <> y) as Hne by (intros ->; by apply (pl_loops _ _ Pr) in Ht). pose proof Ht as (Hx & Hy & Hll)%(en_tied _ _ _ Hhr).
    assert (mlink r [x; l] [y; l]) as Hk. { split; [apply (en_exists _ _ _ Hhr); eauto 10|]. split; [apply (en_exists _ _ _ Hhr); eauto 10|]. by apply (en_intra _ _ _ Hhr). }
    destruct (E2 _ _ Hk) as (e & Hin & Hor). assert (maspects r = 1) as Ha by (by eapply en_asp).
    destruct Hor as [Ht'|Ht']; apply medge_tuple_eq in Ht'; try (by rewrite Ha); [left|right]; apply elem_of_list_omap; exists e; (split; [done|]); subst e; cbn [fst interleave]; change (interleave [x; l] [y; l]) with [x; y; l; l]; change (interleave [y; l] [x; l]) with [y; x; l; l]; cbn [fst]; by rewrite decide_False. }
  destruct (put_links c gn n 1 ts [] Hn) as (q & gq & Eq & Hq & Q0 & Q1 & Ql); [by intros x y l (? & _)%T1|]. cbn [fmap list_fmap] in Eq. rewrite app_nil_r in Eq. exists q. split; [done|].
  assert (forall l x y, tied r l x y -> tied r l y x) as Rsym by (intros l x y; apply (en_sym _ _ _ Hhr)).
  assert (forall l x y, (x, y, l) ∈ ts \/ (y, x, l) ∈ ts <-> tied r l x y) as Tt. { intros l x y. split; [|apply T2]. intros [[_ ?]%T1|[_ ?]%T1]; auto. }
  assert (forall l v w, lrd n (LBare l) v w = lrd g1 (LBare l) v w) as Nl'.
  { intros l v w. rewrite Nl. destruct (decide _) as [|Hd]; [done|]. destruct (decide (lrd g1 (LBare l) v w = 0%Z)) as [-> |Hz]; [done|]. exfalso. apply Hd. rewrite !nodes_mhas. apply tied_lrd, (en_tied _ _ _ H1) in Hz. tauto. }
  assert (forall l v w, tied q l v w <-> tied g1 l v w \/ tied r l v w) as Qt.
  { intros l v w. rewrite !tied_lrd. rewrite Ql, Nl'. rewrite <- (tied_lrd r), <- Tt. destruct (decide _) as [Hd|Hd]; [split; [by right|done]|]. split; [by left|]. by intros [?|?]. }
  assert (forall l, mhas q 1 l <-> mhas g1 1 l) as Q1'.
  { intros l. rewrite Q1, N1. split; [|by left]. intros [?|[H'%elem_of_nil|(x & y & [_ Ht]%T1)]]; [done|done|]. apply (en_tied _ _ _ Hhr) in Ht as (_ & _ & Ht). by apply Hlay, R1. }
  split; [|split; [|split; [|split]]].
  - split; [by exists gq|]. intros l x [Ht|Ht]%Qt; [by apply (pl_loops _ _ P1) in Ht|by apply (pl_loops _ _ Pr) in Ht].
  - destruct L1 as (t & [Nt Ht] & Hln & Hin). exists t. split; [split; [done|]|done]. intros l. by rewrite Ht, Q1'.
  - intros v. rewrite Q0, N0, nodes_mhas. split.
    + intros [[? _]|(w & l & Ht)]; [by left|right]. apply Tt, Hr in Ht as (l' & v' & w' & Ht & -> & -> & ->). by exists l', v', w'.
    + intros [?|(l & u & w & Ht & ->)]; [by left|right]. exists (renames ds 0 w), (renames ds 1 l). apply Tt, Hr. by exists l, u, w.
  - done.
  - intros l v w. by rewrite Qt, Hr.
Qed.
Context {T : Type} `{EqDecision T} (canon : dict nat nat -> list (nat * nat) -> T) (Hcanon : exact_canon canon).
Lemma inv_ok q q' : plain c q -> lay_ok q -> plain c q' -> lay_ok q' ->
  exists i j, mcomplete_invariant canon q al = Ok i /\ mcomplete_invariant canon q' al = Ok j /\ (i = j <-> misomorphic al q q').
Proof using Hkind Hfit Hal Hal0 Hcanon.
  intros P L P' L'. destruct (plain_suitable c layers n_l Hfit q P L) as [Sq Aq]. destruct (plain_suitable c layers n_l Hfit q' P' L') as [Sq' Aq'].
  apply C85_complete_invariant; try done; [by rewrite Aq, Aq'|by rewrite Aq|by apply (plain_sortable c layers n_l Hkind Hfit al Hal0)..].
Qed.
End comb.

Lemma next_pos i n : i < n -> S i mod n = if decide (S i = n) then 0 else S i.
Proof. intros Hi. destruct (decide (S i = n)) as [<-|]; [by apply Nat.mod_same|apply Nat.mod_small; lia]. Qed.
Lemma cyclic_inj p s u v : cyclic p s -> mhas p 1 u -> mhas p 1 v -> s u = s v -> u = v.
Proof.
  intros (ls & [Nd Hl] & Hs) Hu%Hl Hv%Hl E. apply elem_of_list_lookup in Hu as [i Hi], Hv as [j Hj]. pose proof (Hs i u Hi) as H1. pose proof (Hs j v Hj) as H2. rewrite E in H1.
  pose proof (NoDup_lookup _ _ _ _ Nd H1 H2) as Hij. apply lookup_lt_Some in Hi as Li. apply lookup_lt_Some in Hj as Lj. rewrite !next_pos in Hij by done.
  assert (i = j) as -> by (destruct (decide _), (decide _); lia). congruence.
Qed.
Lemma cyclic_onto p s l : cyclic p s -> mhas p 1 l <-> exists l', mhas p 1 l' /\ l = s l'.
Proof.
  intros (ls & [Nd Hl] & Hs). split.
  - intros Hu%Hl. apply elem_of_list_lookup in Hu as [i Hi]. apply lookup_lt_Some in Hi as Li. set (j := if decide (i = 0) then length ls - 1 else i - 1).
    assert (j < length ls) as Lj by (unfold j; destruct (decide _); lia). destruct (lookup_lt_is_Some_2 ls j Lj) as [l' Hl']. exists l'. split; [apply Hl; by eapply elem_of_list_lookup_2|].
    pose proof (Hs j l' Hl') as H1. rewrite next_pos in H1 by done. assert ((if decide (S j = length ls) then 0 else S j) = i) as E.
    { unfold j in *. destruct (decide (i = 0)); destruct (decide _); lia. } rewrite E in H1. congruence.
  - intros (l' & Hl'%Hl & ->). apply Hl. apply elem_of_list_lookup in Hl' as [i Hi]. by eapply elem_of_list_lookup_2, Hs.
Qed.
Lemma rotated_next ls i l : NoDup ls -> ls !! i = Some l -> ls !! (S i mod length ls) = Some (ren (rotated ls) l).
Proof.
  intros Nd Hi. apply lookup_lt_Some in Hi as Li. rewrite next_pos by done. unfold rotated. destruct (last ls) as [z|] eqn:Ez; [|apply last_None in Ez; subst; done].
  apply last_Some in Ez as [k Ek].
  assert (NoDup (dkeys (zip (z :: ls) ls))) as Nk.
  { unfold dkeys. assert (fst <$> zip (z :: ls) ls = z :: k) as ->.
    { rewrite Ek. assert (forall (a b : name) k, fst <$> zip (a :: (k ++ [b])) (k ++ [b]) = a :: k) as H; [|apply H]. clear. intros a b k. revert a. induction k as [|x k IH]; intros a; [done|].
      change (a :: (fst <$> zip (x :: (k ++ [b])) (k ++ [b])) = a :: x :: k). by rewrite IH. }
    rewrite Ek in Nd. apply NoDup_app in Nd as (N1 & N2 & _). apply NoDup_cons. split; [|done]. intros Hz. apply (N2 z Hz). left. }
  set (j := if decide (S i = length ls) then 0 else S i).
  assert ((z :: ls) !! j = Some l) as Hj.
  { unfold j. destruct (decide (S i = length ls)) as [E|E]; [|done]. cbn. rewrite Ek in Hi, E. rewrite app_length in E. cbn in E. rewrite list_lookup_middle in Hi by lia. done. }
  assert (j < length ls) as Lj by (unfold j; destruct (decide _); lia). destruct (lookup_lt_is_Some_2 ls j Lj) as [l' Hl'].
  assert (dget (zip (z :: ls) ls) l = Some l') as E.
  { apply dget_elem_of; [done|]. apply elem_of_list_lookup. exists j. by rewrite lookup_zip_with, Hj; cbn [mbind option_bind]; rewrite Hl'. }
  unfold ren. by rewrite E.
Qed.
Lemma names_new x y N : NoDup N -> y ∈ N -> ren (second_names x y N) y = x /\
  (forall u, u ∈ N -> u <> y -> exists i, sdiff N [y] !! i = Some u /\ ren (second_names x y N) u = NInt (- 2 - Z.of_nat i)).
Proof.
  intros Nd Hy. unfold second_names, ren. split; [by rewrite dget_dset_eq|]. intros u Hu Hne. rewrite dget_dset_ne by done.
  assert (u ∈ sdiff N [y]) as Hin by (apply elem_of_list_filter; split; [by intros ?%elem_of_list_singleton|done]). apply elem_of_list_lookup in Hin as [i Hi]. exists i. split; [done|].
  assert (NoDup (sdiff N [y])) as Ns by (by apply NoDup_filter).
  assert (dget (imap (fun i x => (x, NInt (- 2 - Z.of_nat i))) (sdiff N [y])) u = Some (NInt (- 2 - Z.of_nat i))) as E; [|by rewrite E].
  apply dget_elem_of.
  - unfold dkeys. assert (fst <$> imap (fun i x => (x, NInt (- 2 - Z.of_nat i))) (sdiff N [y]) = sdiff N [y]) as ->; [|done]. apply list_eq. intros k. rewrite list_lookup_fmap, list_lookup_imap. by destruct (sdiff N [y] !! k).
  - apply elem_of_list_lookup. exists i. by rewrite list_lookup_imap, Hi.
Qed.

Section thms.
Context {T : Type} `{EqDecision T} (canon : dict nat nat -> list (nat * nat) -> T).
Context (c : coupling) (layers : list name) (n_l : nat) (al : option (list nat)) (nets : dict nat (list mpx)) (o1 o2 : orbit) (g1 g2 : mpx).
Context (Hcanon : exact_canon canon) (Hen : enumerable c layers al) (G1 : graphlet_at nets (o1.1.1) (o1.1.2) g1) (G2 : graphlet_at nets (o2.1.1) (o2.1.2) g2).
Context (P1 : plain c g1) (L1 : on_layers layers n_l g1) (P2 : plain c g2) (L2 : on_layers layers n_l g2) (U2 : unit_weights g2).
Context (X1 : mhas g1 0 (o1.2)) (X2 : mhas g2 0 (o2.2)) (Hpos : forall z, mhas g1 0 (NInt z) -> (0 <= z)%Z).
Notation f := (ren (second_names (o1.2) (o2.2) (mnodes g2))).
Notation glue := (glued g1 g2 (o1.2) (o2.2)).
Lemma at_net (o : orbit) g : graphlet_at nets (o.1.1) (o.1.2) g -> net_at nets (o.1.1) (o.1.2) = Ok g.
Proof. intros (l & H1 & H2). unfold net_at. by rewrite H1, H2. Qed.
Lemma f_ok : f (o2.2) = o1.2 /\ (forall u v, mhas g2 0 u -> mhas g2 0 v -> f u = f v -> u = v) /\
  (forall u, mhas g2 0 u -> u <> o2.2 -> ~ mhas g1 0 (f u) /\ exists z, f u = NInt z /\ (z < 0)%Z).
Proof using P2 X1 X2 Hpos.
  destruct (names_new (o1.2) (o2.2) (mnodes g2)) as [F0 F1].
  { destruct (pl_net _ _ P2) as [h Hh%mhist_inv]. pose proof (pw_nd _ (pi_wf _ _ _ _ _ _ Hh)) as Hnd. unfold mnodes. destruct (mslices g2 !! 0) as [s|] eqn:E; [|constructor]. cbn. by eapply Forall_lookup_1. }
  { by apply nodes_mhas. }
  assert (forall u, mhas g2 0 u -> u <> o2.2 -> ~ mhas g1 0 (f u) /\ exists z, f u = NInt z /\ (z < 0)%Z) as F2.
  { intros u Hu Hne. destruct (F1 u) as (i & _ & E); [by apply nodes_mhas|done|]. rewrite E. split; [intros Hz%Hpos; lia|eexists; split; [done|lia]]. }
  split; [done|]. split; [|done]. intros u v Hu Hv E. destruct (decide (u = o2.2)) as [->|Hnu], (decide (v = o2.2)) as [->|Hnv].
  - done.
  - exfalso. apply (F2 v Hv Hnv). by rewrite <- E, F0.
  - exfalso. apply (F2 u Hu Hnu). by rewrite E, F0.
  - destruct (F1 u) as (i & Hi & Ei); [by apply nodes_mhas|done|]. destruct (F1 v) as (j & Hj & Ej); [by apply nodes_mhas|done|]. rewrite Ei, Ej in E. injection E as E. assert (i = j) as -> by lia. congruence.
Qed.
Lemma over ds s : renames ds 0 = f -> (forall l, mhas g2 1 l -> renames ds 1 l = s l) -> (forall u v, mhas g2 1 u -> mhas g2 1 v -> s u = s v -> u = v) -> (forall l, mhas g2 1 l <-> exists l', mhas g2 1 l' /\ l = s l') ->
  (forall l, mhas g1 1 l <-> mhas g2 1 l) -> exists q, overlay g1 g2 ds = Ok q /\ plain c q /\ on_layers layers n_l q /\ glue s q.
Proof using Hen P1 L1 P2 L2 U2 X1 X2 Hpos.
  intros E0 E1 Hi Ho Hl. destruct f_ok as (F0 & F1 & F2). pose proof Hen as [_ K2 K3 _ _].
  destruct (overlay_ok c layers n_l K3 g1 g2 ds P1 L1 P2 L2 U2 Hl) as (q & E & Pq & Lq & Q0 & Q1 & Qt).
  - rewrite E0. done.
  - intros u v Hu Hv. rewrite !E1 by done. by apply Hi.
  - intros l. rewrite Ho. split; intros (l' & Hl' & ->); exists l'; by rewrite E1.
  - exists q. split; [done|]. split; [done|]. split; [done|]. exists f. split; [done|]. split; [done|]. split; [done|]. rewrite E0 in *. split; [done|]. split; [done|].
    intros l v w. rewrite Qt. destruct (pl_net _ _ P2) as [h Hh].
    split; (intros [?|(l' & v' & w' & Ht & -> & -> & ->)]; [by left|right]); exists l', v', w'; pose proof Ht as (_ & _ & Hl')%(en_tied _ _ _ Hh); by rewrite E1.
Qed.
(** Graphlets on different layers are not combined. *)
Theorem C97_other_layers : ~ (forall l, mhas g1 1 l <-> mhas g2 1 l) -> combine_orbits canon al nets o1 o2 = Ok None.
Proof using G1 G2.
  intros Hn. unfold combine_orbits. rewrite (at_net _ _ G1), (at_net _ _ G2). cbn [rbind]. destruct (set_eqb _ _) eqn:E; [|done]. exfalso. apply Hn. intros l. rewrite <- !elem_of_layers_of. by apply set_eqb_true.
Qed.
(** On the same layers: the first network glues the second graphlet to the first at the two nodes; if the layers may be
    permuted, there also are networks in which the layers of the second graphlet have been permuted along a cycle of all layers, all
    of these up to isomorphism, and no two of the networks are isomorphic. *)
Theorem C97_combine : (forall l, mhas g1 1 l <-> mhas g2 1 l) ->
  exists q qs, combine_orbits canon al nets o1 o2 = Ok (Some (q :: qs)) /\ glue (fun l => l) q /\
    (forall r, r ∈ qs -> al <> Some [0] /\ exists s, cyclic g2 s /\ glue s r) /\
    (forall s, al <> Some [0] -> cyclic g2 s -> exists r r', r ∈ q :: qs /\ glue s r' /\ misomorphic al r r') /\
    (forall r, r ∈ q :: qs -> plain c r) /\
    (forall i j r r', (q :: qs) !! i = Some r -> (q :: qs) !! j = Some r' -> i <> j -> ~ misomorphic al r r').
Proof using Hcanon Hen G1 G2 P1 L1 P2 L2 U2 X1 X2 Hpos.
  intros Hl. pose proof Hen as [_ K2 K3 K4 K5]. unfold combine_orbits. rewrite (at_net _ _ G1), (at_net _ _ G2). cbn [rbind].
  assert (set_eqb (layers_of g1) (layers_of g2) = true) as ->. { apply set_eqb_true. intros l. by rewrite !elem_of_layers_of. } cbn [negb].
  destruct (over [second_names (o1.2) (o2.2) (mnodes g2)] (fun l => l)) as (q & -> & Pq & Lq & Gq); [done|done|done| |done|]. { intros l. split; [by exists l|by intros (? & ? & ->)]. } cbn [rbind].
  pose proof (inv_ok c layers n_l K2 K3 al K4 K5 canon Hcanon) as Hinv. destruct (Hinv q q Pq Lq Pq Lq) as (ci & _ & Eci & _). rewrite Eci. cbn [rbind].
  set (perms := if decide (al = Some [0]) then [] else permutations (layers_of g2)).
  set (st := fun (s : list mpx * list (@invariant T)) perm => let? q := overlay g1 g2 [second_names (o1.2) (o2.2) (mnodes g2); rotated perm] in
      let? ci := mcomplete_invariant canon q al in Ok (if decide (ci ∈ s.2) then s else (s.1 ++ [q], s.2 ++ [ci]))).
  assert (NoDup (layers_of g2)) as Nl.
  { destruct (pl_net _ _ P2) as [h Hh%mhist_inv]. pose proof (pw_nd _ (pi_wf _ _ _ _ _ _ Hh)) as Hnd. unfold layers_of. destruct (mslices g2 !! 1) as [s|] eqn:E; [|constructor]. cbn. by eapply Forall_lookup_1. }
  assert (forall perm, perm ∈ permutations (layers_of g2) -> lists_exactly perm (mhas g2 1) /\ cyclic g2 (ren (rotated perm))) as Hperm.
  { intros perm Hp%permutations_Permutation. assert (NoDup perm) as Np by (by rewrite <- Hp). assert (lists_exactly perm (mhas g2 1)) as Hle. { split; [done|]. intros l. by rewrite <- Hp, elem_of_layers_of. }
    split; [done|]. exists perm. split; [done|]. intros i l. by apply rotated_next. }
  assert (forall ps, (forall perm, perm ∈ ps -> perm ∈ permutations (layers_of g2)) -> forall qs is, Forall2 (fun r ci => mcomplete_invariant canon r al = Ok ci /\ plain c r /\ on_layers layers n_l r) qs is -> NoDup is ->
    exists qs' is', rfold st (qs, is) ps = Ok (qs ++ qs', is') /\ Forall2 (fun r ci => mcomplete_invariant canon r al = Ok ci /\ plain c r /\ on_layers layers n_l r) (qs ++ qs') is' /\ NoDup is' /\
      (forall r, r ∈ qs' -> exists perm, perm ∈ ps /\ glue (ren (rotated perm)) r) /\ (forall i, i ∈ is -> i ∈ is') /\
      (forall perm, perm ∈ ps -> exists r' i, glue (ren (rotated perm)) r' /\ plain c r' /\ on_layers layers n_l r' /\ mcomplete_invariant canon r' al = Ok i /\ i ∈ is')) as Hloop.
  { induction ps as [|perm ps IH]; intros Hps qs is HF Nd.
    - exists [], is. rewrite app_nil_r. split; [done|]. split; [done|]. split; [done|]. split; [intros r Hr; by apply elem_of_nil in Hr|]. split; [done|]. intros perm Hp. by apply elem_of_nil in Hp.
    - cbn [rfold]. destruct (Hperm perm) as [Hle Hcy]; [apply Hps; left|].
      destruct (over [second_names (o1.2) (o2.2) (mnodes g2); rotated perm] (ren (rotated perm))) as (r & Er & Pr & Lr & Gr); [done|done|by intros u v; apply cyclic_inj|intros l; by apply cyclic_onto|done|].
      destruct (Hinv r r Pr Lr Pr Lr) as (i & _ & Ei & _). unfold st at 1. rewrite Er. cbn [rbind]. rewrite Ei. cbn [rbind fst snd].
      case_decide as Hi.
      + destruct (IH ltac:(intros; apply Hps; by right) qs is HF Nd) as (qs' & is' & E & F' & N' & Hq & Hsub & Hall). exists qs', is'. split; [exact E|]. split; [exact F'|]. split; [done|]. split; [|split; [done|]].
        * intros r' Hr'. destruct (Hq r' Hr') as (p' & ? & ?). exists p'. split; [by right|done].
        * intros p' [->|Hp']%elem_of_cons; [|by apply Hall]. exists r, i. by split_and!; [..|apply Hsub].
      + destruct (IH ltac:(intros; apply Hps; by right) (qs ++ [r]) (is ++ [i])) as (qs' & is' & E & F' & N' & Hq & Hsub & Hall).
        { apply Forall2_app; [done|]. constructor; [done|constructor]. }
        { apply NoDup_app. split; [done|]. split; [intros y Hy ->%elem_of_list_singleton; done|apply NoDup_singleton]. }
        exists (r :: qs'), is'. rewrite <- app_assoc in E, F'. split; [done|]. split; [done|]. split; [done|]. split; [|split].
        * intros r' [->|Hr']%elem_of_cons; [exists perm; split; [left|done]|]. destruct (Hq r' Hr') as (p' & ? & ?). exists p'. split; [by right|done].
        * intros y Hy. apply Hsub, elem_of_app. by left.
        * intros p' [->|Hp']%elem_of_cons; [|by apply Hall]. exists r, i. split_and!; try done. apply Hsub, elem_of_app. right. left. }
  destruct (Hloop perms) with (qs := [q]) (is := [ci]) as (qs & is & E & HF & Nd & Hq & _ & Hall).
  { unfold perms. destruct (decide _); [intros perm Hp; by apply elem_of_nil in Hp|done]. } { constructor; [done|constructor]. } { apply NoDup_singleton. }
  rewrite E. cbn [rbind fst]. exists q, qs. split; [done|]. split; [done|]. split; [|split; [|split]].
  - intros r Hr. destruct (Hq r Hr) as (perm & Hp & Hg). unfold perms in Hp. destruct (decide (al = Some [0])) as [|Hne]; [by apply elem_of_nil in Hp|]. split; [done|]. exists (ren (rotated perm)). split; [by apply Hperm|done].
  - intros s Hne (ls & Hls & Hs). assert (ls ∈ permutations (layers_of g2)) as Hp.
    { apply permutations_Permutation, NoDup_Permutation; [done|apply Hls|]. intros l. by rewrite elem_of_layers_of, (proj2 Hls). }
    destruct (Hall ls) as (r' & i & Hg & Pr' & Lr' & Ei & Hi); [unfold perms; by rewrite decide_False|]. apply elem_of_list_lookup in Hi as [k Hk]. destruct (Forall2_lookup_r _ _ _ _ _ HF Hk) as (r & Hr & Er & Pr & Lr).
    exists r, r'. split; [by eapply elem_of_list_lookup_2|]. split.
    + assert (forall l, mhas g2 1 l -> ren (rotated ls) l = s l) as Es.
      { intros l Hll%(proj2 Hls). apply elem_of_list_lookup in Hll as [j Hj]. pose proof (rotated_next ls j l (proj1 Hls) Hj) as E1. rewrite (Hs j l Hj) in E1. by injection E1. }
      destruct Hg as (f0 & A1 & A2 & A3 & A4 & A5 & A6). exists f0. split; [done|]. split; [done|]. split; [done|]. split; [done|]. split; [done|]. intros l v w. rewrite A6. destruct (pl_net _ _ P2) as [h Hh].
      split; (intros [?|(l' & v' & w' & Ht & -> & -> & ->)]; [by left|right]); exists l', v', w'; pose proof Ht as (_ & _ & Hl')%(en_tied _ _ _ Hh); by rewrite Es.
    + destruct (Hinv r r' Pr Lr Pr' Lr') as (i1 & i2 & E1 & E2 & Hiff). apply Hiff. congruence.
  - intros r [k Hk]%elem_of_list_lookup. by destruct (Forall2_lookup_l _ _ _ _ _ HF Hk) as (ci1 & _ & _ & ? & _).
  - intros i j r r' Hi Hj Hne Hiso. destruct (Forall2_lookup_l _ _ _ _ _ HF Hi) as (ci1 & Hc1 & E1 & Pr & Lr). destruct (Forall2_lookup_l _ _ _ _ _ HF Hj) as (ci2 & Hc2 & E2 & Pr' & Lr').
    destruct (Hinv r r' Pr Lr Pr' Lr') as (i1 & i2 & F1 & F2 & Hiff). apply Hiff in Hiso. apply Hne. assert (ci1 = ci2) as Ec by congruence. rewrite <- Ec in Hc2. exact (NoDup_lookup _ _ _ _ Nd Hc1 Hc2).
Qed.
End thms.
(** With three layers, swapping two of them and keeping the third is not a cycle of all layers. *)
Theorem C97_swaps_refuted p s a b d : lists_exactly [a; b; d] (mhas p 1) -> cyclic p s -> ~ (s a = b /\ s b = a).
Proof.
  intros [Nd Hl] (ls & [Ns Hs] & Hc) [Ha Hb].
  assert (Permutation ls [a; b; d]) as Hp. { apply NoDup_Permutation; [done|done|]. intros x. by rewrite Hs, Hl. }
  pose proof (Permutation_length Hp) as Hlen. cbn in Hlen.
  assert (a ∈ ls) as Ia by (rewrite Hp; left). apply elem_of_list_lookup in Ia as [i Hi]. pose proof (Hc i a Hi) as H1. rewrite Ha in H1. pose proof (Hc _ _ H1) as H2. rewrite Hb in H2.
  pose proof (NoDup_lookup _ _ _ _ Ns Hi H2) as E. apply lookup_lt_Some in Hi. rewrite Hlen in *. destruct i as [|[|[|i]]]; cbn in E; lia.
Qed.
(** The link 5 - 7 in one layer, combined with itself at 5: the path 7 - 5 - (-2). *)
Definition one_link : mpx := match mbuild (new_mpx [CNone None] false 0 true) (set_ops [(NInt 5, NInt 7, ea)]) with Ok p => p | Err _ => new_mpx [CNone None] false 0 true end.
Example C97_ready : enumerable (CNone None) [ea] (Some [0]) /\ graphlet_at [(2, [one_link])] 2 0 one_link /\ plain (CNone None) one_link /\ on_layers [ea] 1 one_link /\ unit_weights one_link /\
  mhas one_link 0 (NInt 5) /\ (forall z, mhas one_link 0 (NInt z) -> (0 <= z)%Z).
Proof.
  split; [apply C86_enumerable|]. split; [by exists [one_link]|]. pose proof (mhist_init [CNone None] false 0%Z true) as H0.
  destruct (add_links (CNone None) [] (new_mpx [CNone None] false 0 true) [(NInt 5, NInt 7, ea)] [] H0) as (p & g & E & Hg & M0 & M1 & Hw).
  { intros x y l Hx%elem_of_list_singleton. by injection Hx as -> -> ->. }
  assert (one_link = p) as ->. { unfold one_link. cbn [fmap list_fmap] in E. rewrite app_nil_r in E. by rewrite E. }
  assert (forall k x, ~ mhas (new_mpx [CNone None] false 0 true) k x) as Hno. { intros k x. rewrite (C51_nodes_layers_exact _ _ _ _ _ _ H0) by done. by intros (e & ?%elem_of_nil & _). }
  assert (forall l x y, lrd (new_mpx [CNone None] false 0 true) (LBare l) x y = 0%Z) as Hz.
  { intros l x y. destruct (decide (lrd (new_mpx [CNone None] false 0 true) (LBare l) x y = 0%Z)) as [|Hne]; [done|]. apply tied_lrd, (en_tied _ _ _ H0) in Hne as [? _]. by edestruct Hno. }
  split; [split|split; [|split; [|split]]].
  - by exists g.
  - intros l x Ht%tied_lrd. rewrite Hw, Hz in Ht. destruct (decide _) as [Hd|]; [|done]. rewrite !elem_of_list_singleton in Hd. destruct Hd as [Hd|Hd]; injection Hd; intros; congruence.
  - exists [ea]. split; [|split; [done|done]]. split; [apply NoDup_singleton|]. intros l. rewrite M1, elem_of_list_singleton. split.
    + intros ->. right. right. exists (NInt 5), (NInt 7). left.
    + intros [[]%Hno|[H%elem_of_nil|(x & y & H%elem_of_list_singleton)]]; [done|by injection H].
  - apply unit_lrd. intros l x y. rewrite Hw, Hz. destruct (decide _); auto.
  - apply M0. right. exists (NInt 7), ea. left. left.
  - intros z [[]%Hno|(y & l & [H|H])]%M0; apply elem_of_list_singleton in H; injection H; intros; subst; lia.
Qed.
Example C97_edge : (let? r := combine_orbits brute_canon (Some [0]) [(2, [one_link])] (2, 0, NInt 5) (2, 0, NInt 5) in
  Ok (match r with None => [] | Some qs => (fun q => (mnodes q, agetitem q (LBare ea) [NInt 5; NInt 7], agetitem q (LBare ea) [NInt 5; NInt (-2)], agetitem q (LBare ea) [NInt 7; NInt (-2)])) <$> qs end)) =
  Ok [([NInt 5; NInt 7; NInt (-2)], Ok 1%Z, Ok 1%Z, Ok 0%Z)].
Proof. vm_compute. done. Qed.

Print Assumptions C97_other_layers.
Print Assumptions C97_combine.
Print Assumptions C97_swaps_refuted.
