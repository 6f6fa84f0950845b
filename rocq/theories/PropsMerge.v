(** * Property C98: merging two nodes *)
From stdpp Require Import prelude.
From Coq Require Import QArith.
From Verif Require Import Base Net NetSpec NetHist NetIter NetEdges Supra MpxSpec MpxFacts MpxHist MpxIter MpxTrans TransFacts2 MpxBuild PropsMpx MpxRelabel PropsMpxRelabel MpxSub PropsMpxEq MpxEdges PropsMpxEdges Samp SampFacts Graphlet GraphletSpec PartFacts
  Isom MpxIsom IsomSpec PropsIsom PropsIsomMpx EnumSpec EnumNet Enum EnumFacts PropsEnum OrbitCount CountSpec CountFacts OrbitEq EqSpec EqFacts OrbitGen PropsOrbGen PropsComb.
Local Open Scope nat_scope.

(** The links among [both] and [x] are those among [both] and [y] up to the names of the nodes. *)
Definition alike (p : mpx) (both : list name) (x y : name) : Prop :=
  exists m : name -> name, bijective (fun u => u ∈ both ++ [x]) (fun u => u ∈ both ++ [y]) m /\
    forall l u v, u ∈ both ++ [x] -> v ∈ both ++ [x] -> u <> v -> tied p l u v <-> tied p l (m u) (m v).
(** [q] is [p] with the node [y] merged into [x]. *)
Definition joined (p : mpx) (x y : name) (q : mpx) : Prop :=
  (forall u, mhas q 0 u <-> mhas p 0 u /\ u <> y) /\ (forall l, mhas q 1 l <-> mhas p 1 l) /\
  forall l u v, tied q l u v <-> (tied p l u v /\ u <> y /\ v <> y) \/ (u = x /\ tied p l y v) \/ (v = x /\ tied p l y u).

Section merge.
Context (c : coupling) (layers : list name) (n_l : nat) (Hkind : EnumSpec.one_kind layers) (Hfit : coupling_fits c layers).
Context (p : mpx) (Pp : plain c p) (Lp : on_layers layers n_l p).
Notation lay_ok := (on_layers layers n_l).
Lemma present_ok x : mhas p 0 x -> exists ls, present p x = Ok ls /\ forall l, l ∈ ls <-> mhas p 1 l.
Proof using Pp.
  intros Hx. destruct (pl_net _ _ Pp) as [h Hh]. destruct (miter_node_layers_ok p (pi_wf _ _ _ _ _ _ (mhist_inv _ _ _ _ _ _ Hh))) as (L & HL & _). unfold present. rewrite HL. cbn [rbind]. eexists. split; [done|].
  assert (forall a, a ∈ L <-> mexists p a) as Ha. { intros a. split; [intros ?; by exists L|]. intros (L' & E & ?). congruence. }
  intros l. rewrite elem_of_list_omap. split.
  - intros (a & Hin & Hm). apply Ha, (en_exists _ _ _ Hh) in Hin as (u & k & -> & _ & Hk). destruct (decide (x = u)); [|done]. by injection Hm as <-.
  - intros Hl. exists [x; l]. split; [apply Ha, (en_exists _ _ _ Hh); by exists x, l|]. by rewrite decide_True.
Qed.
Lemma sub_alike structure both x y : exact_backend structure -> (forall u, u ∈ both -> mhas p 0 u) -> mhas p 0 x -> mhas p 0 y ->
  exists s1 s2 b, msubnet p [Some (both ++ [x]); Some (layers_of p)] false = Ok s1 /\ msubnet p [Some (both ++ [y]); Some (layers_of p)] false = Ok s2 /\
    mis_isomorphic structure s1 s2 (Some [0]) = Ok b /\ (b = true <-> alike p both x y).
Proof using Hkind Hfit Pp Lp.
  intros Hback Hb Hx Hy.
  assert (forall z, mhas p 0 z -> exists s, msubnet p [Some (both ++ [z]); Some (layers_of p)] false = Ok s /\ induced c p (both ++ [z]) s) as Hs.
  { intros z Hz. apply (sub_induced c layers Hfit p _ Pp). intros u [?| ->%elem_of_list_singleton]%elem_of_app; auto. }
  destruct (Hs x Hx) as (s1 & E1 & I1). destruct (Hs y Hy) as (s2 & E2 & I2). exists s1, s2.
  pose proof (induced_plain c p _ s1 Pp I1) as P1. pose proof (induced_plain c p _ s2 Pp I2) as P2. pose proof (induced_lay c layers n_l p _ s1 Lp I1) as L1. pose proof (induced_lay c layers n_l p _ s2 Lp I2) as L2.
  destruct (plain_suitable c layers n_l Hfit s1 P1 L1) as [S1 A1]. destruct (plain_suitable c layers n_l Hfit s2 P2 L2) as [S2 A2].
  assert (0 ∈ aspect_list 1 (Some [0])) as K0 by (by left).
  pose proof (plain_sortable c layers n_l Hkind Hfit (Some [0]) K0 s1 P1 L1) as T1. pose proof (plain_sortable c layers n_l Hkind Hfit (Some [0]) K0 s2 P2 L2) as T2.
  destruct (pl_net _ _ P1) as [h1 H1], (pl_net _ _ P2) as [h2 H2]. pose proof I1 as (_ & N1 & M1 & W1). pose proof I2 as (_ & N2 & M2 & W2).
  destruct (fixed_parts_exist s1 (aspect_list (maspects s1) (Some [0])) S1) as [F1 HF1]. destruct (fixed_parts_exist s2 (aspect_list (maspects s1) (Some [0])) S2) as [F2 HF2].
  assert (length F1 = length F2) as HF.
  { apply Permutation_length, NoDup_Permutation; [apply HF1|apply HF2|]. intros d. rewrite (proj2 HF1), (proj2 HF2). cbn [aspect_list].
    split.
    - intros (a & (u & l & -> & _ & Hl)%(en_exists _ _ _ H1) & ->). exists [y; l]. split; [|done]. apply (en_exists _ _ _ H2). exists y, l. split; [done|]. split; [apply N2, elem_of_app; right; left|by apply M2, M1].
    - intros (a & (u & l & -> & _ & Hl)%(en_exists _ _ _ H2) & ->). exists [x; l]. split; [|done]. apply (en_exists _ _ _ H1). exists x, l. split; [done|]. split; [apply N1, elem_of_app; right; left|by apply M1, M2]. }
  destruct (C85_is_isomorphic structure s1 s2 (Some [0]) F1 F2) as [Hok _]; [done|done|done|congruence| |done|done|done|done|].
  { rewrite A1. split; [apply NoDup_singleton|]. intros a ->%elem_of_list_singleton. lia. }
  destruct Hok as (b & Eb & Hbb); [by right|]. exists b. split; [done|]. split; [done|]. split; [done|]. rewrite Hbb. unfold misomorphic. rewrite A1. cbn [aspect_list]. split.
  - intros (m & Hm). assert (shape_iso c s1 s2 (fun a => a ∈ [0]) m) as [B1 B2 B3 B4 B5 B6].
    { apply (misomorphism_shape c h1 h2 s1 s2 H1 H2 (fits_no_net c layers Hfit)); [left|right; by intros ?%elem_of_list_singleton|intros a ->%elem_of_list_singleton; lia|exists x; apply N1, elem_of_app; right; left|done]. }
    exists (m 0). destruct B1 as (C1 & C2 & C3). split; [split; [|split]|].
    + intros u Hu%N1. by apply N2, C1.
    + intros u v Hu%N1 Hv%N1. by apply C2.
    + intros u Hu%N2. destruct (C3 u Hu) as (v & Hv & <-). exists v. split; [by apply N1|done].
    + intros l u v Hu Hv Hne. destruct (mhas_lem p 1 l) as [Hl|Hl].
      * apply M1 in Hl. apply N1 in Hu as Hu', Hv as Hv'. pose proof (B5 l u v Hl Hu' Hv' Hne) as E. rewrite W1, W2, (B3 1 l) in E by (by intros ?%elem_of_list_singleton). split.
        -- intros Ht. by apply E.
        -- intros Ht. apply E. split; [done|]. split; apply N2, C1; by apply N1.
      * destruct (pl_net _ _ Pp) as [h Hh]. split; intros (_ & _ & ?)%(en_tied _ _ _ Hh); done.
  - intros (m & (C1 & C2 & C3) & Ht). exists (fun a => if decide (a = 0) then m else id). apply (shape_misomorphism c h1 h2 s1 s2 H1 H2 (fits_no_net c layers Hfit)). split.
    + cbn. split; [|split].
      * intros u Hu%N1. by apply N2, C1.
      * intros u v Hu%N1 Hv%N1. by apply C2.
      * intros u Hu%N2. destruct (C3 u Hu) as (v & Hv & <-). exists v. split; [by apply N1|done].
    + cbn. split; [|split]; [intros l Hl%M1; by apply M2|done|]. intros l Hl%M2. exists l. split; [by apply M1|done].
    + intros a z Ha. rewrite decide_False; [done|]. intros ->. apply Ha. left.
    + intros a ->%elem_of_list_singleton. lia.
    + cbn. intros l u v Hl Hu%N1 Hv%N1 Hne. rewrite W1, W2, (Ht l u v) by done. split; [intros (? & _)|intros (? & _)]; split; auto.
    + cbn. done.
Qed.
Lemma join_ok x y : mhas p 0 x -> mhas p 0 y -> x <> y -> (forall l, ~ tied p l x y) ->
  exists n q, msubnet p [Some (sdiff (mnodes p) [y]); Some (layers_of p)] false = Ok n /\
   rfold (fun q l => let? bs := mp_iter p DTot [y; l] None in
      mbuild q (omap (fun b : nl => match b with z :: l' :: _ => if decide (z = y) then None else Some (MSet [x; z; l; l'] 1) | _ => None end) bs)) n (layers_of p) = Ok q /\
   plain c q /\ lay_ok q /\ joined p x y q /\ (unit_weights p -> unit_weights q).
Proof using Hfit Pp Lp.
  intros Hx Hy Hxy Hno. destruct (plain_ok c layers n_l Hfit p Pp Lp) as (h & Hh & Hf & Hl).
  destruct (sub_net c h p (sdiff (mnodes p) [y]) (layers_of p) Hh (fits_no_net c layers Hfit)) as (n & gn & En & Hn & N0 & N1 & Nl); [intros l; apply elem_of_layers_of|]. exists n.
  assert (forall ls, (forall l, l ∈ ls -> mhas p 1 l) -> exists ts : list (name * name * name), (forall h q, mhist [c] false 0 true h q -> rfold (fun q l => let? bs := mp_iter p DTot [y; l] None in
      mbuild q (omap (fun b : nl => match b with z :: l' :: _ => if decide (z = y) then None else Some (MSet [x; z; l; l'] 1) | _ => None end) bs)) q ls = mbuild q ((fun t => MSet [t.1.1; t.1.2; t.2; t.2] 1) <$> ts)) /\
      forall t, t ∈ ts <-> exists l z, l ∈ ls /\ t = (x, z, l) /\ tied p l y z) as Hts.
  { induction ls as [|l ls IH]; intros Hls. { exists []. split; [done|]. intros t. rewrite elem_of_nil. split; [done|]. by intros (? & ? & ?%elem_of_nil & _). }
    destruct IH as (ts & E & Ht); [intros; apply Hls; by right|]. assert (mhas p 1 l) as Hll by (apply Hls; left).
    assert (mexists p [y; l]) as Hex by (apply (en_exists _ _ _ Hh); by exists y, l).
    destruct (iter_any [c] false true h p Hh Hf Hl [y; l] DTot) as (bs & Eb & _ & Hbs); [by eapply ex_cart|].
    set (tl := omap (fun b : nl => match b with z :: _ => if decide (z = y) then None else Some (x, z, l) | _ => None end) bs).
    assert (forall b, b ∈ bs -> exists z l', b = [z; l'] /\ (z = y \/ z <> y /\ l' = l /\ tied p l y z)) as Hb1.
    { intros b (_ & Hb & Hlk)%Hbs. pose proof Hb as (z & l' & -> & Hz & Hl')%(en_exists _ _ _ Hh). exists z, l'. split; [done|]. destruct (decide (z = y)) as [|Hne]; [by left|]. right. split; [done|].
      assert (mlinked p [y; l] [z; l']) as Hk by (by apply (und_linked [c] false true h p Hh Hf)).
      destruct (decide (l' = l)) as [->|Hll']; [split; [done|]; by apply (en_intra _ _ _ Hh) in Hk as [_ ?]|]. exfalso. apply (en_cross _ _ _ Hh) in Hk as [-> _]; [done|by eapply fits_no_net|congruence|done..]. }
    exists (tl ++ ts). split.
    - intros hq q Hq. cbn [rfold]. rewrite Eb. cbn [rbind].
      assert (omap (fun b : nl => match b with z :: l' :: _ => if decide (z = y) then None else Some (MSet [x; z; l; l'] 1) | _ => None end) bs = (fun t : name * name * name => MSet [t.1.1; t.1.2; t.2; t.2] 1) <$> tl) as ->.
      { unfold tl. clear -Hb1. induction bs as [|b bs IH]; [done|]. cbn [omap list_omap]. rewrite IH by (intros; apply Hb1; by right). destruct (Hb1 b) as (z & l' & -> & Hz); [left|]. destruct (decide (z = y)); [done|]. by destruct Hz as [|(_ & -> & _)]. }
      rewrite fmap_app. assert (forall a b, mbuild q (a ++ b) = match mbuild q a with Ok t => mbuild t b | Err e => Err e end) as -> by (intros; apply rfold_app). destruct (mbuild q _) as [q'|] eqn:Eq; [|done]. eapply E. by eapply mbuild_hist.
    - intros t. rewrite elem_of_app, Ht. unfold tl. rewrite elem_of_list_omap. split.
      + intros [(b & Hin & Hm)|(l' & z & ? & ? & ?)]; [|exists l', z; split; [by right|done]]. destruct (Hb1 b Hin) as (z & l' & -> & Hz). destruct (decide (z = y)); [done|]. injection Hm as <-. destruct Hz as [|(_ & _ & Hz)]; [done|]. exists l, z. split; [left|done].
      + intros (l' & z & [->|Hin]%elem_of_cons & -> & Hz); [|right; by exists l', z]. left. exists [z; l]. pose proof Hz as (_ & Hzn & _)%(en_tied _ _ _ Hh). assert (z <> y) as Hne by (intros ->; by apply (pl_loops _ _ Pp) in Hz). split; [|by rewrite decide_False].
        apply Hbs. split; [done|]. split; [apply (en_exists _ _ _ Hh); by exists z, l|]. left. by apply (en_intra _ _ _ Hh). }
  destruct (Hts (layers_of p)) as (ts & Ets & Ht); [intros l; apply elem_of_layers_of|].
  assert (forall u v l, (u, v, l) ∈ ts <-> u = x /\ tied p l y v) as Ht'.
  { intros u v l. rewrite Ht. split; [by intros (l' & z & _ & [= -> -> ->] & ?)|]. intros [-> Htt]. exists l, v. split; [|done]. apply elem_of_layers_of. by apply (en_tied _ _ _ Hh) in Htt as (_ & _ & ?). }
  destruct (put_links c gn n 1 ts [] Hn) as (q & gq & Eq & Hq & Q0 & Q1 & Ql). { intros u v l [-> Htt]%Ht' <-. apply (Hno l). by apply (en_sym _ _ _ Hh). }
  cbn [fmap list_fmap] in Eq. rewrite app_nil_r in Eq. exists q. split; [done|]. split; [rewrite (Ets gn n Hn); by rewrite (build_full c ts gn n Hn)|].
  assert (forall u, u ∈ sdiff (mnodes p) [y] <-> mhas p 0 u /\ u <> y) as Hsd. { intros u. unfold sdiff. rewrite elem_of_list_filter, elem_of_list_singleton, nodes_mhas. tauto. }
  assert (forall l, mhas q 1 l <-> mhas p 1 l) as Q1'. { intros l. rewrite Q1, N1. split; [|by left]. intros [?|[H'%elem_of_nil|(u & v & [_ Htt]%Ht')]]; [done|done|]. by apply (en_tied _ _ _ Hh) in Htt as (_ & _ & ?). }
  assert (forall l u v, tied q l u v <-> (tied p l u v /\ u <> y /\ v <> y) \/ (u = x /\ tied p l y v) \/ (v = x /\ tied p l y u)) as Qt.
  { intros l u v. rewrite (tied_lrd q), Ql. destruct (decide _) as [Hd|Hd]; rewrite !Ht' in Hd; [split; [by right|done]|]. rewrite Nl. destruct (decide (u ∈ _ /\ v ∈ _)) as [Hd'|Hd'].
    - rewrite <- tied_lrd. rewrite !Hsd in Hd'. split; [left; tauto|]. intros [[? _]|?]; [done|by destruct Hd].
    - split; [done|]. intros [(Htt & Hu & Hv)|?]; [|by destruct Hd]. exfalso. apply Hd'. rewrite !Hsd. apply (en_tied _ _ _ Hh) in Htt. tauto. }
  split; [|split; [|split; [split; [|split]|]]].
  - split; [by exists gq|]. intros l u [(Htt & _)|[[-> Htt]|[-> Htt]]]%Qt; [by apply (pl_loops _ _ Pp) in Htt|apply (Hno l); by apply (en_sym _ _ _ Hh)..].
  - destruct Lp as (t & [Nt Htt] & Hln & Hin). exists t. split; [split; [done|]|done]. intros l. by rewrite Htt, Q1'.
  - intros u. rewrite Q0, N0, Hsd. split.
    + intros [?|(v & l & [[-> Htt]%Ht'|[-> Htt]%Ht'])]; [tauto|done|]. split; [by apply (en_tied _ _ _ Hh) in Htt as (_ & ? & _)|]. intros ->. by apply (pl_loops _ _ Pp) in Htt.
    + intros ?. left. tauto.
  - done.
  - done.
  - rewrite !unit_lrd. intros Hu l u v. rewrite Ql. destruct (decide _); [by right|]. rewrite Nl. destruct (decide _); [apply Hu|by left].
Qed.
End merge.

Section thms.
Context {T : Type} `{EqDecision T} (structure : auxg -> auxg -> bool) (canon : dict nat nat -> list (nat * nat) -> T).
Context (c : coupling) (layers : list name) (n_l : nat) (al : option (list nat)) (p : mpx) (both : list name).
(** [merge_nodes] returns, with the extended list of shared nodes, the networks in which a negative
    node has been merged into a non-negative one whose links to the shared nodes are alike: each
    is one of these, each of these is there up to isomorphism, and no two of them are isomorphic. *)
Theorem C98_merge : exact_backend structure -> exact_canon canon -> enumerable c layers al -> plain c p -> on_layers layers n_l p ->
  (forall u, mhas p 0 u -> exists z, u = NInt z) -> (forall u, u ∈ both -> mhas p 0 u) -> (forall x y l, across p both x y -> ~ tied p l x y) ->
  exists ms, merge_nodes structure canon al both p = Ok ms /\
    (forall q b, (q, b) ∈ ms -> exists x y, across p both x y /\ alike p both x y /\ b = both ++ [x] /\ plain c q /\ joined p x y q /\ (unit_weights p -> unit_weights q)) /\
    (forall x y, across p both x y -> alike p both x y -> exists q b q', (q, b) ∈ ms /\ plain c q' /\ joined p x y q' /\ misomorphic al q q') /\
    (forall i j q b q' b', ms !! i = Some (q, b) -> ms !! j = Some (q', b') -> i <> j -> ~ misomorphic al q q').
Proof.
  intros Hback Hcanon Hen Pp Lp Hint Hb Hno. pose proof Hen as [_ K2 K3 K4 K5]. pose proof (inv_ok c layers n_l K2 K3 al K4 K5 canon Hcanon) as Hinv.
  unfold merge_nodes. destruct (split_ok (sdiff (mnodes p) both)) as (s1 & s2 & -> & H1 & H2).
  { intros x [_ Hx]%elem_of_list_filter. apply Hint. by apply nodes_mhas. }
  cbn [rbind fst snd].
  assert (forall x y, (x, y) ∈ cross_pairs s1 s2 <-> across p both x y) as Hcr.
  { intros x y. rewrite elem_of_cross, H1, H2. unfold sdiff. rewrite !elem_of_list_filter, !nodes_mhas. unfold across. naive_solver. }
  set (good := fun (m : mpx * list name) ci => mcomplete_invariant canon (m.1) al = Ok ci /\ plain c (m.1) /\ on_layers layers n_l (m.1)).
  assert (forall ps, (forall xy, xy ∈ ps -> xy ∈ cross_pairs s1 s2) -> forall ms is, Forall2 good ms is -> NoDup is ->
    exists ms' is', rfold (merge_step structure canon al both p) (ms, is) ps = Ok (ms ++ ms', is') /\ Forall2 good (ms ++ ms') is' /\ NoDup is' /\
      (forall q b, (q, b) ∈ ms' -> exists x y, (x, y) ∈ ps /\ alike p both x y /\ b = both ++ [x] /\ plain c q /\ joined p x y q /\ (unit_weights p -> unit_weights q)) /\ (forall i, i ∈ is -> i ∈ is') /\
      (forall x y, (x, y) ∈ ps -> alike p both x y -> exists q i, plain c q /\ on_layers layers n_l q /\ joined p x y q /\ mcomplete_invariant canon q al = Ok i /\ i ∈ is')) as Hloop.
  { induction ps as [|[x y] ps IH]; intros Hps ms is HF Nd.
    - exists [], is. rewrite app_nil_r. split; [done|]. split; [done|]. split; [done|]. split; [intros ? ? Hr; by apply elem_of_nil in Hr|]. split; [done|]. intros ? ? Hp. by apply elem_of_nil in Hp.
    - cbn [rfold]. specialize (IH ltac:(intros; apply Hps; by right)). assert (across p both x y) as Hac by (apply Hcr, Hps; left). pose proof Hac as (Hx & Hy & _ & _ & a & b0 & Ex & Ey & Ha & Hb0).
      assert (x <> y) as Hxy by (intros ->; simplify_eq; lia).
      destruct (present_ok c p Pp x Hx) as (l1 & E1 & Hl1). destruct (present_ok c p Pp y Hy) as (l2 & E2 & Hl2).
      destruct (sub_alike c layers n_l K2 K3 p Pp Lp structure both x y Hback Hb Hx Hy) as (sub1 & sub2 & r & Es1 & Es2 & Er & Hr).
      destruct (join_ok c layers n_l K3 p Pp Lp x y Hx Hy Hxy) as (n & q & En & Eq & Pq & Lq & Jq & Uq); [intros l; by apply Hno|].
      destruct (Hinv q q Pq Lq Pq Lq) as (i & _ & Ei & _).
      unfold merge_step at 1. cbn [fst snd]. rewrite E1, E2. cbn [rbind]. assert (set_eqb l1 l2 = true) as -> by (apply set_eqb_true; intros l; by rewrite Hl1, Hl2). cbn [negb]. rewrite Es1, Es2. cbn [rbind]. rewrite Er. cbn [rbind].
      destruct r; cbn [negb].
      + assert (alike p both x y) as Hal by (by apply Hr). rewrite En. cbn [rbind]. rewrite Eq. cbn [rbind]. rewrite Ei. cbn [rbind]. case_decide as Hi.
        * destruct (IH ms is HF Nd) as (ms' & is' & E & F' & N' & Hq & Hsub & Hall). exists ms', is'. split; [exact E|]. split; [exact F'|]. split; [done|]. split; [|split; [done|]].
          -- intros q' b' Hq'. destruct (Hq q' b' Hq') as (x' & y' & ? & ?). exists x', y'. split; [by right|done].
          -- intros x' y' [[= -> ->]|Hp]%elem_of_cons; [|by apply Hall]. intros _. exists q, i. split; [done|]. split; [done|]. split; [done|]. split; [done|]. by apply Hsub.
        * destruct (IH (ms ++ [(q, both ++ [x])]) (is ++ [i])) as (ms' & is' & E & F' & N' & Hq & Hsub & Hall).
          { apply Forall2_app; [done|]. constructor; [done|constructor]. }
          { apply NoDup_app. split; [done|]. split; [intros z Hz ->%elem_of_list_singleton; done|apply NoDup_singleton]. }
          exists ((q, both ++ [x]) :: ms'), is'. rewrite <- app_assoc in E, F'. split; [done|]. split; [done|]. split; [done|]. split; [|split].
          -- intros q' b' [[= -> ->]|Hq']%elem_of_cons; [exists x, y; split; [left|done]|]. destruct (Hq q' b' Hq') as (x' & y' & ? & ?). exists x', y'. split; [by right|done].
          -- intros z Hz. apply Hsub, elem_of_app. by left.
          -- intros x' y' [[= -> ->]|Hp]%elem_of_cons; [|by apply Hall]. intros _. exists q, i. split; [done|]. split; [done|]. split; [done|]. split; [done|]. apply Hsub, elem_of_app. right. left.
      + destruct (IH ms is HF Nd) as (ms' & is' & E & F' & N' & Hq & Hsub & Hall). exists ms', is'. split; [exact E|]. split; [exact F'|]. split; [done|]. split; [|split; [done|]].
        * intros q' b' Hq'. destruct (Hq q' b' Hq') as (x' & y' & ? & ?). exists x', y'. split; [by right|done].
        * intros x' y' [[= -> ->]|Hp]%elem_of_cons; [|by apply Hall]. intros Hal%Hr. done. }
  destruct (Hloop (cross_pairs s1 s2)) with (ms := @nil (mpx * list name)) (is := @nil (@invariant T)) as (ms & is & E & HF & Nd & Hq & _ & Hall); [done|constructor|constructor|].
  cbn [app] in E, HF. match type of E with _ = ?y => match goal with |- context [rbind ?x _] => assert (x = y) as -> by exact E end end. cbn [rbind fst]. exists ms. split; [done|]. split; [|split].
  - intros q b (x & y & Hxy%Hcr & ?)%Hq. by exists x, y.
  - intros x y Hxy%Hcr Hal. destruct (Hall x y Hxy Hal) as (q' & i & Pq' & Lq' & Jq' & Ei & Hi). apply elem_of_list_lookup in Hi as [k Hk]. destruct (Forall2_lookup_r _ _ _ _ _ HF Hk) as ([q b] & Hq' & Eq & Pq & Lq). cbn in *.
    exists q, b, q'. split; [by eapply elem_of_list_lookup_2|]. split; [done|]. split; [done|]. destruct (Hinv q q' Pq Lq Pq' Lq') as (i1 & i2 & F1 & F2 & Hiff). apply Hiff. congruence.
  - intros i j q b q' b' Hi Hj Hne Hiso. destruct (Forall2_lookup_l _ _ _ _ _ HF Hi) as (ci1 & Hc1 & E1 & Pr & Lr). destruct (Forall2_lookup_l _ _ _ _ _ HF Hj) as (ci2 & Hc2 & E2 & Pr' & Lr').
    destruct (Hinv q q' Pr Lr Pr' Lr') as (i1 & i2 & F1 & F2 & Hiff). apply Hiff in Hiso. cbn [fst] in *. apply Hne. assert (ci1 = ci2) as Ec by congruence. rewrite <- Ec in Hc2. exact (NoDup_lookup _ _ _ _ Nd Hc1 Hc2).
Qed.
(** A node named by a string outside the shared nodes: TypeError. *)
Theorem C98_strings s : mhas p 0 (NStr s) -> NStr s ∉ both -> merge_nodes structure canon al both p = Err TypeError.
Proof.
  intros Hs Hb. unfold merge_nodes. assert (forall l, NStr s ∈ l -> split_sign l = Err TypeError) as Hsp.
  { induction l as [|x l IH]; intros Hl; [by apply elem_of_nil in Hl|]. destruct x as [z|t]; cbn [split_sign]; [|done]. apply elem_of_cons in Hl as [|Hl]; [done|]. by rewrite IH. }
  rewrite Hsp; [done|]. apply elem_of_list_filter. split; [done|]. by apply nodes_mhas.
Qed.
End thms.

(** The networks of C97 have no links between pairs that can be merged, and merging does not
    make any: the networks to which [orbit_equations] applies [merge_nodes] are those of C98_merge. *)
Theorem C98_untied_start c g1 g2 x y s q u v l : plain c g1 -> plain c g2 -> (forall z, mhas g1 0 (NInt z) -> (0 <= z)%Z) ->
  glued g1 g2 x y s q -> across q [x] u v -> ~ tied q l u v.
Proof.
  intros [[h1 H1] _] [[h2 H2] _] Hpos (f & F0 & _ & F2 & _ & _ & Ft) (_ & _ & Hu & _ & a & b & -> & -> & Ha & Hb) Ht. rewrite elem_of_list_singleton in Hu.
  apply Ft in Ht as [Ht|(l' & v' & w' & Ht & _ & Ev & _)].
  - apply (en_tied _ _ _ H1) in Ht as (_ & Hv%Hpos & _). lia.
  - apply (en_tied _ _ _ H2) in Ht as (Hv & _ & _). destruct (decide (v' = y)) as [->|Hne]; [congruence|]. destruct (F2 v' Hv Hne) as (_ & z & E & Hz). rewrite <- Ev in E. injection E. lia.
Qed.
Theorem C98_untied_step p both x y q u v l : (forall u v l, across p both u v -> ~ tied p l u v) -> across p both x y -> joined p x y q ->
  across q (both ++ [x]) u v -> ~ tied q l u v.
Proof.
  intros Hno _ (J0 & _ & Jt) (Hu & Hv & Nu & Nv & Hs) Ht. rewrite elem_of_app, elem_of_list_singleton in Nu, Nv. apply J0 in Hu as [Hu _], Hv as [Hv _].
  apply Jt in Ht as [(Ht & _)|[[-> _]|[-> _]]]; [|tauto..]. apply (Hno u v l); [|done]. split; [done|]. split; [done|]. split; [tauto|]. split; [tauto|done].
Qed.

(** The path 7 - 5 - (-2) with 5 shared: -2 is merged into 7. *)
Definition two_links : mpx := match mbuild (new_mpx [CNone None] false 0 true) (set_ops [(NInt 5, NInt 7, ea); (NInt 5, NInt (-2), ea)]) with Ok p => p | Err _ => new_mpx [CNone None] false 0 true end.
Example C98_ready : enumerable (CNone None) [ea] (Some [0]) /\ plain (CNone None) two_links /\ on_layers [ea] 1 two_links /\ (forall u, mhas two_links 0 u -> exists z, u = NInt z) /\
  mhas two_links 0 (NInt 5) /\ across two_links [NInt 5] (NInt 7) (NInt (-2)) /\ (forall x y l, across two_links [NInt 5] x y -> ~ tied two_links l x y).
Proof.
  split; [apply C86_enumerable|]. pose proof (mhist_init [CNone None] false 0%Z true) as H0.
  destruct (add_links (CNone None) [] (new_mpx [CNone None] false 0 true) [(NInt 5, NInt 7, ea); (NInt 5, NInt (-2), ea)] [] H0) as (p & g & E & Hg & M0 & M1 & Hw).
  { intros x y l Hx. rewrite !elem_of_cons, !elem_of_nil in Hx. destruct Hx as [Hx|[Hx|[]]]; injection Hx as -> -> ->; done. }
  assert (two_links = p) as ->. { unfold two_links. cbn [fmap list_fmap] in E. rewrite app_nil_r in E. by rewrite E. }
  assert (forall k x, ~ mhas (new_mpx [CNone None] false 0 true) k x) as Hno. { intros k x. rewrite (C51_nodes_layers_exact _ _ _ _ _ _ H0) by done. by intros (e & ?%elem_of_nil & _). }
  assert (forall l x y, lrd (new_mpx [CNone None] false 0 true) (LBare l) x y = 0%Z) as Hz.
  { intros l x y. destruct (decide (lrd (new_mpx [CNone None] false 0 true) (LBare l) x y = 0%Z)) as [|Hne]; [done|]. apply tied_lrd, (en_tied _ _ _ H0) in Hne as [? _]. by edestruct Hno. }
  assert (forall l x y, tied p l x y -> (x = NInt 5 /\ y <> NInt 5) \/ (y = NInt 5 /\ x <> NInt 5)) as Ht.
  { intros l x y Hxy%tied_lrd. rewrite Hw, Hz in Hxy. destruct (decide _) as [Hd|]; [|done]. rewrite !elem_of_cons, !elem_of_nil in Hd. destruct Hd as [[Hd|[Hd|[]]]|[Hd|[Hd|[]]]]; injection Hd as -> -> ->; auto. }
  split; [split|split; [|split; [|split; [|split]]]].
  - by exists g.
  - intros l x [[-> ?]|[-> ?]]%Ht; done.
  - exists [ea]. split; [|split; [done|done]]. split; [apply NoDup_singleton|]. intros l. rewrite M1, elem_of_list_singleton. split.
    + intros ->. right. right. exists (NInt 5), (NInt 7). left.
    + intros [[]%Hno|[H%elem_of_nil|(x & y & H)]]; [done|]. rewrite !elem_of_cons, !elem_of_nil in H. destruct H as [H|[H|[]]]; by injection H.
  - intros u [[]%Hno|(y & l & H)]%M0. rewrite !elem_of_cons, !elem_of_nil in H. destruct H as [[H|[H|[]]]|[H|[H|[]]]]; injection H as ? ? ?; subst; eauto.
  - apply M0. right. exists (NInt 7), ea. left. left.
  - split; [apply M0; right; exists (NInt 5), ea; right; left|]. split; [apply M0; right; exists (NInt 5), ea; right; right; left|]. split; [by intros ?%elem_of_list_singleton|]. split; [by intros ?%elem_of_list_singleton|]. by exists 7%Z, (-2)%Z.
  - intros x y l (_ & _ & Hx & Hy & _) [[-> _]|[-> _]]%Ht; [apply Hx|apply Hy]; left.
Qed.
Example C98_path : (let? ms := merge_nodes brute brute_canon (Some [0]) [NInt 5] two_links in
  Ok ((fun m : mpx * list name => (mnodes (m.1), agetitem (m.1) (LBare ea) [NInt 5; NInt 7], m.2)) <$> ms)) = Ok [([NInt 5; NInt 7], Ok 1%Z, [NInt 5; NInt 7])].
Proof. vm_compute. done. Qed.

Print Assumptions C98_merge.
Print Assumptions C98_strings.
Print Assumptions C98_untied_start.
Print Assumptions C98_untied_step.
