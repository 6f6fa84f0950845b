(** * C88: coefficients of the orbit equations *)
From stdpp Require Import prelude relations.
From Coq Require Import QArith.
From Verif Require Import Base Net NetSpec NetHist NetIter Supra MpxSpec MpxFacts MpxHist MpxIter MpxTrans MpxBuild PropsMpx MpxRelabel MpxSub PropsMpxSub PropsMpxEq OverlapFacts MpxEdges
  Samp Graphlet GraphletSpec GraphletFacts TouchFacts Isom IsomFacts MpxIsom IsomSpec PropsIsom PropsIsomMpx SampFacts Enum EnumSpec EnumNet EnumFacts PropsEnum OrbitCount CountSpec CountFacts CountRun CountCat PropsCount OrbitEq EqSpec EqFacts EqRun EqMain.
Local Open Scope nat_scope.

Section thms.
Context {T : Type} `{EqDecision T} (structure : auxg -> auxg -> bool) (mapping : auxg -> auxg -> dict nat nat) (canon : dict nat nat -> list (nat * nat) -> T).
Context (c : coupling) (layers : list name) (n_l : nat) (al : option (list nat)) (n : nat) (nets : dict nat (list mpx)) (invs : @invariants T) (auts : dict orbit name) (orbits : list orbit).
Context (Hback : exact_backend structure) (Hmap : exact_mapping structure mapping) (Hcanon : exact_canon canon) (Hen : enumerable c layers al) (Hcat : catalogue canon al c layers n_l n nets invs auts orbits).
Notation coef := (coefficient structure mapping canon al nets invs auts).
Notation occ := (occupies c al nets auts).
Notation times o1 o2 := (if decide (o1 = o2) then 2%positive else 1%positive).
Lemma orbit_known o : is_orbit n nets auts o -> known n nets o.
Proof. intros (Hk & g & y & Hg & _). split; [done|]. by exists g. Qed.

(** [coefficient(x, both, o1, o2, p)], also for a network that is not a graphlet: the number of
    pairs of node sets that cover the network, share [len(both)] nodes and in which [x] occupies
    [o1] and [o2]; half of it for equal orbits. *)
Theorem C88_coefficient p x both o1 o2 : plain c p -> on_layers layers n_l p -> is_orbit n nets auts o1 -> is_orbit n nets auts o2 ->
  mhas p 0 x -> NoDup both -> x ∈ both -> length both <= size o1 ->
  exists k, coef x both o1 o2 p = Ok (Qmake (Z.of_nat k) (times o1 o2)) /\ counts_pairs k (covers c al nets auts p x o1 o2 (length both)).
Proof using Hback Hmap Hcanon Hen Hcat.
  destruct Hen as [_ E2 E3 E4 E5]. intros Hp Hl H1%orbit_known H2%orbit_known Hx Nb Hb Hlen.
  by apply (coefficient_ok c layers n_l E2 E3 al E4 E5 structure mapping canon n nets invs auts orbits).
Qed.

(** What an equation may use: the coefficient of the orbit, at any node of it in its graphlet and
    with either order of the two orbits, without the division by two. *)
Definition coefficient_of (o1 o2 o : orbit) (k : nat) : Prop :=
  exists g y both, in_graphlet nets auts o g y /\ NoDup both /\ y ∈ both /\ length both + size o = size o1 + size o2 /\
    (coef y both o1 o2 g = Ok (Qmake (Z.of_nat k) (times o1 o2)) \/ coef y both o2 o1 g = Ok (Qmake (Z.of_nat k) (times o1 o2))).
Lemma covers_swap p x o1 o2 b k : counts_pairs k (covers c al nets auts p x o1 o2 b) -> counts_pairs k (covers c al nets auts p x o2 o1 b).
Proof.
  assert (forall s t, NoDup s -> NoDup t -> covers c al nets auts p x o1 o2 b s t <-> covers c al nets auts p x o2 o1 b t s) as Hsw.
  { assert (forall o1 o2 s t, NoDup s -> NoDup t -> covers c al nets auts p x o1 o2 b s t -> covers c al nets auts p x o2 o1 b t s) as H.
    { intros o1' o2' s t Ns Nt (Hc & Xs & Xt & Hb & O1 & O2). split_and!; [|done|done| |done|done].
      - intros z. rewrite Hc. tauto.
      - rewrite <- Hb. apply nodup_len; [by apply NoDup_filter..|]. intros z. rewrite !elem_of_list_filter. tauto. }
    intros s t Ns Nt. split; by apply H. }
  intros (L & (H1 & H2 & H3) & <-). exists ((fun e : list name * list name => (e.2, e.1)) <$> L). split; [|apply fmap_length]. split_and!.
  - intros s t ([a b'] & [= -> ->] & Hin)%elem_of_list_fmap. destruct (H1 a b' Hin) as (Na & Nb & Hab). split; [done|]. split; [done|]. by apply Hsw.
  - intros s t Ns Nt Hst%Hsw; [|done..]. destruct (H2 t s Nt Ns Hst) as (t' & s' & Hin & Et & Es). exists s', t'. split; [|done]. apply elem_of_list_fmap. by exists (t', s').
  - intros i j s t s' t'. rewrite !list_lookup_fmap. destruct (L !! i) as [[a b1]|] eqn:Ei; [|done]. destruct (L !! j) as [[a' b2]|] eqn:Ej; [|done]. cbn. intros [= <- <-] [= <- <-] ? ?. by eapply H3.
Qed.
Lemma coefficient_counts o1 o2 o k : is_orbit n nets auts o1 -> is_orbit n nets auts o2 -> Nat.max (size o1) (size o2) <= size o -> coefficient_of o1 o2 o k ->
  exists g y b, graphlet_at nets (o.1.1) (o.1.2) g /\ mhas g 0 y /\ dget auts (o.1, y) = Some (o.2) /\ b + o.1.1 = o1.1.1 + o2.1.1 /\ counts_pairs k (covers c al nets auts g y o1 o2 b).
Proof using Hback Hmap Hcanon Hen Hcat.
  intros K1 K2 Hm (g & y & both & (Hg & Hy & Ha) & Nb & Hyb & Hb & Hc). exists g, y, (length both). split; [done|]. split; [done|]. split; [done|]. split; [done|].
  destruct (cat_net _ _ _ _ _ _ _ _ _ _ Hcat _ _ _ Hg) as [Gg _]. destruct (graphlet_plain c layers n_l _ _ Gg) as [Pg Lg]. destruct Hc as [Hc|Hc].
  - destruct (C88_coefficient g y both o1 o2 Pg Lg K1 K2 Hy Nb Hyb ltac:(lia)) as (k' & E & Hk). rewrite E in Hc. injection Hc as Hc. assert (k' = k) as <- by lia. done.
  - destruct (C88_coefficient g y both o2 o1 Pg Lg K2 K1 Hy Nb Hyb ltac:(lia)) as (k' & E & Hk). rewrite E in Hc. injection Hc as Hc. assert (k' = k) as <- by lia. by apply covers_swap.
Qed.
(** Every orbit has its coefficient. *)
Theorem C88_coefficient_exists o1 o2 o : is_orbit n nets auts o1 -> is_orbit n nets auts o2 -> is_orbit n nets auts o ->
  Nat.max (size o1) (size o2) <= size o <= size o1 + size o2 - 1 -> exists k, coefficient_of o1 o2 o k /\ forall k', coefficient_of o1 o2 o k' -> k' = k.
Proof using Hback Hmap Hcanon Hen Hcat.
  intros K1 K2 (Ho & g & y & Hg & Hy & Ha) Hs. destruct (cat_net _ _ _ _ _ _ _ _ _ _ Hcat _ _ _ Hg) as [Gg _]. destruct (graphlet_plain c layers n_l _ _ Gg) as [Pg Lg].
  pose proof (mnodes_nodup c g Pg) as Ng. pose proof (graphlet_size c layers n_l _ _ Gg) as Sg. change (length (mnodes g) = size o) in Sg.
  set (b := size o1 + size o2 - size o). assert (exists both : list name, NoDup both /\ y ∈ both /\ length both = b) as (both & Nb & Hyb & Hb).
  { exists (y :: take (b - 1) (sdiff (mnodes g) [y])). assert (NoDup (sdiff (mnodes g) [y])) as Nd by (by apply NoDup_filter).
    assert (y ∉ sdiff (mnodes g) [y]) as Hyn by (intros [_ H']%elem_of_sdiff; apply H'; left).
    assert (length (mnodes g) = S (length (sdiff (mnodes g) [y]))) as El.
    { change (S (length (sdiff (mnodes g) [y]))) with (length (y :: sdiff (mnodes g) [y])). apply nodup_len; [done|by apply NoDup_cons|]. intros z. rewrite elem_of_cons, elem_of_sdiff, elem_of_list_singleton.
      split; [|intros [-> |[? _]]; [by apply elem_of_mnodes|done]]. intros Hz. destruct (decide (z = y)); auto. }
    split_and!.
    - apply NoDup_cons. split; [intros Hin; apply Hyn; by eapply elem_of_take in Hin as (? & ?%elem_of_list_lookup_2 & _)|]. eapply sub_nodup; [|exact Nd]. apply sublist_take.
    - left.
    - cbn. rewrite take_length. unfold b in *. destruct K1 as [K1 _], K2 as [K2 _]. unfold size in *. lia. }
  unfold b in Hb. destruct (C88_coefficient g y both o1 o2 Pg Lg K1 K2 Hy Nb Hyb ltac:(lia)) as (k & E & Hk). exists k. split.
  - exists g, y, both. split; [done|]. split; [done|]. split; [done|]. split; [lia|by left].
  - intros k' Hk'. destruct (coefficient_counts o1 o2 o k' K1 K2 ltac:(lia) Hk') as (g' & y' & b' & Hg' & Hy' & Ha' & Hb' & Hc').
    assert (g' = g) as -> by (destruct Hg as (l & H1 & H2), Hg' as (l' & H1' & H2'); congruence).
    destruct (cat_orbit _ _ _ _ _ _ _ _ _ _ Hcat (o.1.1) (o.1.2) g y y' Hg Hy Hy') as [Hor _]. destruct Hor as (m & Hm & Emy). { destruct o as [[? ?] ?]. cbn in *. congruence. }
    destruct Hen as [_ E2 E3 E4 E5].
    assert (induced c g (mnodes g) g) as Hself.
    { split; [apply Pg|]. split; [intros z; by rewrite elem_of_mnodes|]. split; [done|]. intros l u v. split; [|by intros [? _]]. intros Ht. split; [done|]. destruct (pl_net _ _ Pg) as [h Hh].
      apply (en_tied _ _ _ Hh) in Ht as (? & ? & _). by rewrite !elem_of_mnodes. }
    assert (counts_pairs k (cover_in c al nets auts g (mnodes g) y o1 o2)) as C1.
    { apply (transport c layers n_l E3 al E4 E5 canon n nets invs auts orbits Hcat g y o o1 o2 (mnodes g) g y k (length both)); try done; [intros z; by rewrite elem_of_mnodes|by apply elem_of_mnodes| |].
      - exists g, g, (fun _ z => z). split; [done|]. split; [done|]. split; [|done]. apply (shape_iso' c layers E3 al); [done|done|]. split; try done; [split; [done|]; split; [done|]; intros z Hz; by exists z|split; [done|]; split; [done|]; intros z Hz; by exists z|by apply E4].
      - unfold size in *. lia. }
    assert (counts_pairs k' (cover_in c al nets auts g (mnodes g) y o1 o2)) as C2.
    { apply (transport c layers n_l E3 al E4 E5 canon n nets invs auts orbits Hcat g y o o1 o2 (mnodes g) g y' k' b'); try done; [intros z; by rewrite elem_of_mnodes|by apply elem_of_mnodes|].
      exists g, g, (fun _ z => z). split; [done|]. split; [done|]. split; [|done]. apply (shape_iso' c layers E3 al); [done|done|]. split; try done; [split; [done|]; split; [done|]; intros z Hz; by exists z|split; [done|]; split; [done|]; intros z Hz; by exists z|by apply E4]. }
    by eapply counts_pairs_fun.
Qed.
(** ** The equations *)
Notation counts_at x p d0 := (orbit_counts structure mapping canon al nets invs auts n x p d0 orbits).
(** The count of an orbit in the result of [orbit_counts]. *)
Definition count (d : dict (name * orbit) nat) (x : name) (o : orbit) : nat := default 0 (dget d (x, o)).
Context (Hnd : NoDup orbits) (Hor : forall o, o ∈ orbits <-> is_orbit n nets auts o).
Lemma counts_known p x d0 d : plain c p -> on_layers layers n_l p -> mhas p 0 x -> counts_at x p d0 = Ok d ->
  forall o, o ∈ orbits -> dget d (x, o) = Some (count d x o) /\ counts_sets (count d x o) (fun s => touches p n x s /\ occ p x o s).
Proof using Hback Hmap Hen Hcat.
  intros Hp Hl Hx Hd o Ho. destruct (C87_orbit_counts structure mapping canon c layers n_l al n nets invs auts orbits p x d0 Hback Hmap Hen Hcat Hp Hl Hx) as (d' & E & H1 & _).
  rewrite E in Hd. injection Hd as ->. destruct (H1 o Ho) as (k & Ek & Hk). unfold count. rewrite Ek. done.
Qed.
(** The product of two counts of a node is the sum, over the orbits that two such sets can make
    together, of the coefficient times the count. *)
Theorem C88_equation p x o1 o2 N d0 d : plain c p -> on_layers layers n_l p -> mhas p 0 x -> o1 ∈ orbits -> o2 ∈ orbits -> size o1 + size o2 - 1 <= n ->
  (forall o, o ∈ orbits -> Nat.max (size o1) (size o2) <= size o <= size o1 + size o2 - 1 -> coefficient_of o1 o2 o (N o)) -> counts_at x p d0 = Ok d ->
  count d x o1 * count d x o2 = sum_over (fun o => N o * count d x o) (filter (fun o => Nat.max (size o1) (size o2) <= size o <= size o1 + size o2 - 1) orbits).
Proof using Hback Hmap Hcanon Hen Hcat Hnd Hor.
  intros Hp Hl Hx I1 I2 Hn HN Hd. pose proof (proj1 (Hor o1) I1) as K1. pose proof (proj1 (Hor o2) I2) as K2. pose proof Hen as [_ E2 E3 E4 E5].
  apply (equation c layers n_l E3 al E4 E5 canon n nets invs auts orbits Hcat p x o1 o2 N (count d x)); try done; [by apply orbit_known|by apply orbit_known| | |].
  - intros u Nu Hu. by apply (C87_one_orbit structure mapping canon c layers n_l al n nets invs auts orbits p x u).
  - intros o Ho. by apply (counts_known p x d0 d).
  - intros o Ho Hr. apply coefficient_counts; [done|done|unfold size in *; lia|]. by apply HN.
Qed.
Lemma occ_self o g y : in_graphlet nets auts o g y -> occ g y o (mnodes g).
Proof using Hen Hcat.
  intros (Hg & Hy & Ha). pose proof Hen as [_ E2 E3 E4 E5]. destruct (cat_net _ _ _ _ _ _ _ _ _ _ Hcat _ _ _ Hg) as [Gg _]. destruct (graphlet_plain c layers n_l _ _ Gg) as [Pg Lg].
  exists g, g, (fun _ z => z). split; [|split; [done|]; split; [|done]].
  - split; [apply Pg|]. split; [intros z; by rewrite elem_of_mnodes|]. split; [done|]. intros l u v. split; [|by intros [? _]]. intros Ht. split; [done|]. destruct (pl_net _ _ Pg) as [h Hh].
    apply (en_tied _ _ _ Hh) in Ht as (? & ? & _). by rewrite !elem_of_mnodes.
  - apply (shape_iso' c layers E3 al); [done|done|]. split; try done; [split; [done|]; split; [done|]; intros z Hz; by exists z|split; [done|]; split; [done|]; intros z Hz; by exists z|by apply E4].
Qed.
Lemma graphlet_whole k g : graphlet c layers n_l k g -> 2 <= k <= n -> forall y, mhas g 0 y -> touches g n y (mnodes g).
Proof.
  intros Gg Hk y Hy. destruct (graphlet_plain c layers n_l _ _ Gg) as [Pg Lg]. split; [by apply elem_of_mnodes|]. rewrite (graphlet_size c layers n_l _ _ Gg). split; [done|].
  split; [intros z; by rewrite elem_of_mnodes|]. intros a b Ha Hb. apply elem_of_mnodes in Ha, Hb. pose proof (gl_conn _ _ _ _ _ Gg a b Ha Hb) as Hc. eapply rtc_subrel; [|exact Hc].
  intros u v [l Ht]. destruct (pl_net _ _ Pg) as [h Hh]. pose proof Ht as (Hu & Hv & _)%(en_tied _ _ _ Hh). split; [by exists l|]. by rewrite !elem_of_mnodes.
Qed.
Lemma whole_set g k (s : list name) : graphlet c layers n_l k g -> NoDup s -> (forall z, z ∈ s -> mhas g 0 z) -> length s = k -> same_set s (mnodes g).
Proof.
  intros Gg Ns Hs Hl. destruct (graphlet_plain c layers n_l _ _ Gg) as [Pg Lg]. split; [intros z Hz; by apply elem_of_mnodes, Hs|].
  assert (s ≡ₚ mnodes g) as E; [|intros z; by rewrite E]. apply submseteq_Permutation_length_eq; [rewrite (graphlet_size c layers n_l _ _ Gg); lia|]. apply NoDup_submseteq; [done|]. intros z Hz. by apply elem_of_mnodes, Hs.
Qed.
(** Sets of different size: the count of the larger one times the count of the smaller one at the
    node of the larger graphlet, and the larger orbits. *)
Theorem C88_sizes p x o1 o2 N d0 d g y e0 e : plain c p -> on_layers layers n_l p -> mhas p 0 x -> o1 ∈ orbits -> o2 ∈ orbits -> size o1 + size o2 - 1 <= n -> size o2 <= size o1 ->
  (forall o, o ∈ orbits -> size o1 < size o <= size o1 + size o2 - 1 -> coefficient_of o1 o2 o (N o)) -> counts_at x p d0 = Ok d -> in_graphlet nets auts o1 g y -> counts_at y g e0 = Ok e ->
  count d x o1 * count d x o2 = count e y o2 * count d x o1 + sum_over (fun o => N o * count d x o) (filter (fun o => size o1 < size o <= size o1 + size o2 - 1) orbits).
Proof using Hback Hmap Hcanon Hen Hcat Hnd Hor.
  intros Hp Hl Hx I1 I2 Hn Hle HN Hd Hgy He. pose proof (proj1 (Hor o1) I1) as K1. pose proof (proj1 (Hor o2) I2) as K2. pose proof Hen as [_ E2 E3 E4 E5].
  pose proof Hgy as (Hg & Hy & Ha). destruct (cat_net _ _ _ _ _ _ _ _ _ _ Hcat _ _ _ Hg) as [Gg Hk2]. destruct (graphlet_plain c layers n_l _ _ Gg) as [Pg Lg].
  destruct (counts_known g y e0 e Pg Lg Hy He o2 I2) as (_ & M & (M1 & M2 & M3) & EM).
  set (N' := fun o : orbit => if decide (size o = size o1) then (if decide (o = o1) then count e y o2 else 0) else N o).
  assert (2 <= size o2) as Hs2 by apply K2.
  rewrite (equation c layers n_l E3 al E4 E5 canon n nets invs auts orbits Hcat p x o1 o2 N' (count d x)); try done; [|by apply orbit_known|by apply orbit_known| | |].
  - rewrite !sum_over_nsum, !nsum_filter. assert (count e y o2 * count d x o1 = nsum (fun o => if decide (o = o1) then count e y o2 * count d x o else 0) orbits) as ->.
    { assert (count e y o2 * count d x o1 = nsum (fun o => if decide (o1 = o) then count e y o2 * count d x o1 else 0) orbits) as ->.
      - clear -I1 Hnd. induction orbits as [|o l IH]; [by apply elem_of_nil in I1|]. apply NoDup_cons in Hnd as [Ho Nd]. cbn. apply elem_of_cons in I1 as [-> |I1].
        + rewrite decide_True by done. rewrite nsum_zero; [lia|]. intros b Hb. rewrite decide_False; [done|]. by intros ->.
        + rewrite decide_False by (by intros ->). by apply IH.
      - apply nsum_ext. intros o _. destruct (decide (o1 = o)) as [Eo|Eo], (decide (o = o1)) as [Eo'|Eo']; by subst. }
    rewrite <- nsum_plus. apply nsum_ext. intros o Ho. unfold N'. change (o1.1.1) with (size o1). change (o2.1.1) with (size o2). change (o.1.1) with (size o). clear -Hle Hs2.
    destruct (decide (o = o1)) as [-> |Hne].
    + rewrite decide_True by lia. rewrite decide_True by done. rewrite (decide_False (P := size o1 < size o1 <= _)) by lia. lia.
    + destruct (decide (size o = size o1)) as [Es|Es].
      * rewrite (decide_False (P := size o1 < size o <= _)) by lia. by destruct (decide _).
      * destruct (decide (Nat.max _ _ <= _ <= _)), (decide (_ < _ <= _)); first [lia|reflexivity].
  - intros u Nu Hu. by apply (C87_one_orbit structure mapping canon c layers n_l al n nets invs auts orbits p x u).
  - intros o Ho. by apply (counts_known p x d0 d).
  - intros o Ho Hr. change (o.1.1) with (size o) in Hr. change (o1.1.1) with (size o1) in Hr. change (o2.1.1) with (size o2) in Hr. unfold N'. destruct (decide (size o = size o1)) as [Es|Es].
    2: { apply coefficient_counts; [done|done|lia|]. apply HN; [done|lia]. }
    destruct (decide (o = o1)) as [-> |Hne].
    + exists g, y, (size o2). split; [done|]. split; [done|]. split; [done|]. split; [unfold size; lia|]. exists ((fun t => (mnodes g, t)) <$> M). split; [|by rewrite fmap_length].
      pose proof (mnodes_nodup c g Pg) as Ng. split_and!.
      * intros s t (t' & [= -> ->] & Ht)%elem_of_list_fmap. destruct (M1 t' Ht) as (Nt & (Ty & Tl & Tp & Tc) & Ot). split; [done|]. split; [done|]. split_and!.
        -- intros z. rewrite <- elem_of_mnodes. split; [by left|]. intros [?|Hz]; [done|]. by apply elem_of_mnodes, Tp.
        -- by apply elem_of_mnodes.
        -- done.
        -- destruct (occ_conn c layers n_l E3 al E4 E5 canon n nets invs auts orbits Hcat g y o2 t' Pg Lg Nt Tp Ty Ot) as (_ & Et & _). unfold size. rewrite <- Et. apply filter_cong_len; [done|done|].
           intros z. split; [|by intros [_ ?]]. intros Hz. split; [|done]. by apply elem_of_mnodes, Tp.
        -- by apply occ_self.
        -- done.
      * intros s t Ns Nt (Hc & Xs & Xt & Hb & O1 & O2). assert (forall z, z ∈ s -> mhas g 0 z) as Hs by (intros z Hz; apply Hc; by left). assert (forall z, z ∈ t -> mhas g 0 z) as Ht by (intros z Hz; apply Hc; by right).
        destruct (occ_conn c layers n_l E3 al E4 E5 canon n nets invs auts orbits Hcat g y o1 s Pg Lg Ns Hs Xs O1) as (_ & Es1 & _).
        destruct (occ_conn c layers n_l E3 al E4 E5 canon n nets invs auts orbits Hcat g y o2 t Pg Lg Nt Ht Xt O2) as (C2 & Es2 & _).
        destruct (M2 t Nt) as (t' & Ht' & Et). { split; [|done]. split; [done|]. split; [|done]. rewrite Es2. apply K2. }
        exists (mnodes g), t'. split; [apply elem_of_list_fmap; by exists t'|]. split; [|done]. by eapply whole_set.
      * intros i j s t s' t'. rewrite !list_lookup_fmap. destruct (M !! i) as [a|] eqn:Ei; [|done]. destruct (M !! j) as [b|] eqn:Ej; [|done]. cbn. intros [= <- <-] [= <- <-] _ Ht. by eapply M3.
    + destruct (proj1 (Hor o) Ho) as (Hk & g' & y' & Hg' & Hy' & Ha'). exists g', y', (size o2). split; [done|]. split; [done|]. split; [done|]. split; [unfold size in *; lia|]. exists []. split; [|done].
      split_and!; [by intros s t ?%elem_of_nil| |by intros i j s t s' t' H'].
      intros s t Ns Nt (Hc & Xs & Xt & Hb & O1 & O2). exfalso. apply Hne. destruct (cat_net _ _ _ _ _ _ _ _ _ _ Hcat _ _ _ Hg') as [Gg' _]. destruct (graphlet_plain c layers n_l _ _ Gg') as [Pg' Lg'].
      assert (forall z, z ∈ s -> mhas g' 0 z) as Hs by (intros z Hz; apply Hc; by left).
      destruct (occ_conn c layers n_l E3 al E4 E5 canon n nets invs auts orbits Hcat g' y' o1 s Pg' Lg' Ns Hs Xs O1) as (_ & Es1 & _).
      assert (same_set s (mnodes g')) as Hsame. { apply (whole_set g' _ s Gg'); [done|done|]. unfold size in *. lia. }
      pose proof (occ_same _ _ _ _ _ _ _ _ _ Hsame O1) as O1'. pose proof (occ_self o g' y' ltac:(done)) as Oo.
      destruct (C87_one_orbit structure mapping canon c layers n_l al n nets invs auts orbits g' y' (mnodes g') Hback Hmap Hen Hcat Pg' Lg' (mnodes_nodup c g' Pg')) as (w & _ & Hw); [by eapply graphlet_whole|].
      apply Hw in O1', Oo. congruence.
Qed.
Lemma whole_count o g y e0 e o' : o ∈ orbits -> o' ∈ orbits -> size o' = size o -> in_graphlet nets auts o g y -> counts_at y g e0 = Ok e -> count e y o' = if decide (o' = o) then 1 else 0.
Proof using Hback Hmap Hen Hcat Hor.
  intros Io Io' Hs Hgy He. pose proof Hgy as (Hg & Hy & Ha). pose proof Hen as [_ E2 E3 E4 E5]. destruct (cat_net _ _ _ _ _ _ _ _ _ _ Hcat _ _ _ Hg) as [Gg Hk2]. destruct (graphlet_plain c layers n_l _ _ Gg) as [Pg Lg].
  pose proof (mnodes_nodup c g Pg) as Ng. assert (touches g n y (mnodes g)) as Tg. { eapply graphlet_whole; [exact Gg| |done]. apply (proj1 (Hor o) Io). }
  destruct (counts_known g y e0 e Pg Lg Hy He o' Io') as (_ & Hc). eapply counts_sets_fun; [exact Hc|].
  assert (forall s, NoDup s -> touches g n y s -> occ g y o' s -> same_set s (mnodes g) /\ o' = o) as Hwhole.
  { intros s Ns (Xs & Ls & Ps & Cs) O'. destruct (occ_conn c layers n_l E3 al E4 E5 canon n nets invs auts orbits Hcat g y o' s Pg Lg Ns Ps Xs O') as (_ & Es & _).
    assert (same_set s (mnodes g)) as Hsame. { apply (whole_set g _ s Gg); [done|done|]. unfold size in *. lia. } split; [done|].
    pose proof (occ_same _ _ _ _ _ _ _ _ _ Hsame O') as O1'. pose proof (occ_self o g y Hgy) as Oo.
    destruct (C87_one_orbit structure mapping canon c layers n_l al n nets invs auts orbits g y (mnodes g) Hback Hmap Hen Hcat Pg Lg Ng Tg) as (w & _ & Hw). apply Hw in O1', Oo. congruence. }
  destruct (decide (o' = o)) as [-> |Hne].
  - exists [mnodes g]. split; [|done]. split_and!.
    + intros s ->%elem_of_list_singleton. split; [done|]. split; [done|]. by apply occ_self.
    + intros s Ns [Ts Os]. exists (mnodes g). split; [left|]. by apply Hwhole.
    + intros i j s t Hi%lookup_lt_Some Hj%lookup_lt_Some _. cbn in *. lia.
  - exists []. split; [|done]. split_and!; [by intros s ?%elem_of_nil| |by intros i j s t ?]. intros s Ns [Ts Os]. exfalso. apply Hne. exact (proj2 (Hwhole s Ns Ts Os)).
Qed.
(** One orbit with itself; the coefficients are half of [N]. *)
Theorem C88_same_orbit p x o N d0 d : plain c p -> on_layers layers n_l p -> mhas p 0 x -> o ∈ orbits -> 2 * size o - 1 <= n ->
  (forall o', o' ∈ orbits -> size o < size o' <= 2 * size o - 1 -> coefficient_of o o o' (N o')) -> counts_at x p d0 = Ok d ->
  count d x o * (count d x o - 1) = sum_over (fun o' => N o' * count d x o') (filter (fun o' => size o < size o' <= 2 * size o - 1) orbits).
Proof using Hback Hmap Hcanon Hen Hcat Hnd Hor.
  intros Hp Hl Hx Io Hn HN Hd. destruct (proj1 (Hor o) Io) as (Hk & g & y & Hgy). pose proof Hgy as (Hg & Hy & _). destruct (cat_net _ _ _ _ _ _ _ _ _ _ Hcat _ _ _ Hg) as [Gg Hk2]. destruct (graphlet_plain c layers n_l _ _ Gg) as [Pg Lg].
  destruct (C87_orbit_counts structure mapping canon c layers n_l al n nets invs auts orbits g y [] Hback Hmap Hen Hcat Pg Lg Hy) as (e & He & _).
  replace (2 * size o - 1) with (size o + size o - 1) in * by lia. pose proof (C88_sizes p x o o N d0 d g y [] e Hp Hl Hx Io Io Hn (le_n _) HN Hd Hgy He) as E.
  rewrite (whole_count o g y [] e o Io Io eq_refl Hgy He), decide_True in E by done. set (R := sum_over _ _) in *. set (k := count d x o) in *. clearbody R k. rewrite Nat.mul_sub_distr_l. lia.
Qed.
(** Two orbits of graphlets with equally many nodes. *)
Theorem C88_same_size p x o1 o2 N d0 d : plain c p -> on_layers layers n_l p -> mhas p 0 x -> o1 ∈ orbits -> o2 ∈ orbits -> size o1 + size o2 - 1 <= n -> size o1 = size o2 -> o1 <> o2 ->
  (forall o, o ∈ orbits -> size o1 < size o <= size o1 + size o2 - 1 -> coefficient_of o1 o2 o (N o)) -> counts_at x p d0 = Ok d ->
  count d x o1 * count d x o2 = sum_over (fun o => N o * count d x o) (filter (fun o => size o1 < size o <= size o1 + size o2 - 1) orbits).
Proof using Hback Hmap Hcanon Hen Hcat Hnd Hor.
  intros Hp Hl Hx I1 I2 Hn Hs Hne HN Hd. destruct (proj1 (Hor o1) I1) as (Hk & g & y & Hgy). pose proof Hgy as (Hg & Hy & _). destruct (cat_net _ _ _ _ _ _ _ _ _ _ Hcat _ _ _ Hg) as [Gg Hk2]. destruct (graphlet_plain c layers n_l _ _ Gg) as [Pg Lg].
  destruct (C87_orbit_counts structure mapping canon c layers n_l al n nets invs auts orbits g y [] Hback Hmap Hen Hcat Pg Lg Hy) as (e & He & _).
  rewrite (C88_sizes p x o1 o2 N d0 d g y [] e Hp Hl Hx I1 I2 Hn ltac:(lia) HN Hd Hgy He), (whole_count o1 g y [] e o2 I1 I2 (eq_sym Hs) Hgy He), decide_False by congruence. done.
Qed.

(** ** Names of orbits *)
(** [orbit_name] of a connected network with 2 to [n] nodes: the orbit that the node occupies in the
    whole network, and it is the only one. *)
Theorem C88_orbit_name p x s : plain c p -> on_layers layers n_l p -> NoDup s -> (forall z, mhas p 0 z <-> z ∈ s) -> touches p n x s ->
  exists o, orbit_name structure mapping canon al nets invs auts x p = Ok o /\ o ∈ orbits /\ forall o', occ p x o' s <-> o' = o.
Proof using Hback Hmap Hen Hcat.
  intros Hp Hl Ns Hs Ht. pose proof Ht as (Xs & Ls & Ps & Cs). pose proof Hen as [_ E2 E3 E4 E5].
  assert (induced c p s p) as Hself.
  { split; [apply Hp|]. split; [done|]. split; [done|]. intros l u v. split; [|by intros [? _]]. intros Htd. split; [done|]. destruct (pl_net _ _ Hp) as [h Hh].
    apply (en_tied _ _ _ Hh) in Htd as (? & ? & _). by rewrite <- !Hs. }
  pose proof (induced_graphlet c layers n_l p s p Hp Hl Ns Cs Hself) as Gp.
  destruct (cat_find _ _ _ _ _ _ _ _ _ _ Hcat (length s) p Ls Gp) as (ci & j & g & Eci & Hci & Hg & Hiso). destruct (cat_net _ _ _ _ _ _ _ _ _ _ Hcat _ _ _ Hg) as [Gg _].
  destruct (misom_ok c layers n_l E2 E3 al E4 E5 structure mapping Hback Hmap p _ g true Hp Hl Gg Hiso) as (ms & Ems & Hms & Hlm).
  destruct (plain_suitable c layers n_l E3 p Hp Hl) as [_ Ap]. destruct Hlm as [Hlen Hlm]. rewrite Ap in Hlen.
  destruct (ms !! 0) as [d|] eqn:Ed; [|apply lookup_ge_None in Ed; lia]. destruct (Hlm 0 d Ed) as [Nd Hd].
  assert (x ∈ dkeys d) as Hxd. { apply Hd. split; [by apply Hs|by left]. } 
  destruct (dget d x) as [y|] eqn:Ey; [|apply dget_None in Ey; done].
  assert (dict_map ms 0 x = y) as Emx. { unfold dict_map. by rewrite Ed; cbn; rewrite Ey. }
  destruct (graphlet_plain c layers n_l _ _ Gg) as [Pg Lg]. assert (mhas p 0 x) as Hx by (by apply Hs).
  destruct (si_node _ _ _ _ _ (iso_shape c layers E3 al E4 E5 p g _ x Hp Pg Hx Hms)) as (B & _). destruct (cat_aut _ _ _ _ _ _ _ _ _ _ Hcat _ _ g y Hg) as (a & Ea & Hain); [rewrite <- Emx; by apply B|].
  exists (length s, j, a). unfold orbit_name. rewrite Eci. cbn [rbind]. rewrite Hci. cbn [fst snd]. assert (net_at nets (length s) j = Ok g) as -> by (destruct Hg as (l & A1 & A2); unfold net_at; by rewrite A1, A2).
  cbn [rbind]. rewrite Ems. cbn [rbind]. rewrite Ed. cbn [default]. unfold default, id. rewrite Ey, Ea. split; [done|]. split; [by apply Hain|].
  destruct (C87_one_orbit structure mapping canon c layers n_l al n nets invs auts orbits p x s Hback Hmap Hen Hcat Hp Hl Ns Ht) as (w & _ & Hw).
  assert (occ p x (length s, j, a) s) as Oa. { exists p, g, (dict_map ms). split; [done|]. split; [done|]. split; [done|]. by rewrite Emx. }
  apply Hw in Oa. rewrite Oa. done.
Qed.
(** [subtrahend] always raises NameError: its partitions use the Python 2 name [xrange]. *)
Theorem C88_subtrahend_refuted o1 o2 : is_orbit n nets auts o1 -> is_orbit n nets auts o2 -> subtrahend nets o1 o2 = Err NameError.
Proof. intros (_ & g & y & (l & H1 & H2) & _) (_ & g' & y' & (l' & H1' & H2') & _). unfold subtrahend, net_at. by rewrite H1, H2; cbn [rbind]; rewrite H1', H2'. Qed.
End thms.

(** The path 5 - 7 - 9 again: two links at the middle, [2 * (2 - 1)] is 2 times the number of path
    middles plus 2 times the number of triangles; the name of the middle's orbit. *)
Definition eq_path : res (list (res Q) * res orbit) :=
  let? r := graphlets brute_canon (Some [0]) 3 [ea] None [CNone None] in
  let? auts := automorphism_orbits brute_perms (Some [0]) (r.1) in
  let? path3 := net_at (r.1) 3 0 in
  let? tri := net_at (r.1) 3 1 in
  let co x g := coefficient brute brute_mapping brute_canon (Some [0]) (r.1) (r.2) auts x [x] (2, 0, NInt 0) (2, 0, NInt 0) g in
  Ok ([co (NInt 0) path3; co (NInt 1) path3; co (NInt 0) tri; co (NInt 7) path], orbit_name brute brute_mapping brute_canon (Some [0]) (r.1) (r.2) auts (NInt 7) path).
Example C88_path : eq_path = Ok ([Ok (2 # 2)%Q; Ok (0 # 2)%Q; Ok (2 # 2)%Q; Ok (2 # 2)%Q], Ok (3, 0, NInt 0)).
Proof. vm_compute. done. Qed.
Example C88_orbits : (let? r := graphlets brute_canon (Some [0]) 3 [ea] None [CNone None] in let? auts := automorphism_orbits brute_perms (Some [0]) (r.1) in orbit_list 3 (r.1) auts) =
  Ok [(2, 0, NInt 0); (3, 0, NInt 0); (3, 0, NInt 1); (3, 1, NInt 0)].
Proof. vm_compute. done. Qed.
Lemma bind3 {X Y Z} (e : res X) (f : X -> res Y) (g : X -> Y -> res Z) a b x y : e = Ok a -> f a = Ok b -> g a b = Ok x -> (let? r := e in let? s := f r in g r s) = Ok y -> x = y.
Proof. intros -> Hf Hg. cbn [rbind]. rewrite Hf. cbn [rbind]. rewrite Hg. by intros [= ->]. Qed.
(** The hypotheses hold for the graphlets of up to three nodes in one layer. *)
Example C88_ready : exists nets invs auts orbits, graphlets brute_canon (Some [0]) 3 [ea] None [CNone None] = Ok (nets, invs) /\ catalogue brute_canon (Some [0]) (CNone None) [ea] 1 3 nets invs auts orbits /\ NoDup orbits /\
  (forall o, o ∈ orbits <-> is_orbit 3 nets auts o) /\ (2, 0, NInt 0) ∈ orbits /\ 2 * size (2, 0, NInt 0) - 1 <= 3.
Proof.
  destruct (C87_catalogue brute_canon brute_perms (CNone None) [ea] (Some [0]) 3 None brute_canon_exact brute_perms_exact) as (nets & invs & auts & orbits & E1 & E2 & E3 & Hc & Hn & Ho & _).
  { apply C86_enumerable. }
  exists nets, invs, auts, orbits. split; [done|]. split; [exact Hc|]. split; [done|]. split.
  - intros [[k j] a]. rewrite Ho. unfold is_orbit. cbn. done.
  - split; [|cbn; lia]. 
    rewrite (bind3 _ (fun r => automorphism_orbits brute_perms (Some [0]) (r.1)) (fun r auts => orbit_list 3 (r.1) auts) _ _ _ _ E1 E2 E3 C88_orbits). left.
Qed.
Print Assumptions C88_coefficient.
Print Assumptions C88_coefficient_exists.
Print Assumptions C88_equation.
Print Assumptions C88_sizes.
Print Assumptions C88_same_orbit.
Print Assumptions C88_same_size.
Print Assumptions C88_orbit_name.
Print Assumptions C88_subtrahend_refuted.
