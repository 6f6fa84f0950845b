(** * Lemmas for the orbit equations: the coefficients count pairs of sets, and transport *)
From stdpp Require Import prelude relations.
From Coq Require Import QArith.
From Verif Require Import Base Net NetSpec NetHist NetIter Supra MpxSpec MpxFacts MpxHist MpxIter MpxTrans MpxBuild PropsMpx MpxRelabel MpxSub PropsMpxSub PropsMpxEq OverlapFacts MpxEdges
  Samp Graphlet GraphletSpec GraphletFacts TouchFacts Isom IsomFacts MpxIsom IsomSpec PropsIsom PropsIsomMpx SampFacts Enum EnumSpec EnumNet EnumFacts OrbitCount CountSpec CountFacts CountRun OrbitEq EqSpec EqFacts.
Local Open Scope nat_scope.

(** ** Nested loops *)
Lemma rfold_pairs {X Y} (F : X -> res nat) (I : X -> list Y) (P : X -> Y -> Prop) (l : list X) : NoDup l -> (forall x, x ∈ l -> NoDup (I x)) ->
  (forall x, x ∈ l -> exists l', F x = Ok (length l') /\ sublist l' (I x) /\ forall y, y ∈ l' <-> y ∈ I x /\ P x y) ->
  forall acc, exists L, rfold (fun k x => let? i := F x in Ok (k + i)) acc l = Ok (acc + length L) /\ NoDup L /\ forall x y, (x, y) ∈ L <-> x ∈ l /\ y ∈ I x /\ P x y.
Proof.
  induction l as [|x l IH]; intros Nl NI HF acc; cbn [rfold].
  - exists []. rewrite Nat.add_0_r. split; [done|]. split; [constructor|]. intros x y. split; [by intros ?%elem_of_nil|by intros [?%elem_of_nil _]].
  - apply NoDup_cons in Nl as [Hx Nl]. destruct (HF x) as (l' & E & Hsub & Hl'); [left|]. rewrite E. cbn [rbind].
    destruct (IH Nl ltac:(intros y Hy; apply NI; by right) ltac:(intros y Hy; apply HF; by right) (acc + length l')) as (L & EL & NL & HL). rewrite EL.
    exists (((fun y => (x, y)) <$> l') ++ L). split; [f_equal; rewrite app_length, fmap_length; lia|]. split.
    + apply NoDup_app. split; [|split; [|done]].
      * apply NoDup_fmap; [by intros ? ? [= ?]|]. apply (sub_nodup l' (I x)); [done|]. apply NI. left.
      * intros [x' y'] (y & [= -> ->] & Hy)%elem_of_list_fmap (Hin & _)%HL. done.
    + intros x' y'. rewrite elem_of_app, elem_of_list_fmap, HL, elem_of_cons. split.
      * intros [(y & [= -> ->] & Hy%Hl')|H]; [|tauto]. split; [by left|done].
      * intros ([-> |Hin] & Hy); [left; exists y'; split; [done|by apply Hl']|right; tauto].
Qed.
Section coef.
Context (c : coupling) (layers : list name) (n_l : nat) (Hkind : EnumSpec.one_kind layers) (Hfit : coupling_fits c layers).
Context (al : option (list nat)) (Hal : aspects_ok 1 al) (Hal0 : 0 ∈ aspect_list 1 al).
Context {T : Type} `{EqDecision T} (structure : auxg -> auxg -> bool) (mapping : auxg -> auxg -> dict nat nat) (canon : dict nat nat -> list (nat * nat) -> T).
Context (n : nat) (nets : dict nat (list mpx)) (invs : @invariants T) (auts : dict orbit name) (orbits : list orbit).
Context (Hback : exact_backend structure) (Hmap : exact_mapping structure mapping) (Hcanon : exact_canon canon) (Hcat : catalogue canon al c layers n_l n nets invs auts orbits).
Notation G := (graphlet c layers n_l).
Notation A := (fun a => a ∈ aspect_list 1 al).
Notation lay_ok := (on_layers layers n_l).
Notation occ := (occupies c al nets auts).
Notation kn := (known n nets).
Notation help := (coefficient_help structure mapping canon al nets invs auts).
Lemma mnodes_nodup p : plain c p -> NoDup (mnodes p).
Proof.
  intros Pp. destruct (pl_net _ _ Pp) as [h Hh]. pose proof (pw_nd p (pi_wf _ _ _ _ _ _ (mhist_inv _ _ _ _ _ _ Hh))) as Hn. unfold mnodes. destruct (mslices p) as [|s0 ss]; [constructor|]. by inversion Hn.
Qed.
Lemma graphlet_size k g : G k g -> length (mnodes g) = k.
Proof.
  intros Gg. destruct (gl_nodes _ _ _ _ _ Gg) as (t & [Nt Ht] & <-). destruct (graphlet_plain c layers n_l _ _ Gg) as [Pg _]. apply nodup_len; [by apply mnodes_nodup|done|].
  intros z. by rewrite Ht, elem_of_mnodes.
Qed.
(** The two sets of the loop body, for given shared and private nodes. *)
Definition set1 (p : mpx) (both cb : list name) : list name := sunion (sdiff (mnodes p) (sdiff (mnodes p) cb)) both.
Definition set2 (p : mpx) (cb : list name) : list name := sdiff (mnodes p) cb.
Lemma help_ok p x both o1 o2 nodes : plain c p -> lay_ok p -> kn o1 -> kn o2 -> mhas p 0 x -> x ∈ both -> (forall z, z ∈ both -> mhas p 0 z) -> x ∉ nodes -> length both <= o1.1.1 ->
  exists l', help nodes x both o1 o2 p = Ok (length l') /\ sublist l' (combs (o1.1.1 - length both) nodes) /\
    forall cb, cb ∈ l' <-> cb ∈ combs (o1.1.1 - length both) nodes /\ occ p x o1 (set1 p both cb) /\ occ p x o2 (set2 p cb).
Proof using Hkind Hfit Hal Hal0 Hback Hmap Hcanon Hcat.
  intros Pp Lp K1 K2 Hx Hb Hbn Hxn Hle. destruct K1 as [Hk1 (g1 & Hg1)] eqn:EK1. destruct K2 as [Hk2 (g2 & Hg2)] eqn:EK2.
  assert (net_at nets (o1.1.1) (o1.1.2) = Ok g1) as E1 by (destruct Hg1 as (l & A1 & A2); unfold net_at; by rewrite A1, A2).
  assert (net_at nets (o2.1.1) (o2.1.2) = Ok g2) as E2 by (destruct Hg2 as (l & A1 & A2); unfold net_at; by rewrite A1, A2).
  unfold coefficient_help. rewrite E1. cbn [rbind]. rewrite E2. cbn [rbind]. destruct (cat_net _ _ _ _ _ _ _ _ _ _ Hcat _ _ _ Hg1) as [Gg1 _]. rewrite (graphlet_size _ _ Gg1).
  unfold combs_z. rewrite decide_True by lia. cbn [rbind]. replace (Z.to_nat (Z.of_nat (o1.1.1) - Z.of_nat (length both))) with (o1.1.1 - length both) by lia.
  destruct (rfold_count (coef_step structure mapping canon al invs auts x both o1 o2 p g1 g2) (fun cb => occ p x o1 (set1 p both cb) /\ occ p x o2 (set2 p cb)) (combs (o1.1.1 - length both) nodes)) with (acc := 0) as (l' & E & Hsub & Hl').
  - intros cb [Hs _]%elem_of_combs. apply (coef_step_ok c layers n_l Hkind Hfit al Hal Hal0 structure mapping canon n nets invs auts orbits Hback Hmap Hcanon Hcat); try done.
    intros Hin. by apply Hxn, (sub_in cb nodes).
  - exists l'. split; [exact E|]. done.
Qed.
Notation coef := (coefficient structure mapping canon al nets invs auts).
Notation Q1 := (fun p x o1 o2 (sh cb : list name) => occ p x o1 (set1 p (sunion sh [x]) cb) /\ occ p x o2 (set2 p cb)).
Lemma sunion_len (sh : list name) x : x ∉ sh -> length (sunion sh [x]) = S (length sh).
Proof. intros Hx. unfold sunion. cbn [foldl]. unfold sadd. rewrite decide_False by done. rewrite app_length. cbn. lia. Qed.
Lemma loops_ok p x both o1 o2 : plain c p -> lay_ok p -> kn o1 -> kn o2 -> mhas p 0 x -> NoDup both -> x ∈ both -> length both <= o1.1.1 ->
  exists L : list (list name * list name), coef x both o1 o2 p = Ok (Qmake (Z.of_nat (length L)) (if decide (o1 = o2) then 2 else 1)) /\ NoDup L /\
    forall sh cb, (sh, cb) ∈ L <-> sh ∈ combs (length both - 1) (sdiff (mnodes p) [x]) /\ cb ∈ combs (o1.1.1 - length both) (sdiff (sdiff (mnodes p) [x]) sh) /\ Q1 p x o1 o2 sh cb.
Proof using Hkind Hfit Hal Hal0 Hback Hmap Hcanon Hcat.
  intros Pp Lp K1 K2 Hx Nb Hb Hle. unfold coefficient. set (nodes := sdiff (mnodes p) [x]). pose proof (mnodes_nodup p Pp) as Nn. assert (NoDup nodes) as Nd by (by apply NoDup_filter).
  assert (x ∉ nodes) as Hxn by (intros [_ Hx']%elem_of_sdiff; apply Hx'; left).
  destruct (decide (1 < length both)) as [Hgt|Hle1].
  - destruct (rfold_pairs (fun sh => help (sdiff nodes sh) x (sunion sh [x]) o1 o2 p) (fun sh => combs (o1.1.1 - length both) (sdiff nodes sh)) (fun sh cb => Q1 p x o1 o2 sh cb) (combs (length both - 1) nodes)) with (acc := 0) as (L & E & NL & HL).
    + by apply NoDup_combs.
    + intros sh _. apply NoDup_combs. by apply NoDup_filter.
    + intros sh [Hs Hsl]%elem_of_combs. assert (x ∉ sh) as Hxs by (intros Hin; by apply Hxn, (sub_in sh nodes)). pose proof (sunion_len sh x Hxs) as Hlen.
      replace (o1.1.1 - length both) with (o1.1.1 - length (sunion sh [x])) by lia. apply help_ok; try done.
      * apply elem_of_sunion. right. left.
      * intros z [Hz| ->%elem_of_list_singleton]%elem_of_sunion; [|done]. apply elem_of_mnodes. apply (sub_in sh nodes z Hs) in Hz. by apply elem_of_sdiff in Hz as [? _].
      * intros [Hin _]%elem_of_sdiff. done.
      * lia.
    + exists L. rewrite E. done.
  - assert (both = [x]) as ->.
    { destruct both as [|a [|b both]]; [by apply elem_of_nil in Hb|by apply elem_of_list_singleton in Hb as ->|cbn in Hle1; lia]. }
    destruct (help_ok p x [x] o1 o2 nodes Pp Lp K1 K2 Hx ltac:(left) ltac:(by intros z ->%elem_of_list_singleton) Hxn Hle) as (l' & E & Hsub & Hl'). rewrite E. cbn [rbind].
    exists ((fun cb => ([], cb)) <$> l'). rewrite fmap_length. split; [done|]. split.
    + apply NoDup_fmap; [by intros ? ? [= ?]|]. apply (sub_nodup l' _ Hsub). by apply NoDup_combs.
    + intros sh cb. rewrite elem_of_list_fmap. cbn [length]. rewrite Nat.sub_diag. split.
      * intros (cb' & [= -> ->] & Hcb%Hl'). split; [by rewrite combs_0; left|]. replace (sdiff nodes []) with nodes; [done|]. unfold sdiff at 1. symmetry. 
        assert (forall l : list name, filter (fun z => z ∉ @nil name) l = l) as ->; [|done]. clear. induction l as [|a l IH]; [done|]. rewrite filter_cons, decide_True by apply not_elem_of_nil. by rewrite IH.
      * rewrite combs_0, elem_of_list_singleton. intros (-> & Hcb). exists cb. split; [done|]. apply Hl'. replace (sdiff nodes []) with nodes in Hcb; [done|]. unfold sdiff at 1. symmetry.
        assert (forall l : list name, filter (fun z => z ∉ @nil name) l = l) as ->; [|done]. clear. induction l as [|a l IH]; [done|]. rewrite filter_cons, decide_True by apply not_elem_of_nil. by rewrite IH.
Qed.
Lemma filter_sub (P : name -> Prop) `{!forall z, Decision (P z)} (l : list name) : sublist (filter P l) l.
Proof. induction l as [|a l IH]; [constructor|]. rewrite filter_cons. destruct (decide (P a)); [by apply sublist_skip|by apply sublist_cons]. Qed.
Lemma filter_cong_len (s t u : list name) : NoDup s -> NoDup u -> (forall z, z ∈ u <-> z ∈ s /\ z ∈ t) -> length (filter (fun z => z ∈ t) s) = length u.
Proof. intros Ns Nu H. apply nodup_len; [by apply NoDup_filter|done|]. intros z. rewrite elem_of_list_filter, H. tauto. Qed.
Lemma coefficient_ok p x both o1 o2 : plain c p -> lay_ok p -> kn o1 -> kn o2 -> mhas p 0 x -> NoDup both -> x ∈ both -> length both <= o1.1.1 ->
  exists k, coef x both o1 o2 p = Ok (Qmake (Z.of_nat k) (if decide (o1 = o2) then 2 else 1)) /\ counts_pairs k (covers c al nets auts p x o1 o2 (length both)).
Proof using Hkind Hfit Hal Hal0 Hback Hmap Hcanon Hcat.
  intros Pp Lp K1 K2 Hx Nb Hb Hle. destruct (loops_ok p x both o1 o2 Pp Lp K1 K2 Hx Nb Hb Hle) as (L & E & NL & HL). exists (length L). split; [done|]. clear E.
  pose proof (mnodes_nodup p Pp) as Nn. set (nodes := sdiff (mnodes p) [x]) in *. assert (NoDup nodes) as Nd by (by apply NoDup_filter).
  assert (forall z, z ∈ nodes <-> mhas p 0 z /\ z <> x) as Hnodes. { intros z. unfold nodes. rewrite elem_of_sdiff, elem_of_mnodes, elem_of_list_singleton. done. }
  assert (forall sh cb z, z ∈ set1 p (sunion sh [x]) cb <-> (mhas p 0 z /\ z ∈ cb) \/ z ∈ sh \/ z = x) as S1.
  { intros sh cb z. unfold set1. rewrite !elem_of_sunion, !elem_of_sdiff, elem_of_mnodes, elem_of_list_singleton. destruct (decide (z ∈ cb)); tauto. }
  assert (forall cb z, z ∈ set2 p cb <-> mhas p 0 z /\ z ∉ cb) as S2. { intros cb z. unfold set2. by rewrite elem_of_sdiff, elem_of_mnodes. }
  assert (forall sh cb, (sh, cb) ∈ L -> sublist sh nodes /\ length sh = length both - 1 /\ sublist cb (sdiff nodes sh) /\ length cb = o1.1.1 - length both /\
    (forall z, z ∈ sh -> mhas p 0 z /\ z <> x) /\ (forall z, z ∈ cb -> mhas p 0 z /\ z <> x /\ z ∉ sh)) as Hin.
  { intros sh cb ([H1 H2]%elem_of_combs & [H3 H4]%elem_of_combs & _)%HL. split_and!; try done.
    - intros z Hz. apply Hnodes. by apply (sub_in sh nodes).
    - intros z Hz. apply (sub_in cb _ z H3), elem_of_sdiff in Hz as [Hz Hz']. apply Hnodes in Hz as [? ?]. done. }
  exists ((fun e => (set1 p (sunion (e.1) [x]) (e.2), set2 p (e.2))) <$> L). split; [|by rewrite fmap_length]. split_and!.
  - intros s t ([sh cb] & [= -> ->] & He)%elem_of_list_fmap. change (sadd x sh) with (sunion sh [x]) in *. cbn [fst snd]. destruct (Hin sh cb He) as (I1 & I2 & I3 & I4 & I5 & I6). apply HL in He as (_ & _ & O1 & O2).
    assert (NoDup (set1 p (sunion sh [x]) cb)) as N1 by (apply NoDup_sunion; by apply NoDup_filter). assert (NoDup (set2 p cb)) as N2 by (by apply NoDup_filter).
    split; [done|]. split; [done|]. split_and!; try done.
    + intros z. rewrite S1, S2. split.
      * intros Hz. destruct (decide (z ∈ cb)); tauto.
      * intros [[[? _]|[Hz| ->]]|[? _]]; [done|by apply I5|done|done].
    + apply S1. tauto.
    + apply S2. split; [done|]. intros Hc. by destruct (I6 x Hc) as (_ & ? & _).
    + assert (x ∉ sh) as Hxs by (intros Hs; by destruct (I5 x Hs)). rewrite (filter_cong_len _ _ (x :: sh)); [cbn; apply elem_of_list_lookup in Hb as [i Hi]; apply lookup_lt_Some in Hi; lia|done|apply NoDup_cons; split; [done|by apply (sub_nodup sh nodes)]|].
      intros z. rewrite elem_of_cons, S1, S2. split.
      * intros [-> |Hz]; [split; [tauto|]; split; [done|]; intros Hc; by destruct (I6 x Hc) as (_ & ? & _)|]. split; [tauto|]. split; [by apply I5|]. intros Hc. by destruct (I6 z Hc) as (_ & _ & ?).
      * tauto.
  - intros s t Ns Nt (Hc & Hxs & Hxt & Hlen & O1 & O2). set (sh := filter (fun z => z ∈ s /\ z ∈ t) nodes). set (cb := filter (fun z => z ∉ t) (sdiff nodes sh)).
    assert (forall z, z ∈ sh <-> z ∈ s /\ z ∈ t /\ z <> x) as Hsh. { intros z. unfold sh. rewrite elem_of_list_filter, Hnodes, Hc. tauto. }
    assert (forall z, z ∈ cb <-> z ∈ s /\ z ∉ t) as Hcb.
    { intros z. unfold cb. rewrite elem_of_list_filter, elem_of_sdiff, Hnodes, Hc, Hsh. split; [intros (? & ? & ?); tauto|]. intros [? Hzt]. split; [done|]. split; [|tauto]. split; [by left|]. by intros ->. }
    assert (length sh = length both - 1) as L1.
    { rewrite (filter_cong_len s t (x :: sh)) in Hlen; [cbn in Hlen; lia|done| |].
      - apply NoDup_cons. split; [by intros (_ & _ & ?)%Hsh|by apply NoDup_filter].
      - intros z. rewrite elem_of_cons, Hsh. split; [intros [-> |?]; tauto|]. intros [? ?]. destruct (decide (z = x)); tauto. }
    assert (forall z, z ∈ s -> mhas p 0 z) as Hsp by (intros z Hz; apply Hc; by left).
    destruct (occ_conn c layers n_l Hfit al Hal Hal0 canon n nets invs auts orbits Hcat p x o1 s Pp Lp Ns Hsp Hxs O1) as (_ & Hls & _).
    assert (length cb = o1.1.1 - length both) as L2.
    { assert (length s = length (x :: sh ++ cb)) as Hl2; [|cbn in Hl2; rewrite app_length in Hl2; apply elem_of_list_lookup in Hb as [i Hi]; apply lookup_lt_Some in Hi; lia].
      apply nodup_len; [done| |].
      - apply NoDup_cons. split; [rewrite elem_of_app, Hsh, Hcb; tauto|]. apply NoDup_app. split; [by apply NoDup_filter|]. split; [|apply NoDup_filter; by apply NoDup_filter].
        intros z. rewrite Hsh, Hcb. tauto.
      - intros z. rewrite elem_of_cons, elem_of_app, Hsh, Hcb. split; [|intros [-> |?]; tauto]. intros Hz. destruct (decide (z = x)), (decide (z ∈ t)); tauto. }
    assert (same_set s (set1 p (sunion sh [x]) cb)) as E1.
    { split; intros z; rewrite S1, Hsh, Hcb.
      - intros Hz. destruct (decide (z = x)), (decide (z ∈ t)); try tauto. left. split; [by apply Hsp|done].
      - intros [(_ & ? & _)|[(? & _)| ->]]; done. }
    assert (same_set t (set2 p cb)) as E2.
    { split; intros z; rewrite S2, Hcb.
      - intros Hz. split; [apply Hc; by right|tauto].
      - intros [[?|?]%Hc Hn]; [|done]. destruct (decide (z ∈ t)); tauto. }
    exists (set1 p (sunion sh [x]) cb), (set2 p cb). split; [|done]. apply elem_of_list_fmap. exists (sh, cb). split; [done|]. apply HL. split_and!.
    + apply elem_of_combs. split; [apply filter_sub|done].
    + apply elem_of_combs. split; [apply filter_sub|done].
    + by eapply occ_same.
    + by eapply occ_same.
  - intros i j s t s' t'. rewrite !list_lookup_fmap. destruct (L !! i) as [[sh cb]|] eqn:Ei; [|done]. destruct (L !! j) as [[sh' cb']|] eqn:Ej; [|done]. cbn -[sunion]. intros [= <- <-] [= <- <-] [A1 A2] [B1 B2]. change (sadd x sh) with (sunion sh [x]) in *. change (sadd x sh') with (sunion sh' [x]) in *.
    destruct (Hin sh cb (elem_of_list_lookup_2 _ _ _ Ei)) as (I1 & I2 & I3 & I4 & I5 & I6). destruct (Hin sh' cb' (elem_of_list_lookup_2 _ _ _ Ej)) as (J1 & J2 & J3 & J4 & J5 & J6).
    assert (sh = sh') as <-.
    { apply (sub_same _ _ nodes); [done..|]. intros z. split; intros Hz.
      - destruct (I5 z Hz) as [Hp' Hne]. specialize (A1 z). specialize (B1 z). rewrite !S1 in A1. rewrite !S2 in B1. specialize (I6 z). tauto.
      - destruct (J5 z Hz) as [Hp' Hne]. specialize (A2 z). specialize (B2 z). rewrite !S1 in A2. rewrite !S2 in B2. specialize (J6 z). tauto. }
    assert (cb = cb') as Ecb; [|rewrite Ecb in Ei; exact (NoDup_lookup L i j _ NL Ei Ej)].
    apply (sub_same _ _ (sdiff nodes sh)); [by apply NoDup_filter|done..|]. intros z. split; intros Hz.
    + destruct (I6 z Hz) as [Hp' Hne]. specialize (B2 z). rewrite !S2 in B2. destruct (decide (z ∈ cb')); tauto.
    + destruct (J6 z Hz) as [Hp' Hne]. specialize (B1 z). rewrite !S2 in B1. destruct (decide (z ∈ cb)); tauto.
Qed.
End coef.
