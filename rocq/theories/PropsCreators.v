(** * Property C84: random multilayer networks of the sampling package *)
From Verif Require Import Creators TransFacts ModelsFacts NetIter NetEdges PropsNet PropsTrans PropsModels.

(** ** Specification *)
(** [a] is a node of [nbl] on its layer, the layers being numbered. *)
Definition listed_nl (nbl : list (list name)) (a : nl) : Prop :=
  exists i xs x, nbl !! i = Some xs /\ x ∈ xs /\ a = [x; nd i].

(** The network is undirected, has one aspect, the layers 0,...,[k]-1 and the node-layers [P]. *)
Definition on_node_layers (n : mlnet) (k : nat) (P : nl -> Prop) : Prop :=
  reachable n /\ aspects n = 1 /\ directed n = false /\ fic n = false /\ noEdge n = 0%Z /\
  (forall l, has_elem n 1 l <-> exists i, i < k /\ l = nd i) /\ lists_exactly (iter_node_layers n) P /\
  forall x, has_elem n 0 x <-> exists l, P [x; l].

(** ** Proofs *)
Lemma elem_of_erp_struct nbl o : o ∈ erp_struct nbl <->
  (exists i, i < length nbl /\ o = OpAddLayer (nd i) 1) \/ exists i xs x, nbl !! i = Some xs /\ x ∈ xs /\ o = OpAddNode x (Some (LBare (nd i))).
Proof.
  unfold erp_struct. rewrite elem_of_list_bind. split.
  - intros ([l xs] & Ho & [i Hi]%elem_of_list_lookup). apply lookup_zip_with_Some in Hi as (l' & xs' & [= <- <-] & Hl & Hx).
    unfold range in Hl. rewrite list_lookup_fmap in Hl. apply fmap_Some in Hl as (j & [-> Hj]%lookup_seq & ->). cbn [fst snd] in Ho. apply elem_of_cons in Ho as [->|Ho].
    + left. by exists i.
    + right. apply elem_of_list_fmap in Ho as (x & -> & Hin). by exists i, xs, x.
  - assert (forall i xs, nbl !! i = Some xs -> (nd i, xs) ∈ zip (range (length nbl)) nbl) as Hz.
    { intros i xs Hi. apply elem_of_list_lookup. exists i. apply lookup_zip_with_Some. exists (nd i), xs. split; [done|]. split; [|done].
      unfold range. rewrite list_lookup_fmap, lookup_seq_lt by by apply lookup_lt_Some in Hi. done. }
    intros [(i & Hi & ->)|(i & xs & x & Hi & Hx & ->)].
    + destruct (lookup_lt_is_Some_2 nbl i Hi) as [xs Hxs]. exists (nd i, xs). split; [left|by apply Hz].
    + exists (nd i, xs). split; [right|by apply Hz]. cbn [fst snd]. apply elem_of_list_fmap. by exists x.
Qed.
Lemma elem_of_erp_links L coin o : o ∈ erp_links L coin <->
  exists i j a b, i < j /\ L !! i = Some a /\ L !! j = Some b /\ coin b a = true /\ o = OpNodeSet b a 1.
Proof.
  assert (forall i (a : nl), (i, a) ∈ zip (seq 0 (length L)) L <-> L !! i = Some a) as Hz.
  { intros i a. rewrite elem_of_list_lookup. split.
    - intros [k Hk]. apply lookup_zip_with_Some in Hk as (i' & a' & [= <- <-] & [-> _]%lookup_seq & Ha). done.
    - intros Ha. exists i. apply lookup_zip_with_Some. exists i, a. split; [done|]. split; [|done]. rewrite lookup_seq_lt by by apply lookup_lt_Some in Ha. done. }
  unfold erp_links. rewrite elem_of_list_bind. split.
  - intros ([j b] & Ho & Hb%Hz). apply elem_of_list_bind in Ho as ([i a] & Ho & Ha%Hz). cbn [fst snd] in Ho.
    destruct (decide (i < j)); [|by apply elem_of_nil in Ho]. destruct (coin b a) eqn:E; [|by apply elem_of_nil in Ho]. apply elem_of_list_singleton in Ho.
    exists i, j, a, b. done.
  - intros (i & j & a & b & Hij & Ha & Hb & E & ->). exists (j, b). split; [|by apply Hz]. apply elem_of_list_bind. exists (i, a). split; [|by apply Hz].
    cbn [fst snd]. rewrite decide_True by done. rewrite E. left.
Qed.
Lemma erp_run nbl coin : exists n L, er_part nbl coin = Ok n /\ hist 1 0 false false (erp_struct nbl ++ erp_links L coin) n /\ lists_exactly L (listed_nl nbl).
Proof.
  destruct (build_new_ok 1 0 false false (erp_struct nbl)) as (n & Hb & Hh).
  { apply Forall_forall. intros o [(i & _ & ->)|(i & xs & x & _ & _ & ->)]%elem_of_erp_struct; simpl; [lia|]. by right; right. }
  assert (lists_exactly (iter_node_layers n) (listed_nl nbl)) as HL.
  { split; [by eapply C13_node_layers_nodup|]. intros a. rewrite (C13_partially_interconnected _ _ _ _ _ Hh) by done. setoid_rewrite elem_of_erp_struct. split.
    - intros (o & [(i & _ & ->)|(i & xs & x & Hi & Hx & ->)] & Hc); [done|]. simpl in Hc. destruct Hc as [_ ->]. by exists i, xs, x.
    - intros (i & xs & x & Hi & Hx & ->). eexists. split; [right; exists i, xs, x; done|]. done. }
  destruct (build_ok 1 0 false false (erp_links (iter_node_layers n) coin) (erp_struct nbl) n Hh) as (m & Em & Hm).
  { apply Forall_forall. intros o (i & j & a & b & Hij & Ha & Hb' & _ & ->)%elem_of_erp_links.
    assert (a ∈ iter_node_layers n) as (? & ? & ? & _ & _ & Ea)%HL by by eapply elem_of_list_lookup_2. assert (b ∈ iter_node_layers n) as (? & ? & ? & _ & _ & Eb)%HL by by eapply elem_of_list_lookup_2.
    exists b, a, 1%Z. split; [apply nodeset_write; by subst|]. right. right. intros ->. pose proof (NoDup_lookup _ _ _ _ (proj1 HL) Ha Hb'). lia. }
  exists m, (iter_node_layers n). split; [unfold er_part; by rewrite Hb|]. done.
Qed.

(** For all node lists and all coins the call succeeds.  The layers are 0,1,..., also the
    empty ones; the node-layers are the listed ones.  Every pair of different node-layers
    has one coin, which decides whether it is linked, with weight 1; there are no other
    links and no self-links. *)
Theorem C84_er_partially_interconnected nbl coin : exists n L, er_part nbl coin = Ok n /\
  on_node_layers n (length nbl) (listed_nl nbl) /\ lists_exactly L (listed_nl nbl) /\
  (forall i j a b, i < j -> L !! i = Some a -> L !! j = Some b ->
     reads n a b (if coin b a then 1 else 0) /\ reads n b a (if coin b a then 1 else 0)) /\
  forall a b, linked n a b -> listed_nl nbl a /\ listed_nl nbl b /\ a <> b.
Proof.
  destruct (erp_run nbl coin) as (n & L & E & Hh & HL). exists n, L. split; [done|].
  destruct (hist_inv _ _ _ _ _ _ Hh) as [HS HLk Ha Hn Hd Hf].
  assert (reachable n) as Hr by by repeat eexists.
  assert (forall a, a ∈ L -> length a = 2) as Hlen. { intros a (? & ? & ? & _ & _ & ->)%HL. done. }
  assert (forall o a b w, o ∈ erp_struct nbl ++ erp_links L coin -> write_of 1 o = Some (a, b, w) ->
    exists i j, i < j /\ L !! i = Some b /\ L !! j = Some a /\ coin a b = true /\ w = 1%Z) as Hw.
  { intros o a b w [[(i & _ & ->)|(i & xs & x & _ & _ & ->)]%elem_of_erp_struct|(i & j & a' & b' & Hij & Ha' & Hb' & Hc & ->)%elem_of_erp_links]%elem_of_app Hw; [done|done|].
    rewrite nodeset_write in Hw by (eapply Hlen, elem_of_list_lookup_2; done). injection Hw as <- <- <-. by exists i, j. }
  assert (forall i j a b, i < j -> L !! i = Some a -> L !! j = Some b -> forall x y, (x = a /\ y = b \/ x = b /\ y = a) ->
    rd n x y = if coin b a then 1%Z else 0%Z) as Hrd.
  { intros i j a b Hij Hia Hjb x y Hxy. rewrite (hist_refines _ _ _ _ _ _ Hh). unfold spec_run.
    destruct (coin b a) eqn:Ec.
    - apply spec_fold_agree.
      + intros o a' b' w Ho Hw' _. by destruct (Hw o a' b' w Ho Hw') as (? & ? & _ & _ & _ & _ & ->).
      + exists (OpNodeSet b a 1), b, a, 1%Z. split; [apply elem_of_app; right; apply elem_of_erp_links; by exists i, j, a, b|].
        split; [apply nodeset_write; (eapply Hlen, elem_of_list_lookup_2; done)|]. destruct Hxy as [[-> ->]|[-> ->]]; [by right|by left].
    - apply spec_fold_miss. intros o a' b' w Ho Hw' Hh'. destruct (Hw o a' b' w Ho Hw') as (i' & j' & Hij' & Hb' & Ha' & Hc & _).
      assert (a' = b /\ b' = a \/ a' = a /\ b' = b) as [[-> ->]|[-> ->]].
      { destruct Hh' as [[-> ->]|(_ & -> & ->)]; destruct Hxy as [[-> ->]|[-> ->]]; auto. }
      + congruence.
      + pose proof (NoDup_lookup _ _ _ _ (proj1 HL) Ha' Hia). pose proof (NoDup_lookup _ _ _ _ (proj1 HL) Hb' Hjb). lia. }
  assert (lists_exactly (iter_node_layers n) (listed_nl nbl)) as HN.
  { split; [by eapply C13_node_layers_nodup|]. intros a. rewrite (C13_partially_interconnected _ _ _ _ _ Hh) by done. split.
    - intros (o & [[(i & _ & ->)|(i & xs & x & Hi & Hx & ->)]%elem_of_erp_struct|(i & j & a' & b' & Hij & Ha' & Hb' & Hc & ->)%elem_of_erp_links]%elem_of_app & Hcr).
      + done.
      + destruct Hcr as [_ ->]. by exists i, xs, x.
      + destruct Hcr as (b & w & [Hcr|Hcr]); apply writes_spec in Hcr; rewrite nodeset_write in Hcr by (eapply Hlen, elem_of_list_lookup_2; done);
          injection Hcr; intros; subst; apply HL; by eapply elem_of_list_lookup_2.
    - intros (i & xs & x & Hi & Hx & ->). exists (OpAddNode x (Some (LBare (nd i)))). split; [|done].
      apply elem_of_app. left. apply elem_of_erp_struct. right. by exists i, xs, x. }
  assert (forall a, a ∈ L -> exists i xs x, nbl !! i = Some xs /\ x ∈ xs /\ a = [x; nd i]) as HLx by (intros a; apply HL).
  split; [|split; [done|split]].
  - split_and!; try done.
    + intros l. rewrite has_elem_sl, (hist_sl _ _ _ _ _ _ Hh). cbn [decide]. split.
      * intros (o & [[(i & Hi & ->)|(i & xs & x & Hi & Hx & ->)]%elem_of_erp_struct|(i & j & a & b & Hij & Ha' & Hb' & Hc & ->)%elem_of_erp_links]%elem_of_app & Hm).
        -- destruct Hm as (_ & -> & _). by exists i.
        -- destruct Hm as [[? _]|[(_ & _ & _ & [= <-])|(_ & ? & _)]]; [done| |lia]. exists i. split; [by eapply lookup_lt_Some|done].
        -- destruct Hm as (a' & b' & w & Hm & Hl). apply writes_spec in Hm; rewrite nodeset_write in Hm by (eapply Hlen, elem_of_list_lookup_2; done).
           injection Hm as <- <- <-. apply elem_of_list_lookup_2, HLx in Ha' as (i1 & xs1 & x1 & H1 & _ & ->). apply elem_of_list_lookup_2, HLx in Hb' as (i2 & xs2 & x2 & H2 & _ & ->).
           destruct Hl as [[= <-]|[= <-]]; eexists; (split; [|done]); by eapply lookup_lt_Some.
      * intros (i & Hi & ->). exists (OpAddLayer (nd i) 1). split; [|done]. apply elem_of_app. left. apply elem_of_erp_struct. left. by exists i.
    + intros x. rewrite has_elem_sl, (hist_sl _ _ _ _ _ _ Hh). split.
      * intros (o & [[(i & Hi & ->)|(i & xs & y & Hi & Hx & ->)]%elem_of_erp_struct|(i & j & a & b & Hij & Ha' & Hb' & Hc & ->)%elem_of_erp_links]%elem_of_app & Hm).
        -- by destruct Hm as (? & _ & _).
        -- destruct Hm as [[_ ->]|[(_ & _ & ? & _)|(_ & ? & _)]]; [|done|lia]. exists (nd i), i, xs, y. done.
        -- destruct Hm as (a' & b' & w & Hm & Hl). apply writes_spec in Hm; rewrite nodeset_write in Hm by (eapply Hlen, elem_of_list_lookup_2; done).
           injection Hm as <- <- <-. apply elem_of_list_lookup_2, HLx in Ha' as (i1 & xs1 & x1 & H1 & H1' & ->). apply elem_of_list_lookup_2, HLx in Hb' as (i2 & xs2 & x2 & H2 & H2' & ->).
           destruct Hl as [[= <-]|[= <-]]; [by exists (nd i2), i2, xs2, x2|by exists (nd i1), i1, xs1, x1].
      * intros (l & i & xs & y & Hi & Hy & [= -> ->]). exists (OpAddNode y (Some (LBare (nd i)))). split; [|by left].
        apply elem_of_app. left. apply elem_of_erp_struct. right. by exists i, xs, y.
  - intros i j a b Hij Hia Hjb. assert (length a = 2) by by eapply Hlen, elem_of_list_lookup_2. assert (length b = 2) by by eapply Hlen, elem_of_list_lookup_2.
    split; (apply reads_rd; [by rewrite Ha|by rewrite Ha|]); symmetry; eapply Hrd; try done; auto.
  - intros a b Hl. apply linked_rd in Hl; [|by apply reachable_good]. rewrite Hn, (hist_refines _ _ _ _ _ _ Hh) in Hl. unfold spec_run in Hl.
    rewrite <- !(proj2 HL). destruct (decide (a ∈ L /\ b ∈ L /\ a <> b)) as [?|Hno]; [done|]. exfalso. apply Hl. apply spec_fold_miss.
    intros o a' b' w Ho Hw' Hh'. destruct (Hw o a' b' w Ho Hw') as (i' & j' & Hij' & Hb' & Ha' & Hc & _).
    apply Hno. assert (a' <> b') as Hne. { intros ->. pose proof (NoDup_lookup _ _ _ _ (proj1 HL) Ha' Hb'). lia. }
    apply elem_of_list_lookup_2 in Ha', Hb'. destruct Hh' as [[-> ->]|(_ & -> & ->)]; done.
Qed.
(** p=0 gives no links, p=1 gives all links. *)
Theorem C84_p_zero_p_one nbl :
  (exists n, er_part nbl (fun _ _ => false) = Ok n /\ on_node_layers n (length nbl) (listed_nl nbl) /\ forall a b, ~ linked n a b) /\
  exists n, er_part nbl (fun _ _ => true) = Ok n /\ on_node_layers n (length nbl) (listed_nl nbl) /\
    forall a b, linked n a b <-> listed_nl nbl a /\ listed_nl nbl b /\ a <> b.
Proof.
  assert (forall c : bool, exists n, er_part nbl (fun _ _ => c) = Ok n /\ on_node_layers n (length nbl) (listed_nl nbl) /\
    forall a b, linked n a b <-> c = true /\ listed_nl nbl a /\ listed_nl nbl b /\ a <> b) as H.
  { intros c. destruct (C84_er_partially_interconnected nbl (fun _ _ => c)) as (n & L & E & Hn & HL & Hr & Hl). exists n. split; [done|]. split; [done|].
    destruct Hn as (Hre & Ha & _ & _ & Hno & _ & _ & _). apply reachable_good in Hre.
    assert (forall a, listed_nl nbl a -> length a = S (aspects n)) as Hlen. { intros a (? & ? & ? & _ & _ & ->). by rewrite Ha. }
    assert (forall a b, listed_nl nbl a -> listed_nl nbl b -> a <> b -> reads n a b (if c then 1 else 0)) as Hab.
    { intros a b Hla Hlb Hne. apply HL in Hla, Hlb. apply elem_of_list_lookup in Hla as [i Hi], Hlb as [j Hj]. assert (i <> j) by congruence.
      assert (i < j \/ j < i) as [Hij|Hij] by lia; [by destruct (Hr i j a b Hij Hi Hj)|by destruct (Hr j i b a Hij Hj Hi)]. }
    intros a b. split.
    - intros Hlk. pose proof (Hl a b Hlk) as (Hla & Hlb & Hne). split_and!; try done. pose proof (Hab a b Hla Hlb Hne) as Hrd. apply linked_rd in Hlk; [|done].
      apply reads_rd in Hrd; [|by apply Hlen..]. destruct c; [done|]. by rewrite Hno in Hlk.
    - intros (-> & Hla & Hlb & Hne). apply linked_rd; [done|]. pose proof (Hab a b Hla Hlb Hne) as Hrd. apply reads_rd in Hrd; [|by apply Hlen..].
      rewrite <- Hrd, Hno. done. }
  split.
  - destruct (H false) as (n & E & Hn & Hl). exists n. split; [done|]. split; [done|]. intros a b [? _]%Hl. done.
  - destruct (H true) as (n & E & Hn & Hl). exists n. split; [done|]. split; [done|]. intros a b. rewrite Hl. tauto.
Qed.
(** Every graph on the node-layers is the result of some coins. *)
Theorem C84_every_graph nbl (R : nl -> nl -> bool) : (forall a b, R a b = R b a) ->
  exists n, er_part nbl R = Ok n /\ on_node_layers n (length nbl) (listed_nl nbl) /\
    forall a b, linked n a b <-> listed_nl nbl a /\ listed_nl nbl b /\ a <> b /\ R a b = true.
Proof.
  intros HR. destruct (C84_er_partially_interconnected nbl R) as (n & L & E & Hn & HL & Hr & Hl). exists n. split; [done|]. split; [done|].
  destruct Hn as (Hre & Ha & _ & _ & Hno & _ & _ & _). apply reachable_good in Hre.
  assert (forall a, listed_nl nbl a -> length a = S (aspects n)) as Hlen. { intros a (? & ? & ? & _ & _ & ->). by rewrite Ha. }
  assert (forall a b, listed_nl nbl a -> listed_nl nbl b -> a <> b -> reads n a b (if R a b then 1 else 0)) as Hab.
  { intros a b Hla Hlb Hne. apply HL in Hla, Hlb. apply elem_of_list_lookup in Hla as [i Hi], Hlb as [j Hj]. assert (i <> j) by congruence.
    assert (i < j \/ j < i) as [Hij|Hij] by lia; [rewrite HR; by destruct (Hr i j a b Hij Hi Hj)|by destruct (Hr j i b a Hij Hj Hi)]. }
  intros a b. split.
  - intros Hlk. pose proof (Hl a b Hlk) as (Hla & Hlb & Hne). split_and!; try done. pose proof (Hab a b Hla Hlb Hne) as Hrd. apply linked_rd in Hlk; [|done].
    apply reads_rd in Hrd; [|by apply Hlen..]. destruct (R a b); [done|]. by rewrite Hno in Hlk.
  - intros (Hla & Hlb & Hne & ER). apply linked_rd; [done|]. pose proof (Hab a b Hla Hlb Hne) as Hrd. apply reads_rd in Hrd; [|by apply Hlen..].
    rewrite ER in Hrd. rewrite <- Hrd, Hno. done.
Qed.

(** ** random_nodelists *)
(** Where [xrange] exists: one list per layer, each of [k] different nodes of the pool;
    it fails exactly if a list is to be drawn from a pool that is too small. *)
Theorem C84_nodelists pool k layers ss :
  (forall nbl, random_nodelists true pool k layers ss = Ok nbl ->
     length nbl = layers /\ forall xs, xs ∈ nbl -> length xs = k /\ NoDup xs /\ forall x, x ∈ xs -> exists i, i < pool /\ x = nd i) /\
  (random_nodelists true pool k layers ss = Err ValueError <-> 0 < layers /\ pool < k).
Proof.
  split.
  - intros nbl H. unfold random_nodelists in H. apply Supra.rmapM_Forall2 in H. split; [by rewrite <- (Forall2_length _ _ _ H), seq_length|].
    intros xs Hxs. apply elem_of_list_lookup in Hxs as [i Hi]. destruct (Forall2_lookup_r _ _ _ _ _ H Hi) as (j & _ & Hj). unfold rsample in Hj.
    destruct (decide (k <= pool)); [|done]. destruct (decide _) as [(H1 & H2 & H3)|]; [|done]. injection Hj as <-. rewrite fmap_length. split; [done|]. split.
    + apply NoDup_fmap_2; [|done]. intros x y [= ?]. lia.
    + intros x (p & -> & Hp)%elem_of_list_fmap. exists p. split; [|done]. rewrite Forall_forall in H3. by apply H3.
  - unfold random_nodelists. destruct (decide (k <= pool)) as [Hk|Hk].
    + split; [|lia]. assert (forall s, rsample true pool k s <> Err ValueError) as Hs.
      { intros s. unfold rsample. rewrite decide_True by done. by destruct (decide _). }
      generalize (seq 0 layers). intros l. induction l as [|i l IH]; cbn [rmapM]; [done|].
      destruct (rsample true pool k (default [] (ss !! i))) as [|e] eqn:E; cbn.
      * destruct (rmapM _ l) as [|e]; [done|]. done.
      * intros [= ->]. by apply Hs in E.
    + split; [|intros [??]; destruct layers; [lia|]; cbn [seq rmapM]; unfold rsample at 1; by rewrite decide_False by done].
      intros H. split; [|lia]. destruct layers; [done|lia].
Qed.
(** Every choice of such lists can be drawn. *)
Theorem C84_every_nodelists pool k nbl :
  (forall xs, xs ∈ nbl -> length xs = k /\ NoDup xs /\ forall x, x ∈ xs -> exists i, i < pool /\ x = nd i) ->
  exists ss, random_nodelists true pool k (length nbl) ss = Ok nbl.
Proof.
  intros H. exists ((fun xs : list name => (fun x => match x with NInt z => Z.to_nat z | _ => 0 end) <$> xs) <$> nbl).
  unfold random_nodelists. set (ss := _ <$> nbl).
  assert (forall j, j <= length nbl -> rmapM (fun i => rsample true pool k (default [] (ss !! i))) (seq j (length nbl - j)) = Ok (drop j nbl)) as HH;
    [|specialize (HH 0); rewrite Nat.sub_0_r in HH; apply HH; lia].
  intros j. remember (length nbl - j) as m eqn:Em. revert j Em. induction m as [|m IH]; intros j Em Hj; cbn [seq rmapM].
  { rewrite drop_ge; [done|lia]. }
  destruct (lookup_lt_is_Some_2 nbl j ltac:(lia)) as [xs Hxs]. rewrite (drop_S _ _ _ Hxs).
  assert (default [] (ss !! j) = (fun x => match x with NInt z => Z.to_nat z | _ => 0 end) <$> xs) as ->. { unfold ss. by rewrite list_lookup_fmap, Hxs. }
  destruct (H xs ltac:(by eapply elem_of_list_lookup_2)) as (H1 & H2 & H3).
  assert (rsample true pool k ((fun x => match x with NInt z => Z.to_nat z | _ => 0 end) <$> xs) = Ok xs) as ->.
  { assert (exists ps, xs = (fun i => NInt (Z.of_nat i)) <$> ps /\ Forall (fun i => i < pool) ps) as (ps & -> & Hps).
    { clear -H3. induction xs as [|x xs IH]; [by exists []|]. destruct IH as (ps & -> & Hps). { intros y Hy. apply H3. by right. }
      destruct (H3 x (elem_of_list_here _ _)) as (i & Hi & ->). exists (i :: ps). split; [done|]. by constructor. }
    rewrite fmap_length in H1. assert (k <= pool) as Hk.
    { rewrite <- H1. rewrite <- (seq_length pool 0). apply submseteq_length, NoDup_submseteq; [by eapply NoDup_fmap_1|]. intros i Hi. rewrite Forall_forall in Hps. apply elem_of_seq. specialize (Hps i Hi). lia. }
    rewrite <- list_fmap_compose. assert ((fun x => match x with NInt z => Z.to_nat z | _ => 0 end) ∘ (fun i => NInt (Z.of_nat i)) <$> ps = ps) as ->.
    { rewrite <- (list_fmap_id ps) at 2. apply list_fmap_ext. intros ? i _. cbn. lia. }
    unfold rsample. rewrite decide_True by done. rewrite decide_True; [done|]. split; [done|]. split; [by eapply NoDup_fmap_1|done]. }
  cbn. rewrite IH by lia. done.
Qed.
(** The two together: every layer has exactly [k] nodes. *)
Theorem C84_nodes_per_layer pool k layers ss nbl coin : random_nodelists true pool k layers ss = Ok nbl ->
  exists n, er_part nbl coin = Ok n /\ (forall l, has_elem n 1 l <-> exists i, i < layers /\ l = nd i) /\
    forall i, i < layers -> length (iter_nodes n (Some (LBare (nd i)))) = k.
Proof.
  intros H. destruct (C84_nodelists pool k layers ss) as [H1 _]. destruct (H1 nbl H) as [Hlen Hx]. clear H1.
  destruct (C84_er_partially_interconnected nbl coin) as (n & L & E & Hn & _). exists n. split; [done|].
  destruct Hn as (Hr & Ha & Hd & Hf & Hno & Hl & HL & _). rewrite Hlen in Hl. split; [done|]. intros i Hi.
  destruct (lookup_lt_is_Some_2 nbl i ltac:(lia)) as [xs Hxs]. destruct (Hx xs ltac:(by eapply elem_of_list_lookup_2)) as (Hk & Hnd & _).
  destruct Hr as (asp & noe & dir & fi & h & Hh). destruct (hist_inv _ _ _ _ _ _ Hh) as [_ _ Ha' _ _ Hf'].
  destruct (C13_nodes_of_layer _ _ _ _ _ _ Hh) as (_ & _ & HN). destruct (HN (LBare (nd i))) as (Hnd' & _ & HN').
  rewrite <- Hk. apply Permutation_length, NoDup_same_perm; [done|done|]. intros x. assert (asp = 1) as -> by congruence. assert (fi = false) as -> by (rewrite <- Hf; done). rewrite HN' by done.
  rewrite (proj2 HL). split.
  - intros (i' & xs' & x' & Hi' & Hx' & [= -> Heq]). assert (i = i') as -> by (unfold nd in Heq; lia || (injection Heq; lia)). by simplify_eq.
  - intros Hxx. by exists i, xs, x.
Qed.
(** Where [xrange] does not exist (Python 3) no list is ever drawn. *)
Theorem C84_no_xrange_refuted pool k layers ss : 0 < layers -> random_nodelists false pool k layers ss = Err NameError.
Proof. intros H. destruct layers; [lia|]. done. Qed.

(** ** Examples *)
Example C84_example :
  match random_nodelists true 4 2 3 [[2; 0]; [1; 3]; [0; 1]] with
  | Ok nbl => nbl = [[NInt 2; NInt 0]; [NInt 1; NInt 3]; [NInt 0; NInt 1]] /\
    match er_part (nbl ++ [[]]) (fun a b => bool_decide (a !! 1 = b !! 1)) with
    | Ok n => iter_node_layers n = [[NInt 2; NInt 0]; [NInt 0; NInt 0]; [NInt 1; NInt 1]; [NInt 3; NInt 1]; [NInt 0; NInt 2]; [NInt 1; NInt 2]] /\
        length (edges n) = 3 /\ iter_layers n = [LBare (NInt 0); LBare (NInt 1); LBare (NInt 2); LBare (NInt 3)]
    | Err _ => False
    end
  | Err _ => False
  end.
Proof. by vm_compute. Qed.
Print Assumptions C84_er_partially_interconnected.
Print Assumptions C84_p_zero_p_one.
Print Assumptions C84_every_graph.
Print Assumptions C84_nodelists.
Print Assumptions C84_every_nodelists.
Print Assumptions C84_nodes_per_layer.
Print Assumptions C84_no_xrange_refuted.
