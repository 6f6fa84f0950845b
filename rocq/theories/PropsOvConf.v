(** * Property C83: networks with given overlap degrees *)
From Verif Require Import OvConf OvConfFacts ConfFacts ModelsFacts MpxHist MpxIter PropsNet PropsMpx PropsTrans PropsModels PropsConf PropsCc CcFacts CcSpec CcAgg PropsOvDegs OvDegs OvDegsFacts SampFacts OverlapFacts ConfFacts PropsConf OvConf OvConfFacts.

(** ** Specification *)
(** A simple graph on the keys of [degs] in which every node has its prescribed number
    of neighbours. *)
Definition degree_graph (degs : list (name * nat)) (G : name -> name -> Prop) : Prop :=
  (forall x y, G x y -> G y x) /\ (forall x, ~ G x x) /\ (forall x y, G x y -> x ∈ degs.*1) /\
  forall x k, (x, k) ∈ degs -> exists L, lists_exactly L (G x) /\ length L = k.
(** [ol_degs] as Python can have it: no dictionary has a key twice. *)
Definition dict_of_dicts (ol : list (list name * list (name * nat))) : Prop :=
  NoDup (ol.*1) /\ forall t, t ∈ ol -> NoDup (t.2.*1).
(** The nodes [x] and [y] are linked in layer [l]: they are neighbours in the graph of a
    combination with [l]. *)
Definition comb_link (ol : list (list name * list (name * nat))) (G : nat -> name -> name -> Prop) (l x y : name) : Prop :=
  exists i t, ol !! i = Some t /\ l ∈ t.1 /\ G i x y.
(** [G i] is the graph of the i-th combination and no pair of nodes is linked in two of
    them. *)
Definition comb_graphs (ol : list (list name * list (name * nat))) (G : nat -> name -> name -> Prop) : Prop :=
  (forall i t, ol !! i = Some t -> degree_graph (t.2) (G i)) /\
  forall i j x y, G i x y -> G j x y -> i = j.

(** ** The multiplex network *)
Definition tri_ops (T : list (name * name * name)) : list mop := (fun t => MSet [t.1.1; t.1.2; t.2] 1) <$> T.
Lemma tri_result c T p : (forall x y l, (x, y, l) ∈ T -> x <> y) -> Models.mbuild (new_mpx [c] false 0 true) (tri_ops T) = Ok p ->
  (exists h, mhist [c] false 0 true h p) /\
  (forall x, mhas p 0 x <-> exists y l, (x, y, l) ∈ T \/ (y, x, l) ∈ T) /\
  (forall l, mhas p 1 l <-> exists x y, (x, y, l) ∈ T) /\
  forall l, layer_links p l (fun x y => (x, y, l) ∈ T \/ (y, x, l) ∈ T).
Proof.
  intros HB E.
  destruct (mbuild_safe c false 0 true (tri_ops T) [] (new_mpx [c] false 0 true)) as (p' & E' & Hh); [constructor| |].
  { apply Forall_forall. intros o ([[x y] l] & -> & Ht)%elem_of_list_fmap. cbn. intros [= ->]. by eapply HB. }
  assert (p' = p) as -> by congruence. cbn [app] in Hh. split; [by eexists|].
  assert (Hin : forall e, e ∈ okc <$> tri_ops T <-> exists x y l, (x, y, l) ∈ T /\ e = okc (MSet [x; y; l] 1)).
  { intros e. unfold tri_ops. rewrite elem_of_list_fmap. setoid_rewrite elem_of_list_fmap. split.
    - intros (o & -> & [[x y] l] & -> & ?). by exists x, y, l.
    - intros (x & y & l & ? & ->). eexists. split; [done|]. by exists (x, y, l). }
  assert (Hm : forall l x y j z, mmentions 1 true (okc (MSet [x; y; l] 1)) j z <-> (j = 0 /\ (z = x \/ z = y)) \/ (j = 1 /\ z = l)).
  { intros l x y j z. unfold mmentions. simpl. split.
    - intros (a & b & w & [_ [-> ->]%names_link1g] & Hz). destruct j as [|[|j]]; simpl in Hz; [left|right|by destruct Hz];
        destruct Hz as [[= ->]|[= ->]]; auto.
    - intros H. exists [x; l], [y; l], 1%Z. split; [split; [done|]; by apply names_link1g|]. destruct H as [[-> [-> | ->]]|[-> ->]]; simpl; auto. }
  split; [|split].
  - intros z. rewrite (C51_nodes_layers_exact _ _ _ _ _ _ Hh) by done. setoid_rewrite Hin. split.
    + intros (e & (x & y & l & Hq & ->) & Hz). apply Hm in Hz as [[_ [-> | ->]]|[? _]]; [exists y, l|exists x, l|]; auto. done.
    + intros (y & l & [H|H]); (eexists; split; [do 3 eexists; split; [exact H|reflexivity]|apply Hm; auto]).
  - intros l. rewrite (C51_nodes_layers_exact _ _ _ _ _ _ Hh) by done. setoid_rewrite Hin. split.
    + intros (e & (x & y & l' & Hq & ->) & Hz). apply Hm in Hz as [[? _]|[_ ->]]; [done|]. eauto.
    + intros (x & y & Hq). eexists. split; [exists x, y, l; done|]. apply Hm. auto.
  - intros l.
    assert (Hw : forall l' x y l i j w, mwrites 1 (okc (MSet [x; y; l'] 1)) (LBare l) i j w <-> w = 1%Z /\ i = x /\ j = y /\ l = l').
    { intros l' x y l0 i j w. unfold mwrites. simpl. split.
      - intros (_ & <- & (-> & -> & ->)%names_link1). done.
      - intros (-> & -> & -> & ->). split; [done|]. split; [done|]. by apply names_link1. }
    eapply layer_links_ext; [eapply (mones _ _ _ _ Hh)|].
    + intros e l0 i j w (x & y & l' & _ & ->)%Hin. by intros [-> _]%Hw.
    + intros l0 x w (x' & y' & l' & _ & He)%Hin. done.
    + intros x y Hne. split.
      * intros (e & (x' & y' & l' & Hq & ->)%Hin & [Ha|[_ Ha]]); apply Hw in Ha as (_ & -> & -> & ->); auto.
      * intros [Hq|Hq]; (eexists; split; [apply Hin; do 3 eexists; split; [exact Hq|reflexivity]|]); [left|right; split; [done|]]; by apply Hw.
Qed.

(** ** The loop over the combinations *)
Lemma names_link0g x y a b : names_link 0 [x; y] a b <-> a = [x] /\ b = [y].
Proof.
  split; [|intros [-> ->]; exact (names_short 0 x y [] eq_refl)].
  intros (Ha & Hb & H)%names_link_inv. destruct a as [|a1 [|]], b as [|b1 [|]]; try done. destruct H as [[_ H]|[_ H]]; [|unfold short_link_to_link in H]; simpl in H; by injection H as <- <-.
Qed.
Definition tri_of (comb : list name) (n : mlnet) : list (name * name * name) :=
  edges n ≫= fun e => match e.1 with x :: y :: _ => (fun l => (x, y, l)) <$> comb | _ => [] end.
Lemma writes_tri comb n : edges n ≫= oc_write comb = tri_ops (tri_of comb n).
Proof.
  unfold tri_of, tri_ops. induction (edges n) as [|[[|x [|y t]] w] es IH]; [done|..]; cbn [mbind list_bind fst]; rewrite ?fmap_app; unfold oc_write at 1; cbn [fst]; try done.
  f_equal; [|done]. rewrite <- list_fmap_compose. done.
Qed.
(** The network [n] of one combination. *)
Definition comb_net (degs : list (name * nat)) (n : mlnet) : Prop :=
  exists st, c_net st = n /\ dinv degs [] [] st /\ Forall cmpq (c_slots st).
Lemma comb_net_links degs n : comb_net degs n -> (forall x y, linked n [x] [y] <-> RR n x y <> 0%Z) /\
  (forall x y, RR n x y <> 0%Z -> x <> y /\ is_int x = is_int y) /\ (forall x y, linked n [x] [y] -> linked n [y] [x]) /\
  forall x y l comb, (x, y, l) ∈ tri_of comb n \/ (y, x, l) ∈ tri_of comb n <-> l ∈ comb /\ linked n [x] [y].
Proof.
  intros (st & <- & HI & HC). destruct (inv_links degs st HI) as (Hns & Hxx & Hlk). pose proof HI as [_ [[h Hh] _] _ _ _ _ _ _ _ _ _ _]. set (n := c_net st) in *.
  destruct (hist_inv _ _ _ _ _ _ Hh) as [HS HL Ha Hn Hd Hf]. assert (reachable n) as Hr by by repeat eexists. pose proof (reachable_good _ Hr) as Hg.
  assert (forall x y, linked n [x] [y] <-> RR n x y <> 0%Z) as H0. { intros x y. by rewrite linked_rd, Hn. }
  assert (forall x y, linked n [x] [y] -> linked n [y] [x]) as Hsym.
  { intros x y. rewrite !Hlk. intros ([u v] & Hq & Hs)%cnt_pos. apply cnt_pos. exists (u, v). split; [done|]. apply sameq_iff in Hs. apply sameq_iff. tauto. }
  split; [done|]. split.
  { intros x y H. apply H0, Hlk, cnt_pos in H as ([u v] & Hq & Hs). rewrite Forall_forall in HC. pose proof (HC _ Hq) as Hc. pose proof (Hns _ Hq). unfold cmpq in Hc.
    apply sameq_iff in Hs as [[? ?]|[? ?]]; cbn [fst snd] in *; split; congruence. }
  split; [done|]. intros x y l comb.
  assert (forall u v, (u, v, l) ∈ tri_of comb n <-> l ∈ comb /\ exists e, e ∈ edges n /\ edge_tuple n [u] [v] e) as Ht.
  { intros u v. unfold tri_of. rewrite elem_of_list_bind. destruct (edges_und_exact n Hg Hd) as (_ & HE & _ & _). split.
    - intros (e & He & Hin). destruct (HE e Hin) as (a & b & _ & Hl & Hnl & Hrd). rewrite Ha in Hl, Hnl. destruct e as [[|u' [|v' [|]]] w]; try done.
      cbn [fst] in He. apply elem_of_list_fmap in He as (l' & [= -> -> ->] & Hl'). split; [done|]. eexists. split; [done|]. apply names_link0g in Hnl as [-> ->].
      split; [by rewrite Ha|]. split; [|done]. rewrite Ha. by apply names_link0g.
    - intros (Hlc & e & Hin & Hl & Hnl & _). rewrite Ha in Hl, Hnl. exists e. split; [|done]. destruct e as [[|u' [|v' [|]]] w]; try done.
      apply names_link0g in Hnl as [[= ->] [= ->]]. cbn [fst]. by apply elem_of_list_fmap_1. }
  rewrite !Ht. destruct (edges_und_exact n Hg Hd) as (_ & HE & HE2 & _). split.
  - assert (forall u v e, e ∈ edges n -> edge_tuple n [u] [v] e -> linked n [u] [v]) as Hel.
    { intros u v e Hin (_ & Hnl & _). destruct (HE e Hin) as (a & b & Hab & _ & Hnl' & _). rewrite Ha in Hnl, Hnl'. destruct (proj2 (proj2 (C03_full_index_bijection 0)) _ _ _ _ _ Hnl Hnl') as [-> ->]. done. }
    intros [(? & e & Hin & He)|(? & e & Hin & He)]; (split; [done|]); [by eapply Hel|]. apply Hsym. by eapply Hel.
  - intros [? Hl]. destruct (HE2 _ _ Hl) as (e & He & [?|?]); [left|right]; eauto.
Qed.
Definition tri_all (ol : list (list name * list (name * nat))) (ns : list mlnet) : list (name * name * name) :=
  zip ol ns ≫= fun tn => tri_of (tn.1.1) (tn.2).
Record OI (c : coupling) (ol : list (list name * list (name * nat))) (ns : list mlnet) (p : mpx) (used : list (name * name)) : Prop := {
  oi_nets : Forall2 (fun t n => comb_net (t.2) n) ol ns;
  oi_used : forall q, q ∈ used <-> can q /\ exists n, n ∈ ns /\ RR n (q.1) (q.2) <> 0%Z;
  oi_disj : forall i j n m x y, ns !! i = Some n -> ns !! j = Some m -> RR n x y <> 0%Z -> RR m x y <> 0%Z -> i = j;
  oi_ops : Models.mbuild (new_mpx [c] false 0 true) (tri_ops (tri_all ol ns)) = Ok p
}.
Lemma comb_pair degs n x y : comb_net degs n -> RR n x y <> 0%Z -> exists q, can q /\ (q = (x, y) \/ q = (y, x)) /\ RR n (q.1) (q.2) <> 0%Z.
Proof.
  intros Hn H. destruct (comb_net_links degs n Hn) as (Hl & Hc & Hs & _). destruct (Hc x y H) as [Hne Hi].
  destruct (nsort x y) as [q|e] eqn:E; [|by apply nsort_err in E as [_ ?]]. exists q. split; [by eapply nsort_can|]. apply nsort_ok in E as (E & _ & _). split; [done|].
  destruct E as [-> | ->]; [done|]. cbn [fst snd]. by apply Hl, Hs, Hl.
Qed.
Lemma tri_ne ol ns : Forall2 (fun t n => comb_net (t.2) n) ol ns -> forall x y l, (x, y, l) ∈ tri_all ol ns -> x <> y.
Proof.
  intros HF x y l ([t n] & Hin & Ht)%elem_of_list_bind. apply elem_of_list_lookup in Ht as [i Hi]. apply lookup_zip_with_Some in Hi as (t' & n' & [= <- <-] & Hi & Hi').
  pose proof (Forall2_lookup_lr _ _ _ _ _ _ HF Hi Hi') as Hn. cbn beta in Hn. destruct (comb_net_links _ _ Hn) as (Hl & Hc & _ & Ht). cbn [fst snd] in Hin.
  assert (linked n [x] [y]) as H by (apply (Ht x y l (t.1)); by left). apply Hl, Hc in H. tauto.
Qed.
Lemma tri_all_snoc ol ns t n : length ol = length ns -> tri_all (ol ++ [t]) (ns ++ [n]) = tri_all ol ns ++ tri_of (t.1) n.
Proof.
  intros Hl. unfold tri_all. assert (zip (ol ++ [t]) (ns ++ [n]) = zip ol ns ++ [(t, n)]) as -> by exact (zip_with_app pair ol [t] ns [n] Hl).
  rewrite bind_app. cbn [mbind list_bind]. by rewrite app_nil_r.
Qed.
Lemma mbuild_app' p os1 os2 : Models.mbuild p (os1 ++ os2) = let? q := Models.mbuild p os1 in Models.mbuild q os2.
Proof. unfold Models.mbuild. revert p. induction os1 as [|o os1 IH]; intros p; [done|]. simpl. destruct (do_mop p o); [apply IH|done]. Qed.
Lemma oc_step_run c ol ns p used t r : OI c ol ns p used ->
  match oc_step (p, used) (t, r) with
  | Ok (p', used') => exists n, oc_comb used (t.2) r = Ok (n, used') /\ OI c (ol ++ [t]) (ns ++ [n]) p' used'
  | Err e => conf_failure (t.2) e
  end.
Proof.
  intros [HF HU HD HO]. unfold oc_step. cbn [fst snd].
  pose proof (oc_comb_run used (t.2) r (fun q Hq => proj1 (proj1 (HU q) Hq))) as H. destruct (oc_comb used (t.2) r) as [[n u]|e]; cbn [rbind fst snd]; [|done].
  destruct H as (st & En & HI & HC & HUS & HDJ). assert (comb_net (t.2) n) as Hn by (exists st; by subst).
  assert (Forall2 (fun t n => comb_net (t.2) n) (ol ++ [t]) (ns ++ [n])) as HF' by (apply Forall2_app; [done|by repeat constructor]).
  pose proof (Forall2_length _ _ _ HF) as Hlen. rewrite writes_tri.
  assert (exists p', Models.mbuild (new_mpx [c] false 0 true) (tri_ops (tri_all (ol ++ [t]) (ns ++ [n]))) = Ok p') as [p' E].
  { destruct (mbuild_safe c false 0 true (tri_ops (tri_all (ol ++ [t]) (ns ++ [n]))) [] (new_mpx [c] false 0 true)) as (p' & E' & Hh); [constructor| |by eexists].
    apply Forall_forall. intros o ([[x y] l] & -> & Ht)%elem_of_list_fmap. cbn. intros [= ->]. by eapply tri_ne. }
  pose proof E as E'. rewrite tri_all_snoc in E' by done. unfold tri_ops in E'. rewrite fmap_app, mbuild_app' in E'. fold (tri_ops (tri_all ol ns)) in E'. fold (tri_ops (tri_of (t.1) n)) in E'.
  rewrite HO in E'. cbn [rbind] in E'. rewrite E'. cbn [rbind]. exists n. split; [done|]. split; [done| | |done].
  - intros q. rewrite (HUS q), (HU q). setoid_rewrite elem_of_app. setoid_rewrite elem_of_list_singleton. split.
    + intros [(? & m & ? & ?)|[? ?]]; (split; [done|]); eauto.
    + intros (? & m & [?| ->] & ?); [left|right]; eauto.
  - assert (forall i m x y, ns !! i = Some m -> RR m x y <> 0%Z -> RR n x y <> 0%Z -> False) as Hx.
    { intros i m x y Hi H1 H2. assert (exists t', ol !! i = Some t') as [t' Ht'].
      { apply lookup_lt_is_Some. apply lookup_lt_Some in Hi. lia. }
      pose proof (Forall2_lookup_lr _ _ _ _ _ _ HF Ht' Hi) as Hm. cbn beta in Hm. destruct (comb_pair _ _ _ _ Hm H1) as (q & Hq & Eq & Hr).
      assert (q ∈ used) as Hqu by (apply HU; split; [done|]; exists m; split; [by eapply elem_of_list_lookup_2|done]). apply HDJ in Hqu. apply H2.
      destruct (comb_net_links _ _ Hn) as (Hl & _ & Hs & _). destruct Eq as [-> | ->]; cbn [fst snd] in Hqu; [done|].
      destruct (decide (RR n x y = 0%Z)) as [|Hne]; [done|]. apply Hl, Hs, Hl in Hne. done. }
    intros i j m m' x y [Hi|[Hi Hi']]%lookup_app_Some [Hj|[Hj Hj']]%lookup_app_Some Hr Hr'.
    + by eapply HD.
    + apply list_lookup_singleton_Some in Hj' as [_ <-]. exfalso. by eapply Hx.
    + apply list_lookup_singleton_Some in Hi' as [_ <-]. exfalso. by eapply Hx.
    + apply list_lookup_singleton_Some in Hi' as [? _], Hj' as [? _]. lia.
Qed.
Lemma oc_loop c : forall todo ol ns p used, OI c ol ns p used -> 
  match rfold oc_step (p, used) todo with
  | Ok (p', used') => exists ns', OI c (ol ++ todo.*1) ns' p' used'
  | Err e => exists t, t ∈ todo /\ conf_failure (t.1.2) e
  end.
Proof.
  induction todo as [|[t r] todo IH]; intros ol ns p used H; cbn [rfold].
  - exists ns. by rewrite app_nil_r.
  - pose proof (oc_step_run c ol ns p used t r H) as Hs. destruct (oc_step (p, used) (t, r)) as [[p1 u1]|e].
    + destruct Hs as (n & _ & Hs). specialize (IH _ _ _ _ Hs). destruct (rfold oc_step (p1, u1) todo) as [[p2 u2]|e].
      * destruct IH as [ns' IH]. exists ns'. cbn [fmap list_fmap fst]. by rewrite <- app_assoc in IH.
      * destruct IH as (t' & ? & ?). exists t'. split; [by right|done].
    + exists (t, r). split; [left|done].
Qed.
Lemma fst_zip_le {A B} : forall (l : list A) (k : list B), length l <= length k -> (zip l k).*1 = l.
Proof. induction l as [|x l IH]; intros [|y k] H; try done; simpl in *; [lia|]. f_equal. apply IH. lia. Qed.
Lemma oc_structure c ol rs p : conf_overlaps [c] ol rs = Ok p -> exists ns used, OI c ol ns p used.
Proof.
  unfold conf_overlaps. destruct (decide _) as [Hl|]; [|done]. pose proof (oc_loop c (zip ol rs) [] [] (new_mpx [c] false 0 true) []) as H.
  destruct (rfold oc_step _ _) as [[p' u]|e]; [|done]. cbn [rbind fst]. intros [= ->].
  destruct H as [ns H].
  - split; [constructor| | |done].
    + intros q. rewrite elem_of_nil. split; [done|]. by intros (_ & n & ?%elem_of_nil & _).
    + by intros i j n m x y Hx; rewrite lookup_nil in Hx.
  - cbn [app] in H. rewrite fst_zip_le in H by done. eauto.
Qed.
Definition graph_of (ns : list mlnet) (i : nat) (x y : name) : Prop := exists n, ns !! i = Some n /\ linked n [x] [y].
Lemma oi_graphs c ol ns p used : dict_of_dicts ol -> OI c ol ns p used -> comb_graphs ol (graph_of ns) /\
  forall x y l, (x, y, l) ∈ tri_all ol ns \/ (y, x, l) ∈ tri_all ol ns <-> comb_link ol (graph_of ns) l x y.
Proof.
  intros [_ Hnd] [HF _ HD _]. split; [split|].
  - intros i t Ht. destruct (Forall2_lookup_l _ _ _ _ _ HF Ht) as (n & Hi & Hn). pose proof Hn as (st & <- & HI & _).
    assert (t ∈ ol) as Hin by by eapply elem_of_list_lookup_2. destruct (inv_realises (t.2) st (Hnd t Hin) HI) as (_ & _ & _ & Hk & Hno & _ & Hdeg).
    destruct (comb_net_links _ _ Hn) as (Hl & Hc & Hs & _). unfold graph_of. split_and!.
    + intros x y (n & Hi' & Hxy). assert (n = c_net st) as -> by congruence. exists (c_net st). split; [done|]. by apply Hs.
    + intros x (n & Hi' & Hxy). assert (n = c_net st) as -> by congruence. by apply (Hno x).
    + intros x y (n & Hi' & Hxy). assert (n = c_net st) as -> by congruence. apply Hk. pose proof HI as [_ [[h Hh] _] _ _ _ _ _ _ _ _ _ _].
      destruct (C12_links_between_node_layers _ _ _ _ _ _ Hh _ _ Hxy) as (_ & _ & Hel). apply (Hel 0 x). by left.
    + intros x k Hxk. destruct (Hdeg x k Hxk) as (L & [HL1 HL2] & Hlen). exists L. split; [|done]. split; [done|]. intros y. rewrite HL2. split; [eauto|].
      intros (n & Hi' & Hxy). by assert (n = c_net st) as -> by congruence.
  - intros i j x y (n & Hi & Hn) (m & Hj & Hm). assert (forall k n, ns !! k = Some n -> linked n [x] [y] -> RR n x y <> 0%Z) as Hr.
    { intros k n' Hk Hl. destruct (Forall2_lookup_r _ _ _ _ _ HF Hk) as (t & _ & Hn'). destruct (comb_net_links _ _ Hn') as (Hl' & _). by apply Hl'. }
    eapply HD; eauto.
  - assert (forall u v l, (u, v, l) ∈ tri_all ol ns <-> exists i t n, ol !! i = Some t /\ ns !! i = Some n /\ (u, v, l) ∈ tri_of (t.1) n) as Ht.
    { intros u v l. unfold tri_all. rewrite elem_of_list_bind. split.
      - intros ([t n] & Hin & [i Hi]%elem_of_list_lookup). apply lookup_zip_with_Some in Hi as (? & ? & [= <- <-] & ? & ?). exists i, t, n. done.
      - intros (i & t & n & H1 & H2 & H3). exists (t, n). split; [done|]. apply elem_of_list_lookup. exists i. apply lookup_zip_with_Some. eauto. }
    intros x y l. rewrite !Ht. split.
    + assert (forall i t n, ol !! i = Some t -> ns !! i = Some n -> (x, y, l) ∈ tri_of (t.1) n \/ (y, x, l) ∈ tri_of (t.1) n -> comb_link ol (graph_of ns) l x y) as H.
      { intros i t n Hi Hn H. pose proof (Forall2_lookup_lr _ _ _ _ _ _ HF Hi Hn) as Hc. cbn beta in Hc. destruct (comb_net_links _ _ Hc) as (_ & _ & _ & Htr).
        apply Htr in H as [? ?]. exists i, t. split; [done|]. split; [done|]. by exists n. }
      intros [(i & t & n & ? & ? & ?)|(i & t & n & ? & ? & ?)]; eauto.
    + intros (i & t & Hi & Hl & n & Hn & Hxy). pose proof (Forall2_lookup_lr _ _ _ _ _ _ HF Hi Hn) as Hc. cbn beta in Hc. destruct (comb_net_links _ _ Hc) as (_ & _ & _ & Htr).
      destruct (proj2 (Htr x y l (t.1)) (conj Hl Hxy)) as [?|?]; [left|right]; eauto 10.
Qed.

(** ** C83 *)
(** Whatever the random outcomes: a call that returns gives a multiplex network made of
    one simple graph per layer combination, with the prescribed degrees.  No pair of
    nodes is linked in two of these graphs, and a layer has exactly the links of the
    graphs of its combinations, all with weight 1. *)
Theorem C83_structure c ol rs p : dict_of_dicts ol -> conf_overlaps [c] ol rs = Ok p ->
  exists G, comb_graphs ol G /\
    (forall l, layer_links p l (comb_link ol G l)) /\
    (forall x, mhas p 0 x <-> exists l y, comb_link ol G l x y) /\
    (forall l, mhas p 1 l <-> exists x y, comb_link ol G l x y).
Proof.
  intros Hd E. destruct (oc_structure c ol rs p E) as (ns & used & HI). destruct (oi_graphs _ _ _ _ _ Hd HI) as [HG HL].
  pose proof HI as [HF _ _ HO]. destruct (tri_result c _ p (tri_ne ol ns HF) HO) as (_ & H0 & H1 & H2). exists (graph_of ns). split; [done|]. split; [|split].
  - intros l. eapply layer_links_ext; [apply H2|]. intros x y _. apply HL.
  - intros x. rewrite H0. split; [intros (y & l & H); exists l, y; by apply HL|]. intros (l & y & H). exists y, l. by apply HL.
  - intros l. rewrite H1. split; [intros (x & y & H); exists x, y; apply HL; by left|]. intros (x & y & [H|H]%HL); eauto.
Qed.
(** The only failures are those of a single configuration model: a combination with an
    odd number of stubs or more than n(n-1), with nodes that cannot be compared, with
    fewer than four stubs, or rewiring that does not end. *)
Theorem C83_failures c ol rs e : conf_overlaps [c] ol rs = Err e -> e = OutOfFuel \/ exists t, t ∈ ol /\ conf_failure (t.2) e.
Proof.
  unfold conf_overlaps. destruct (decide _) as [Hl|]; [|by left; congruence]. pose proof (oc_loop c (zip ol rs) [] [] (new_mpx [c] false 0 true) []) as H.
  destruct (rfold oc_step _ _) as [[p' u]|e']; [done|]. cbn [rbind]. intros [= ->]. right.
  destruct H as (t & Ht & Hf).
  - split; [constructor| | |done].
    + intros q. rewrite elem_of_nil. split; [done|]. by intros (_ & n & ?%elem_of_nil & _).
    + by intros i j n m x y Hx; rewrite lookup_nil in Hx.
  - exists (t.1). split; [|done]. destruct t as [t r]. by apply elem_of_zip_l in Ht.
Qed.

Section rt.
  Context (w : Z) (ol : list (list name * list (name * nat))) (ns : list mlnet) (p : mpx) (used : list (name * name)).
  Hypothesis HI : OI (CCat w) ol ns p used.
  Hypothesis Hd : dict_of_dicts ol.
  Let Hne := tri_ne ol ns (oi_nets _ _ _ _ _ HI).
  Let HT := tri_result (CCat w) _ p Hne (oi_ops _ _ _ _ _ HI).
  Lemma rt_hist : exists h, mhist [CCat w] false 0 true h p.
  Proof. apply HT. Qed.
  Lemma rt_noloops : no_loops p.
  Proof.
    destruct rt_hist as [h Hh]. pose proof (mhist_inv _ _ _ _ _ _ Hh) as Hi. apply no_loops_wt. intros l x. destruct (decide (wt p l x x = 0%Z)) as [|Hz]; [done|].
    pose proof Hz as (Hl & Hx & _)%(wt_out w true h p l x x Hh). destruct HT as (_ & _ & _ & HL). destruct (HL l) as [_ Hs].
    assert (mexists p [x; l]) as He.
    { apply mexists_iff; [apply Hi|]. rewrite (pi_fic _ _ _ _ _ _ Hi), (pinv_asp _ _ _ _ _ _ Hi).
      split; [done|]. intros [|[|k]] z Hz'; simpl in Hz'; [| |done]; injection Hz' as <-; [by apply mnodes_psl|]. by apply (lays_psl w true h p Hi). }
    apply Hs in He. by apply get_wt in He.
  Qed.
  Definition tlink (l x y : name) : Prop := (x, y, l) ∈ tri_all ol ns \/ (y, x, l) ∈ tri_all ol ns.
  Global Instance tlink_dec l x y : Decision (tlink l x y).
  Proof. unfold tlink. apply _. Defined.
  Lemma rt_wt l x y : wt p l x y = if decide (tlink l x y) then 1%Z else 0%Z.
  Proof.
    destruct rt_hist as [h Hh]. pose proof (mhist_inv _ _ _ _ _ _ Hh) as Hi. destruct (decide (x = y)) as [->|Hxy].
    - rewrite (wt_self p rt_noloops l y). rewrite decide_False; [done|]. intros [H|H]; by apply Hne in H.
    - destruct HT as (_ & _ & _ & HL). destruct (HL l) as [Hl _]. destruct (Hl x y Hxy) as [H1 H0].
      assert (forall v, mreads p [x; l] [y; l] v -> wt p l x y = v) as Hr.
      { intros v Hv. apply mreads_pair in Hv; [|by rewrite (pinv_asp _ _ _ _ _ _ Hi)..]. rewrite (read_intra w true h p Hi rt_noloops) in Hv. by injection Hv. }
      destruct (decide (tlink l x y)) as [H|H]; [by apply Hr, H1|by apply Hr, H0].
  Qed.
  Lemma rt_links l x y : mlinked p [x; l] [y; l] <-> comb_link ol (graph_of ns) l x y.
  Proof using HI Hd HT.
    destruct rt_hist as [h Hh]. rewrite (linked_intra w true h p Hh rt_noloops), bl_1, rt_wt. destruct (oi_graphs _ _ _ _ _ Hd HI) as [_ HG].
    rewrite <- HG. fold (tlink l x y). by destruct (decide (tlink l x y)).
  Qed.
  (** Exactly the layers [c]: the graph of a combination with the layers of [c]. *)
  Lemma rt_exact c x y LS : mget_layers p 1 = Ok LS -> sublist c LS -> c <> [] ->
    linked_exactly_in p c x y <-> exists i t, ol !! i = Some t /\ (forall l, l ∈ t.1 <-> l ∈ c) /\ graph_of ns i x y.
  Proof using HI Hd HT.
    intros EL Hc Hnc. destruct (oi_graphs _ _ _ _ _ Hd HI) as [[_ HU] HG].
    assert (forall l, l ∈ c -> mhas p 1 l) as Hh. { intros l Hl. exists LS. split; [done|]. by eapply sublist_elem. }
    assert (forall l u v, comb_link ol (graph_of ns) l u v -> mhas p 1 l) as Hm.
    { intros l u v [H|H]%HG; apply HT; eauto. }
    split.
    - intros H. assert (exists l, l ∈ c) as [l Hl] by (destruct c; [done|eexists; left]). apply (H l (Hh l Hl)), rt_links in Hl as (i & t & Hi & Ht & Hg).
      exists i, t. split; [done|]. split; [|done]. intros l'. split.
      + intros Hl'. assert (comb_link ol (graph_of ns) l' x y) as Hk by (by exists i, t). apply H; [by eapply Hm|]. by apply rt_links.
      + intros Hl'. apply (H l' (Hh l' Hl')), rt_links in Hl' as (j & t' & Hj & Ht' & Hg'). assert (j = i) as -> by by eapply HU. congruence.
    - intros (i & t & Hi & Ht & Hg) l _. rewrite rt_links, <- Ht. split.
      + intros (j & t' & Hj & Ht' & Hg'). assert (j = i) as -> by by eapply HU. congruence.
      + intros Hl. by exists i, t.
  Qed.
End rt.
(** Counting the overlap degrees of the result gives the degrees back, for every
    combination of layers that occur, and 0 for the nodes and combinations not given;
    a combination with a degree above 0 occurs. *)
Theorem C83_overlap_degrees w ol rs p : dict_of_dicts ol -> w <> 0%Z ->
  (forall t u, t ∈ ol -> u ∈ ol -> (forall l, l ∈ t.1 <-> l ∈ u.1) -> t = u) ->
  conf_overlaps [CCat w] ol rs = Ok p ->
  exists d, overlap_degs true p = Ok d /\
    (forall t x k, t ∈ ol -> (x, k) ∈ t.2 -> 0 < k -> t.1 <> [] -> exists c, c ∈ dkeys d /\ forall l, l ∈ c <-> l ∈ t.1) /\
    forall c, c ∈ dkeys d ->
      (forall t x k, t ∈ ol -> (forall l, l ∈ c <-> l ∈ t.1) -> (x, k) ∈ t.2 -> overlap_degree d c x = Z.of_nat k) /\
      (forall x, (forall t, t ∈ ol -> (forall l, l ∈ c <-> l ∈ t.1) -> x ∉ t.2.*1) -> overlap_degree d c x = 0%Z).
Proof.
  intros Hd Hw Hu E. destruct (oc_structure _ ol rs p E) as (ns & used & HI). destruct (oi_graphs _ _ _ _ _ Hd HI) as [[HG HU] _].
  destruct (rt_hist w ol ns p used HI) as [h Hh]. pose proof (mhist_inv _ _ _ _ _ _ Hh) as Hi. pose proof (rt_noloops w ol ns p used HI) as Hnl.
  assert (mget_layers p 1 = Ok (lays p)) as EL by (unfold mget_layers; by rewrite (lays_eq w true h p Hi)).
  assert (forall l x y, comb_link ol (graph_of ns) l x y -> l ∈ lays p /\ mexists p [x; l]) as Hex.
  { intros l x y H. apply (rt_links w ol ns p used HI Hd), (linked_intra w true h p Hh Hnl) in H. apply (bl_el w true h p Hi) in H as [H _]. 
    pose proof H as [_ ?]%(el_in w true h p Hi). split; [done|]. by apply (el_1 w true h p Hi). }
  destruct (C82_overlap_degrees w true h p (lays p) Hh Hw Hnl) as (d & Ed & Hk & Hv); [|done|].
  { intros l x y v ->%get_wt. rewrite (rt_wt w ol ns p used HI). destruct (decide _); auto. }
  exists d. split; [done|]. split.
  - intros t x k Ht Hx Hpos Hne. pose proof Ht as [i Ht']%elem_of_list_lookup. destruct (HG i t Ht') as (_ & _ & _ & Hdg). destruct (Hdg x k Hx) as (L & [_ HL] & Hlen).
    destruct L as [|y L]; [simpl in Hlen; lia|]. assert (graph_of ns i x y) as Hxy by (apply HL; left).
    assert (forall l, l ∈ t.1 -> l ∈ lays p) as Hl. { intros l Hl. apply (Hex l x y). by exists i, t. }
    exists (filter (fun l => l ∈ t.1) (lays p)). assert (forall l, l ∈ filter (fun l => l ∈ t.1) (lays p) <-> l ∈ t.1) as Hf.
    { intros l. rewrite elem_of_list_filter. split; [tauto|auto]. }
    split; [|done]. apply Hk. split; [apply filter_sub|]. intros E0. destruct (t.1) as [|l ls]; [done|]. assert (l ∈ @nil name) as ?%elem_of_nil; [|done]. rewrite <- E0. apply Hf. left.
  - intros c Hc. pose proof Hc as [Hsub Hne]%Hk. pose proof Hc as [e He]%elem_of_dkeys. destruct (Hv c e He) as [_ Hdeg].
    assert (forall x y, linked_exactly_in p c x y <-> exists i t, ol !! i = Some t /\ (forall l, l ∈ t.1 <-> l ∈ c) /\ graph_of ns i x y) as Hle.
    { intros x y. by apply (rt_exact w ol ns p used HI Hd c x y (lays p)). }
    assert (forall x L, lists_exactly L (linked_exactly_in p c x) -> overlap_degree d c x = Z.of_nat (length L)) as Hov.
    { intros x L HL. assert (overlap_degree d c x = default 0%Z (dget e [x])) as -> by (unfold overlap_degree; by rewrite He). destruct (decide (L = [])) as [->|HLn].
      - destruct (dget e [x]) as [v|] eqn:Ev; [|done]. apply Hdeg in Ev as [_ (L' & [_ HL'] & ->)]. destruct L' as [|y L']; [done|]. exfalso.
        assert (y ∈ @nil name) as ?%elem_of_nil; [|done]. apply HL, HL'. left.
      - assert (dget e [x] = Some (Z.of_nat (length L))) as ->; [|done]. apply Hdeg. split; [|by exists L]. destruct L as [|y L]; [done|].
        assert (linked_exactly_in p c x y) as (i & t & Ht & Hlt & Hg)%Hle by (apply HL; left). destruct c as [|l c]; [done|]. exists l. split; [left|].
        apply (Hex l x y). exists i, t. split; [done|]. split; [|done]. apply Hlt. left. }
    split.
    + intros t x k Ht Hlt Hx. pose proof Ht as [i Ht']%elem_of_list_lookup. destruct (HG i t Ht') as (_ & _ & _ & Hdg). destruct (Hdg x k Hx) as (L & [HLn HL] & <-).
      apply Hov. split; [done|]. intros y. rewrite HL, Hle. split.
      * intros H. exists i, t. split; [done|]. split; [|done]. intros l. by rewrite Hlt.
      * intros (j & u & Hj & Hlu & Hg). assert (t = u) as <-.
        { apply Hu; [done|by eapply elem_of_list_lookup_2|]. intros l. by rewrite Hlu, Hlt. }
        assert (j = i) as ->; [|done]. destruct Hd as [Hnd _]. eapply (NoDup_lookup (ol.*1)); [done| |]; rewrite list_lookup_fmap; [by rewrite Hj|by rewrite Ht'].
    + intros x Hx. rewrite (Hov x []); [done|]. split; [constructor|]. intros y. rewrite elem_of_nil. split; [done|]. intros (i & t & Ht & Hlt & Hg)%Hle.
      apply (Hx t); [by eapply elem_of_list_lookup_2|intros l; by rewrite Hlt|]. destruct (HG i t Ht) as (_ & _ & Hkey & _). by eapply Hkey.
Qed.

(** The nodes are those with a positive degree in a combination with layers, and the
    layers those of a combination with a positive degree: a node or layer without links
    does not appear. *)
Theorem C83_nodes_layers c ol rs p : dict_of_dicts ol -> conf_overlaps [c] ol rs = Ok p ->
  (forall x, mhas p 0 x <-> exists t k, t ∈ ol /\ t.1 <> [] /\ (x, k) ∈ t.2 /\ 0 < k) /\
  forall l, mhas p 1 l <-> exists t x k, t ∈ ol /\ l ∈ t.1 /\ (x, k) ∈ t.2 /\ 0 < k.
Proof.
  intros Hd E. destruct (C83_structure c ol rs p Hd E) as (G & [HG _] & _ & H0 & H1).
  assert (forall i t x, ol !! i = Some t -> (exists y, G i x y) <-> exists k, (x, k) ∈ t.2 /\ 0 < k) as Hpos.
  { intros i t x Ht. destruct (HG i t Ht) as (_ & _ & Hk & Hdg). split.
    - intros [y Hy]. pose proof (Hk x y Hy) as ([x' k] & -> & Hx)%elem_of_list_fmap. exists k. split; [done|]. destruct (Hdg x' k Hx) as (L & [_ HL] & <-). cbn [fst] in Hy.
      apply HL in Hy. destruct L; [by apply elem_of_nil in Hy|simpl; lia].
    - intros (k & Hx & Hpos). destruct (Hdg x k Hx) as (L & [_ HL] & <-). destruct L as [|y L]; [simpl in Hpos; lia|]. exists y. apply HL. left. }
  split.
  - intros x. rewrite H0. split.
    + intros (l & y & i & t & Ht & Hl & Hg). destruct (proj1 (Hpos i t x Ht)) as (k & ? & ?); [by eexists|]. exists t, k. split_and!; [by eapply elem_of_list_lookup_2| |done|done].
      intros E0. rewrite E0 in Hl. by apply elem_of_nil in Hl.
    + intros (t & k & [i Ht]%elem_of_list_lookup & Hne & Hx & Hk). destruct (proj2 (Hpos i t x Ht)) as [y Hy]; [eauto|]. destruct (t.1) as [|l ls] eqn:El; [done|].
      exists l, y, i, t. split; [done|]. split; [rewrite El; left|done].
  - intros l. rewrite H1. split.
    + intros (x & y & i & t & Ht & Hl & Hg). destruct (proj1 (Hpos i t x Ht)) as (k & ? & ?); [by eexists|]. exists t, x, k. split_and!; [by eapply elem_of_list_lookup_2|done..].
    + intros (t & x & k & [i Ht]%elem_of_list_lookup & Hl & Hx & Hk). destruct (proj2 (Hpos i t x Ht)) as [y Hy]; [eauto|]. exists x, y, i, t. done.
Qed.

(** ** Every network *)
Lemma oc_every used degs L P : NoDup (degs.*1) -> (forall x y, x ∈ degs.*1 -> y ∈ degs.*1 -> is_int x = is_int y) ->
  lists_pairs L P -> (forall x y, P x y -> x ∈ degs.*1 /\ y ∈ degs.*1) ->
  (forall x k, (x, k) ∈ degs -> exists N, lists_exactly N (P x) /\ length N = k) ->
  (forall q, q ∈ used -> can q) -> (forall q, q ∈ used -> ~ P (q.1) (q.2)) ->
  exists n u, oc_comb used degs (ORand (graph_stubs L) [] [] []) = Ok (n, u) /\ forall x y, linked n [x] [y] <-> P x y.
Proof.
  intros Hnd Hty HL HP Hdeg HU HUP. destruct (lists_pairs_cnt L P HL) as (Hns & Hc1 & HPc). destruct (graph_stubs_ok degs L P Hnd HL HP Hdeg) as (Hsh & Hev & Hle).
  destruct (oc_start used degs (graph_stubs L) HU Hsh) as (n0 & E0 & _ & H).
  assert (exists st v, rfold ov_edge (OSt (CSt n0 L [] [] []) used []) (zip (seq 0 (length L)) L) = Ok st /\ FS (keyP degs) (zeroP degs) used L st v) as (st & v & E & HF).
  { unfold graph_stubs in H. rewrite pair_up_flat in H. destruct (rfold ov_edge _ _) as [st|e]; [destruct H as (v & H & _); by exists st, v|].
    exfalso. destruct H as [_ (a & b & Ha & Hb & Hne)]. apply Hne. by apply Hty. }
  destruct HF as [Hf _ _ Ef Hnet Hr _ _ _ Ht Hm].
  assert (o_taken st = []) as Et.
  { destruct (o_taken st) as [|p T]; [done|]. exfalso. destruct (proj1 (Ht p) ltac:(left)) as [Hp Hc]. apply (HUP p Hp). apply HPc. by rewrite <- surjective_pairing. }
  assert (c_multi (o_c st) = []) as Em.
  { destruct (c_multi (o_c st)) as [|p M]; [done|]. exfalso. destruct (proj1 (Hm p) ltac:(left)) as [Hp _]. destruct (f_multi _ _ _ _ Hf p Hp) as (_ & _ & H2). specialize (Hc1 p). lia. }
  assert ((c_self (o_c st) ≫= fun kv => (fun si => (kv.1, si)) <$> kv.2) = []) as Es.
  { rewrite Ef. destruct (c_self v ≫= _) as [|[x s] S] eqn:EE; [done|]. exfalso.
    assert ((x, s) ∈ (c_self v ≫= fun kv => (fun si => (kv.1, si)) <$> kv.2)) as Hin by (rewrite EE; left).
    apply elem_of_list_bind in Hin as ([x' l] & Hin & Hkv). cbn [fst snd] in Hin. apply elem_of_list_fmap in Hin as (s' & [= <- <-] & Hs').
    apply (dget_elem_of (c_self v)) in Hkv; [|apply (f_snd _ _ _ _ Hf)]. destruct (f_selfs _ _ _ _ Hf x) as [_ Hi]. rewrite Hkv in Hi.
    apply Hi in Hs' as (q & Hq & <-). by apply (Hns (x, x)); [eapply elem_of_list_lookup_2|]. }
  exists (c_net (o_c st)), (o_used st). split.
  - unfold oc_comb. rewrite E0. cbn [rbind r_shuffle r_multi r_taken r_draws]. rewrite decide_True by done. rewrite decide_True by done.
    rewrite (pair_up_flat L : pair_up (graph_stubs L) = L), E. cbn [rbind]. unfold ov_self_phase. rewrite Es. cbn [rfold rbind]. rewrite Em, Et. rewrite decide_True by done. done.
  - intros x y. destruct Hnet as [[h Hh] _]. destruct (hist_inv _ _ _ _ _ _ Hh) as [_ _ _ Hn _ _]. assert (reachable (c_net (o_c st))) as Hre by by repeat eexists.
    rewrite linked_rd, Hn by by apply reachable_good. change (rd (c_net (o_c st)) [x] [y]) with (RR (c_net (o_c st)) x y). rewrite Hr, HPc.
    destruct (decide (tk used (x, y))) as [(q & Hq & Hs)%tk_iff|Hk].
    + split; [done|]. intros Hc. exfalso. apply (HUP q Hq), HPc. rewrite <- surjective_pairing, (cnt_sameq _ _ _ Hs). done.
    + destruct (decide (x = y)) as [->|Hne].
      * rewrite (f_self0 _ _ _ _ Hf). split; [done|]. intros ([a b] & Hq & Hs)%cnt_pos. exfalso. apply (Hns _ Hq). apply sameq_iff in Hs as [[? ?]|[? ?]]; cbn; congruence.
      * rewrite (f_cons _ _ _ _ Hf x y Hne). by destruct (decide (1 <= cnt (x, y) L)).
Qed.
Lemma oc_every_prefix c ol G : dict_of_dicts ol -> comb_graphs ol G ->
  (forall t x y, t ∈ ol -> x ∈ t.2.*1 -> y ∈ t.2.*1 -> is_int x = is_int y) -> (forall i t, ol !! i = Some t -> exists L, lists_pairs L (G i)) ->
  forall k, k <= length ol -> exists rs p used ns, length rs = k /\ rfold oc_step (new_mpx [c] false 0 true, []) (zip (take k ol) rs) = Ok (p, used) /\
    OI c (take k ol) ns p used /\ forall i n, ns !! i = Some n -> forall x y, linked n [x] [y] <-> G i x y.
Proof.
  intros Hd [HG HU] Hty HLs. induction k as [|k IH]; intros Hk.
  - exists [], (new_mpx [c] false 0 true), [], []. split; [done|]. split; [done|]. split; [|by intros i n Hx; rewrite lookup_nil in Hx]. split; [constructor| | |done].
    + intros q. rewrite elem_of_nil. split; [done|]. by intros (_ & n & ?%elem_of_nil & _).
    + by intros i j n m x y Hx; rewrite lookup_nil in Hx.
  - destruct IH as (rs & p & used & ns & Hl & E & HI & Hns); [lia|]. destruct (lookup_lt_is_Some_2 ol k) as [t Ht]; [lia|].
    assert (t ∈ ol) as Hin by by eapply elem_of_list_lookup_2. destruct (HLs k t Ht) as [L HL]. destruct (HG k t Ht) as (Hsym & Hirr & Hkey & Hdeg).
    pose proof (Forall2_length _ _ _ (oi_nets _ _ _ _ _ HI)) as Hln. rewrite take_length_le in Hln by lia.
    destruct (oc_every used (t.2) L (G k)) as (n & u & Eo & Hn); [by apply Hd|intros; by eapply Hty|done|eauto|done|intros q Hq; by apply (oi_used _ _ _ _ _ HI) in Hq as [? _]| |].
    { intros q Hq Hgq. apply (oi_used _ _ _ _ _ HI) in Hq as (_ & m & [i Hm]%elem_of_list_lookup & Hr).
      destruct (Forall2_lookup_r _ _ _ _ _ (oi_nets _ _ _ _ _ HI) Hm) as (t' & _ & Hc). destruct (comb_net_links _ _ Hc) as (Hlk & _). apply Hlk, (Hns i m Hm) in Hr.
      assert (i = k) as -> by by eapply HU. apply lookup_lt_Some in Hm. lia. }
    pose proof (oc_step_run c (take k ol) ns p used t (ORand (graph_stubs L) [] [] []) HI) as Hs. destruct (oc_step (p, used) _) as [[p' u']|e] eqn:Es.
    + destruct Hs as (n' & Eo' & HI'). assert (n' = n) as -> by congruence. exists (rs ++ [ORand (graph_stubs L) [] [] []]), p', u', (ns ++ [n]).
      rewrite (take_S_r _ _ _ Ht). split; [rewrite app_length; simpl; lia|]. split; [|split; [done|]].
      * assert (zip (take k ol ++ [t]) (rs ++ [ORand (graph_stubs L) [] [] []]) = zip (take k ol) rs ++ [(t, ORand (graph_stubs L) [] [] [])]) as ->.
        { apply (zip_with_app pair (take k ol) [t] rs [ORand (graph_stubs L) [] [] []]). by rewrite take_length_le by lia. }
        rewrite rfold_app, E. cbn [rbind rfold]. by rewrite Es.
      * intros i m [Hi|[Hi Hi']]%lookup_app_Some; [by apply Hns|]. apply list_lookup_singleton_Some in Hi' as [? <-]. by assert (i = k) as -> by lia.
    + exfalso. unfold oc_step in Es. cbn [fst snd] in Es. rewrite Eo in Es. cbn [rbind fst snd] in Es.
      assert (exists p', Models.mbuild p (edges n ≫= oc_write (t.1)) = Ok p') as [p' Ep]; [|by rewrite Ep in Es].
      pose proof (tri_ne _ _ (oi_nets _ _ _ _ _ HI)) as Hne. destruct (tri_result c _ p Hne (oi_ops _ _ _ _ _ HI)) as ([h Hh] & _).
      destruct (mbuild_safe c false 0 true (edges n ≫= oc_write (t.1)) h p) as (p' & Ep & _); [done| |by exists p']. rewrite writes_tri.
      apply Forall_forall. intros o ([[x y] l] & -> & Hxy)%elem_of_list_fmap. cbn. intros [= ->].
      pose proof (oc_comb_run used (t.2) (ORand (graph_stubs L) [] [] [])) as Hrun. rewrite Eo in Hrun.
      destruct Hrun as (st & En & Hdi & Hcm & _); [intros q Hq; by apply (oi_used _ _ _ _ _ HI) in Hq as [? _]|].
      destruct (comb_net_links (t.2) n) as (Hlk & _ & _ & Htr); [by exists st|]. assert (linked n [y] [y]) as Hyy by (apply (Htr y y l (t.1)); by left). by apply Hn, Hirr in Hyy.
Qed.
(** Every family of graphs with these degrees and no common pair is a possible result,
    when the nodes of each combination can be compared. *)
Theorem C83_every_network c ol G : dict_of_dicts ol -> comb_graphs ol G ->
  (forall t x y, t ∈ ol -> x ∈ t.2.*1 -> y ∈ t.2.*1 -> is_int x = is_int y) -> (forall i t, ol !! i = Some t -> exists L, lists_pairs L (G i)) ->
  exists rs p, conf_overlaps [c] ol rs = Ok p /\ forall l, layer_links p l (comb_link ol G l).
Proof.
  intros Hd HG Hty HLs. destruct (oc_every_prefix c ol G Hd HG Hty HLs (length ol)) as (rs & p & used & ns & Hl & E & HI & Hns); [done|]. rewrite firstn_all in *.
  exists rs, p. split; [unfold conf_overlaps; rewrite decide_True by lia; by rewrite E|]. destruct (oi_graphs _ _ _ _ _ Hd HI) as [_ HL].
  pose proof HI as [HF _ _ HO]. destruct (tri_result c _ p (tri_ne ol ns HF) HO) as (_ & _ & _ & H2). intros l. eapply layer_links_ext; [apply H2|]. intros x y _. rewrite HL.
  pose proof (Forall2_length _ _ _ HF) as Hln. split.
  - intros (i & t & Ht & Hlt & n & Hn & Hxy). exists i, t. split; [done|]. split; [done|]. by apply (Hns i n Hn).
  - intros (i & t & Ht & Hlt & Hg). destruct (lookup_lt_is_Some_2 ns i) as [n Hn]; [apply lookup_lt_Some in Ht; lia|]. exists i, t. split; [done|]. split; [done|]. exists n. split; [done|]. by apply (Hns i n Hn).
Qed.

(** With [couplings=[]] the network has no aspects, and the first link
    raises KeyError: a call returns only if there is nothing to link. *)
Lemma none_write x y l : do_mop (new_mpx [] false 0 true) (MSet [x; y; l] 1) = Err KeyError.
Proof. done. Qed.
Lemma none_loop : forall todo used r, (forall q, q ∈ used -> can q) -> rfold oc_step (new_mpx [] false 0 true, used) todo = Ok r ->
  forall t, t ∈ todo -> t.1.1 <> [] -> NoDup (t.1.2.*1) -> forall x k, (x, k) ∈ t.1.2 -> k = 0.
Proof.
  induction todo as [|[t rr] todo IH]; intros used r HU E t' Ht; [by apply elem_of_nil in Ht|]. cbn [rfold] in E. unfold oc_step in E at 1. cbn [fst snd] in E.
  pose proof (oc_comb_run used (t.2) rr HU) as Hr. destruct (oc_comb used (t.2) rr) as [[n u]|e]; cbn [rbind fst snd] in E; [|done].
  destruct Hr as (st & En & HI & HC & HUS & _). destruct (comb_net_links (t.2) n) as (Hlk & _ & _ & Htr); [by exists st|].
  assert (forall q, q ∈ u -> can q) as HU'. { intros q Hq. apply (HUS q) in Hq as [?|[? _]]; [by apply HU|done]. }
  rewrite writes_tri in E. destruct (tri_of (t.1) n) as [|[[x y] l] T] eqn:ET.
  - change (tri_ops []) with (@nil mop) in E. cbn [Models.mbuild rfold rbind] in E. apply elem_of_cons in Ht as [->|Ht]; [|by apply (IH _ _ HU' E)].
    cbn [fst]. intros Hne Hnd x k Hx. destruct (inv_realises (t.2) st Hnd HI) as (_ & _ & _ & _ & _ & _ & Hdg). destruct (Hdg x k Hx) as (L & [_ HL] & <-).
    destruct L as [|y L]; [done|]. exfalso. assert (linked n [x] [y]) as Hxy by (rewrite <- En; apply HL; left). destruct (t.1) as [|l ls] eqn:El; [done|].
    destruct (proj2 (Htr x y l (l :: ls)) (conj (elem_of_list_here l ls) Hxy)) as [H|H]; rewrite ET in H; by apply elem_of_nil in H.
  - unfold tri_ops, Models.mbuild in E. cbn [fmap list_fmap rfold fst snd] in E. rewrite none_write in E. done.
Qed.
Theorem C83_empty_couplings ol rs p t x k : conf_overlaps [] ol rs = Ok p -> t ∈ ol -> t.1 <> [] -> NoDup (t.2.*1) -> (x, k) ∈ t.2 -> k = 0.
Proof.
  unfold conf_overlaps. destruct (decide _) as [Hl|]; [|done]. intros E Ht. destruct (rfold oc_step _ _) as [r|] eqn:Er; [|done].
  apply elem_of_list_lookup in Ht as [i Hi]. destruct (lookup_lt_is_Some_2 rs i) as [rr Hr]; [apply lookup_lt_Some in Hi; lia|].
  assert ((t, rr) ∈ zip ol rs) as Hz by (apply elem_of_list_lookup; exists i; apply lookup_zip_with_Some; eauto).
  intros H1 H2 H3. exact (none_loop _ _ _ ltac:(by intros q ?%elem_of_nil) Er (t, rr) Hz H1 H2 x k H3).
Qed.

(** ** Concrete runs *)
Definition ex83_ol : list (list name * list (name * nat)) :=
  [([sa; sb], [(NInt 0, 1); (NInt 1, 1); (NInt 7, 0)]);
   ([sa], (fun i => (NInt i, 1)) <$> [0; 1; 2; 3; 4; 5]%Z);
   ([sb], [(NInt 0, 2); (NInt 2, 1); (NInt 3, 1); (NInt 4, 1); (NInt 5, 1); (NInt 6, 1); (NInt 7, 1)])].
(** In layer a alone the shuffle repeats the link 0-1 of (a,b), which is rewired; in
    layer b alone it gives the self-link 0-0, which is rewired with the second draw: the
    first would give the link 0-2, which layer a has. *)
Definition ex83_rs : list orand :=
  [ORand (NInt <$> [1; 0]%Z) [] [] [];
   ORand (NInt <$> [0; 1; 2; 3; 4; 5]%Z) [] [(NInt 0, NInt 1)] [(1, 2)];
   ORand (NInt <$> [0; 0; 2; 5; 3; 4; 6; 7]%Z) [] [] [(1, 2); (2, 3)]].
Definition ex83_nodes : list Z := [0; 1; 2; 3; 4; 5; 6; 7]%Z.
Definition ex83_show (r : res mpx) : res (list (Z * Z) * list (Z * Z)) :=
  let? p := r in
  let L l := filter (fun q : Z * Z => (q.1 < q.2)%Z /\ wt p l (NInt (q.1)) (NInt (q.2)) = 1%Z)
    (ex83_nodes ≫= fun i => (fun j => (i, j)) <$> ex83_nodes) in Ok (L sa, L sb).
Example C83_example : ex83_show (conf_overlaps [CCat 1] ex83_ol ex83_rs) =
  Ok ([(0, 1); (0, 2); (1, 4); (3, 5)], [(0, 1); (0, 3); (0, 6); (2, 5); (4, 7)])%Z.
Proof. by vm_compute. Qed.
Example C83_example_hyps : dict_of_dicts ex83_ol /\ forall t u, t ∈ ex83_ol -> u ∈ ex83_ol -> (forall l, l ∈ t.1 <-> l ∈ u.1) -> t = u.
Proof.
  split; [split; [by apply (bool_decide_unpack _); vm_compute|]|].
  - assert (Forall (fun t => NoDup (t.2.*1)) ex83_ol) as H by (by apply (bool_decide_unpack _); vm_compute). by rewrite Forall_forall in H.
  - assert (sa <> sb) as Hab by done. unfold ex83_ol. intros t u. rewrite !elem_of_cons, !elem_of_nil.
    intros [-> | [-> | [-> | []]]] [-> | [-> | [-> | []]]] H; try done; exfalso; cbn [fst] in H; pose proof (H sa) as Ha; pose proof (H sb) as Hb;
      rewrite ?elem_of_cons, ?elem_of_nil in Ha, Hb; naive_solver.
Qed.
Definition ex83_degs (r : res mpx) (c : list name) : res (list Z) :=
  let? p := r in let? d := overlap_degs true p in Ok ((fun i => overlap_degree d c (NInt i)) <$> ex83_nodes).
Example C83_example_degrees : ex83_degs (conf_overlaps [CCat 1] ex83_ol ex83_rs) <$> [[sa; sb]; [sa]; [sb]] =
  [Ok [1; 1; 0; 0; 0; 0; 0; 0]; Ok [1; 1; 1; 1; 1; 1; 0; 0]; Ok [2; 0; 1; 1; 1; 1; 1; 1]]%Z.
Proof. by vm_compute. Qed.
(** Parallel links 0-1 in one combination. *)
Example C83_example_multi : ex83_show (conf_overlaps [CCat 1] [([sa], c36_degs)] [ORand (NInt <$> [0; 1; 2; 3; 1; 0; 5; 4]%Z) [(NInt 0, NInt 1)] [] [(1, 3)]]) =
  Ok ([(0, 2); (0, 4); (1, 3); (1, 5)], [])%Z.
Proof. by vm_compute. Qed.
(** Two keys with the same layers in another order: the degrees add up. *)
Theorem C83_permuted_keys_refuted : exists ol rs p d, dict_of_dicts ol /\ conf_overlaps [CCat 1] ol rs = Ok p /\ overlap_degs true p = Ok d /\
  ([sa; sb], [(NInt 0, 1); (NInt 1, 1)]) ∈ ol /\ overlap_degree d [sa; sb] (NInt 0) = 2%Z.
Proof.
  exists [([sa; sb], [(NInt 0, 1); (NInt 1, 1)]); ([sb; sa], [(NInt 0, 1); (NInt 2, 1)])], [ORand [NInt 0; NInt 1] [] [] []; ORand [NInt 0; NInt 2] [] [] []].
  eexists. eexists. split; [split; [by apply (bool_decide_unpack _); vm_compute|]|].
  { intros t. rewrite !elem_of_cons, elem_of_nil. intros [-> | [-> | []]]; by apply (bool_decide_unpack _); vm_compute. }
  split; [vm_compute; reflexivity|]. split; [vm_compute; reflexivity|]. split; [left|by vm_compute].
Qed.
(** The default [couplings=None]. *)
Example C83_example_default : exists p, conf_overlaps [CNone None] ex83_ol ex83_rs = Ok p.
Proof. eexists. by vm_compute. Qed.
(** Failures: an empty list of couplings, odd sum, too many stubs, names of two types, and a pair of
    nodes that two combinations must both link, with no other link to draw. *)
Example C83_example_failures :
  conf_overlaps [] ex83_ol ex83_rs = Err KeyError /\
  conf_overlaps [CCat 1] [([sa], [(NInt 0, 1)])] [ORand [NInt 0] [] [] []] = Err AssertionError /\
  conf_overlaps [CCat 1] [([sa], [(NInt 0, 2); (NInt 1, 2)])] [ORand (NInt <$> [0; 0; 1; 1]%Z) [] [] []] = Err AssertionError /\
  conf_overlaps [CCat 1] [([sa], [(NInt 0, 1); (NStr "x", 1)])] [ORand [NInt 0; NStr "x"] [] [] []] = Err TypeError /\
  conf_overlaps [CCat 1] [([sa], [(NInt 0, 1); (NInt 1, 1)]); ([sb], [(NInt 0, 1); (NInt 1, 1)])]
    [ORand (NInt <$> [0; 1]%Z) [] [] []; ORand (NInt <$> [0; 1]%Z) [] [(NInt 0, NInt 1)] [(0, 1)]] = Err ValueError.
Proof. by vm_compute. Qed.
Print Assumptions C83_structure.
Print Assumptions C83_failures.
Print Assumptions C83_overlap_degrees.
Print Assumptions C83_nodes_layers.
Print Assumptions C83_every_network.
Print Assumptions C83_empty_couplings.
Print Assumptions C83_permuted_keys_refuted.
