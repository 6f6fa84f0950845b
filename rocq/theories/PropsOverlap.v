(** * Property C77: er_overlaps_match_aggregated *)
From Verif Require Import OverlapSpec OverlapFacts ModelsFacts MpxHist MpxIter PropsNet PropsMpx PropsTrans PropsModels.

Local Notation nd i := (NInt (Z.of_nat i)).
Lemma concat_fmap {A B} (f : A -> B) (Ls : list (list A)) : concat ((fun L : list A => list_fmap _ _ f L) <$> Ls) = f <$> concat Ls.
Proof. induction Ls as [|L Ls IH]; [done|]. cbn [fmap list_fmap concat]. rewrite fmap_app. by f_equal. Qed.
Lemma bind_concat {A B} (f : A -> list B) (L : list A) : L ≫= f = concat (f <$> L).
Proof. induction L as [|x L IH]; [done|]. cbn. by rewrite <- IH. Qed.
Lemma ov_rel_plan edges ps sh ow : length sh = length ps -> forall l q, ov_rel (ov_plan edges ps) (sh ++ ow) l q <->
  (exists i cm S, ps !! i = Some cm /\ sh !! i = Some S /\ l ∈ cm.1 /\ q ∈ S) \/
  (exists i S, dkeys (foldl (ov_el edges) [] ps) !! i = Some l /\ ow !! i = Some S /\ q ∈ S).
Proof.
  intros Hlen l q. unfold ov_rel, ov_plan. rewrite zip_with_app by (by rewrite fmap_length). setoid_rewrite elem_of_app. split.
  - intros (t & [Ht|Ht] & Hl & Hq); apply elem_of_list_lookup in Ht as [i Hi]; apply lookup_zip_with_Some in Hi as (ph & S & -> & Hph & HS);
      apply list_lookup_fmap_Some in Hph as (cm & Hcm & ->); cbn [fst snd] in *.
    + left. by exists i, cm, S.
    + right. apply elem_of_list_singleton in Hl as ->. exists i, S. split; [|done]. unfold dkeys. by rewrite list_lookup_fmap, Hcm.
  - intros [(i & cm & S & Hcm & HS & Hl & Hq)|(i & S & Hl & HS & Hq)].
    + exists ((cm.1, ov_need cm), S). split; [left|done]. apply elem_of_list_lookup. exists i. apply lookup_zip_with_Some.
      exists (cm.1, ov_need cm), S. split; [done|]. by rewrite list_lookup_fmap, Hcm.
    + unfold dkeys in Hl. apply list_lookup_fmap_Some in Hl as ([l' v] & Hv & ->). exists (([l'], Z.to_nat v), S). split; [right|split; [by left|done]].
      apply elem_of_list_lookup. exists i. apply lookup_zip_with_Some. exists ([l'], Z.to_nat v), S. split; [done|]. by rewrite list_lookup_fmap, Hv.
Qed.

(** ** The links of the result *)
(** [sh] gives the pairs that were drawn for each combination and [own] those drawn
    for a single layer.  All these pairs are different. *)
Definition ov_assignment (n : nat) (edges : Z) (ps : list (list name * Z)) (layers : list name)
  (sh : list (list (name * name))) (own : name -> list (name * name)) : Prop :=
  lists_exactly layers (ov_mentioned ps) /\
  Forall2 (fun cm S => length S = ov_need cm) ps sh /\
  (forall l, l ∈ layers -> length (own l) = Z.to_nat (ov_left edges ps l)) /\
  (forall l, l ∉ layers -> own l = []) /\
  node_pairs n (concat sh ++ (layers ≫= own)).
(** The pair x, y was drawn for a combination containing [l], or for [l] itself. *)
Definition ov_joined (ps : list (list name * Z)) (sh : list (list (name * name))) (own : name -> list (name * name)) (l x y : name) : Prop :=
  (exists i cm S, ps !! i = Some cm /\ sh !! i = Some S /\ l ∈ cm.1 /\ pair_in x y S) \/ pair_in x y (own l).
Lemma npr_pair L x y : pair_in x y (npr <$> L) <-> exists q, q ∈ L /\ (npr q = (x, y) \/ npr q = (y, x)).
Proof.
  unfold pair_in. rewrite !elem_of_list_fmap. split.
  - intros [(q & E & Hq)|(q & E & Hq)]; exists q; auto.
  - intros (q & Hq & [E|E]); [left|right]; by exists q.
Qed.
Lemma ov_structure c n edges ps rnd p : er_overlaps [c] n edges ps rnd = Ok p ->
  exists layers sh own h, ov_assignment n edges ps layers sh own /\ mhist [c] false 0 true h p /\
    (forall x, mhas p 0 x <-> exists l y, ov_joined ps sh own l x y) /\
    (forall l, mhas p 1 l <-> exists x y, ov_joined ps sh own l x y) /\
    forall l, layer_links p l (ov_joined ps sh own l).
Proof.
  rewrite er_overlaps_phases. destruct (ov_phases n _ _) as [[[p' used'] rnd']|] eqn:E; [|done]. intros [= ->]. cbn [fst] in *.
  destruct (ov_phases_inv _ _ _ _ _ _ _ _ E) as (Ss & HF & HP & HN & HB & HM). rewrite app_nil_r in HP.
  assert (Hnd : NoDup (concat Ss)) by (rewrite <- HP; apply HN; constructor).
  unfold ov_plan in HF. apply Forall2_app_inv_l in HF as (sh & ow & HF1 & HF2 & ->). apply Forall2_fmap_l in HF1, HF2.
  destruct (el_left edges ps) as [Hlay Hleft]. set (el := foldl (ov_el edges) [] ps) in *.
  pose proof (ov_result c _ _ _ (fun q Hq => proj1 (HB q Hq)) HM) as (Hh & Hnode & Hlayer & Hlinks).
  set (owp := (fun L : list (nat * nat) => npr <$> L) <$> ow). set (shp := (fun L : list (nat * nat) => npr <$> L) <$> sh).
  set (own := fun l => default [] (dget (zip (dkeys el) owp) l)).
  assert (Hlen : length (dkeys el) = length owp).
  { unfold dkeys, owp. rewrite !fmap_length. exact (Forall2_length _ _ _ HF2). }
  assert (Hown : own <$> dkeys el = owp) by (apply own_concat; [apply Hlay|done]).
  assert (Hown' : forall i l S, dkeys el !! i = Some l -> ow !! i = Some S -> own l = npr <$> S).
  { intros i l S Hl HS. assert ((own <$> dkeys el) !! i = owp !! i) as H by by rewrite Hown. unfold owp in H.
    rewrite !list_lookup_fmap, Hl, HS in H. by injection H. }
  assert (Hnone : forall l, l ∉ dkeys el -> own l = []).
  { intros l Hl. unfold own. destruct (dget (zip (dkeys el) owp) l) as [v|] eqn:Ev; [|done]. exfalso. apply Hl. apply dget_Some_key in Ev. unfold dkeys at 1 in Ev.
    rewrite fst_zip in Ev by lia. done. }
  assert (Hj : forall l x y, ov_joined ps shp own l x y <-> exists q, ov_rel (ov_plan edges ps) (sh ++ ow) l q /\ (npr q = (x, y) \/ npr q = (y, x))).
  { intros l x y. setoid_rewrite ov_rel_plan; [|symmetry; by eapply Forall2_length]. fold el. unfold ov_joined. split.
    - intros [(i & cm & S & Hcm & HS & Hl & Hxy)|Hxy].
      + unfold shp in HS. apply list_lookup_fmap_Some in HS as (S0 & HS & ->). apply npr_pair in Hxy as (q & Hq & Hxy). exists q. split; [|done]. left. by exists i, cm, S0.
      + destruct (decide (l ∈ dkeys el)) as [Hl|Hl]; [|rewrite Hnone in Hxy by done; by destruct Hxy as [?%elem_of_nil|?%elem_of_nil]].
        apply elem_of_list_lookup in Hl as [i Hi]. destruct (lookup_lt_is_Some_2 ow i) as [S HS].
        { apply lookup_lt_Some in Hi. rewrite Hlen in Hi. unfold owp in Hi. by rewrite fmap_length in Hi. }
        rewrite (Hown' _ _ _ Hi HS) in Hxy. apply npr_pair in Hxy as (q & Hq & Hxy). exists q. split; [|done]. right. by exists i, S.
    - intros (q & [(i & cm & S & Hcm & HS & Hl & Hq)|(i & S & Hl & HS & Hq)] & Hxy).
      + left. exists i, cm, (npr <$> S). split; [done|]. split; [unfold shp; by rewrite list_lookup_fmap, HS|]. split; [done|]. apply npr_pair. by exists q.
      + right. rewrite (Hown' _ _ _ Hl HS). apply npr_pair. by exists q. }
  exists (dkeys el), shp, own, (okc <$> ov_all (ov_plan edges ps) (sh ++ ow)). split; [|split; [done|]].
  { split; [done|]. split; [|split; [|split]].
    - unfold shp. rewrite Forall2_fmap_r. eapply Forall2_impl; [exact HF1|]. cbn. intros cm S H. by rewrite fmap_length.
    - intros l [i Hi]%elem_of_list_lookup. pose proof Hi as Hi'. unfold dkeys in Hi'. apply list_lookup_fmap_Some in Hi' as ([l' v] & Hv & ->).
      destruct (Forall2_lookup_l _ _ _ _ _ HF2 Hv) as (S & HS & HlS). rewrite (Hown' _ _ _ Hi HS), fmap_length, HlS. cbn [fst snd]. f_equal.
      apply Hleft. by eapply elem_of_list_lookup_2.
    - done.
    - rewrite bind_concat, Hown. unfold shp, owp. rewrite !concat_fmap, <- fmap_app, <- concat_app. split.
      + apply NoDup_fmap_2_strong; [|done]. intros q q' _ _. apply npr_inj.
      + intros x y (q & Exy & Hq)%elem_of_list_fmap. injection Exy as -> ->. apply HB in Hq as [? ?]. exists (q.1), (q.2). split_and!; done. }
  split; [|split].
  - intros x. rewrite Hnode. setoid_rewrite Hj. split.
    + intros (l & q & Hq & [-> | ->]); exists l; [exists (nd (q.2))|exists (nd (q.1))]; exists q; auto.
    + intros (l & y & q & Hq & Hxy). exists l, q. split; [done|]. destruct Hxy as [[= <- <-]|[= <- <-]]; auto.
  - intros l. rewrite Hlayer. setoid_rewrite Hj. split.
    + intros (q & Hq). exists (nd (q.1)), (nd (q.2)), q. auto.
    + intros (x & y & q & Hq & _). eauto.
  - intros l. eapply layer_links_ext; [apply Hlinks|]. intros x y _. symmetry. apply Hj.
Qed.
(** The result of every run that ends: k*m pairs for every combination of k >= 2
    layers, copied to all of its layers; then for every layer the pairs that are
    left.  No pair is drawn twice.  The nodes and layers are those that have a link. *)
Theorem C77_links c n edges ps rnd p : er_overlaps [c] n edges ps rnd = Ok p ->
  exists layers sh own, ov_assignment n edges ps layers sh own /\
    (forall l, layer_links p l (ov_joined ps sh own l)) /\
    (forall x, mhas p 0 x <-> exists l y, ov_joined ps sh own l x y) /\
    (forall l, mhas p 1 l <-> exists x y, ov_joined ps sh own l x y).
Proof. intros E. destruct (ov_structure _ _ _ _ _ _ E) as (layers & sh & own & h & HA & _ & H1 & H2 & H3). exists layers, sh, own. done. Qed.

(** ** Who shares a pair *)
Lemma pair_unique n (A B : list (name * name)) x y : node_pairs n (A ++ B) -> pair_in x y A -> pair_in x y B -> False.
Proof.
  intros [Hnd Hb] HA HB. apply NoDup_app in Hnd as (_ & Hd & _).
  assert (forall u v, (u, v) ∈ A ++ B -> (v, u) ∈ A ++ B -> False) as Ha.
  { intros u v (i & j & ? & _ & -> & ->)%Hb (i' & j' & ? & _ & E1 & E2)%Hb. injection E1 as E1. injection E2 as E2. lia. }
  destruct HA as [HA|HA], HB as [HB|HB]; try (by eapply Hd); eapply Ha; apply elem_of_app; eauto.
Qed.
Definition ov_shared (ps : list (list name * Z)) (sh : list (list (name * name))) (l : name) : list (name * name) :=
  zip ps sh ≫= fun t => if decide (l ∈ t.1.1) then t.2 else [].
Lemma elem_of_shared ps sh l q : q ∈ ov_shared ps sh l <-> exists i cm S, ps !! i = Some cm /\ sh !! i = Some S /\ l ∈ cm.1 /\ q ∈ S.
Proof.
  unfold ov_shared. rewrite elem_of_list_bind. split.
  - intros (t & Hq & [i Hi]%elem_of_list_lookup). apply lookup_zip_with_Some in Hi as (cm & S & -> & Hcm & HS). cbn [fst snd] in Hq.
    destruct (decide (l ∈ cm.1)); [|by apply elem_of_nil in Hq]. by exists i, cm, S.
  - intros (i & cm & S & Hcm & HS & Hl & Hq). exists (cm, S). cbn [fst snd]. split; [by rewrite decide_True|]. apply elem_of_list_lookup. exists i.
    apply lookup_zip_with_Some. by exists cm, S.
Qed.
Lemma joined_in ps sh own l x y : ov_joined ps sh own l x y <-> pair_in x y (ov_shared ps sh l ++ own l).
Proof.
  unfold ov_joined, pair_in. rewrite !elem_of_app, !elem_of_shared. split.
  - intros [(i & cm & S & ? & ? & ? & [?|?])|[?|?]]; eauto 15.
  - intros [[(i & cm & S & ? & ? & ? & ?)|?]|[(i & cm & S & ? & ? & ? & ?)|?]]; eauto 15.
Qed.
Lemma shared_sublist ps sh l : length sh = length ps -> ov_shared ps sh l `sublist_of` concat sh.
Proof.
  revert sh. induction ps as [|cm ps IH]; intros [|S sh] Hl; try done. unfold ov_shared. cbn [zip zip_with mbind list_bind concat fst snd].
  apply sublist_app; [destruct (decide _); [done|apply sublist_nil_l]|]. apply IH. by injection Hl.
Qed.
Lemma own_sublist {B} (f : name -> list B) l L : l ∈ L -> f l `sublist_of` (L ≫= f).
Proof.
  intros (L1 & L2 & ->)%elem_of_list_split. rewrite bind_app. cbn [mbind list_bind]. apply sublist_inserts_l, sublist_inserts_r. done.
Qed.
Lemma sublist_in {A} (L L' : list A) : L' `sublist_of` L -> forall x, x ∈ L' -> x ∈ L.
Proof. intros H x Hx. eapply elem_of_submseteq; [exact Hx|]. by apply sublist_submseteq. Qed.
Lemma sublist_nodup {A} (L L' : list A) : L' `sublist_of` L -> NoDup L -> NoDup L'.
Proof.
  induction 1 as [|x l1 l2 Hs IH|x l1 l2 Hs IH]; [done| |]; intros [Hx Hn]%NoDup_cons; [|by apply IH]. constructor; [|by apply IH].
  intros Hin. apply Hx. by eapply sublist_in.
Qed.
Lemma sub_pairs n L L' : node_pairs n L -> L' `sublist_of` L -> node_pairs n L'.
Proof.
  intros [H1 H2] Hs. split; [by eapply sublist_nodup|]. intros x y Hxy. apply H2. by eapply sublist_in.
Qed.
Lemma layer_pairs n edges ps layers sh own l : ov_assignment n edges ps layers sh own -> node_pairs n (ov_shared ps sh l ++ own l).
Proof.
  intros (Hl & HF & _ & Hno & Hp). eapply sub_pairs; [exact Hp|]. apply sublist_app; [apply shared_sublist; symmetry; by eapply Forall2_length|].
  destruct (decide (l ∈ layers)); [by apply own_sublist|]. rewrite Hno by done. apply sublist_nil_l.
Qed.
Lemma pair_in_dec x y L : pair_in x y L \/ ~ pair_in x y L.
Proof. unfold pair_in. destruct (decide ((x, y) ∈ L)), (decide ((y, x) ∈ L)); tauto. Qed.
Lemma pairs_listed n L : node_pairs n L -> lists_pairs L (fun x y => pair_in x y L).
Proof.
  intros [H1 Hb]. split; [done|]. split; [|done]. intros u v (i & j & ? & _ & -> & ->)%Hb (i' & j' & ? & _ & E1 & E2)%Hb. injection E1 as E1. injection E2 as E2. lia.
Qed.
Lemma pair_ne n L x y : node_pairs n L -> pair_in x y L -> x <> y.
Proof. intros [_ Hb] [(i & j & ? & _ & -> & ->)%Hb|(i & j & ? & _ & -> & ->)%Hb]; intros [= ?]; lia. Qed.
(** Every pair that was drawn for a combination is linked in the layers of this
    combination and in no other layer; a pair drawn for one layer is linked in no
    other layer. *)
Theorem C77_overlap c n edges ps rnd p : er_overlaps [c] n edges ps rnd = Ok p ->
  exists layers sh own, ov_assignment n edges ps layers sh own /\
    (forall i cm S x y l, ps !! i = Some cm -> sh !! i = Some S -> (x, y) ∈ S -> mreads p [x; l] [y; l] (if decide (l ∈ cm.1) then 1 else 0)) /\
    (forall l x y l', (x, y) ∈ own l -> mreads p [x; l'] [y; l'] (if decide (l' = l) then 1 else 0)).
Proof.
  intros E. destruct (ov_structure _ _ _ _ _ _ E) as (layers & sh & own & h & HA & Hh & _ & _ & Hlk). exists layers, sh, own. split; [done|].
  pose proof HA as (Hlay & HF & Hown & Hno & Hp). pose proof (Forall2_length _ _ _ HF) as Hlen.
  assert (Hlow : forall l, own l `sublist_of` (layers ≫= own)).
  { intros l. destruct (decide (l ∈ layers)); [by apply own_sublist|]. rewrite Hno by done. apply sublist_nil_l. }
  split.
  - intros i cm S x y l Hcm HS Hxy. assert (Hne : x <> y).
    { eapply pair_ne; [exact Hp|]. left. apply elem_of_app. left. apply elem_of_concat. exists S. split; [done|]. by eapply elem_of_list_lookup_2. }
    destruct (Hlk l) as [H _]. destruct (H x y Hne) as [H1 H0]. destruct (decide (l ∈ cm.1)) as [Hl|Hl].
    + apply H1. left. exists i, cm, S. split_and!; [done..|]. by left.
    + apply H0. rewrite joined_in. intros Hj. apply elem_of_list_split_length in HS as (s1 & s2 & -> & Hi).
      assert (Hcm' := Hcm). apply elem_of_list_split_length in Hcm' as (c1 & c2 & -> & Hi').
      rewrite concat_app in Hp. cbn [concat] in Hp.
      assert (Hpp : node_pairs n (S ++ (concat s1 ++ concat s2 ++ (layers ≫= own)))).
      { destruct Hp as [Hp1 Hp2]. assert ((concat s1 ++ S ++ concat s2) ++ (layers ≫= own) ≡ₚ S ++ (concat s1 ++ concat s2 ++ (layers ≫= own))) as HPm.
        { rewrite <- !app_assoc. rewrite (Permutation_app_comm (concat s1)). rewrite <- app_assoc. f_equiv. rewrite Permutation_app_comm. done. }
        split; [by rewrite <- HPm|]. intros u v. rewrite <- HPm. apply Hp2. }
      eapply pair_unique; [exact Hpp|left; exact Hxy|]. unfold ov_shared in Hj.
      rewrite zip_with_app in Hj by lia. rewrite bind_app in Hj. cbn [zip_with mbind list_bind fst snd] in Hj. rewrite decide_False in Hj by done. cbn [app] in Hj.
      unfold pair_in in *. rewrite !elem_of_app in *.
      assert (Hs1 : forall q, q ∈ ov_shared c1 s1 l -> q ∈ concat s1) by (apply (sublist_in _ _ (shared_sublist c1 s1 l ltac:(lia)))).
      assert (Hs2 : forall q, q ∈ ov_shared c2 s2 l -> q ∈ concat s2).
      { apply (sublist_in _ _ (shared_sublist c2 s2 l ltac:(rewrite !app_length in Hlen; cbn in Hlen; lia))). }
      assert (Hs3 : forall q, q ∈ own l -> q ∈ layers ≫= own) by (apply (sublist_in _ _ (Hlow l))).
      unfold ov_shared in Hs1, Hs2.
      destruct Hj as [[[?|?]|?]|[[?|?]|?]]; eauto 10.
  - intros l x y l' Hxy. assert (Hne : x <> y).
    { eapply pair_ne; [eapply (layer_pairs n edges ps layers sh own l HA)|]. left. apply elem_of_app. by right. }
    destruct (Hlk l') as [H _]. destruct (H x y Hne) as [H1 H0]. destruct (decide (l' = l)) as [->|Hl].
    + apply H1. right. by left.
    + apply H0. rewrite joined_in. intros Hj.
      destruct (decide (l ∈ layers)) as [Hin|Hin]; [|rewrite Hno in Hxy by done; by apply elem_of_nil in Hxy].
      apply elem_of_list_split in Hin as (l1 & l2 & ->). rewrite bind_app in Hp. cbn [mbind list_bind] in Hp.
      assert (Hpp : node_pairs n (own l ++ (concat sh ++ (l1 ≫= own) ++ (l2 ≫= own)))).
      { destruct Hp as [Hp1 Hp2]. assert (concat sh ++ (l1 ≫= own) ++ own l ++ (l2 ≫= own) ≡ₚ own l ++ (concat sh ++ (l1 ≫= own) ++ (l2 ≫= own))) as HPm.
        { rewrite (Permutation_app_comm (own l) (_ ++ _)), <- !app_assoc. do 2 f_equiv. apply Permutation_app_comm. }
        split; [by rewrite <- HPm|]. intros u v. rewrite <- HPm. apply Hp2. }
      eapply pair_unique; [exact Hpp|left; exact Hxy|].
      assert (Hs : forall q, q ∈ ov_shared ps sh l' -> q ∈ concat sh) by (apply (sublist_in _ _ (shared_sublist ps sh l' ltac:(lia)))).
      assert (Hs3 : forall q, q ∈ own l' -> q ∈ (l1 ≫= own) \/ q ∈ (l2 ≫= own)).
      { intros q Hq. destruct (decide (l' ∈ l1 ++ l :: l2)) as [Hin|Hin]; [|rewrite Hno in Hq by done; by apply elem_of_nil in Hq].
        apply elem_of_app in Hin as [?|[?|?]%elem_of_cons]; [left| |right]; try done; apply elem_of_list_bind; by exists l'. }
      unfold pair_in in *. rewrite !elem_of_app in *. destruct Hj as [[?|Hj]|[?|Hj]]; eauto 10; apply Hs3 in Hj as [?|?]; eauto 10.
Qed.

(** ** How many links there are *)
Lemma length_concat_zsum {A} (Ss : list (list A)) : Z.of_nat (length (concat Ss)) = zsumf (fun S => Z.of_nat (length S)) Ss.
Proof. induction Ss as [|S Ss IH]; [done|]. cbn [concat]. rewrite app_length, zsumf_cons. lia. Qed.
Lemma zsumf_Forall2 {A B} (P : A -> B -> Prop) (f : A -> Z) (g : B -> Z) la lb : Forall2 P la lb -> (forall a b, a ∈ la -> P a b -> f a = g b) -> zsumf f la = zsumf g lb.
Proof.
  induction 1 as [|a b la lb Hab _ IH]; intros Hfg; [done|]. rewrite !zsumf_cons. rewrite (Hfg a b) by (done || left). rewrite IH; [done|].
  intros a' b' Ha. apply Hfg. by right.
Qed.
Lemma count_one (x : name) layers : NoDup layers -> x ∈ layers -> zsumf (fun l => if decide (x = l) then 1 else 0)%Z layers = 1%Z.
Proof.
  intros Hnd. induction Hnd as [|l L Hl Hnd IH]; intros Hx; [by apply elem_of_nil in Hx|]. rewrite zsumf_cons. apply elem_of_cons in Hx as [->|Hx].
  - rewrite decide_True by done. rewrite (zsumf_ext _ (fun _ => 0%Z)); [rewrite zsumf_const; lia|]. intros z Hz. rewrite decide_False by congruence. done.
  - rewrite decide_False by congruence. by rewrite IH.
Qed.
Lemma count_all ls layers : NoDup layers -> (forall x, x ∈ ls -> x ∈ layers) -> zsumf (fun l => ov_count l ls) layers = Z.of_nat (length ls).
Proof.
  intros Hnd. induction ls as [|x ls IH]; intros Hin.
  - rewrite (zsumf_ext _ (fun _ => 0%Z)) by done. rewrite zsumf_const. cbn. lia.
  - rewrite (zsumf_ext _ (fun l => (if decide (x = l) then 1 else 0) + ov_count l ls)%Z) by (intros; apply ov_count_cons).
    rewrite zsumf_add, count_one, IH; [cbn [length]; lia|intros; apply Hin; by right|done|apply Hin; by left].
Qed.
Lemma count_nodup l ls : NoDup ls -> ov_count l ls = if decide (l ∈ ls) then 1%Z else 0%Z.
Proof.
  induction 1 as [|x ls Hx Hnd IH]; [done|]. rewrite ov_count_cons, IH. destruct (decide (x = l)) as [->|Hne].
  - rewrite decide_False by done. rewrite decide_True by left. done.
  - destruct (decide (l ∈ ls)); [rewrite decide_True by (by right)|rewrite decide_False by (intros [?|?]%elem_of_cons; congruence)]; lia.
Qed.
Lemma need_Z cm : (0 <= cm.2)%Z -> Z.of_nat (ov_need cm) = if decide (2 <= length (cm.1))%nat then (Z.of_nat (length (cm.1)) * cm.2)%Z else 0%Z.
Proof. intros H. unfold ov_need. destruct (decide _); [|done]. lia. Qed.
Lemma left_sum edges ps layers : lists_exactly layers (ov_mentioned ps) ->
  zsumf (ov_left edges ps) layers = (edges * Z.of_nat (length layers) - zsumf (fun cm : list name * Z => if decide (2 <= length (cm.1))%nat then Z.of_nat (length (cm.1)) * cm.2 else 0) ps)%Z.
Proof.
  intros [Hnd Hl]. unfold ov_left.
  rewrite (zsumf_ext _ (fun l => edges + (-1) * zsumf (fun cm : list name * Z => if decide (2 <= length (cm.1))%nat then cm.2 * ov_count l (cm.1) else 0) ps)%Z) by (intros; lia).
  rewrite zsumf_add, zsumf_const, zsumf_mul_l, zsumf_swap.
  enough (forall X Y : Z, X = Y -> (edges * Z.of_nat (length layers) + -1 * X)%Z = (edges * Z.of_nat (length layers) - Y)%Z) as He; [|intros; lia].
  apply He. apply zsumf_ext. intros cm Hcm. destruct (decide _).
  - rewrite zsumf_mul_l, count_all; [lia|done|]. intros x Hx. apply Hl. by exists cm.
  - rewrite zsumf_const. lia.
Qed.
(** Provided that no number of pairs is negative: a layer has [edges] links plus
    (k-1)*m for each of its combinations; and the number of pairs that are linked in
    some layer is [edges] times the number of layers. *)
Theorem C77_counts c n edges ps rnd p : er_overlaps [c] n edges ps rnd = Ok p ->
  (forall cm, cm ∈ ps -> NoDup (cm.1) /\ (0 <= cm.2)%Z) -> (forall l, ov_mentioned ps l -> (0 <= ov_left edges ps l)%Z) ->
  (forall l, ov_mentioned ps l -> exists L, lists_pairs L (fun x y => x <> y /\ mreads p [x; l] [y; l] 1) /\
     Z.of_nat (length L) = (edges + zsumf (fun cm : list name * Z =>
        if decide (2 <= length (cm.1) /\ l ∈ cm.1)%nat then (Z.of_nat (length (cm.1)) - 1) * cm.2 else 0) ps)%Z) /\
  exists layers L, lists_exactly layers (ov_mentioned ps) /\ lists_pairs L (fun x y => x <> y /\ exists l, mreads p [x; l] [y; l] 1) /\
     Z.of_nat (length L) = (edges * Z.of_nat (length layers))%Z.
Proof.
  intros E Hps Hpos. destruct (ov_structure _ _ _ _ _ _ E) as (layers & sh & own & h & HA & Hh & _ & _ & Hlk).
  pose proof HA as (Hlay & HF & Hown & Hno & Hp). pose proof (Forall2_length _ _ _ HF) as Hlen.
  assert (Hrd : forall l x y, x <> y -> mreads p [x; l] [y; l] 1 <-> pair_in x y (ov_shared ps sh l ++ own l)).
  { intros l x y Hne. rewrite (linked_iff c false 0 true h p l x y (ov_joined ps sh own l) Hh (Hlk l)); [apply joined_in| |done]. rewrite joined_in. apply pair_in_dec. }
  split.
  - intros l Hl. exists (ov_shared ps sh l ++ own l). pose proof (layer_pairs _ _ _ _ _ _ l HA) as Hlp. split.
    + destruct (pairs_listed _ _ Hlp) as (H1 & H2 & _). split; [done|]. split; [done|]. intros x y. split.
      * intros [Hne Hr]. by apply Hrd.
      * intros Hxy. pose proof (pair_ne _ _ _ _ Hlp Hxy) as Hne. split; [done|]. by apply Hrd.
    + rewrite app_length, Nat2Z.inj_add, Hown by by apply Hlay. rewrite Z2Nat.id by by apply Hpos. unfold ov_left.
      assert (Z.of_nat (length (ov_shared ps sh l)) = zsumf (fun cm : list name * Z => if decide (2 <= length (cm.1) /\ l ∈ cm.1)%nat then Z.of_nat (length (cm.1)) * cm.2 else 0)%Z ps) as ->.
      { unfold ov_shared. clear -HF Hps. induction HF as [|cm S ps sh HS HF IH]; [done|]. cbn [zip zip_with mbind list_bind fst snd]. rewrite app_length, zsumf_cons, Nat2Z.inj_add.
        f_equal; [|apply IH; intros; apply Hps; by right]. pose proof (need_Z cm (proj2 (Hps cm ltac:(left)))) as Hn.
        destruct (decide (l ∈ cm.1)).
        - rewrite HS, Hn. destruct (decide (2 <= length (cm.1))); [by rewrite decide_True|]. rewrite decide_False by tauto. done.
        - rewrite decide_False by tauto. done. }
      enough (forall X Y W : Z, W = (X - Y)%Z -> (X + (edges - Y))%Z = (edges + W)%Z) as He; [|intros; lia]. apply He.
      clear -Hps. induction ps as [|cm ps IH]; [done|]. rewrite !zsumf_cons, IH by (intros; apply Hps; by right).
      rewrite (count_nodup l (cm.1)) by (apply Hps; left). destruct (decide (2 <= length (cm.1)));
        [|rewrite !decide_False by tauto; lia]. destruct (decide (l ∈ cm.1)); [rewrite !decide_True by done|rewrite !decide_False by tauto]; lia.
  - exists layers, (concat sh ++ (layers ≫= own)). split; [done|]. split.
    + destruct (pairs_listed _ _ Hp) as (H1 & H2 & _). split; [done|]. split; [done|].
      assert (Hex : forall x y, pair_in x y (concat sh ++ (layers ≫= own)) <-> exists l, pair_in x y (ov_shared ps sh l ++ own l)).
      { assert (forall q, q ∈ concat sh ++ (layers ≫= own) <-> exists l, q ∈ ov_shared ps sh l ++ own l) as Hq.
        { intros q. setoid_rewrite elem_of_app. split.
          - intros [(S & HqS & [i Hi]%elem_of_list_lookup)%elem_of_concat|(l & Hq & Hl)%elem_of_list_bind]; [|by exists l; right].
            destruct (Forall2_lookup_r _ _ _ _ _ HF Hi) as (cm & Hcm & HS). unfold ov_need in HS. destruct cm as [[|l ls] m].
            { rewrite decide_False in HS by (cbn; lia). destruct S; [by apply elem_of_nil in HqS|done]. }
            exists l. left. apply elem_of_shared. exists i, (l :: ls, m), S. split_and!; [done..|left|done].
          - intros (l & [(i & cm & S & Hcm & HS & Hl & Hq)%elem_of_shared|Hq]).
            + left. apply elem_of_concat. exists S. split; [done|]. by eapply elem_of_list_lookup_2.
            + right. apply elem_of_list_bind. exists l. split; [done|]. destruct (decide (l ∈ layers)); [done|]. rewrite Hno in Hq by done. by apply elem_of_nil in Hq. }
        intros x y. unfold pair_in. rewrite !Hq. split.
        - intros [[l ?]|[l ?]]; exists l; auto.
        - intros [l [?|?]]; [left|right]; by exists l. }
      intros x y. split.
      * intros [Hne [l Hr]]. apply Hex. exists l. by apply Hrd.
      * intros Hxy. pose proof (pair_ne _ _ _ _ Hp Hxy) as Hne. split; [done|]. apply Hex in Hxy as [l Hxy]. exists l. by apply Hrd.
    + rewrite app_length, Nat2Z.inj_add, length_concat_zsum, bind_concat, length_concat_zsum, zsumf_fmap.
      rewrite (zsumf_ext (fun x => Z.of_nat (length (own x))) (ov_left edges ps)).
      2:{ intros l Hl. rewrite Hown by done. rewrite Z2Nat.id; [done|]. apply Hpos. by apply Hlay. }
      rewrite left_sum by done. erewrite <- (zsumf_Forall2 _ _ (fun S => Z.of_nat (length S)) ps sh HF); [|intros cm S Hcm HS; symmetry; rewrite HS; apply need_Z; by apply Hps].
      lia.
Qed.

(** ** When it ends *)
(** The number of pairs that have to be drawn. *)
Definition ov_total (edges : Z) (ps : list (list name * Z)) (layers : list name) : nat :=
  sum_list (ov_need <$> ps) + sum_list ((fun l => Z.to_nat (ov_left edges ps l)) <$> layers).
Lemma sum_list_perm (a b : list nat) : a ≡ₚ b -> sum_list a = sum_list b.
Proof. induction 1; cbn in *; lia. Qed.
Lemma plan_total edges ps layers : lists_exactly layers (ov_mentioned ps) -> sum_list ((ov_plan edges ps).*2) = ov_total edges ps layers.
Proof.
  intros [Hnd Hl]. destruct (el_left edges ps) as [[Hnd' Hl'] Hleft]. unfold ov_plan, ov_total. rewrite fmap_app, sum_list_with_app, <- !list_fmap_compose.
  f_equal. assert (layers ≡ₚ dkeys (foldl (ov_el edges) [] ps)) as HP.
  { apply NoDup_Permutation; [done..|]. intros l. by rewrite Hl, Hl'. }
  rewrite HP. unfold dkeys. rewrite <- list_fmap_compose. f_equal. apply list_fmap_ext. intros i [l v] Hi%elem_of_list_lookup_2. cbn. f_equal. by apply Hleft.
Qed.
(** The function ends as soon as enough different pairs have been drawn. *)
Theorem C77_ends c n edges ps layers rnd D : lists_exactly layers (ov_mentioned ps) ->
  Forall (fun i => i < n * (n - 1) / 2) rnd -> NoDup D -> (forall i, i ∈ D -> i ∈ rnd) -> ov_total edges ps layers <= length D ->
  exists p, er_overlaps [c] n edges ps rnd = Ok p.
Proof.
  intros Hl Hf HD Hin Hlen. rewrite er_overlaps_phases.
  destruct (ov_phases_total c n (ov_plan edges ps) (new_mpx [c] false 0 true) [] rnd [] Hf) as [r E]; [constructor| |].
  - rewrite (plan_total _ _ _ Hl). etransitivity; [exact Hlen|]. apply ov_cnt_ge; [done|]. intros i Hi. split; [by apply Hin|]. by intros ?%elem_of_nil.
  - rewrite E. by eexists.
Qed.
Lemma npairs_bound n L : node_pairs n L -> length L <= n * (n - 1) / 2.
Proof.
  intros [Hnd Hb]. destruct (C33_index_decoding n) as [_ Hd].
  assert (length L <= length ((fun vw : nat * nat => (NInt (Z.of_nat (vw.2)), NInt (Z.of_nat (vw.1)))) <$> (decode <$> seq 0 (n * (n - 1) / 2)))) as H.
  { apply submseteq_length. apply NoDup_submseteq; [done|]. intros [x y] (i & j & Hij & Hj & -> & ->)%Hb. apply elem_of_list_fmap. exists (j, i). split; [done|]. by apply Hd. }
  by rewrite !fmap_length, seq_length in H.
Qed.
(** With at least two nodes, the only alternative is that the loop goes on; it always
    does if more pairs have to be drawn than there are. *)
Theorem C77_never_fails c n edges ps rnd : 2 <= n ->
  (exists p, er_overlaps [c] n edges ps rnd = Ok p) \/ er_overlaps [c] n edges ps rnd = Err OutOfFuel.
Proof.
  intros Hn. rewrite er_overlaps_phases. destruct (ov_phases n _ _) as [r|e] eqn:E; [left; by eexists|right]. cbn. f_equal.
  eapply (ov_phases_err c); [|apply mhist_init|exact E]. assert (1 <= n * (n - 1) / 2); [|lia]. apply Nat.div_le_lower_bound; nia.
Qed.
Theorem C77_too_many c n edges ps layers rnd : 2 <= n -> lists_exactly layers (ov_mentioned ps) -> n * (n - 1) / 2 < ov_total edges ps layers ->
  er_overlaps [c] n edges ps rnd = Err OutOfFuel.
Proof.
  intros Hn Hl Ht. destruct (C77_never_fails c n edges ps rnd Hn) as [[p E]|E]; [exfalso|done].
  destruct (C77_links _ _ _ _ _ _ E) as (layers' & sh & own & (Hl' & HF & Hown & _ & Hp) & _). apply npairs_bound in Hp.
  assert (length (concat sh ++ (layers' ≫= own)) = ov_total edges ps layers) as Hlen; [|lia].
  unfold ov_total. rewrite app_length. f_equal.
  - clear -HF. induction HF as [|cm S ps sh H _ IH]; [done|]. cbn [concat fmap list_fmap]. rewrite app_length, H, IH. done.
  - assert (layers' ≡ₚ layers) as HP by (apply NoDup_Permutation; [apply Hl'|apply Hl|]; intros l; destruct Hl as [_ Hl], Hl' as [_ Hl']; by rewrite Hl, Hl').
    rewrite <- HP. clear -Hown. induction layers' as [|l ls IH]; [done|]. cbn [mbind list_bind fmap list_fmap]. rewrite app_length, Hown by left.
    rewrite IH by (intros; apply Hown; by right). done.
Qed.
(** With fewer than two nodes there is nothing to draw from. *)
Theorem C77_no_pairs cs n edges ps layers rnd : n <= 1 -> lists_exactly layers (ov_mentioned ps) -> 0 < ov_total edges ps layers ->
  er_overlaps cs n edges ps rnd = Err IndexError.
Proof.
  intros Hn Hl Ht. rewrite er_overlaps_phases, ov_phases_empty; [done| |by rewrite (plan_total _ _ _ Hl)]. destruct n as [|[|n]]; [done|done|lia].
Qed.
(** With [couplings=[]] the network has no aspects and the first
    assignment raises KeyError. *)
Lemma none_phases n phs i rnd : i < n * (n - 1) / 2 -> (forall ph, ph ∈ phs -> 0 < ph.2 -> ph.1 <> []) -> 0 < sum_list (phs.*2) ->
  ov_phases n (new_mpx [] false 0 true, [], i :: rnd) phs = Err KeyError.
Proof.
  intros Hi. induction phs as [|[ls need] phs IH]; intros Hne Hs; [cbn in Hs; lia|]. unfold ov_phases. cbn [rfold fst snd]. destruct need as [|need].
  - rewrite ov_draw_0. cbn [rbind]. apply IH; [intros; apply Hne; [by right|done]|done].
  - cbn [ov_draw]. rewrite decide_False by lia. rewrite decide_True by done. destruct (decode i) as [v w]. rewrite decide_False by by intros ?%elem_of_nil.
    destruct ls as [|l ls]; [exfalso; apply (Hne ([], S need)); [left|cbn; lia|done]|]. reflexivity.
Qed.
Theorem C77_empty_couplings n edges ps layers i rnd : lists_exactly layers (ov_mentioned ps) -> 0 < ov_total edges ps layers -> i < n * (n - 1) / 2 ->
  er_overlaps [] n edges ps (i :: rnd) = Err KeyError.
Proof.
  intros Hl Ht Hi. rewrite er_overlaps_phases, none_phases; [done|done| |by rewrite (plan_total _ _ _ Hl)].
  unfold ov_plan. intros ph [(cm & -> & _)%elem_of_list_fmap|(lm & -> & _)%elem_of_list_fmap]%elem_of_app; cbn [fst snd]; [|done].
  unfold ov_need. destruct (decide _) as [H2|]; [|lia]. intros _ E. rewrite E in H2. cbn in H2. lia.
Qed.

(** ** Example *)
(** Two layers with 3 links each on 5 nodes and one shared pair (m=1): combination
    (a,b) gets 2*1 pairs and each layer 3-1 further ones, so that each layer has 4
    links and 6 = 2*3 pairs are linked; index 4 is drawn twice. *)
Definition ex77 : list (list name * Z) := [([NStr "a"; NStr "b"], 1%Z); ([NStr "a"], 0%Z)].
Definition ex77_rnd : list nat := [4; 0; 4; 9; 7; 0; 2; 5].
Definition ex77_linked (p : mpx) (l : name) : list (nat * nat) :=
  filter (fun q : nat * nat => q.1 < q.2 /\ pgetitem p [nd (q.1); nd (q.2); l] = Ok 1%Z) (seq 0 5 ≫= fun i => (fun j => (i, j)) <$> seq 0 5).
Example C77_example : match er_overlaps [CCat 1] 5 3 ex77 ex77_rnd with
  | Ok p => ex77_linked p (NStr "a") = [(0, 1); (1, 3); (1, 4); (3, 4)] /\ ex77_linked p (NStr "b") = [(0, 1); (1, 2); (1, 3); (2, 3)]
  | Err _ => False end.
Proof. by vm_compute. Qed.
Example C77_example_hyps :
  (forall cm, cm ∈ ex77 -> NoDup (cm.1) /\ (0 <= cm.2)%Z) /\ lists_exactly [NStr "a"; NStr "b"] (ov_mentioned ex77) /\
  (forall l, ov_mentioned ex77 l -> (0 <= ov_left 3 ex77 l)%Z) /\ ov_total 3 ex77 [NStr "a"; NStr "b"] = 6 /\
  Forall (fun i => i < 5 * (5 - 1) / 2) ex77_rnd /\ 5 * (5 - 1) / 2 < ov_total 6 ex77 [NStr "a"; NStr "b"].
Proof.
  assert (Hl : forall l, ov_mentioned ex77 l <-> l ∈ [NStr "a"; NStr "b"]).
  { intros l. unfold ov_mentioned, ex77. setoid_rewrite elem_of_cons. setoid_rewrite elem_of_cons. setoid_rewrite elem_of_nil. split.
    - intros (cm & [->|[->|[]]] & H); cbn [fst] in H; rewrite !elem_of_cons, elem_of_nil in H; tauto.
    - intros [->|[->|[]]]; (eexists; split; [by left|]); cbn [fst]; rewrite !elem_of_cons; tauto. }
  split_and!.
  - intros cm [->|[->|[]%elem_of_nil]%elem_of_cons]%elem_of_cons; cbn [fst snd]; (split; [|lia]); by apply (bool_decide_unpack _).
  - split; [by apply (bool_decide_unpack _)|]. intros l. by rewrite Hl.
  - intros l [->|[->|[]%elem_of_nil]%elem_of_cons]%Hl%elem_of_cons; by vm_compute.
  - by vm_compute.
  - by apply (bool_decide_unpack _).
  - vm_compute. lia.
Qed.
(** The number of links of layer a in the example is not the argument [edges]. *)
Example C77_edges_per_layer_refuted : exists p, er_overlaps [CCat 1] 5 3 ex77 ex77_rnd = Ok p /\ length (ex77_linked p (NStr "a")) = 4.
Proof. destruct (er_overlaps [CCat 1] 5 3 ex77 ex77_rnd) as [p|e] eqn:E; [|by vm_compute in E]. exists p. split; [done|]. pose proof C77_example as H. rewrite E in H. by destruct H as [-> _]. Qed.
Print Assumptions C77_links.
Print Assumptions C77_overlap.
Print Assumptions C77_counts.
Print Assumptions C77_ends.
Print Assumptions C77_never_fails.
Print Assumptions C77_too_many.
Print Assumptions C77_no_pairs.
Print Assumptions C77_empty_couplings.
