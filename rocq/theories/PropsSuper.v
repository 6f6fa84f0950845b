(** * C66: clustering of the super graph and of the separate layers *)
From Verif Require Import Cc PropsNet PropsTrans PropsMpx MpxIter NetIter NetEdges TransFacts CcFacts CcGen.
From Verif Require Import PropsCc PropsBat PropsContr PropsZhang.
Open Scope Z_scope.

(** ** Specification *)
(** [q] is the fraction of the elements of [D] that are in [S]; undefined if [D] is empty. *)
Definition fraction {A} (r : res (option Q)) (S D : list A) : Prop :=
  (D = [] -> r = Ok None) /\
  (D <> [] -> exists q, r = Ok (Some q) /\ (q == inject_Z (Z.of_nat (length S)) / inject_Z (Z.of_nat (length D)))%Q /\ (0 <= q <= 1)%Q).
(** [net.A[l]] exists and shows a link between [i] and [j]. *)
Definition layer_link (p : mpx) (l : layer) (i j : name) : Prop := exists v, agetitem p l [i; j] = Ok v /\ v <> 0.
(** [b] and [c] are two neighbours of [a]. *)
Definition wedge (n : mlnet) : nl * (nl * nl) -> Prop := fun '(a, (b, c)) => linked n a b /\ linked n a c /\ b <> c.
Definition layer_wedge (p : mpx) : layer * (name * (name * name)) -> Prop :=
  fun '(l, (x, (v, w))) => layer_link p l x v /\ layer_link p l x w /\ v <> w.

(** ** Facts *)
Definition indexed {A B} (I : list A) (D : A -> list B) : list (A * B) := I ≫= fun i => pair i <$> D i.
Lemma indexed_exact {A B} (I : list A) (D : A -> list B) (P : A -> B -> Prop) : NoDup I -> (forall i, i ∈ I -> lists_exactly (D i) (P i)) ->
  (forall i x, P i x -> i ∈ I) -> lists_exactly (indexed I D) (fun q => P (q.1) (q.2)).
Proof.
  intros HI HD HP. split.
  - apply NoDup_bind; [done| |].
    + intros i Hi. apply NoDup_fmap; [by intros ?? [= ?]|]. by apply HD.
    + intros i j x _ _ (? & -> & _)%elem_of_list_fmap (? & [= -> _] & _)%elem_of_list_fmap. done.
  - intros [i x]. unfold indexed. rewrite elem_of_list_bind. simpl. split.
    + intros (j & (y & [= <- <-] & Hy)%elem_of_list_fmap & Hj). by apply HD.
    + intros Hx. assert (i ∈ I) as Hi by eauto. exists i. split; [|done]. apply elem_of_list_fmap. exists x. split; [done|]. by apply HD.
Qed.
Lemma indexed_length {A B} (I : list A) (D : A -> list B) : Z.of_nat (length (indexed I D)) = zsumf (fun i => Z.of_nat (length (D i))) I.
Proof. unfold indexed. rewrite length_bind_sum. apply zsumf_ext. intros i _. by rewrite fmap_length. Qed.
Lemma fraction_half {A} (S D : list A) num den : Z.of_nat (length S) = 2 * num -> Z.of_nat (length D) = 2 * den -> (length S <= length D)%nat ->
  fraction (if decide (den = 0) then Ok None else let? q := zdiv num den in Ok (Some q)) S D.
Proof.
  intros HS HD Hle. split.
  - intros ->. simpl in HD. by rewrite decide_True by lia.
  - intros HD0. assert (0 < den) as Hden by (destruct D; [done|simpl in HD; lia]). rewrite decide_False by lia. rewrite zdiv_pos by done. cbn [rbind]. eexists. split; [done|].
    rewrite HS, HD. split; [apply Qdiv_eq; lia|]. apply Qdiv_unit; lia.
Qed.
(** The pairs of neighbours of [a], and the linked ones. *)
Definition nD (n : mlnet) (a : nl) : list (nl * nl) := let T := iter_total n a None in filter (fun q => q.1 <> q.2) (prodl T T).
Definition nS (n : mlnet) (a : nl) : list (nl * nl) := filter (fun q => rd n (q.1) (q.2) <> noEdge n) (nD n a).
Lemma pair_sum_prodl {A} `{EqDecision A} (f : A -> A -> Z) L : pair_sum f L = zsumf (fun q => f (q.1) (q.2)) (filter (fun q => q.1 <> q.2) (prodl L L)).
Proof.
  rewrite zsumf_filter, zsumf_prodl. unfold pair_sum. apply zsumf_ext. intros x _. apply zsumf_ext. intros y _. cbn [fst snd].
  destruct (decide (x = y)) as [->|Hne]; [by rewrite decide_False by auto|]. by rewrite decide_True.
Qed.
Lemma zsumf_one {A} (L : list A) : zsumf (fun _ => 1) L = Z.of_nat (length L).
Proof. rewrite zsumf_const. lia. Qed.
Section Wedges.
  Context (n : mlnet) (Hg : good n) (Hd : directed n = false).
  Lemma nD_exact a : lists_exactly (nD n a) (fun q => linked n a (q.1) /\ linked n a (q.2) /\ q.1 <> q.2).
  Proof.
    split; [apply NoDup_filter, NoDup_prodl; by apply u_NoDup|]. intros [b c]. unfold nD. rewrite elem_of_list_filter, elem_of_prodl. cbn [fst snd]. rewrite !u_T by done. tauto.
  Qed.
  Lemma nS_exact a : lists_exactly (nS n a) (fun q => (linked n a (q.1) /\ linked n a (q.2) /\ q.1 <> q.2) /\ linked n (q.1) (q.2)).
  Proof. split; [apply NoDup_filter, nD_exact|]. intros q. unfold nS. rewrite elem_of_list_filter, (proj2 (nD_exact a) q), <- linked_rd by done. tauto. Qed.
  Lemma nS_le a : (length (nS n a) <= length (nD n a))%nat.
  Proof. apply filter_length. Qed.
  Lemma num_den_lengths a : Z.of_nat (length (nS n a)) = 2 * (cc_num_den n a).1 /\ Z.of_nat (length (nD n a)) = 2 * (cc_num_den n a).2.
  Proof.
    set (T := iter_total n a None). assert (lists_exactly T (linked n a)) as HT by (split; [by apply u_NoDup|]; intros b; by apply u_T). split.
    - unfold cc_num_den. cbn [fst]. pose (f := fun b c : nl => zne (weight n b c) (noEdge n)).
      change (Z.of_nat (length (nS n a)) = 2 * zsumf (fun q => f (q.1) (q.2)) (pairs2 (iter_total n a None))).
      rewrite (u_pair n Hg Hd a f T HT).
      + rewrite pair_sum_prodl. fold (nD n a). unfold nS. rewrite <- zsumf_one, zsumf_filter. apply zsumf_ext. intros q (H1 & H2 & _)%nD_exact. rewrite <- !u_T in H1, H2 by done.
        unfold f. destruct (u_weight n Hg Hd a _ _ H1 H2) as [-> _]. unfold zne. destruct (decide (rd n (q.1) (q.2) = noEdge n)) as [E|E]; [rewrite decide_False by auto|rewrite decide_True by done]; done.
      + intros b c Hb Hc. unfold f. destruct (u_weight n Hg Hd a b c Hb Hc) as [-> _]. destruct (u_weight n Hg Hd a c b Hc Hb) as [-> _]. by rewrite rd_sym.
    - unfold cc_num_den. cbn [snd]. rewrite (u_deg n Hd a). fold T. set (k := Z.of_nat (length T)).
      assert (Z.of_nat (length (nD n a)) = k * (k - 1)) as ->.
      { unfold k. rewrite <- (pair_sum_one T) by apply HT. rewrite <- zsumf_one. symmetry. exact (pair_sum_prodl (fun _ _ => 1) T). }
      assert (exists t, k * (k - 1) = 2 * t) as [t ->]; [|rewrite (Z.mul_comm 2 t) at 2; rewrite Z.div_mul; lia].
      destruct (Z.Even_or_Odd k) as [[m ->]|[m ->]]; [exists (m * (2 * m - 1))|exists ((2 * m + 1) * m)]; lia.
  Qed.
End Wedges.

(** ** C66 *)
Theorem C66_super_graph asp noe fi h n : hist asp noe false fi h n -> exists D S,
  lists_exactly D (wedge n) /\ lists_exactly S (fun t => wedge n t /\ linked n (t.2.1) (t.2.2)) /\ fraction (gcc_super_graph n) S D.
Proof.
  intros Hh. destruct (hist_inv _ _ _ _ _ _ Hh) as [_ _ Ha Hn Hd _]. pose proof (hist_good _ _ _ _ _ _ Hh) as Hg.
  assert (NoDup (cart (slices n))) as HI by apply NoDup_cart, (wfS_nodup n (proj1 Hg)).
  assert (forall a b, linked n a b -> a ∈ cart (slices n)) as Hin.
  { intros a b [v Hv]%linked_lnk; [|done]. destruct (wfL_present n (proj2 Hg) _ _ _ Hv) as [Hz _].
    apply elem_of_iter_node_layers in Hz as [Hz _]; [|apply Hg]. by apply elem_of_cart. }
  exists (indexed (cart (slices n)) (nD n)), (indexed (cart (slices n)) (nS n)). split_and!.
  - eapply lists_exactly_iff; [|apply (indexed_exact _ _ (fun a q => linked n a (q.1) /\ linked n a (q.2) /\ q.1 <> q.2) HI)].
    + by intros [a [b c]].
    + intros a _. by apply nD_exact.
    + intros a q [Hl _]. by eapply Hin.
  - eapply lists_exactly_iff; [|apply (indexed_exact _ _ (fun a q => (linked n a (q.1) /\ linked n a (q.2) /\ q.1 <> q.2) /\ linked n (q.1) (q.2)) HI)].
    + by intros [a [b c]].
    + intros a _. by apply nS_exact.
    + intros a q [[Hl _] _]. by eapply Hin.
  - apply fraction_half.
    + rewrite indexed_length, <- zsumf_mul_l. apply zsumf_ext. intros a _. by apply num_den_lengths.
    + rewrite indexed_length, <- zsumf_mul_l. apply zsumf_ext. intros a _. by apply num_den_lengths.
    + apply Nat2Z.inj_le. rewrite !indexed_length. apply zsumf_le. intros a _. apply Nat2Z.inj_le, nS_le.
Qed.
(** The layers of a multiplex network with any number of aspects. *)
Section Layers.
  Context (cs : list coupling) (noe : Z) (fi : bool) (h : list call) (p : mpx) (Hi : pinv cs false noe fi h p).
  Lemma view0 l m : pA p l = Some m -> good m /\ aspects m = 0%nat /\ noEdge m = 0 /\ directed m = false.
  Proof.
    intros Hm. destruct (pi_view _ _ _ _ _ _ Hi _ _ Hm) as (g & Hh & _). pose proof (hist_good _ _ _ _ _ _ Hh) as Hgd.
    destruct (hist_inv _ _ _ _ _ _ Hh) as [_ HL Ha Hn Hd _]. done.
  Qed.
  Lemma layer_link_view l m i j : pA p l = Some m -> layer_link p l i j <-> linked m [i] [j].
  Proof.
    intros Hm. destruct (view0 l m Hm) as (Hg & Ha & Hn & Hd). unfold layer_link, agetitem. rewrite Hm. rewrite linked_rd, Hn by done.
    change (get_link m [i; j]) with (weight m [i] [j]). rewrite weight_rd by done. simpl. split; [by intros (v & [= <-] & ?)|eauto].
  Qed.
  Lemma pA_keys l : l ∈ dkeys (mA p) <-> exists m, pA p l = Some m.
  Proof.
    rewrite elem_of_dkeys. unfold pA. split; [intros [m ->]; eauto|]. intros [m Hm]. destruct (dget (mA p) l); [eauto|done].
  Qed.
  Lemma layer_link_key l i j : layer_link p l i j -> l ∈ dkeys (mA p).
  Proof. intros (v & Hv & _). apply pA_keys. unfold agetitem in Hv. destruct (pA p l); [eauto|done]. Qed.
  (** The wedges at [x] on layer [l]. *)
  Definition lD (l : layer) (x : name) : list (name * name) :=
    match pA p l with Some m => (fun q => (node_of (q.1), node_of (q.2))) <$> nD m [x] | None => [] end.
  Definition lS (l : layer) (x : name) : list (name * name) :=
    match pA p l with Some m => (fun q => (node_of (q.1), node_of (q.2))) <$> nS m [x] | None => [] end.
  Lemma single_names m (b : nl) x : aspects m = 0%nat -> linked m [x] b -> b = [node_of b].
  Proof. intros Ha (_ & Hb & _). rewrite Ha in Hb. destruct b as [|y []]; done. Qed.
  Lemma lift_exact (L : list (nl * nl)) (P : nl * nl -> Prop) : lists_exactly L P -> (forall q, P q -> q.1 = [node_of (q.1)] /\ q.2 = [node_of (q.2)]) ->
    lists_exactly ((fun q => (node_of (q.1), node_of (q.2))) <$> L) (fun q => P ([q.1], [q.2])).
  Proof.
    intros [HN HE] HP. split.
    - apply NoDup_fmap_2_strong; [|done]. intros q r Hq%HE%HP Hr%HE%HP [= H1 H2]. destruct q as [b c], r as [b' c']. simpl in *. destruct Hq as [E1 E2], Hr as [E3 E4]. by rewrite E1, E2, E3, E4, H1, H2.
    - intros [v w]. rewrite elem_of_list_fmap. cbn [fst snd]. split.
      + intros (q & [= -> ->] & Hq%HE). destruct (HP q Hq) as [E1 E2]. destruct q as [b c]. simpl in *. by rewrite <- E1, <- E2.
      + intros Hq. exists ([v], [w]). split; [done|]. by apply HE.
  Qed.
  Lemma lD_exact l x : lists_exactly (lD l x) (fun q => layer_link p l x (q.1) /\ layer_link p l x (q.2) /\ q.1 <> q.2).
  Proof.
    unfold lD. destruct (pA p l) as [m|] eqn:Hm.
    - destruct (view0 l m Hm) as (Hg & Ha & Hn & Hd). eapply lists_exactly_iff; [|apply (lift_exact _ _ (nD_exact m Hg Hd [x]))].
      + intros [v w]. cbn [fst snd]. rewrite !(layer_link_view l m) by done. split; intros (? & ? & Hne); (split_and!; [done|done|]); [by intros ->|]. intros [= ->]. done.
      + intros [b c] (Hb & Hc & _). cbn [fst snd] in *. split; by eapply single_names.
    - split; [constructor|]. intros q. split; [by intros ?%elem_of_nil|]. intros (H1%layer_link_key%pA_keys & _). destruct H1 as [m H1]. congruence.
  Qed.
  Lemma lS_exact l x : lists_exactly (lS l x) (fun q => (layer_link p l x (q.1) /\ layer_link p l x (q.2) /\ q.1 <> q.2) /\ layer_link p l (q.1) (q.2)).
  Proof.
    unfold lS. destruct (pA p l) as [m|] eqn:Hm.
    - destruct (view0 l m Hm) as (Hg & Ha & Hn & Hd). eapply lists_exactly_iff; [|apply (lift_exact _ _ (nS_exact m Hg Hd [x]))].
      + intros [v w]. cbn [fst snd]. rewrite !(layer_link_view l m) by done. split; intros ((? & ? & Hne) & ?); (split_and!; [done|done| |done]); [by intros ->|]. intros [= ->]. done.
      + intros [b c] ((Hb & Hc & _) & _). cbn [fst snd] in *. split; by eapply single_names.
    - split; [constructor|]. intros q. split; [by intros ?%elem_of_nil|]. intros ((H1%layer_link_key%pA_keys & _) & _). destruct H1 as [m H1]. congruence.
  Qed.
  Lemma lS_le l x : (length (lS l x) <= length (lD l x))%nat.
  Proof. unfold lS, lD. destruct (pA p l); [|done]. rewrite !fmap_length. apply nS_le. Qed.
  Lemma tri0_num m x : good m -> aspects m = 0%nat -> directed m = false -> tri0 m x = (cc_num_den m [x]).1.
  Proof.
    intros Hg Ha Hd. unfold tri0, deg0, nbs0, w0, cc_num_den. cbn [fst]. destruct (decide (2 <= degree m [x] None)) as [H2|H2].
    - set (T := iter_total m [x] None).
      assert (forall b, b ∈ T -> b = [node_of b]) as Hs by (intros b Hb; apply (u_T m Hg Hd [x] b) in Hb; by eapply single_names).
      clearbody T. revert Hs. induction T as [|b T IH]; intros Hs; [done|]. 
      rewrite fmap_cons. cbn [pairs2]. rewrite !zsumf_app, !zsumf_fmap. f_equal.
      + apply zsumf_ext. intros c Hc. cbn [fst snd]. by rewrite <- (Hs b ltac:(left)), <- (Hs c ltac:(by right)).
      + apply IH. intros c Hc. apply Hs. by right.
    - rewrite (u_deg m Hd [x]) in H2. by rewrite pairs2_short by lia.
  Qed.
  Lemma seq_ok x : exists s, cc_sequence p x = Ok s /\ s = (fun l => match pA p l with Some m => cc_num_den m [x] | None => (0, 0) end) <$> dkeys (mA p).
  Proof.
    eexists. split; [|done]. unfold cc_sequence. assert (forall l, l ∈ dkeys (mA p) -> exists m, pA p l = Some m) as Hk by (intros l; by apply pA_keys).
    induction (dkeys (mA p)) as [|l ls IH]; [done|]. destruct (Hk l ltac:(left)) as [m Hm]. simpl. unfold intra at 1. rewrite Hm. cbn [rbind].
    rewrite IH by (intros l' Hl'; apply Hk; by right). cbn [rbind]. destruct (view0 l m Hm) as (Hg & Ha & Hn & Hd). rewrite (tri0_num m x) by done. done.
  Qed.
  Lemma lay_lengths l x : Z.of_nat (length (lS l x)) = 2 * (match pA p l with Some m => cc_num_den m [x] | None => (0, 0) end).1 /\
    Z.of_nat (length (lD l x)) = 2 * (match pA p l with Some m => cc_num_den m [x] | None => (0, 0) end).2.
  Proof.
    unfold lS, lD. destruct (pA p l) as [m|] eqn:Hm; [|done]. destruct (view0 l m Hm) as (Hg & Ha & Hn & Hd). rewrite !fmap_length. by apply num_den_lengths.
  Qed.
End Layers.
Lemma fraction_wavg {A} (S D : list A) num den : Z.of_nat (length S) = 2 * num -> Z.of_nat (length D) = 2 * den -> (length S <= length D)%nat ->
  (D = [] -> zdiv num den = Err ZeroDivisionError) /\
  (D <> [] -> exists q, zdiv num den = Ok q /\ (q == inject_Z (Z.of_nat (length S)) / inject_Z (Z.of_nat (length D)))%Q /\ (0 <= q <= 1)%Q).
Proof.
  intros HS HD Hle. split.
  - intros ->. simpl in HD. by assert (den = 0) as -> by lia.
  - intros HD0. assert (0 < den) as Hden by (destruct D; [done|simpl in HD; lia]). rewrite zdiv_pos by done. eexists. split; [done|].
    rewrite HS, HD. split; [apply Qdiv_eq; lia|]. apply Qdiv_unit; lia.
Qed.
Lemma zsum_fmap1 {A} (f : A -> Z) L : zsum (f <$> L) = zsumf f L.
Proof. done. Qed.
(** Any number of aspects and any coupling: the coefficient of a node over the layers, ... *)
Theorem C66_layers_wavg cs noe fi h p x : mhist cs false noe fi h p -> exists D S,
  lists_exactly D (fun '(l, (v, w)) => layer_link p l x v /\ layer_link p l x w /\ v <> w) /\
  lists_exactly S (fun '(l, (v, w)) => (layer_link p l x v /\ layer_link p l x w /\ v <> w) /\ layer_link p l v w) /\
  (D = [] -> cc_layers_wavg p x = Err ZeroDivisionError) /\
  (D <> [] -> exists q, cc_layers_wavg p x = Ok q /\ (q == inject_Z (Z.of_nat (length S)) / inject_Z (Z.of_nat (length D)))%Q /\ (0 <= q <= 1)%Q).
Proof.
  intros Hi%mhist_inv. assert (NoDup (dkeys (mA p))) as HK by apply (pw_keys p (pi_wf _ _ _ _ _ _ Hi)).
  set (D := indexed (dkeys (mA p)) (fun l => lD p l x)). set (S := indexed (dkeys (mA p)) (fun l => lS p l x)).
  assert (lists_exactly D (fun '(l, (v, w)) => layer_link p l x v /\ layer_link p l x w /\ v <> w)) as HD.
  { eapply lists_exactly_iff; [|apply (indexed_exact _ _ (fun l q => layer_link p l x (q.1) /\ layer_link p l x (q.2) /\ q.1 <> q.2) HK)].
    - by intros [l [v w]].
    - intros l _. apply (lD_exact _ _ _ _ _ Hi).
    - intros l q [Hl _]. by eapply layer_link_key. }
  assert (lists_exactly S (fun '(l, (v, w)) => (layer_link p l x v /\ layer_link p l x w /\ v <> w) /\ layer_link p l v w)) as HS.
  { eapply lists_exactly_iff; [|apply (indexed_exact _ _ (fun l q => (layer_link p l x (q.1) /\ layer_link p l x (q.2) /\ q.1 <> q.2) /\ layer_link p l (q.1) (q.2)) HK)].
    - by intros [l [v w]].
    - intros l _. apply (lS_exact _ _ _ _ _ Hi).
    - intros l q [[Hl _] _]. by eapply layer_link_key. }
  exists D, S. split; [done|]. split; [done|]. destruct (seq_ok _ _ _ _ _ Hi x) as (s & Hs & Es). unfold cc_layers_wavg. rewrite Hs. cbn [rbind]. rewrite Es, <- !list_fmap_compose.
  apply fraction_wavg.
  - unfold S. rewrite indexed_length, zsum_fmap1, <- zsumf_mul_l. apply zsumf_ext. intros l Hl. by apply (lay_lengths _ _ _ _ _ Hi).
  - unfold D. rewrite indexed_length, zsum_fmap1, <- zsumf_mul_l. apply zsumf_ext. intros l Hl. by apply (lay_lengths _ _ _ _ _ Hi).
  - apply Nat2Z.inj_le. unfold S, D. rewrite !indexed_length. apply zsumf_le. intros a _. apply Nat2Z.inj_le, lS_le.
Qed.
(** ... and over all nodes. *)
Theorem C66_no_couplings cs noe fi h p : mhist cs false noe fi h p -> exists D S,
  lists_exactly D (layer_wedge p) /\ lists_exactly S (fun t => layer_wedge p t /\ layer_link p (t.1) (t.2.2.1) (t.2.2.2)) /\
  fraction (gcc_super_graph_no_couplings p) S D.
Proof.
  intros Hi%mhist_inv. pose proof (pi_wf _ _ _ _ _ _ Hi) as Hp. assert (NoDup (dkeys (mA p))) as HK by apply (pw_keys p Hp).
  assert (NoDup (mnodes p)) as HN by apply (g_NoDup_mnodes cs false fi h p Hi) || (eapply (Forall_lookup_1 _ _ 0%nat); [apply (pw_nd p Hp)|by apply slice0]).
  assert (forall l i j, layer_link p l i j -> i ∈ mnodes p) as Hnode.
  { intros l i j Hl. destruct (proj1 (pA_keys p l) (layer_link_key p l i j Hl)) as [m Hm]. apply (layer_link_view _ _ _ _ _ Hi l m) in Hl; [|done].
    destruct (view0 _ _ _ _ _ Hi l m Hm) as (Hg & Ha & Hn & Hd).
    assert (i ∈ net_nodes m) as Him.
    { apply linked_lnk in Hl as [v Hv]; [|done]. destruct (wfL_present m (proj2 Hg) _ _ _ Hv) as [Hz _].
      apply elem_of_iter_node_layers in Hz as [Hz _]; [|apply Hg]. unfold nl_in_slices in Hz. pose proof (wfS_len m (proj1 Hg)) as Hlen. rewrite Ha in Hlen.
      unfold net_nodes. destruct (slices m) as [|s [|]]; [done| |done]. by inversion Hz. }
    destruct (mfic p) eqn:Hf; [by rewrite (pA_nodes_fic _ _ _ Hm Hf) in Him|]. apply mnodes_psl. unfold pA in Hm. rewrite Hf in Hm.
    destruct (dget (mA p) l) as [m'|] eqn:E; [|done]. injection Hm as ->. by apply (pw_node p Hp Hf _ _ i E), (pw_n2l p Hp) in Him as [? _]. }
  set (D := indexed (dkeys (mA p)) (fun l => indexed (mnodes p) (lD p l))). set (S := indexed (dkeys (mA p)) (fun l => indexed (mnodes p) (lS p l))).
  assert (lists_exactly D (layer_wedge p)) as HD.
  { eapply lists_exactly_iff; [|apply (indexed_exact _ _ (fun l t => layer_link p l (t.1) (t.2.1) /\ layer_link p l (t.1) (t.2.2) /\ t.2.1 <> t.2.2) HK)].
    - by intros [l [x [v w]]].
    - intros l _. apply (indexed_exact _ _ (fun x q => layer_link p l x (q.1) /\ layer_link p l x (q.2) /\ q.1 <> q.2) HN).
      + intros x _. apply (lD_exact _ _ _ _ _ Hi).
      + intros x q [Hl _]. by eapply Hnode.
    - intros l q [Hl _]. by eapply layer_link_key. }
  assert (lists_exactly S (fun t => layer_wedge p t /\ layer_link p (t.1) (t.2.2.1) (t.2.2.2))) as HS.
  { eapply lists_exactly_iff; [|apply (indexed_exact _ _ (fun l t => (layer_link p l (t.1) (t.2.1) /\ layer_link p l (t.1) (t.2.2) /\ t.2.1 <> t.2.2) /\ layer_link p l (t.2.1) (t.2.2)) HK)].
    - by intros [l [x [v w]]].
    - intros l _. apply (indexed_exact _ _ (fun x q => (layer_link p l x (q.1) /\ layer_link p l x (q.2) /\ q.1 <> q.2) /\ layer_link p l (q.1) (q.2)) HN).
      + intros x _. apply (lS_exact _ _ _ _ _ Hi).
      + intros x q [[Hl _] _]. by eapply Hnode.
    - intros l q [[Hl _] _]. by eapply layer_link_key. }
  exists D, S. split; [done|]. split; [done|]. unfold gcc_super_graph_no_couplings.
  set (f := fun x l => match pA p l with Some m => cc_num_den m [x] | None => (0, 0) end).
  assert (rmapM (cc_sequence p) (mnodes p) = Ok ((fun x => f x <$> dkeys (mA p)) <$> mnodes p)) as ->.
  { generalize (mnodes p). intros xs. induction xs as [|x xs IH]; [done|]. simpl. destruct (seq_ok _ _ _ _ _ Hi x) as (s & -> & ->). cbn [rbind]. by rewrite IH. }
  cbn [rbind]. rewrite <- !list_fmap_compose.
  assert (forall g : Z * Z -> Z, zsum ((fun x => zsum ((g <$> (f x <$> dkeys (mA p))))) <$> mnodes p) = zsumf (fun l => zsumf (fun x => g (f x l)) (mnodes p)) (dkeys (mA p))) as Hsum.
  { intros g. rewrite zsum_fmap1, zsumf_swap. apply zsumf_ext. intros x _. by rewrite <- list_fmap_compose, zsum_fmap1. }
  change (zsum (((fun s : list (Z * Z) => zsum (s.*1)) ∘ (fun x => f x <$> dkeys (mA p))) <$> mnodes p)) with (zsum ((fun x => zsum ((f x <$> dkeys (mA p)).*1)) <$> mnodes p)).
  change (zsum (((fun s : list (Z * Z) => zsum (s.*2)) ∘ (fun x => f x <$> dkeys (mA p))) <$> mnodes p)) with (zsum ((fun x => zsum ((f x <$> dkeys (mA p)).*2)) <$> mnodes p)).
  rewrite !Hsum. apply fraction_half.
  - unfold S. rewrite indexed_length, <- zsumf_mul_l. apply zsumf_ext. intros l Hl. rewrite indexed_length, <- zsumf_mul_l. apply zsumf_ext. intros x _. by apply (lay_lengths _ _ _ _ _ Hi).
  - unfold D. rewrite indexed_length, <- zsumf_mul_l. apply zsumf_ext. intros l Hl. rewrite indexed_length, <- zsumf_mul_l. apply zsumf_ext. intros x _. by apply (lay_lengths _ _ _ _ _ Hi).
  - apply Nat2Z.inj_le. unfold S, D. rewrite !indexed_length. apply zsumf_le. intros l _. rewrite !indexed_length. apply zsumf_le. intros x _. apply Nat2Z.inj_le, lS_le.
Qed.
(** [cc_sequence] counts, layer by layer, the pairs of neighbours of the node and the linked ones. *)
Theorem C66_cc_sequence cs noe fi h p x : mhist cs false noe fi h p -> exists Ls s,
  lists_exactly Ls (fun l => pA p l <> None) /\ cc_sequence p x = Ok s /\
  Forall2 (fun l td => exists D S,
    lists_exactly D (fun '(v, w) => layer_link p l x v /\ layer_link p l x w /\ v <> w) /\
    lists_exactly S (fun '(v, w) => (layer_link p l x v /\ layer_link p l x w /\ v <> w) /\ layer_link p l v w) /\
    Z.of_nat (length S) = 2 * td.1 /\ Z.of_nat (length D) = 2 * td.2) Ls s.
Proof.
  intros Hi%mhist_inv. exists (dkeys (mA p)). destruct (seq_ok _ _ _ _ _ Hi x) as (s & Hs & Es). exists s. split_and!.
  - split; [apply (pw_keys p (pi_wf _ _ _ _ _ _ Hi))|]. intros l. rewrite pA_keys. destruct (pA p l); split; [done|eauto|by intros [? ?]|done].
  - done.
  - subst s. apply Forall2_fmap_r. apply Forall_Forall2_diag, Forall_forall. intros l _. exists (lD p l x), (lS p l x). split_and!.
    + eapply lists_exactly_iff; [|apply (lD_exact _ _ _ _ _ Hi l x)]. by intros [v w].
    + eapply lists_exactly_iff; [|apply (lS_exact _ _ _ _ _ Hi l x)]. by intros [v w].
    + by apply (lay_lengths _ _ _ _ _ Hi).
    + by apply (lay_lengths _ _ _ _ _ Hi).
Qed.
(** Without two neighbours on one layer the weighted average raises. *)
Theorem C66_layers_wavg_raises : exists h p x, mhist [CCat 1] false 0 true h p /\ cc_layers_wavg p x = Err ZeroDivisionError /\ gcc_super_graph_no_couplings p = Ok None.
Proof.
  set (e := mcalls (new_mpx [CCat 1] false 0 true) [MSet [n1; n2; sa] 1]). exists (e.1), (e.2), n1. split; [apply mcalls_hist|]. split; by vm_compute.
Qed.
(** A triangle on one layer, a path on another, two aspects; and a plain network. *)
Definition ex_super : list call * mpx :=
  mcalls (new_mpx [CCat 1; CNone None] false 0 false) ((fun it => MSet it 2) <$> [[n1; n2; sa; sb]; [n1; n3; sa; sb]; [n2; n3; sa; sb]; [n1; n2; sb; sb]; [n1; n3; sb; sb]]).
Example C66_example : mhist [CCat 1; CNone None] false 0 false ex_super.1 ex_super.2 /\
  (exists q, cc_layers_wavg ex_super.2 n1 = Ok q /\ (q == 1 # 2)%Q) /\ (exists q, gcc_super_graph_no_couplings ex_super.2 = Ok (Some q) /\ (q == 3 # 4)%Q) /\
  cc_sequence ex_super.2 n1 = Ok [(1, 1); (0, 1)].
Proof. split; [apply mcalls_hist|]. split_and!; try (eexists; split; [vm_compute; reflexivity|by vm_compute]). by vm_compute. Qed.
Example C66_example_plain : hist 0 0 false true [OpSet [A1; A2] 3; OpSet [A1; A3] 1; OpSet [A2; A3] 2; OpSet [A1; NInt 4] 1; OpSet [NInt 4; NInt 5] 1] ex_lcc /\
  (exists q, gcc_super_graph ex_lcc = Ok (Some q) /\ (q == 1 # 2)%Q).
Proof. split; [apply run_hist0|]. eexists. split; [vm_compute; reflexivity|by vm_compute]. Qed.
Print Assumptions C66_super_graph.
Print Assumptions C66_layers_wavg.
Print Assumptions C66_no_couplings.
Print Assumptions C66_cc_sequence.
Print Assumptions C66_layers_wavg_raises.
