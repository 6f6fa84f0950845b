(** * C56-C57: edges and aggregation of multiplex networks *)
From Verif Require Import PropsNet Cc PropsMpx PropsTrans TransFacts NetEdges MpxIter MpxEdges.
Local Open Scope nat_scope.

(** [e] is the tuple to be yielded for the link [a] -> [b]. *)
Definition medge_tuple (p : mpx) (a b : nl) (e : list name * Z) : Prop :=
  length (e.1) = 2 * S (maspects p) /\ names_link (maspects p) (e.1) a b /\ mreads p a b (e.2).
(** A link between two listed node-layers. *)
Definition mlink (p : mpx) (a b : nl) : Prop := mexists p a /\ mexists p b /\ mlinked p a b.
(** [W] is the sum of the weights of all links of [p] from some [a] to some [b]
    with [Q a b]. *)
Definition mweight_sum (p : mpx) (Q : nl -> nl -> Prop) (W : Z) : Prop :=
  exists (L : list (nl * nl)) (ws : list Z),
    lists_exactly L (fun q => mlink p (q.1) (q.2) /\ Q (q.1) (q.2)) /\
    Forall2 (fun q w => mreads p (q.1) (q.2) w) L ws /\ W = foldr Z.add 0%Z ws.

Lemma medge_tuple_eq p a b e : length a = S (maspects p) -> length b = S (maspects p) -> medge_tuple p a b e ->
  e = (interleave a b, MR p a b).
Proof.
  intros Ha Hb (Hl & Hn & Hr). destruct e as [item w]. simpl in *. rewrite mreads_pair in Hr by done. unfold MR. rewrite Hr.
  f_equal. destruct (names_link_inv _ _ _ _ Hn) as (_ & _ & [[_ ->]|[Hl' Hs]]); [done|].
  rewrite <- Hs. destruct item as [|x [|y [|]]]; simpl in Hl, Hl'; try lia. done.
Qed.
(** ** C56 *)
Theorem C56_directed_edges_exact cs fi h p : mhist cs true 0 fi h p -> faithful cs fi p -> loopless p ->
  exists E, medges p = Ok E /\ mlen_edges p = Ok (Z.of_nat (length E)) /\
    lists_exactly E (fun e => exists a b, mlink p a b /\ medge_tuple p a b e).
Proof.
  intros Hh Hc Hl. eexists. split; [by eapply medges_eq|]. split; [rewrite fmap_length; by eapply mlen_eq|].
  assert (forall a b, mlink p a b -> length a = S (maspects p) /\ length b = S (maspects p) /\ mreads p a b (MR p a b)) as Hlk.
  { intros a b (Ha & Hb & Hk). split; [by eapply ex_len|]. split; [by eapply ex_len|]. by eapply MR_reads. }
  split.
  - apply NoDup_fmap_2_strong; [|by eapply NoDup_mpairs]. intros [a b] [c d] Hab Hcd [= Hii _].
    eapply mpairs_linked in Hab, Hcd; [|done..]. destruct (Hlk a b Hab) as (? & ? & _). destruct (Hlk c d Hcd) as (? & ? & _).
    apply interleave_inj in Hii as [-> ->]; [done|congruence..].
  - intros e. rewrite elem_of_list_fmap. split.
    + intros ([a b] & -> & Hab). eapply mpairs_linked in Hab; [|done..]. exists a, b. split; [done|]. destruct (Hlk a b Hab) as (H1 & H2 & H3).
      split_and!; simpl; [rewrite interleave_length; lia|by apply names_link_full|done].
    + intros (a & b & Hab & He). destruct (Hlk a b Hab) as (H1 & H2 & H3). apply medge_tuple_eq in He; [|done..]. exists (a, b). split; [done|].
      destruct Hab as (Ha & Hb & Hk). eapply mpairs_all in Hk as [?|[? _]]; [done|done|done..].
Qed.
Theorem C56_undirected_edges_exact cs fi h p : mhist cs false 0 fi h p -> faithful cs fi p -> loopless p ->
  exists E, medges p = Ok E /\ mlen_edges p = Ok (Z.of_nat (length E)) /\ NoDup E /\
    (forall e, e ∈ E -> exists a b, mlink p a b /\ medge_tuple p a b e) /\
    (forall a b, mlink p a b -> exists e, e ∈ E /\ (medge_tuple p a b e \/ medge_tuple p b a e)) /\
    (forall a b e e', mlink p a b -> e ∈ E -> e' ∈ E -> medge_tuple p a b e -> medge_tuple p a b e' \/ medge_tuple p b a e' -> e = e').
Proof.
  intros Hh Hc Hl. eexists. split; [by eapply medges_eq|]. split; [rewrite fmap_length; by eapply mlen_eq|].
  assert (forall a b, mlink p a b -> length a = S (maspects p) /\ length b = S (maspects p) /\ mreads p a b (MR p a b)) as Hlk.
  { intros a b (Ha & Hb & Hk). split; [by eapply ex_len|]. split; [by eapply ex_len|]. by eapply MR_reads. }
  assert (forall a b, (a, b) ∈ mpairs false p -> mlink p a b) as Hpl.
  { intros a b Hab. by eapply mpairs_linked in Hab. }
  assert (forall a b, mlink p a b -> medge_tuple p a b (interleave a b, MR p a b)) as Htu.
  { intros a b Hab. destruct (Hlk a b Hab) as (H1 & H2 & H3). split_and!; simpl; [rewrite interleave_length; lia|by apply names_link_full|done]. }
  split; [|split; [|split]].
  - apply NoDup_fmap_2_strong; [|by eapply NoDup_mpairs]. intros [a b] [c d] Hab Hcd [= Hii _].
    apply Hpl in Hab, Hcd. destruct (Hlk a b Hab) as (? & ? & _). destruct (Hlk c d Hcd) as (? & ? & _).
    apply interleave_inj in Hii as [-> ->]; [done|congruence..].
  - intros e ([a b] & -> & Hab%Hpl)%elem_of_list_fmap. exists a, b. split; [done|]. by apply Htu.
  - intros a b Hab. pose proof Hab as (Ha & Hb & Hk). eapply mpairs_all in Hk as [Hin|[_ Hin]]; [| |done..].
    + exists (interleave a b, MR p a b). split; [apply elem_of_list_fmap; by exists (a, b)|]. left. by apply Htu.
    + exists (interleave b a, MR p b a). split; [apply elem_of_list_fmap; by exists (b, a)|]. right. by apply Htu, Hpl.
  - intros a b e e' Hab He He' Ht Ht'. destruct (Hlk a b Hab) as (H1 & H2 & _).
    assert (forall x y z, z ∈ (fun q => (interleave q.1 q.2, MR p q.1 q.2)) <$> mpairs false p -> length x = S (maspects p) -> length y = S (maspects p) ->
      medge_tuple p x y z -> (x, y) ∈ mpairs false p) as Hinv.
    { intros x y z ([c d] & -> & Hcd)%elem_of_list_fmap Hx Hy Hz. apply medge_tuple_eq in Hz; [|done..]. injection Hz as Hii _.
      destruct (Hlk c d (Hpl _ _ Hcd)) as (? & ? & _). simpl in Hii. apply interleave_inj in Hii as [-> ->]; [done|congruence..]. }
    pose proof (Hinv a b e He H1 H2 Ht) as Hab1. destruct Ht' as [Ht'|Ht'].
    + apply medge_tuple_eq in Ht, Ht'; [|done..]. congruence.
    + pose proof (Hinv b a e' He' H2 H1 Ht') as Hba. assert (a = b) as -> by (by eapply mpairs_once).
      apply medge_tuple_eq in Ht, Ht'; [|done..]. congruence.
Qed.
(** A self-loop written through an intra-layer network is iterated as an edge of
    weight [noEdge], and [len] disagrees with the iteration. *)
Theorem C56_self_loop_refuted : exists h p E a, mhist [CCat 1] false 0 true h p /\
  medges p = Ok E /\ (interleave a a, 0%Z) ∈ E /\ ~ mlinked p a a /\ mlen_edges p = Ok 1%Z /\ length E = 2.
Proof.
  exists exself.1, exself.2. eexists _, [n1; sa]. split; [apply mcalls_hist|]. split; [vm_compute; reflexivity|].
  split; [apply elem_of_list_In; vm_compute; tauto|]. split; [|by vm_compute]. intros (w & Hw & Hne). apply Hne.
  apply mreads_pair in Hw; [|done..]. vm_compute in Hw. by injection Hw as <-.
Qed.
(** ** C57 *)
Theorem C57_multiplex_aggregate cs dir fi h p ds : mhist cs dir 0 fi h p -> faithful cs fi p -> loopless p ->
  NoDup ds -> (forall d, d ∈ ds -> 1 <= d <= maspects p) ->
  exists n, maggregate p ds false = Ok n /\
    reachable n /\ aspects n = maspects p - length ds /\ directed n = dir /\ noEdge n = 0%Z /\ (fic n = true <-> aspects n = 0 \/ fi = true) /\
    (forall x y, length x = S (aspects n) -> length y = S (aspects n) -> x <> y ->
       exists W, mweight_sum p (fun a b => keep_coords ds a = x /\ keep_coords ds b = y) W /\ reads n x y W) /\
    (forall x, ~ linked n x x) /\
    (forall x, has_elem n 0 x <-> mhas p 0 x) /\
    (fi = true -> forall k x, 1 <= k -> has_elem n k x <->
       exists a b, mlink p a b /\ keep_coords ds a <> keep_coords ds b /\ (keep_coords ds a !! k = Some x \/ keep_coords ds b !! k = Some x)) /\
    (fi = false -> 0 < aspects n -> forall x, x ∈ iter_node_layers n <-> exists a, mexists p a /\ x = keep_coords ds a).
Proof.
  intros Hh Hc Hl Hnd Hds. destruct (msrc_ok cs dir fi h p Hh Hc Hl) as (nls & HL & Hsrc & Hok).
  pose proof (mhist_inv _ _ _ _ _ _ Hh) as Hi.
  assert (forall a, a ∈ nls <-> mexists p a) as HE.
  { intros a. split; [intros; by exists nls|]. intros (L' & HL' & ?). congruence. }
  unfold maggregate. rewrite Hsrc. cbn [rbind]. set (s := MkSrc _ _ _ _ _ _ _) in *.
  destruct (aggregate_spec s (mpairs dir p) (MR p) ds false Hok Hnd Hds) as (n' & g & E & Hg & Hrd & Hsl & Hnl); [by left|].
  simpl in Hg, Hrd, Hsl, Hnl. rewrite (pi_noe _ _ _ _ _ _ Hi), (pi_dir _ _ _ _ _ _ Hi), (pi_fic _ _ _ _ _ _ Hi) in Hg.
  destruct (hist_inv _ _ _ _ _ _ Hg) as [_ _ Ha' Hn' Hd' _]. pose proof (hist_good _ _ _ _ _ _ Hg) as Hg'.
  exists n'. split; [done|]. split; [by repeat eexists|]. split; [done|]. split; [done|]. split; [done|].
  split; [rewrite Ha'; apply (fic_of _ _ _ _ _ _ Hg)|].
  assert (forall a b, (a, b) ∈ mpairs dir p -> mlink p a b) as Hpl.
  { intros a b Hab. by eapply mpairs_linked in Hab. }
  split; [|split; [|split; [|split]]].
  - intros x y Hx Hy Hne. destruct (agg_sum s (mpairs dir p) (MR p) ds false x y Hok Hne) as (L & HLx & Hs). simpl in HLx.
    assert (lists_exactly L (fun q => mlink p (q.1) (q.2) /\ keep_coords ds (q.1) = x /\ keep_coords ds (q.2) = y)) as HL'.
    { eapply lists_exactly_iff; [|exact HLx]. intros [a b]. simpl. rewrite !HE, (pi_noe _ _ _ _ _ _ Hi). unfold mlink. split.
      - intros (Ha & Hb & Hk & ?). split; [|done]. split; [done|]. split; [done|]. by eapply MR_linked.
      - intros ((Ha & Hb & Hk) & ?). split; [done|]. split; [done|]. split; [|done]. by eapply MR_linked. }
    exists (zsumf (fun q => MR p (q.1) (q.2)) L). split.
    + exists L, ((fun q => MR p (q.1) (q.2)) <$> L). split; [done|]. split; [|apply zsumf_foldr].
      assert (forall a b, (a, b) ∈ L -> mreads p a b (MR p a b)) as Hr.
      { intros a b Hab. apply HL' in Hab as [(Ha & Hb & Hk) _]. by eapply MR_reads. }
      clear -Hr. induction L as [|[a b] L IH]; [constructor|]. cbn [fmap list_fmap]. constructor; [apply Hr; left|]. apply IH. intros; apply Hr. by right.
    + apply reads_rd; [done|done|]. rewrite Hrd, (pi_noe _ _ _ _ _ _ Hi). simpl in Hs. rewrite Hs. lia.
  - intros x Hk. apply linked_rd in Hk; [|done]. apply Hk. rewrite Hrd, Hn', (pi_noe _ _ _ _ _ _ Hi).
    assert (filter (towards ds false (mdir p) x x) (mpairs dir p) = []) as ->; [|unfold zsumf, zsum; simpl; lia].
    destruct (filter _ _) as [|[a b] T] eqn:Ef; [done|]. assert ((a, b) ∈ filter (towards ds false (mdir p) x x) (mpairs dir p)) as Hab by (rewrite Ef; left).
    apply elem_of_list_filter in Hab as [[[?|Hk'] Hh'] _]; [done|]. simpl in *. exfalso. apply Hk'. destruct Hh' as [[-> ->]|(_ & -> & ->)]; done.
  - intros x. rewrite has_elem_sl, Hsl. change (s_nodes s) with (mnodes p).
    assert (mhas p 0 x <-> x ∈ mnodes p) as ->.
    { unfold mhas, mget_layers, mnodes. destruct (mslices p !! 0) as [s0|]; simpl.
      - split; [by intros (s' & [= <-] & ?)|eauto].
      - split; [by intros (s' & ? & _)|by intros ?%elem_of_nil]. }
    split; [|by left]. intros [[_ Hx]|[[? _]|[? _]]]; [done|lia|lia].
  - intros Hf k x Hk. rewrite has_elem_sl, Hsl. split.
    + intros [[? _]|[(_ & a & b & Hab & [?|Hkept] & Hx)|(_ & ? & _)]]; [lia|done| |rewrite (pi_fic _ _ _ _ _ _ Hi) in *; congruence].
      exists a, b. split; [by apply Hpl|done].
    + intros (a & b & (Ha & Hb & Hlk) & Hkept & Hx). right. left. split; [done|]. eapply mpairs_all in Hlk as [Hlk|[_ Hlk]]; [| |done..].
      * exists a, b. split; [done|]. split; [by right|done].
      * exists b, a. split; [done|]. split; [right; simpl in *; congruence|tauto].
  - intros Hf Hz x. rewrite Hnl; [by setoid_rewrite HE|by rewrite (pi_fic _ _ _ _ _ _ Hi)|lia].
Qed.
Lemma loopless_by p : pwf p -> forallb (fun a => bool_decide (agetitem p (player_of (maspects p) a) [node_of a; node_of a] = Ok 0%Z)) (cart (mslices p)) = true -> loopless p.
Proof.
  intros Hp HF a Ha. rewrite forallb_forall in HF. specialize (HF a). rewrite bool_decide_eq_true in HF. apply HF, elem_of_list_In, elem_of_cart.
  apply mexists_psl in Ha as (H2 & H3 & _); [|done]. apply Forall2_same_length_lookup. split; [by rewrite (pw_len p Hp)|].
  intros k x s Hx Hs. destruct (H3 k x Hx) as (s' & Hs' & Hin). congruence.
Qed.
Definition is_int (x : name) : bool := match x with NInt _ => true | NStr _ => false end.
(** Both networks of PropsMpx.v meet the hypotheses. *)
Example C56_example_ordinal : faithful [CCat 2; COrd 3] true exf.2 /\ loopless exf.2 /\
  exists E, medges exf.2 = Ok E /\ mlen_edges exf.2 = Ok 31%Z /\ ([n1; n3; sb; sb; n2; n2], 4%Z) ∈ E /\ ([n3; n3; sa; sa; n1; n2], 3%Z) ∈ E.
Proof.
  pose proof (pi_wf _ _ _ _ _ _ (mhist_inv _ _ _ _ _ _ exf_hist)) as Hp. split; [|split; [apply loopless_by; [done|by vm_compute]|]].
  - left. split; [done|]. split; [simpl; lia|].
    assert (maspects exf.2 = 2) as Hm by (vm_compute; reflexivity).
    assert (forallb is_int (default [] (mslices exf.2 !! 2%nat)) = true) as HF by (vm_compute; reflexivity).
    revert Hp Hm HF. generalize exf.2. intros p Hp Hm HF a (Hl & Ha & _)%mexists_psl; [|done]. rewrite Hm in Hl.
    intros d c. destruct d as [|[|d]]; simpl; intros [= <-]; [done|]. split; [done|].
    destruct a as [|? [|? [|y ?]]]; try discriminate Hl. destruct (Ha 2%nat y eq_refl) as (s & Hs & Hy). rewrite Hs in HF. simpl in HF.
    rewrite forallb_forall in HF. specialize (HF y (proj1 (elem_of_list_In _ _) Hy)). destruct y as [z|]; [by exists z|done].
  - eexists. split; [vm_compute; reflexivity|]. split; [by vm_compute|]. split; apply elem_of_list_In; vm_compute; tauto.
Qed.
Example C56_example_partial_layers : faithful [CCat 2] false exn_.2 /\ loopless exn_.2 /\
  exists E, medges exn_.2 = Ok E /\ mlen_edges exn_.2 = Ok 11%Z /\ ([n3; n1; PropsMpx.sc; PropsMpx.sc], 4%Z) ∈ E /\ ([n1; n1; sa; PropsMpx.sc], 2%Z) ∈ E.
Proof.
  pose proof (pi_wf _ _ _ _ _ _ (mhist_inv _ _ _ _ _ _ exn_hist)) as Hp. split; [by right; split; [|exists 2%Z]|].
  split; [apply loopless_by; [done|by vm_compute]|].
  eexists. split; [vm_compute; reflexivity|]. split; [by vm_compute|]. split; apply elem_of_list_In; vm_compute; tauto.
Qed.
Example C57_example : exists m1 m2, maggregate exf.2 [2] false = Ok m1 /\ reads m1 [n1; sa] [n1; sb] 6 /\ reads m1 [n2; sa] [n3; sa] 7 /\
  maggregate exn_.2 [1] false = Ok m2 /\ reads m2 [n1] [n2] 5 /\ reads m2 [n2] [n1] 7 /\ reads m2 [n3] [n1] 4 /\ reads m2 [n1] [n1] 0.
Proof.
  do 2 eexists. split; [vm_compute; reflexivity|]. split; [by apply reads_rd|]. split; [by apply reads_rd|].
  split; [vm_compute; reflexivity|]. split_and!; by apply reads_rd.
Qed.
Print Assumptions C56_directed_edges_exact.
Print Assumptions C56_undirected_edges_exact.
Print Assumptions C56_self_loop_refuted.
Print Assumptions C57_multiplex_aggregate.
