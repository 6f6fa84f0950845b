(** * Property C68: relabelling and normalizing multiplex networks *)
From Verif Require Import MpxRelabel PropsNet PropsMpx PropsTrans PropsMpxEq.

(** No two names of the same aspect get the same new name. *)
Definition injective_names (p : mpx) (ds : list (dict name name)) : Prop :=
  forall k x y z, mhas p k x -> mhas p k y -> renamed_at ds k x z -> renamed_at ds k y z -> x = y.
(** No intra-layer network has a link from a node to itself. *)
Definition no_self_links (p : mpx) : Prop := forall l x, l ∈ mlayers p -> agetitem p l [x; x] = Ok 0%Z.
(** Layers of aspect [k] are neighbours in an ordinal coupling before the renaming exactly
    if they are after it. *)
Definition neighbours_kept (p : mpx) (ds : list (dict name name)) (k : nat) : Prop :=
  forall x y x' y', mhas p k x -> mhas p k y -> renamed_at ds k x x' -> renamed_at ds k y y' -> adjacent x' y' = adjacent x y.
(** Reading the link from [a'] to [b'] in [p'] gives the same answer (or exception) as
    reading the link from [a] to [b] in [p]. *)
Definition reads_alike (p : mpx) (a b : nl) (p' : mpx) (a' b' : nl) : Prop :=
  (forall w, mreads p' a' b' w <-> mreads p a b w) /\ (forall e, mraises p' a' b' e <-> mraises p a b e).
(** [p'] is the image of [p]: the nodes, elementary layers and node-layers are the renamed
    ones, and every link reads alike, except perhaps between node-layers that differ in
    an aspect with ordinal coupling. *)
Definition mimage (ds : list (dict name name)) (p p' : mpx) : Prop :=
  (forall k y, mhas p' k y <-> exists x, mhas p k x /\ renamed_at ds k x y) /\
  (forall b, mexists p' b <-> exists a, mexists p a /\ renamed_nl ds a b) /\
  (forall a b a' b', mexists p a -> mexists p b -> renamed_nl ds a a' -> renamed_nl ds b b' ->
     (forall d w, mcoup p !! d = Some (COrd w) -> differ_at (S d) a b -> neighbours_kept p ds (S d)) ->
     reads_alike p a b p' a' b').

Lemma injective_names_iff p ds : injective_names p ds <->
  forall k x y, psl p k x -> psl p k y -> renames ds k x = renames ds k y -> x = y.
Proof.
  unfold injective_names, renamed_at. setoid_rewrite <- psl_mhas. setoid_rewrite renamed_iff. unfold renames. split.
  - intros H k x y Hx Hy E. by apply (H k x y (ren (default [] (ds !! k)) x)).
  - intros H k x y z Hx Hy -> E. by apply (H k x y).
Qed.
Lemma no_nets cs : (forall m, CNet m ∉ cs) -> Forall no_net cs.
Proof. intros H. apply Forall_forall. intros [w|w|o|m] Hc; try done. by apply H in Hc. Qed.
Lemma no_self_lrd p : pwf p -> no_self_links p -> forall l x, lrd p l x x = 0%Z.
Proof.
  intros Hw H l x. destruct (pA p l) as [m|] eqn:E; [|unfold lrd; by rewrite E].
  specialize (H l x). rewrite agetitem_lrd, E in H. feed pose proof H as H'; [apply mlayers_form; eauto|]. by injection H'.
Qed.
Lemma reads_alike_pair p a b p' a' b' : length a = S (maspects p) -> length b = S (maspects p) ->
  length a' = S (maspects p') -> length b' = S (maspects p') -> pget_pair p' a' b' = pget_pair p a b -> reads_alike p a b p' a' b'.
Proof.
  intros H1 H2 H3 H4 E. split; intros x; [rewrite !mreads_pair by done|rewrite !mraises_pair by done]; by rewrite E.
Qed.

Lemma relabel_image cs dir noe fi h p ds q g : pinv cs dir noe fi h p -> 1 <= length cs -> Forall no_net cs -> injective_names p ds ->
  mhist cs dir noe fi g q ->
  (forall k y, psl q k y <-> exists x, psl p k x /\ y = renames ds k x) ->
  (forall b, mexists q b <-> exists a, mexists p a /\ b = ren_nl ds a) ->
  (forall ls x y, length ls = length cs -> (forall k z, ls !! k = Some z -> psl p (S k) z) -> psl p 0 x -> psl p 0 y ->
       lrd q (lkey (length cs) (imap (fun k => renames ds (S k)) ls)) (renames ds 0 x) (renames ds 0 y) = lrd p (lkey (length cs) ls) x y) ->
  mimage ds p q.
Proof.
  intros Hp H1 Hnn Hinj Hq%mhist_inv Hs He Hl. rewrite injective_names_iff in Hinj. pose proof (pinv_masp _ _ _ _ _ _ Hp) as Has.
  pose proof (pi_wf _ _ _ _ _ _ Hp) as Wp. pose proof (pi_wf _ _ _ _ _ _ Hq) as Wq. pose proof (pinv_masp _ _ _ _ _ _ Hq) as Haq. split; [|split].
  - intros k y. rewrite <- psl_mhas, Hs. setoid_rewrite <- psl_mhas. unfold renamed_at. by setoid_rewrite renamed_iff.
  - intros b. rewrite He. by setoid_rewrite renamed_nl_iff.
  - intros a b a' b' Ea Eb ->%renamed_nl_iff ->%renamed_nl_iff Hord.
    destruct (mexists_psl p a Wp Ea) as (La & Pa & _). destruct (mexists_psl p b Wp Eb) as (Lb & Pb & _).
    apply reads_alike_pair; [congruence|congruence|rewrite ren_nl_length; congruence|rewrite ren_nl_length; congruence|].
    apply pget_transport; try done.
    + by rewrite (pi_coup _ _ _ _ _ _ Hp), (pi_coup _ _ _ _ _ _ Hq).
    + by rewrite (pi_noe _ _ _ _ _ _ Hp), (pi_noe _ _ _ _ _ _ Hq).
    + by rewrite (pi_coup _ _ _ _ _ _ Hp).
    + apply He. by exists a.
    + apply He. by exists b.
    + intros k. rewrite !ren_nl_lookup. split; [by intros ->|].
      destruct (a !! k) as [x|] eqn:Ex, (b !! k) as [y|] eqn:Ey; simpl; try done. intros [= E]. f_equal. apply (Hinj k); auto.
    + intros d w x y x' y' Hc Hd Hx Hy. rewrite !ren_nl_lookup, Hx, Hy. simpl. intros [= <-] [= <-].
      apply (Hord d w Hc Hd); rewrite <- ?psl_mhas; auto; by apply renamed_iff.
    + intros _ Hd. rewrite Has in *. destruct a as [|x ls]; [done|]. destruct b as [|y ls']; [done|]. apply differ_at_0 in Hd as [_ <-].
      cbn [tail node_of ren_nl imap]. apply Hl; [simpl in La; lia| |by apply (Pa 0)|by apply (Pb 0)]. intros k z Hz. by apply (Pa (S k)).
    + lia.
Qed.

(** ** C68 *)
Theorem C68_relabel cs dir noe fi h p ds : mhist cs dir noe fi h p -> 1 <= length cs -> (forall m, CNet m ∉ cs) ->
  injective_names p ds -> no_self_links p ->
  exists p' g, mrelabel p ds = Ok p' /\ mhist cs dir noe fi g p' /\ mimage ds p p'.
Proof.
  intros Hp%mhist_inv H1 Hn%no_nets Hinj Hself. pose proof (proj1 (injective_names_iff p ds) Hinj) as Hinj'.
  destruct (relabel_facts cs dir noe fi h p ds Hp H1 Hn Hinj' (no_self_lrd p (pi_wf _ _ _ _ _ _ Hp) Hself)) as (q & g & E & Hq & Hs & He & Hl).
  exists q, g. split; [done|]. split; [done|]. by eapply relabel_image.
Qed.

Lemma lrd_psl cs dir noe fi h p l x y : pinv cs dir noe fi h p -> lrd p l x y <> 0%Z -> psl p 0 x /\ psl p 0 y.
Proof.
  intros H Hne. destruct (pA p l) as [m|] eqn:E; [|unfold lrd in Hne; by rewrite E in Hne].
  destruct (lrd_nodes _ _ _ _ _ _ _ _ _ _ H E Hne) as [Hx Hy]. pose proof (pi_wf _ _ _ _ _ _ H) as Hw.
  destruct (mexists_psl p _ Hw (node_mexists _ _ _ _ _ _ H l m x E Hx)) as (_ & Px & _).
  destruct (mexists_psl p _ Hw (node_mexists _ _ _ _ _ _ H l m y E Hy)) as (_ & Py & _).
  rewrite nl_of_cons in *. split; [by apply (Px 0)|by apply (Py 0)].
Qed.
Lemma same_of cs dir noe fi h p g q : pinv cs dir noe fi h p -> pinv cs dir noe fi g q -> 1 <= length cs ->
  (forall k x, psl q k x <-> psl p k x) -> (forall a, mexists q a <-> mexists p a) ->
  (forall ls x y, length ls = length cs -> (forall k z, ls !! k = Some z -> psl p (S k) z) -> psl p 0 x -> psl p 0 y ->
     lrd q (lkey (length cs) ls) x y = lrd p (lkey (length cs) ls) x y) -> same_multiplex q p.
Proof.
  intros Hp Hq H1 Hs He Hl. split_and!.
  - by rewrite (pi_dir _ _ _ _ _ _ Hp), (pi_dir _ _ _ _ _ _ Hq).
  - by rewrite (pi_noe _ _ _ _ _ _ Hp), (pi_noe _ _ _ _ _ _ Hq).
  - by rewrite (pi_fic _ _ _ _ _ _ Hp), (pi_fic _ _ _ _ _ _ Hq).
  - rewrite (pi_coup _ _ _ _ _ _ Hp), (pi_coup _ _ _ _ _ _ Hq). apply Forall_Forall2_diag, Forall_forall. intros c _. apply same_coupling_refl.
  - split; [intros; rewrite <- !psl_mhas; apply Hs|]. split; [done|]. intros l x y. rewrite !agetitem_lrd.
    pose proof (pA_same _ _ _ _ _ _ _ _ _ _ _ _ Hq Hp l eq_refl Hs) as HA.
    destruct (pA q l) as [n|] eqn:En, (pA p l) as [m|] eqn:Em; [|by destruct (proj1 HA) as [? ?]; eauto|by destruct (proj2 HA) as [? ?]; eauto|done].
    f_equal. destruct (pA_lay p l m (pi_wf _ _ _ _ _ _ Hp) Em) as [_ Hf]. rewrite (pinv_masp _ _ _ _ _ _ Hp) in Hf.
    destruct (lkey_tuple _ l Hf) as [K1 K2]. specialize (Hl (lay_tuple l) x y K2). rewrite K1 in Hl.
    destruct (decide (lrd p l x y = 0)%Z) as [E1|E1]; [destruct (decide (lrd q l x y = 0)%Z) as [E2|E2]; [congruence|]|].
    + apply (lrd_psl _ _ _ _ _ _ _ _ _ Hq) in E2 as [X Y]. rewrite Hs in X, Y. apply Hl; [|done..]. intros k z. by apply (layer_psl _ _ _ _ _ _ Hp l m).
    + apply (lrd_psl _ _ _ _ _ _ _ _ _ Hp) in E1 as [X Y]. apply Hl; [|done..]. intros k z. by apply (layer_psl _ _ _ _ _ _ Hp l m).
Qed.
Lemma no_nets_ok cs : (forall m, CNet m ∉ cs) -> coupling_nets_ok cs.
Proof. intros H m Hm. by apply H in Hm. Qed.
Lemma no_self_of cs dir noe fi g p q ds : pwf p -> pinv cs dir noe fi g q -> 1 <= length cs ->
  (forall k y, psl q k y <-> exists x, psl p k x /\ y = renames ds k x) ->
  (forall k x y, psl p k x -> psl p k y -> renames ds k x = renames ds k y -> x = y) ->
  (forall ls x y, length ls = length cs -> (forall k z, ls !! k = Some z -> psl p (S k) z) -> psl p 0 x -> psl p 0 y ->
     lrd q (lkey (length cs) (imap (fun k => renames ds (S k)) ls)) (renames ds 0 x) (renames ds 0 y) = lrd p (lkey (length cs) ls) x y) ->
  (forall l x, lrd p l x x = 0%Z) -> forall l x, lrd q l x x = 0%Z.
Proof.
  intros Wp Hq H1 Hs Hinj Hl Hself l x. destruct (decide (lrd q l x x = 0)%Z) as [|Hne]; [done|]. exfalso. apply Hne.
  destruct (lrd_psl _ _ _ _ _ _ _ _ _ Hq Hne) as [(x0 & Hx0 & ->)%Hs _].
  destruct (pA q l) as [m|] eqn:Em; [|unfold lrd in Hne; by rewrite Em in Hne].
  destruct (pA_lay q l m (pi_wf _ _ _ _ _ _ Hq) Em) as [_ Hf]. rewrite (pinv_masp _ _ _ _ _ _ Hq) in Hf. destruct (lkey_tuple _ l Hf) as [K1 K2].
  destruct (imap_choice (fun k => renames ds (S k)) (fun k => psl p (S k)) (lay_tuple l)) as (ls & E & Hls).
  { intros k y Hy. apply Hs. by apply (layer_psl _ _ _ _ _ _ Hq l m). }
  rewrite <- K1, E, Hl; [done| |done..]. by rewrite E, imap_length in K2.
Qed.
(** Maps that undo the renaming restore the network. *)
Theorem C68_restored cs dir noe fi h p ds ds' : mhist cs dir noe fi h p -> 1 <= length cs -> (forall m, CNet m ∉ cs) ->
  no_self_links p -> (forall k x y, mhas p k x -> renamed_at ds k x y -> renamed_at ds' k y x) ->
  exists p' p'', mrelabel p ds = Ok p' /\ mrelabel p' ds' = Ok p'' /\ meq p'' p = Ok true.
Proof.
  intros Hh H1 Hn Hself Hinv. pose proof (mhist_inv _ _ _ _ _ _ Hh) as Hp. pose proof (no_nets _ Hn) as Hnn.
  assert (Hii : forall k x, psl p k x -> renames ds' k (renames ds k x) = x).
  { intros k x Hx. specialize (Hinv k x (renames ds k x)). unfold renamed_at in Hinv. rewrite !renamed_iff in Hinv. symmetry. apply Hinv; [by apply psl_mhas|done]. }
  assert (Hinj : forall k x y, psl p k x -> psl p k y -> renames ds k x = renames ds k y -> x = y).
  { intros k x y Hx Hy E. rewrite <- (Hii k x Hx), <- (Hii k y Hy). by rewrite E. }
  pose proof (no_self_lrd p (pi_wf _ _ _ _ _ _ Hp) Hself) as Hs0.
  destruct (relabel_facts cs dir noe fi h p ds Hp H1 Hnn Hinj Hs0) as (q & g & E & Hq & Hs & He & Hl).
  pose proof (mhist_inv _ _ _ _ _ _ Hq) as Iq.
  assert (Hinj' : forall k x y, psl q k x -> psl q k y -> renames ds' k x = renames ds' k y -> x = y).
  { intros k x y (x0 & Hx0 & ->)%Hs (y0 & Hy0 & ->)%Hs. rewrite !Hii by done. by intros ->. }
  destruct (relabel_facts cs dir noe fi g q ds' Iq H1 Hnn Hinj') as (r & g' & E' & Hr & Hs' & He' & Hl').
  { eapply no_self_of; [exact (pi_wf _ _ _ _ _ _ Hp)|exact Iq|done|exact Hs|exact Hinj|exact Hl|exact Hs0]. }
  exists q, r. split; [done|]. split; [done|]. pose proof (mhist_inv _ _ _ _ _ _ Hr) as Ir.
  apply (C67_equality _ _ _ _ _ _ _ _ _ _ _ _ Hr Hh); [by apply no_nets_ok..|].
  assert (Htup : forall a, (forall k z, a !! k = Some z -> psl p k z) -> ren_nl ds' (ren_nl ds a) = a).
  { intros a Ha. apply list_eq. intros k. rewrite !ren_nl_lookup. destruct (a !! k) as [z|] eqn:Ez; [|done]. simpl. f_equal. by apply Hii, Ha. }
  eapply same_of; [exact Hp|exact Ir|done|..].
  - intros k x. rewrite Hs'. setoid_rewrite Hs. split.
    + intros (y & (x0 & Hx0 & ->) & ->). by rewrite Hii.
    + intros Hx. exists (renames ds k x). split; [eauto|]. by rewrite Hii.
  - intros a. rewrite He'. setoid_rewrite He. split.
    + intros (b & (a0 & Ha0 & ->) & ->). rewrite Htup; [done|]. by destruct (mexists_psl p a0 (pi_wf _ _ _ _ _ _ Hp) Ha0) as (_ & ? & _).
    + intros Ha. exists (ren_nl ds a). split; [eauto|]. rewrite Htup; [done|]. by destruct (mexists_psl p a (pi_wf _ _ _ _ _ _ Hp) Ha) as (_ & ? & _).
  - intros ls x y Hlen Hls Hx Hy.
    assert (imap (fun k => renames ds' (S k)) (imap (fun k => renames ds (S k)) ls) = ls) as Et.
    { apply list_eq. intros k. rewrite !list_lookup_imap. destruct (ls !! k) as [z|] eqn:Ez; [|done]. simpl. f_equal. by apply Hii, Hls. }
    specialize (Hl' (imap (fun k => renames ds (S k)) ls) (renames ds 0 x) (renames ds 0 y)). rewrite Et, !Hii in Hl' by done.
    rewrite Hl'; [apply Hl; done|by rewrite imap_length| |apply Hs; eauto|apply Hs; eauto].
    intros k z. rewrite list_lookup_imap. destruct (ls !! k) as [z'|] eqn:Ez; [|done]. intros [= <-]. apply Hs. eauto.
Qed.
(** Renaming nothing gives an equal network. *)
Theorem C68_nothing_renamed cs dir noe fi h p : mhist cs dir noe fi h p -> 1 <= length cs -> (forall m, CNet m ∉ cs) ->
  no_self_links p -> exists p', mrelabel p [] = Ok p' /\ meq p' p = Ok true.
Proof.
  intros Hh H1 Hn Hself. pose proof (mhist_inv _ _ _ _ _ _ Hh) as Hp.
  destruct (relabel_facts cs dir noe fi h p [] Hp H1 (no_nets _ Hn) ltac:(done) (no_self_lrd p (pi_wf _ _ _ _ _ _ Hp) Hself)) as (q & g & E & Hq & Hs & He & Hl).
  exists q. split; [done|]. apply (C67_equality _ _ _ _ _ _ _ _ _ _ _ _ Hq Hh); [by apply no_nets_ok..|].
  assert (Htup : forall a, ren_nl [] a = a). { intros a. apply list_eq. intros k. rewrite !ren_nl_lookup. by destruct (a !! k). }
  eapply same_of; [exact Hp|exact (mhist_inv _ _ _ _ _ _ Hq)|done|..].
  - intros k x. rewrite Hs. split; [by intros (? & ? & ->)|eauto].
  - intros a. rewrite He. setoid_rewrite Htup. split; [by intros (? & ? & ->)|eauto].
  - intros ls x y Hlen Hls Hx Hy. rewrite <- (Hl ls x y Hlen Hls Hx Hy).
    assert (imap (fun k => renames [] (S k)) ls = ls) as ->; [|done]. apply list_eq. intros k. rewrite list_lookup_imap. by destruct (ls !! k).
Qed.
(** Giving linked nodes the same new name raises KeyError; so does a link from a node to
    itself in a layer. *)
Theorem C68_merged_nodes_raise cs dir noe fi h p ds l x y z w : mhist cs dir noe fi h p -> 1 <= length cs -> (forall m, CNet m ∉ cs) ->
  l ∈ mlayers p -> agetitem p l [x; y] = Ok w -> w <> 0%Z -> renamed_at ds 0 x z -> renamed_at ds 0 y z ->
  mrelabel p ds = Err KeyError.
Proof.
  intros Hh H1 Hn%no_nets Hl Hag Hw Hx%renamed_iff Hy%renamed_iff. pose proof (mhist_inv _ _ _ _ _ _ Hh) as Hp.
  rewrite agetitem_lrd in Hag. apply (relabel_merged cs dir noe fi h p ds l x y Hp H1 Hn Hl); [|unfold renames; congruence].
  destruct (pA p l); [|done]. injection Hag as ->. done.
Qed.
Theorem C68_coupling_network_raises cs dir noe fi h p ds m : mhist cs dir noe fi h p -> CNet m ∈ cs -> mrelabel p ds = Err AssertionError.
Proof.
  intros Hp%mhist_inv Hm. unfold mrelabel, like. rewrite (pi_coup _ _ _ _ _ _ Hp).
  assert (existsb is_cnet cs = true) as ->; [|done]. apply existsb_exists. exists (CNet m). split; [by apply elem_of_list_In|done].
Qed.

(** Nodes and layers numbered in Python's order; fails if an aspect has names of both kinds. *)
Theorem C68_normalize cs dir noe fi h p nodeStart layerStart : mhist cs dir noe fi h p -> 1 <= length cs -> (forall m, CNet m ∉ cs) ->
  no_self_links p -> (forall k i s, ~ (mhas p k (NInt i) /\ mhas p k (NStr s))) ->
  exists p' ds g, mnormalize p nodeStart layerStart = Ok (p', ds) /\ mhist cs dir noe fi g p' /\ length ds = S (length cs) /\
    (forall k s, mget_layers p k = Ok s -> exists d, ds !! k = Some d /\ numbering (if decide (k = 0) then nodeStart else layerStart) s d) /\
    mimage ds p p'.
Proof.
  intros Hh H1 Hn Hself Hmix. pose proof (mhist_inv _ _ _ _ _ _ Hh) as Hp. pose proof (pi_wf _ _ _ _ _ _ Hp) as Hw.
  unfold mnormalize. set (f := fun q : nat * list name => index_map (if decide (q.1 = 0) then nodeStart else layerStart) (q.2)).
  assert (Hnd : forall k s, mslices p !! k = Some s -> NoDup s) by (intros k s Hs; exact (Forall_lookup_1 _ _ _ _ (pw_nd p Hw) Hs)).
  destruct (rmapM f (imap pair (mslices p))) as [ds|e] eqn:Er.
  2:{ exfalso. apply rmapM_err in Er as ([k t] & Hk & Hf). apply elem_of_imap_pair in Hk.
      assert (exists d, f (k, t) = Ok d) as [d Hd]; [|congruence]. apply index_map_ok. intros (i & s & Hi & Hs). apply (Hmix k i s).
      split; apply psl_mhas; exists t; done. }
  pose proof (rmapM_Ok_length _ _ _ Er) as Hl. rewrite imap_length, (pw_len p Hw), (pinv_masp _ _ _ _ _ _ Hp) in Hl.
  assert (Hds : forall k t, mslices p !! k = Some t -> exists d, ds !! k = Some d /\ index_map (if decide (k = 0) then nodeStart else layerStart) t = Ok d).
  { intros k t Hk. destruct (lookup_lt_is_Some_2 ds k) as [d Hd].
    { rewrite Hl, <- (pinv_masp _ _ _ _ _ _ Hp), <- (pw_len p Hw). by eapply lookup_lt_Some. }
    exists d. split; [done|]. destruct (rmapM_Ok_lookup _ _ _ _ _ Er Hd) as ([k' t'] & Hk' & Hf).
    rewrite list_lookup_imap, Hk in Hk'. by injection Hk' as <- <-. }
  assert (injective_names p ds) as Hinj.
  { apply injective_names_iff. intros k x y (t & Ht & Hx) (t' & Ht' & Hy). assert (t' = t) as -> by congruence.
    destruct (Hds k t Ht) as (d & Ed & Hd). unfold renames. rewrite Ed. simpl. eapply index_map_spec; [|exact Hd|done|done]. by apply (Hnd k). }
  destruct (C68_relabel cs dir noe fi h p ds Hh H1 Hn Hinj Hself) as (q & g & E & Hq & Him).
  exists q, ds, g. cbn [rbind]. rewrite E. split; [done|]. split; [done|]. split; [done|]. split; [|done].
  intros k s Hs. unfold mget_layers in Hs. destruct (mslices p !! k) as [t|] eqn:Ek; [|done]. injection Hs as <-.
  destruct (Hds k t Ek) as (d & Ed & Hd). exists d. split; [done|]. apply index_map_numbering; [by apply (Hnd k)|done].
Qed.
(** The ordinal coupling links follow the new layer names. *)
Definition ex68o := mcalls (new_mpx [COrd 1] false 0 true) [MSet [n1; n2; n1] 1; MSet [n1; n2; n2] 1].
Theorem C68_ordinal_refuted : exists h p ds p' a b, mhist [COrd 1] false 0 true h p /\ injective_names p ds /\ no_self_links p /\
  mrelabel p ds = Ok p' /\ mexists p a /\ mexists p b /\ ~ reads_alike p a b p' (ren_nl ds a) (ren_nl ds b).
Proof.
  exists ex68o.1, ex68o.2, [[]; [(n2, NInt 5)]]. eexists. exists [n1; n1], [n1; n2]. split; [apply mcalls_hist|]. split; [|split; [|split; [by vm_compute|]]].
  - apply injective_names_iff. intros k x y (s & Hs & Hx) (t & Ht & Hy). rewrite Hs in Ht. injection Ht as <-.
    destruct k as [|[|k]]; vm_compute in Hs; [| |discriminate Hs]; injection Hs as <-; revert x y Hx Hy; apply inj_list_b; by vm_compute.
  - intros l x Hl. assert (l = LBare n1 \/ l = LBare n2) as [-> | ->].
    { assert (mlayers ex68o.2 = [LBare n1; LBare n2]) as E by (by vm_compute). rewrite E in Hl.
      apply elem_of_cons in Hl as [->|Hl]; [by left|]. apply elem_of_list_singleton in Hl. by right. }
    all: vm_compute; destruct x as [[| [|[]|]|]|]; done.
  - split; [eexists; split; [by vm_compute|]; by apply (bool_decide_unpack _)|].
    split; [eexists; split; [by vm_compute|]; by apply (bool_decide_unpack _)|].
    intros [H _]. destruct (proj2 (H 1%Z)) as (item & Hi & Hr).
    + exists [n1; n1; n1; n2]. split; [exact (names_link_full 1 [n1; n1] [n1; n2] eq_refl eq_refl)|by vm_compute].
    + erewrite pgetitem_pair in Hr; [|exact Hi]. by vm_compute in Hr.
Qed.
(** Links from a node to itself only come from assignments through an intra-layer network. *)
Theorem C68_no_self_links cs dir noe fi h p : mhist cs dir noe fi h p -> 1 <= length cs ->
  (forall l i w, (MASet l [i; i] w, Ok tt) ∉ h) -> no_self_links p.
Proof.
  intros Hh H1 Hno l x Hl. pose proof (mhist_inv _ _ _ _ _ _ Hh) as Hp. pose proof (pi_wf _ _ _ _ _ _ Hp) as Hw.
  apply mlayers_form in Hl as [m Hm]; [|done]. rewrite agetitem_lrd, Hm. f_equal. destruct (decide (lrd p l x x = 0)%Z) as [|Hne]; [done|].
  destruct (lrd_nodes _ _ _ _ _ _ _ _ _ _ Hp Hm Hne) as [Hx _]. pose proof (node_mexists _ _ _ _ _ _ Hp l m x Hm Hx) as Hex.
  destruct (pA_lay p l m Hw Hm) as [_ Hf]. rewrite (pinv_masp _ _ _ _ _ _ Hp) in Hf. destruct (nl_of_form _ x l Hf) as (_ & _ & F3 & F4).
  pose proof (C19_self_condition cs dir noe fi h p (nl_of x l) Hh H1 Hex Hno) as Hs. rewrite F3, F4, agetitem_lrd, Hm in Hs. by injection Hs.
Qed.
Definition ex68 := mcalls (new_mpx [CCat 2; COrd 3] true 7 false)
  [MSet [n1; n2; sa; n1] 4; MSet [n2; n1; sa; n1] 5; MSet [n2; n3; sb; n2] 6; MAddNode n1 (Some (LTup [sb; n1])); MAddNode n3 None; MAddLayer n3 2].
Definition ex68_ds : list (dict name name) := [[(n1, n2); (n2, n1)]; [(sa, NInt 10)]; []].
Example C68_example : mhist [CCat 2; COrd 3] true 7 false ex68.1 ex68.2 /\ injective_names ex68.2 ex68_ds /\ no_self_links ex68.2 /\
  exists p', mrelabel ex68.2 ex68_ds = Ok p' /\ pgetitem p' [n2; n1; NInt 10; n1] = Ok 4%Z /\ pgetitem p' [n1; n2; NInt 10; n1] = Ok 5%Z /\
    pgetitem p' [n2; n2; NInt 10; sb; n1; n1] = Ok 2%Z /\ pgetitem ex68.2 [n1; n1; sa; sb; n1; n1] = Ok 2%Z.
Proof.
  assert (H : mhist [CCat 2; COrd 3] true 7 false ex68.1 ex68.2) by apply mcalls_hist.
  split; [exact H|]. split; [|split].
  - apply injective_names_iff. intros k x y (s & Hs & Hx) (t & Ht & Hy). rewrite Hs in Ht. injection Ht as <-.
    destruct k as [|[|[|k]]]; vm_compute in Hs; [| | |discriminate Hs]; injection Hs as <-; revert x y Hx Hy; apply inj_list_b; by vm_compute.
  - apply (C68_no_self_links _ _ _ _ _ _ H); [simpl; lia|]. intros l i w Hin. apply (elem_of_list_fmap_1 fst) in Hin.
    vm_compute in Hin. repeat (apply elem_of_cons in Hin as [Hin|Hin]; [discriminate Hin|]). by apply elem_of_nil in Hin.
  - eexists. split_and!; by vm_compute.
Qed.
(** Names of both kinds: the nodes and layers of [ex68] cannot be sorted in aspect 1 after the renaming. *)
Example C68_normalize_example : exists p' ds, mnormalize ex68.2 0 0 = Ok (p', ds) /\ ds = [[(n1, NInt 0); (n2, NInt 1); (n3, NInt 2)]; [(sa, NInt 0); (sb, NInt 1)]; [(n1, NInt 0); (n2, NInt 1); (n3, NInt 2)]] /\
  pgetitem p' [NInt 0; NInt 1; NInt 0; NInt 0] = Ok 4%Z /\ (let? q := mrelabel ex68.2 ex68_ds in mnormalize q 0 0) = Err TypeError.
Proof. eexists _, _. split_and!; by vm_compute. Qed.
Print Assumptions C68_relabel.
Print Assumptions C68_restored.
Print Assumptions C68_nothing_renamed.
Print Assumptions C68_merged_nodes_raise.
Print Assumptions C68_coupling_network_raises.
Print Assumptions C68_normalize.
Print Assumptions C68_ordinal_refuted.
Print Assumptions C68_no_self_links.
