(** * Multiplex: histories *)
From Verif Require Export MpxSpec MpxFacts NetEdges.

(** ** The structural part of an item assignment *)
Lemma eff_layers p (f : nat * name -> nat) ps : pwf p -> (forall q, q ∈ ps -> f q <= maspects p) ->
  exists p', ofold (fun q kx => padd_layer q (kx.2) (f kx)) p ps = (p', Ok tt) /\
    eff p p' (fun k x => exists q, q ∈ ps /\ k = f q /\ x = q.2) (fun _ _ => False).
Proof.
  revert p. induction ps as [|q ps IH]; intros p Hw Hf.
  - exists p. split; [done|]. eapply eff_iff; [by apply eff_refl| |done].
    intros k x. split; [tauto|]. intros [?|(q & Hq & _)]; [by left|]. by apply elem_of_nil in Hq.
  - cbn [ofold]. destruct (eff_add_layer p (q.2) (f q) Hw) as (p1 & E1 & He1); [apply Hf; left|]. rewrite E1.
    destruct (IH p1 (eff_wf _ _ _ _ He1)) as (p2 & E2 & He2).
    { intros q' Hq'. rewrite (maspects_padds _ _ (eff_adds _ _ _ _ He1)). apply Hf. by right. }
    exists p2. split; [done|]. eapply eff_iff; [by eapply eff_trans| |tauto].
    intros k x. split.
    + intros [?|[[-> ->]|(q' & Hq' & -> & ->)]]; [by left| |]; right.
      * exists q. split_and!; [left|done|done].
      * exists q'. split_and!; [by right|done|done].
    + intros [?|(q' & Hq' & -> & ->)]; [by left|]. right.
      apply elem_of_cons in Hq' as [->|Hq']; [by left|]. right. eauto.
Qed.

Definition ppre (p : mpx) (link : list name) : out mpx unit :=
  let '(a, b) := link_to_nodes link in
  obind
    (if mfic p then
       ofold (fun q kx => padd_layer q (kx.2) (kx.1 / 2)) p (imap pair (take 2 link))
     else
       obind (padd_node p (node_of a) (Some (player_of (maspects p) a)))
             (fun q _ => padd_node q (node_of b) (Some (player_of (maspects q) b))))
    (fun p1 _ =>
       ofold (fun q kx => padd_layer q (kx.2) ((kx.1 + 2) / 2)) p1 (imap pair (drop 2 link))).
Lemma psetitem_ppre p item w link : psetitem_link p item = Ok link ->
  psetitem p item w = obind (ppre p link) (fun p2 _ => pset_link p2 link w).
Proof.
  intros Hl. unfold psetitem, ppre. rewrite Hl. destruct (link_to_nodes link) as [a b].
  destruct (if mfic p then _ else _) as [p1 [[]|e]]; [|done]. done.
Qed.
Lemma nl_of_player asp a : a <> [] -> nl_of (node_of a) (player_of asp a) = a.
Proof.
  destruct a as [|x a]; [done|]. intros _. unfold player_of. destruct a as [|y [|z a]]; simpl; try done.
  by destruct (decide (asp = 1)).
Qed.
Lemma player_form asp a : length a = S asp -> 1 <= asp -> mlayer_form asp (player_of asp a).
Proof.
  destruct a as [|x a]; [done|]. intros Hl H1. simpl in Hl. unfold player_of.
  destruct a as [|y [|z a]]; simpl in *; [lia| |lia]. rewrite decide_True by lia. simpl. lia.
Qed.
Lemma nl_of_form asp x l : mlayer_form asp l -> 
  length (nl_of x l) = S asp /\ 1 <= asp /\ player_of asp (nl_of x l) = l /\ node_of (nl_of x l) = x.
Proof.
  destruct l as [y|ls]; simpl.
  - intros ->. split_and!; [done|lia|done|done].
  - intros [H1 H2]. split_and!; [lia|lia| |done]. destruct ls as [|y [|z ls]]; simpl in *; lia || done.
Qed.
Lemma lkey_player asp a : length a = S asp -> 1 <= asp -> lkey asp (tail a) = player_of asp a.
Proof.
  destruct a as [|x a]; [done|]. intros Hl H1. simpl in Hl. unfold lkey, player_of.
  destruct a as [|y [|z a]]; simpl in *; [lia| |].
  - destruct (decide (asp = 1)); [done|lia].
  - rewrite decide_False by lia. done.
Qed.
Lemma player_inj asp a b : length a = S asp -> length b = S asp -> 1 <= asp ->
  player_of asp a = player_of asp b <-> tail a = tail b.
Proof.
  intros Ha Hb H1. rewrite <- !lkey_player by done. unfold lkey.
  destruct (decide (asp = 1)) as [H2|H2]; [|split; congruence].
  destruct a as [|? [|? [|? ?]]], b as [|? [|? [|? ?]]]; simpl in *; try lia. split; congruence.
Qed.

Lemma eff_player p a : pwf p -> mfic p = false -> 1 <= maspects p -> length a = S (maspects p) ->
  exists p', padd_node p (node_of a) (Some (player_of (maspects p) a)) = (p', Ok tt) /\
    eff p p' (fun k x => a !! k = Some x) (fun x l => x = node_of a /\ l = player_of (maspects p) a).
Proof.
  intros Hw Hf H1 Hl. destruct (padd_node_spec 0 p (node_of a) (Some (player_of (maspects p) a)) Hw) as (p' & E & He).
  exists p'. unfold padd_node. rewrite E, Hf in *.
  pose proof (player_form (maspects p) a Hl H1) as Hfo.
  destruct a as [|x a]; [done|]. simpl in Hl.
  destruct (player_of (maspects p) (x :: a)) as [y|ls] eqn:Ep; simpl in Hfo.
  - split; [simpl; by rewrite decide_True by done|]. 
    assert (a = [y]) as ->.
    { unfold player_of in Ep. destruct a as [|z [|z' a]]; simpl in *; try lia. by rewrite decide_True in Ep; congruence. }
    eapply eff_iff; [exact He| |].
    + intros k z. simpl. split.
      * intros [?|[[-> ->]|[(_ & _ & -> & [= ->])|(_ & ? & _)]]]; [by left|by right|by right|lia].
      * intros [?|Hk]; [by left|]. right. destruct k as [|[|k]]; simpl in Hk; [left|right; left|done].
        -- by injection Hk as ->.
        -- by injection Hk as ->.
    + intros z l. unfold joins. split.
      * intros [?|(_ & -> & [= <-] & _)]; [by left|]. by right.
      * intros [?|[-> ->]]; [by left|]. right. done.
  - assert (ls = a) as ->.
    { unfold player_of in Ep. destruct a as [|z [|z' a]]; simpl in *; try congruence.
      destruct (decide (maspects p = 1)); congruence. }
    split; [simpl; by rewrite !decide_True by lia|].
    eapply eff_iff; [exact He| |].
    + intros k z. simpl. split.
      * intros [?|[[-> ->]|[(_ & _ & _ & ?)|(_ & _ & ls & j & [= <-] & Hj & -> & _)]]]; [by left|by right|done|by right].
      * intros [?|Hk]; [by left|]. right. destruct k as [|k]; simpl in Hk; [left|right; right].
        -- by injection Hk as ->.
        -- split; [done|]. split; [lia|]. exists a, k. apply lookup_lt_Some in Hk as ?. split_and!; [done|done|done|lia].
    + intros z l. unfold joins. split.
      * intros [?|(_ & -> & [= <-] & _)]; [by left|]. by right.
      * intros [?|[-> ->]]; [by left|]. right. split_and!; [done|done|done|lia|lia].
Qed.

Lemma eff_ppre p a b : pwf p -> length a = S (maspects p) -> length b = S (maspects p) ->
  (mfic p = false -> 1 <= maspects p) ->
  exists p', ppre p (interleave a b) = (p', Ok tt) /\
    eff p p' (fun k x => a !! k = Some x \/ b !! k = Some x)
      (fun x l => mfic p = false /\ ((x = node_of a /\ l = player_of (maspects p) a) \/
                                     (x = node_of b /\ l = player_of (maspects p) b))).
Proof.
  intros Hw Ha Hb Hfi. unfold ppre. rewrite link_to_nodes_interleave by congruence.
  assert (exists p1, (if mfic p then
       ofold (fun q kx => padd_layer q (kx.2) (kx.1 / 2)) p (imap pair (take 2 (interleave a b)))
     else
       obind (padd_node p (node_of a) (Some (player_of (maspects p) a)))
             (fun q _ => padd_node q (node_of b) (Some (player_of (maspects q) b)))) = (p1, Ok tt) /\
     exists S1 : nat -> name -> Prop, (forall k x, S1 k x -> a !! k = Some x \/ b !! k = Some x) /\
     (forall x, a !! 0 = Some x \/ b !! 0 = Some x -> S1 0 x) /\
     eff p p1 S1 (fun x l => mfic p = false /\ ((x = node_of a /\ l = player_of (maspects p) a) \/
                                     (x = node_of b /\ l = player_of (maspects p) b)))) as (p1 & E1 & S1 & HS1 & HS2 & He1).
  { destruct (mfic p) eqn:Hf.
    - destruct a as [|i a]; [done|]. destruct b as [|j b]; [done|]. 
      change (take 2 (interleave (i :: a) (j :: b))) with [i; j].
      destruct (eff_layers p (fun kx => kx.1 / 2) (imap pair [i; j]) Hw) as (p1 & E1 & He1).
      { intros q Hq. apply elem_of_cons in Hq as [->|Hq]; [simpl; lia|].
        apply elem_of_cons in Hq as [->|Hq]; [simpl; lia|]. by apply elem_of_nil in Hq. }
      exists p1. split; [done|]. exists (fun k x => k = 0 /\ (x = i \/ x = j)). split_and!.
      + intros k x [-> [->| ->]]; auto.
      + intros x [[= ->]|[= ->]]; auto.
      + eapply eff_iff; [exact He1| |].
        * intros k x. split.
          -- intros [?|(q & Hq & -> & ->)]; [by left|]. right.
             apply elem_of_cons in Hq as [->|Hq]; [simpl; by auto|].
             apply elem_of_cons in Hq as [->|Hq]; [simpl; by auto|]. by apply elem_of_nil in Hq.
          -- intros [?|[-> [->| ->]]]; [by left| |]; right.
             ++ exists (0, i). split_and!; [left|done|done].
             ++ exists (1, j). split_and!; [right; left|done|done].
        * intros x l. split; [tauto|]. intros [?|[? _]]; [by left|done].
    - specialize (Hfi eq_refl). destruct (eff_player p a Hw Hf Hfi Ha) as (p1 & E1 & He1).
      rewrite E1. cbn [obind].
      pose proof (maspects_padds _ _ (eff_adds _ _ _ _ He1)) as Has.
      destruct (eff_player p1 b (eff_wf _ _ _ _ He1)) as (p2 & E2 & He2).
      { by rewrite (pa_fic _ _ (eff_adds _ _ _ _ He1)). } { by rewrite Has. } { by rewrite Has. }
      exists p2. split; [done|]. rewrite Has in He2.
      exists (fun k x => a !! k = Some x \/ b !! k = Some x). split_and!; [done|done|].
      eapply eff_iff; [by eapply eff_trans|done|]. intros x l. tauto. }
  rewrite E1. cbn [obind].
  pose proof (maspects_padds _ _ (eff_adds _ _ _ _ He1)) as Has.
  destruct (eff_layers p1 (fun kx => (kx.1 + 2) / 2) (imap pair (drop 2 (interleave a b)))) as (p2 & E2 & He2).
  { apply (eff_wf _ _ _ _ He1). }
  { intros q (k & y & -> & Hk)%elem_of_lookup_imap. cbn [fst]. apply lookup_lt_Some in Hk.
    rewrite drop_length, interleave_length in Hk by congruence. rewrite Has.
    assert ((k + 2) / 2 < S (maspects p)); [|lia]. apply Nat.div_lt_upper_bound; lia. }
  exists p2. split; [done|]. eapply eff_iff; [by eapply eff_trans| |].
  - intros k x. split.
    + intros [?|[Hk|(q & Hq & -> & ->)]]; [by left|right; by apply HS1|]. right.
      apply elem_of_lookup_imap in Hq as (c & y & -> & Hc). cbn [fst snd].
      rewrite lookup_drop in Hc.
      destruct (Nat.Even_or_Odd c) as [[d ->]|[d ->]].
      * left. replace ((2 * d + 2) / 2) with (S d).
        2:{ replace (2 * d + 2) with (S d * 2) by lia. by rewrite Nat.div_mul. }
        rewrite <- (proj1 (lookup_interleave a b (S d) ltac:(congruence))).
        by replace (2 * S d) with (2 + 2 * d) by lia.
      * right. replace ((2 * d + 1 + 2) / 2) with (S d).
        2:{ replace (2 * d + 1 + 2) with (1 + S d * 2) by lia. by rewrite Nat.div_add. }
        rewrite <- (proj2 (lookup_interleave a b (S d) ltac:(congruence))).
        by replace (2 * S d + 1) with (2 + (2 * d + 1)) by lia.
    + intros [?|Hk]; [by left|]. right. destruct k as [|k]; [left; by apply HS2|]. right.
      rewrite <- (proj1 (lookup_interleave a b (S k) ltac:(congruence))) in Hk.
      rewrite <- (proj2 (lookup_interleave a b (S k) ltac:(congruence))) in Hk.
      destruct Hk as [Hk|Hk].
      * exists (2 * k, x). cbn [fst snd]. split_and!; [|by rewrite Nat.mul_comm, <- Nat.mul_succ_l, Nat.div_mul|done].
        apply elem_of_lookup_imap. exists (2 * k), x. split; [done|]. rewrite lookup_drop.
        by replace (2 + 2 * k) with (2 * S k) by lia.
      * exists (2 * k + 1, x). cbn [fst snd]. split_and!; [| |done].
        -- apply elem_of_lookup_imap. exists (2 * k + 1), x. split; [done|]. rewrite lookup_drop.
           by replace (2 + (2 * k + 1)) with (2 * S k + 1) by lia.
        -- replace (2 * k + 1 + 2) with (1 + S k * 2) by lia. by rewrite Nat.div_add.
  - intros x l. tauto.
Qed.

(** ** Calls on the intra-layer networks *)
Lemma lay_in_pslice_add p x l : lay_in p l -> lay_in (pslice_add p 0 x) l.
Proof. apply lay_in_mono; [done|]. intros k y Hy. apply psl_pslice_add. by left. Qed.
Lemma padd_node_in f p x l m : mfic p = false -> mslices p <> [] -> lay_in p l -> pA p l = Some m ->
  x ∈ net_nodes m -> padd_node_fuel (S f) p x (Some l) = (n2l_add (pslice_add p 0 x) x l, Ok tt).
Proof.
  intros Hf Hne Hl Hm Hxm. cbn [padd_node_fuel]. unfold padd_node_body. rewrite Hf.
  set (p0 := pslice_add p 0 x). assert (Hl0 : lay_in p0 l) by by apply lay_in_pslice_add.
  assert (Hto : padd_node_to_layer (padd_node_fuel f) p0 x l = (n2l_add p0 x l, Ok tt)).
  { unfold padd_node_to_layer.
    assert (HA : pA (n2l_add p0 x l) l = Some m).
    { unfold pA in *. simpl. rewrite Hf in *. by destruct (dget (mA p) l). }
    rewrite HA. by rewrite (proj2 (Base.lin_true _ _) Hxm). }
  destruct l as [y|ls]; simpl in Hl0.
  - destruct Hl0 as [H1 (s & Hs & Hy)]. change (maspects p0) with (maspects p) in H1. rewrite decide_True by done.
    rewrite Hs. rewrite (proj2 (Base.lin_true _ _) Hy). simpl. done.
  - destruct Hl0 as [H1 Hl0]. change (maspects p0) with (maspects p) in H1. rewrite decide_True by done.
    fold padd_loop. rewrite padd_loop_id; [simpl; done|].
    intros k z Hk. apply elem_of_imap_pair in Hk. by apply Hl0.
Qed.
Lemma A_add_node_eq p l m x : pwf p -> pA p l = Some m -> A_add_node p l x = (padd1 p l m x, Ok tt).
Proof.
  intros Hw Hm. pose proof (pA_len p l m Hw Hm) as Hml. unfold A_add_node, intra_add_node. rewrite Hm.
  destruct (mfic p) eqn:Hf.
  - unfold padd_node. cbn [padd_node_fuel]. unfold padd_node_body. f_equal.
    unfold padd1, n2l_add'. cbn [mfic pslice_add pset_slices pset_A]. rewrite Hf.
    unfold put_A. rewrite Hf. unfold pslice_add, pset_slices, pset_A. simpl. f_equal.
    pose proof (slice0 p Hw) as H0. destruct (mslices p) as [|s ss]; [done|]. injection H0 as ->.
    simpl. f_equal. rewrite net_nodes_slice_add by done. rewrite (pA_nodes_fic _ _ _ Hm Hf).
    unfold mnodes. simpl. apply sadd_idem. apply elem_of_sadd. by left.
  - assert (Hne : mslices p <> []). { intros Hn. pose proof (pw_len p Hw) as Hl. by rewrite Hn in Hl. }
    set (p1 := put_A p l (slice_add m 0 x)).
    assert (Hp1 : p1 = pset_A p (dset (mA p) l (slice_add m 0 x))). { unfold p1, put_A. by rewrite Hf. }
    rewrite Hp1. unfold padd_node. rewrite (padd_node_in 1 _ x l (slice_add m 0 x)); [|done|done| | |].
    + cbn [obind]. rewrite n2l_add_id.
      2:{ rewrite mn2lv_add, decide_True by done. apply elem_of_sadd. by left. }
      unfold padd1, n2l_add'. cbn [mfic pslice_add pset_slices pset_A]. by rewrite Hf.
    + apply (lay_in_mono p); [done|done|]. by apply (pA_lay p l m).
    + unfold pA. cbn [mA pset_A mfic]. rewrite dget_dset_eq, Hf. done.
    + rewrite net_nodes_slice_add by done. apply elem_of_sadd. by left.
Qed.

Lemma put_A_spec p l m0 m : pwf p -> pA p l = Some m0 -> slices m = slices m0 ->
  let q := put_A p l m in
  pwf q /\ mcoup q = mcoup p /\ mdir q = mdir p /\ mnoe q = mnoe p /\ mfic q = mfic p /\
  (forall k x, psl q k x <-> psl p k x) /\ (forall x, mn2lv q x = mn2lv p x) /\
  (forall t, pA q t = if decide (t = l) then Some m else pA p t).
Proof.
  intros Hw Hm Hsm q. pose proof (pA_len p l m0 Hw Hm) as Hml.
  destruct (pA_raw _ _ _ Hm) as [r Hr].
  assert (Hms : mslices q = mslices p).
  { unfold q, put_A. destruct (mfic p) eqn:Hf; [|done]. simpl. apply alter_id_lookup.
    intros s Hs. unfold net_nodes. rewrite Hsm. fold (net_nodes m0). rewrite (pA_nodes_fic _ _ _ Hm Hf).
    unfold mnodes. by rewrite Hs. }
  assert (HA : mA q = dset (mA p) l m). { unfold q, put_A. by destruct (mfic p). }
  assert (Hflds : mcoup q = mcoup p /\ mdir q = mdir p /\ mnoe q = mnoe p /\ mfic q = mfic p /\ mn2l q = mn2l p).
  { unfold q, put_A. by destruct (mfic p) eqn:Hf; simpl. }
  destruct Hflds as (Hc & Hd & Hn & Hf & Hnl).
  assert (Has : maspects q = maspects p) by (unfold maspects; by rewrite Hc).
  assert (Hsl : forall k x, psl q k x <-> psl p k x). { intros k x. unfold psl. by rewrite Hms. }
  assert (Hnv : forall x, mn2lv q x = mn2lv p x). { intros x. unfold mn2lv. by rewrite Hnl. }
  assert (Hli : forall t, lay_in q t <-> lay_in p t).
  { intros t. split; apply lay_in_mono; try done; intros ? ? ?; by apply Hsl. }
  assert (HpA : forall t, pA q t = if decide (t = l) then Some m else pA p t).
  { intros t. unfold pA. rewrite HA, dget_dset, Hf. destruct (decide (t = l)) as [->|Hne].
    - destruct (mfic p) eqn:Hfp; [|done]. f_equal. assert (Hmn : mnodes q = mnodes p). { unfold mnodes. by rewrite Hms. }
      rewrite Hmn, <- (pA_nodes_fic _ _ _ Hm Hfp). unfold net_nodes. rewrite <- Hsm. rewrite <- Hsm in Hml.
      destruct m as [? ? ? ? s0 ? ? ? ? ?]. simpl in *. destruct s0 as [|s [|]]; done.
    - unfold mnodes. by rewrite Hms. }
  split_and!; try done. split; rewrite ?Hms, ?Has, ?HA, ?Hf, ?Hnl; try apply Hw.
  - apply NoDup_dset, (pw_keys p Hw).
  - intros t. rewrite Hli, <- (pw_dom p Hw), elem_of_dkeys_dset. split; [|by right].
    intros [->|?]; [|done]. apply elem_of_dkeys. by rewrite Hr.
  - intros t m1. rewrite dget_dset. destruct (decide (t = l)); [|apply (pw_raw p Hw)].
    intros [= <-]. by rewrite Hsm.
  - intros x. rewrite Hnv. apply (pw_n2l_nd p Hw).
  - intros Hfp t m1 x. rewrite dget_dset, Hnv. destruct (decide (t = l)) as [->|]; [|by apply (pw_node p Hw)].
    intros [= <-]. unfold net_nodes. rewrite Hsm. fold (net_nodes m0). apply (pw_node p Hw Hfp).
    unfold pA in Hm. rewrite Hr, Hfp in Hm. congruence.
  - intros x t. rewrite Hnv, Hsl, Hli. apply (pw_n2l p Hw).
Qed.

(** ** Writing a link of an intra-layer network *)
Lemma adds_fields m m' : adds m m' -> nett m' = nett m /\ (fic m = true -> fic m' = true /\ aspects m' = aspects m) /\ noEdge m' = noEdge m /\ directed m' = directed m.
Proof.
  intros (hs & Hf & ->). revert m. induction hs as [|o hs IH]; intros m; [done|].
  apply Forall_cons in Hf as [Ho Hf]. destruct o as [| |x lay|]; try done. cbn [run fold_left].
  change (fold_left (fun m o => (step m o).1) hs ?x) with (run x hs).
  destruct (IH Hf (step m (OpAddNode x lay)).1) as (H1 & H2 & H3 & H4). rewrite H1, H3, H4.
  cbn [step]. unfold add_node.
  assert (Hloop : forall ps n0, nett (ofold add_node_loop n0 ps).1 = nett n0 /\ noEdge (ofold add_node_loop n0 ps).1 = noEdge n0
      /\ directed (ofold add_node_loop n0 ps).1 = directed n0).
  { induction ps as [|q ps IHp]; intros n0; [done|]. cbn [ofold]. unfold add_node_loop at 1 3 5.
    destruct (slices n0 !! S q.1) eqn:Es; [|done]. destruct (lin q.2 l); [apply IHp|].
    unfold add_elayer. rewrite Es. destruct (IHp (slice_add n0 (S q.1) q.2)) as (-> & -> & ->). done. }
  split_and!.
  - destruct lay as [l|]; [|done]. destruct (fic m); [done|]. destruct l as [y|ls].
    + destruct (decide _); [|done]. destruct (slices (slice_add m 0 x) !! 1) eqn:E; [|done]. destruct (lin y l); [done|].
      unfold add_elayer. by rewrite E.
    + destruct (decide _); [|done]. fold add_node_loop. specialize (Hloop (imap pair ls) (slice_add m 0 x)).
      destruct (ofold add_node_loop _ _) as [m1 [[]|e]]; simpl in *; by destruct Hloop as (-> & _).
  - intros Hfi. revert H2. cbn [step]. unfold add_node. destruct lay as [l|]; [|intros H2; destruct (H2 Hfi); done].
    rewrite Hfi. intros H2. destruct (H2 Hfi). done.
  - destruct lay as [l|]; [|done]. destruct (fic m); [done|]. destruct l as [y|ls].
    + destruct (decide _); [|done]. destruct (slices (slice_add m 0 x) !! 1) eqn:E; [|done]. destruct (lin y l); [done|].
      unfold add_elayer. by rewrite E.
    + destruct (decide _); [|done]. fold add_node_loop. specialize (Hloop (imap pair ls) (slice_add m 0 x)).
      destruct (ofold add_node_loop _ _) as [m1 [[]|e]]; simpl in *; by destruct Hloop as (_ & -> & _).
  - destruct lay as [l|]; [|done]. destruct (fic m); [done|]. destruct l as [y|ls].
    + destruct (decide _); [|done]. destruct (slices (slice_add m 0 x) !! 1) eqn:E; [|done]. destruct (lin y l); [done|].
      unfold add_elayer. by rewrite E.
    + destruct (decide _); [|done]. fold add_node_loop. specialize (Hloop (imap pair ls) (slice_add m 0 x)).
      destruct (ofold add_node_loop _ _) as [m1 [[]|e]]; simpl in *; by destruct Hloop as (_ & _ & ->).
Qed.
Lemma hist_run asp noe dir fi g m hs : hist asp noe dir fi g m -> hist asp noe dir fi (g ++ hs) (run m hs).
Proof.
  revert g m. induction hs as [|o hs IH]; intros g m H; [by rewrite app_nil_r|].
  change (o :: hs) with ([o] ++ hs). rewrite app_assoc. apply IH. by constructor.
Qed.
Lemma step_intra m i j w : aspects m = 0 -> fic m = true -> i ∈ net_nodes m -> j ∈ net_nodes m ->
  step m (OpSet [i; j] w) = set_link m [i; j] w.
Proof.
  intros Ha Hf Hi Hj. cbn [step]. unfold setitem, setitem_link. rewrite Ha. cbn [link_to_nodes].
  rewrite decide_True by done. change (link_to_nodes [i; j]) with ([i], [j]). rewrite Hf.
  assert (Hadd : forall x k, x ∈ net_nodes m -> k = 0 -> add_layer m x k = (m, Ok tt)).
  { intros x k Hx ->. unfold add_layer. simpl. unfold add_node. f_equal. unfold slice_add.
    rewrite alter_id_lookup; [by destruct m|]. intros s Hs. apply sadd_idem. unfold net_nodes in Hx. by rewrite Hs in Hx. }
  cbn [imap take ofold fst snd]. rewrite (Hadd i) by done. rewrite (Hadd j) by done. done.
Qed.

Lemma A_setitem_spec p l i j w m g : pwf p -> pA p l = Some m -> hist 0 0 (mdir p) true g m ->
  exists p' r m1, A_setitem p l [i; j] w = (p', r) /\ pwf p' /\
    mcoup p' = mcoup p /\ mdir p' = mdir p /\ mnoe p' = mnoe p /\ mfic p' = mfic p /\
    (forall k x, psl p' k x <-> psl p k x \/ (k = 0 /\ (x = i \/ x = j))) /\
    (forall x t, t ∈ mn2lv p' x <-> t ∈ mn2lv p x \/ (mfic p = false /\ t = l /\ (x = i \/ x = j))) /\
    adds m m1 /\ step m1 (OpSet [i; j] w) = ((step m1 (OpSet [i; j] w)).1, r) /\
    pA p' l = Some (step m1 (OpSet [i; j] w)).1 /\
    (forall t m0, t <> l -> pA p t = Some m0 -> exists m0', pA p' t = Some m0' /\ adds m0 m0') /\
    (forall t, t <> l -> pA p t = None -> pA p' t = None) /\
    (r = Ok tt \/ r = Err KeyError /\ i = j /\ w = 0%Z /\ mdir p = false /\ i ∈ net_nodes m).
Proof.
  intros Hw Hm Hg. unfold A_setitem. rewrite Hm. rewrite decide_True by done.
  cbn [take ofold]. rewrite (A_add_node_eq p l m i Hw Hm).
  destruct (eff_add1 p l m i Hw Hm) as [He1 Hm1]. set (p1 := padd1 p l m i) in *. set (m1 := slice_add m 0 i) in *.
  pose proof (eff_wf _ _ _ _ He1) as Hw1.
  rewrite (A_add_node_eq p1 l m1 j Hw1 Hm1).
  destruct (eff_add1 p1 l m1 j Hw1 Hm1) as [He2 Hm2]. set (p2 := padd1 p1 l m1 j) in *. set (m2 := slice_add m1 0 j) in *.
  pose proof (eff_wf _ _ _ _ He2) as Hw2. cbn [obind]. rewrite Hm2.
  pose proof (eff_trans _ _ _ _ _ _ _ He1 He2) as He. pose proof (eff_adds _ _ _ _ He) as Hpa.
  assert (Hadds : adds m m2) by (eapply adds_trans; apply adds_slice_add).
  destruct (set_link m2 [i; j] w) as [m' r] eqn:Es.
  pose proof Hadds as (hs & Hhs & Hm2run).
  assert (Hg2 : hist 0 0 (mdir p) true (g ++ hs) m2). { rewrite Hm2run. by apply hist_run. }
  destruct (hist_inv _ _ _ _ _ _ Hg2) as [HS2 HL2 Ha2 Hn2 Hd2 Hf2]. change (fic m2 = true) in Hf2.
  assert (Hin : i ∈ net_nodes m2 /\ j ∈ net_nodes m2).
  { pose proof (pA_len p l m Hw Hm) as Hl0. pose proof (pA_len p1 l m1 Hw1 Hm1) as Hl1.
    unfold m2. rewrite net_nodes_slice_add by done. unfold m1. rewrite net_nodes_slice_add by done.
    rewrite !elem_of_sadd. auto. }
  destruct Hin as [Hi2 Hj2].
  assert (Hpi : forall x, x ∈ net_nodes m2 -> present m2 [x]).
  { intros x Hx. apply elem_of_iter_node_layers; [done|]. split; [|congruence].
    apply nl_in_slices_sl. rewrite (wfS_len _ HS2), Ha2. split; [done|]. intros k y Hk.
    destruct k; [|by rewrite lookup_cons in Hk]. injection Hk as <-. by apply net_nodes_sl. }
  pose proof (step_intra m2 i j w Ha2 Hf2 Hi2 Hj2) as Hst.
  destruct (set_link_spec m2 [i] [j] w m' r HS2 HL2 (Hpi i Hi2) (Hpi j Hj2) Es) as (Hss & _ & _ & Hr & _).
  destruct (put_A_spec p2 l m2 m' Hw2 Hm2 (ss_sl _ _ Hss)) as (Hwq & Hcq & Hdq & Hnq & Hfq & Hslq & Hnvq & HpAq).
  exists (put_A p2 l m'), r, m2. rewrite Hst, Es.
  split; [done|]. split; [done|].
  split; [rewrite Hcq; apply (pa_coup _ _ Hpa)|].
  split; [rewrite Hdq; apply (pa_dir _ _ Hpa)|].
  split; [rewrite Hnq; apply (pa_noe _ _ Hpa)|].
  split; [rewrite Hfq; apply (pa_fic _ _ Hpa)|].
  split. { intros k x. rewrite Hslq, (eff_sl _ _ _ _ He). tauto. }
  split. { intros x t. rewrite Hnvq, (eff_n2l _ _ _ _ He), (pa_fic _ _ (eff_adds _ _ _ _ He1)). tauto. }
  split; [done|]. split; [done|]. split; [by rewrite HpAq, decide_True|].
  split. { intros t m0 Ht Hm0. rewrite HpAq, decide_False by done. by apply (pa_old _ _ Hpa). }
  split. { intros t Ht Hn. rewrite HpAq, decide_False by done.
           destruct (pA p2 t) as [m0|] eqn:E; [|done]. exfalso.
           assert (pA p1 t = None) as Hn1.
           { destruct (pA p1 t) as [m0'|] eqn:E1; [|done]. 
             apply pA_lay in E1 as [E1 E1']; [|done]. rewrite (maspects_padds _ _ (eff_adds _ _ _ _ He1)) in E1'.
             destruct (lay_pA p t) as [? ?]; [done| |done|congruence].
             revert E1. destruct t as [y|ls]; simpl; rewrite (maspects_padds _ _ (eff_adds _ _ _ _ He1)).
             - intros [? Hy]. split; [done|]. by apply (eff_sl _ _ _ _ He1) in Hy as [?|[? _]].
             - intros [? Hy]. split; [done|]. intros k y Hk. specialize (Hy k y Hk).
               by apply (eff_sl _ _ _ _ He1) in Hy as [?|[? _]]. }
           apply pA_lay in E as [E E']; [|done]. rewrite (maspects_padds _ _ (eff_adds _ _ _ _ He2)) in E'.
           destruct (lay_pA p1 t) as [? ?]; [done| |done|congruence].
           revert E. destruct t as [y|ls]; simpl; rewrite (maspects_padds _ _ (eff_adds _ _ _ _ He2)).
           - intros [? Hy]. split; [done|]. by apply (eff_sl _ _ _ _ He2) in Hy as [?|[? _]].
           - intros [? Hy]. split; [done|]. intros k y Hk. specialize (Hy k y Hk).
             by apply (eff_sl _ _ _ _ He2) in Hy as [?|[? _]]. }
  rewrite Hr, Hn2, Hd2. gdec as [(-> & Hd & [= ->] & Hl)|]; [right|by left].
  split_and!; [done|done|done|done|].
  assert (Hlm : is_Some (lnk m [j] [j])).
  { unfold lnk in *. destruct (adds_fields _ _ Hadds) as (Hne & _). by rewrite Hne in Hl. }
  destruct (hist_inv _ _ _ _ _ _ Hg) as [HS HL _ _ _ _].
  destruct Hlm as [v Hv]. apply (wfL_present _ HL) in Hv as [Hv _].
  apply elem_of_iter_node_layers in Hv as [Hv _]; [|done]. apply nl_in_slices_sl in Hv as [_ Hv].
  apply net_nodes_sl. by apply (Hv 0).
Qed.

(** ** Which aspects differ *)
Lemma inter_aspects_cons x y a b : inter_aspects (x :: a) (y :: b) =
  (if decide (x = y) then [] else [0]) ++ (S <$> inter_aspects a b).
Proof.
  unfold inter_aspects. cbn [zip zip_with imap]. rewrite filter_cons. cbn [fst snd].
  assert (Hs : forall l : list (name * name), 
    fst <$> filter (fun q : nat * (name * name) => q.2.1 <> q.2.2) (imap (pair ∘ S) l)
    = S <$> (fst <$> filter (fun q : nat * (name * name) => q.2.1 <> q.2.2) (imap pair l))).
  { intros l. assert (Hi : imap (pair ∘ S) l = prod_map S id <$> imap pair l).
    { rewrite fmap_imap. apply imap_ext. done. }
    rewrite Hi. generalize (imap pair l). clear. intros l. induction l as [|q l IH]; [done|].
    change (prod_map S id <$> q :: l) with ((S q.1, q.2) :: (prod_map S id <$> l)). rewrite !filter_cons. cbn [fst snd].
    destruct (decide (q.2.1 <> q.2.2)); [|done]. rewrite !fmap_cons. cbn [fst]. f_equal. apply IH. }
  destruct (decide (x <> y)) as [H|H], (decide (x = y)) as [H'|H']; try (by exfalso; tauto).
  - rewrite fmap_cons. simpl. f_equal. apply Hs.
  - simpl. apply Hs.
Qed.
Lemma inter_aspects_nil a b : length a = length b -> inter_aspects a b = [] <-> a = b.
Proof.
  revert b. induction a as [|x a IH]; intros [|y b] Hl; try done. injection Hl as Hl.
  rewrite inter_aspects_cons. destruct (decide (x = y)) as [->|Hne].
  - simpl. specialize (IH b Hl). split.
    + intros Hn%fmap_nil_inv. f_equal. by apply IH.
    + intros [= ->]. by rewrite (proj2 IH).
  - simpl. split; [done|congruence].
Qed.
Lemma inter_aspects_zero a b : length a = length b -> a <> [] ->
  inter_aspects a b = [0] <-> node_of a <> node_of b /\ tail a = tail b.
Proof.
  destruct a as [|x a], b as [|y b]; try done. intros Hl _. injection Hl as Hl. rewrite inter_aspects_cons. simpl.
  change (node_of (x :: a)) with x. change (node_of (y :: b)) with y.
  destruct (decide (x = y)) as [->|Hne]; simpl.
  - split; [|tauto]. destruct (inter_aspects a b); simpl; [done|]. by intros [= ?].
  - rewrite <- inter_aspects_nil by done. split.
    + intros [= Hn]. split; [done|]. by apply fmap_nil_inv in Hn.
    + intros [_ ->]. done.
Qed.

(** ** One call *)
Definition wl (asp : nat) (l : layer) (ow : option (nl * nl * Z)) : option (name * name * Z) :=
  match ow with
  | Some (a, b, w) =>
      if decide (1 <= asp /\ player_of asp a = l /\ player_of asp b = l /\ node_of a <> node_of b)
      then Some (node_of a, node_of b, w) else None
  | None => None
  end.
Definition mwrite (asp : nat) (dir : bool) (l : layer) (e : call) : option (name * name * Z) :=
  match e.1 with
  | MSet item w => wl asp l (write_of asp (OpSet item w))
  | MNodeSet a b w => wl asp l (write_of asp (OpNodeSet a b w))
  | MASet l' [i; j] w =>
      if decide (l' = l /\ (e.2 = Ok tt \/ (i = j /\ w = 0%Z /\ dir = false))) then Some (i, j, w) else None
  | _ => None
  end.
Definition evolves (m : mlnet) (ow : option (name * name * Z)) (m' : mlnet) : Prop :=
  exists m1, adds m m1 /\
    match ow with None => m' = m1 | Some (i, j, w) => m' = (step m1 (OpSet [i; j] w)).1 end.
Lemma adds_evolves m m' : adds m m' -> evolves m None m'.
Proof. by exists m'. Qed.
Lemma evolves_pre m m1 ow m' : adds m m1 -> evolves m1 ow m' -> evolves m ow m'.
Proof. intros H1 (m2 & H2 & H3). exists m2. split; [by eapply adds_trans|done]. Qed.

(** The effect of a call: [W l] is what it assigns on layer [l], [S] the names
    and [N] the node-layers it adds. *)
Record meff (p p' : mpx) (W : layer -> option (name * name * Z)) (S : nat -> name -> Prop) (N : name -> layer -> Prop) : Prop := {
  me_wf : pwf p';
  me_coup : mcoup p' = mcoup p;
  me_dir : mdir p' = mdir p;
  me_noe : mnoe p' = mnoe p;
  me_fic : mfic p' = mfic p;
  me_old : forall l m, pA p l = Some m -> exists m', pA p' l = Some m' /\ evolves m (W l) m';
  me_new : forall l m', pA p l = None -> pA p' l = Some m' -> evolves (empty_intra p) (W l) m';
  me_none : forall l i j w, pA p' l = None -> W l = Some (i, j, w) -> i = j /\ w = 0%Z;
  me_sl : forall k x, psl p' k x <-> psl p k x \/ S k x;
  me_n2l : forall x l, l ∈ mn2lv p' x <-> l ∈ mn2lv p x \/ N x l;
}.
Lemma eff_meff p p' S N W : eff p p' S N ->
  (forall l, (exists i, W l = Some (i, i, 0%Z) /\ pA p' l = None) \/ W l = None) -> meff p p' W S N.
Proof.
  intros He HW. pose proof (eff_adds _ _ _ _ He) as Ha.
  assert (HW' : forall l m, pA p' l = Some m -> W l = None).
  { intros l m Hm. destruct (HW l) as [(i & _ & Hn)|?]; [congruence|done]. }
  split; try apply Ha; try apply He.
  - intros l m Hm. destruct (pa_old _ _ Ha l m Hm) as (m' & Hm' & Had). exists m'. split; [done|].
    rewrite (HW' l m' Hm'). by apply adds_evolves.
  - intros l m' Hn Hm'. rewrite (HW' l m' Hm'). apply adds_evolves. by apply (pa_new _ _ Ha l).
  - intros l i j w _ Hl. destruct (HW l) as [(i' & Hi & _)|?]; [|congruence]. rewrite Hl in Hi. by injection Hi as -> -> ->.
Qed.
Lemma meff_iff p p' W W' S S' N N' : meff p p' W S N -> (forall l, W l = W' l) ->
  (forall k x, psl p k x \/ S k x <-> psl p k x \/ S' k x) ->
  (forall x l, l ∈ mn2lv p x \/ N x l <-> l ∈ mn2lv p x \/ N' x l) -> meff p p' W' S' N'.
Proof.
  intros H HW H1 H2. destruct H. split; try done.
  - intros l m Hm. rewrite <- HW. eauto.
  - intros l m Hm. rewrite <- HW. eauto.
  - intros l i j w. rewrite <- HW. eauto.
  - intros k x. rewrite me_sl0. apply H1.
  - intros x l. rewrite me_n2l0. apply H2.
Qed.
Lemma meff_pre p p1 p' S S' N N' W : eff p p1 S N -> meff p1 p' W S' N' ->
  meff p p' W (fun k x => S k x \/ S' k x) (fun x l => N x l \/ N' x l).
Proof.
  intros [Hw1 Ha H1 H2] []. split; try (etrans; [eassumption|apply Ha]); try done.
  - intros l m Hm. destruct (pa_old _ _ Ha l m Hm) as (m1 & Hm1 & Had). destruct (me_old0 l m1 Hm1) as (m' & Hm' & He).
    exists m'. split; [done|]. by eapply evolves_pre.
  - intros l m' Hn Hm'. destruct (pA p1 l) as [m1|] eqn:E.
    + destruct (me_old0 l m1 E) as (m'' & Hm'' & He). rewrite Hm'' in Hm'. injection Hm' as ->.
      eapply evolves_pre; [|exact He]. by apply (pa_new _ _ Ha l).
    + specialize (me_new0 l m' E Hm'). unfold empty_intra in *. by rewrite (pa_dir _ _ Ha) in me_new0.
  - intros k x. rewrite me_sl0, H1. tauto.
  - intros x l. rewrite me_n2l0, H2. tauto.
Qed.

Lemma ASet_meff p l i j w m g : pwf p -> pA p l = Some m -> hist 0 0 (mdir p) true g m ->
  exists p' r, A_setitem p l [i; j] w = (p', r) /\
    meff p p' (fun t => if decide (l = t) then Some (i, j, w) else None)
      (fun k x => k = 0 /\ (x = i \/ x = j)) (fun x t => mfic p = false /\ t = l /\ (x = i \/ x = j)) /\
    (r = Ok tt \/ r = Err KeyError /\ i = j /\ w = 0%Z /\ mdir p = false /\ i ∈ net_nodes m).
Proof.
  intros Hw Hm Hg. destruct (A_setitem_spec p l i j w m g Hw Hm Hg)
    as (p' & r & m1 & E & Hw' & H1 & H2 & H3 & H4 & H5 & H6 & H7 & H8 & H9 & H10 & H11 & H12).
  exists p', r. split; [done|]. split; [|done]. split; try done.
  - intros t m0 Hm0. destruct (decide (l = t)) as [<-|Hne].
    + rewrite Hm in Hm0. injection Hm0 as <-. eexists. split; [exact H9|]. exists m1. done.
    + destruct (H10 t m0) as (m0' & Hm0' & Had); [done|done|]. exists m0'. split; [done|]. by apply adds_evolves.
  - intros t m' Hn Hm'. exfalso. destruct (decide (t = l)) as [->|Hne]; [congruence|].
    specialize (H11 t Hne Hn). congruence.
  - intros t i' j' w' Hn. destruct (decide (l = t)) as [<-|Hne]; [congruence|done].
Qed.

Definition passign (p : mpx) (a b : nl) (w : Z) : out mpx unit :=
  obind (ppre p (interleave a b)) (fun p2 _ => pset_link p2 (interleave a b) w).
Definition intra_pair (asp : nat) (a b : nl) : Prop := 1 <= asp /\ tail a = tail b /\ node_of a <> node_of b.
Global Instance intra_pair_dec asp a b : Decision (intra_pair asp a b).
Proof. unfold intra_pair. apply _. Defined.
Definition hviews (p : mpx) : Prop := forall l m, pA p l = Some m -> exists g, hist 0 0 (mdir p) true g m.

Lemma adds_hist asp noe dir fi g m m' : hist asp noe dir fi g m -> adds m m' ->
  exists hs, Forall is_addnode hs /\ hist asp noe dir fi (g ++ hs) m'.
Proof. intros H (hs & Hf & ->). exists hs. split; [done|]. by apply hist_run. Qed.

Lemma eff_hviews p p' S N : hviews p -> eff p p' S N -> hviews p'.
Proof.
  intros Hh He l m' Hm'. pose proof (eff_adds _ _ _ _ He) as Ha. rewrite (pa_dir _ _ Ha).
  destruct (pA p l) as [m|] eqn:E.
  - destruct (pa_old _ _ Ha l m E) as (m'' & Hm'' & Had). rewrite Hm'' in Hm'. injection Hm' as ->.
    destruct (Hh l m E) as [g Hg]. destruct (adds_hist _ _ _ _ _ _ _ Hg Had) as (hs & _ & H). eauto.
  - pose proof (pa_new _ _ Ha l m' E Hm') as Had.
    destruct (adds_hist 0 0 (mdir p) true [] _ _ (hist_init 0 0 (mdir p) true) Had) as (hs & _ & H). eauto.
Qed.

Lemma ppre_bare p a b : maspects p = 0 -> mfic p = false -> length a = 1 -> length b = 1 ->
  ppre p (interleave a b) = (pslice_add p 0 (node_of a), Err AssertionError).
Proof.
  intros Ha Hf H1 H2. destruct a as [|x [|]]; try done. destruct b as [|y [|]]; try done.
  unfold ppre. rewrite link_to_nodes_interleave by done. rewrite Hf.
  change (player_of (maspects p) [x]) with (LTup []). unfold padd_node. cbn [padd_node_fuel]. unfold padd_node_body at 1.
  rewrite Hf, Ha. rewrite decide_False by lia. done.
Qed.

Lemma passign_meff p a b w p' r : pwf p -> hviews p -> length a = S (maspects p) -> length b = S (maspects p) ->
  passign p a b w = (p', r) -> 
  meff p p' (fun l => wl (maspects p) l (Some (a, b, w)))
    (fun k x => if decide (maspects p = 0 /\ mfic p = false) then k = 0 /\ x = node_of a
                else a !! k = Some x \/ b !! k = Some x)
    (fun x l => mfic p = false /\ 1 <= maspects p /\
                ((x = node_of a /\ l = player_of (maspects p) a) \/ (x = node_of b /\ l = player_of (maspects p) b))) /\
  r = (if decide (maspects p = 0 /\ mfic p = false) then Err AssertionError
       else if decide (intra_pair (maspects p) a b) then Ok tt else Err KeyError).
Proof.
  intros Hw Hh Ha Hb. unfold passign.
  assert (Hwl0 : ~ intra_pair (maspects p) a b -> forall l, wl (maspects p) l (Some (a, b, w)) = None).
  { intros Hn l. unfold wl. rewrite decide_False; [done|]. intros (H1 & H2 & H3 & H4). apply Hn. split; [done|].
    split; [|done]. apply (player_inj (maspects p)); [done..|congruence]. }
  destruct (decide (maspects p = 0 /\ mfic p = false)) as [[H0 Hf]|Hnb].
  { rewrite ppre_bare by congruence. cbn [obind]. intros [= <- <-]. split; [|done].
    eapply meff_iff; [apply (eff_meff _ _ _ _ (fun l => wl (maspects p) l (Some (a, b, w))) (eff_add_plain p (node_of a) Hw))| done | done |].
    - intros l. right. apply Hwl0. intros [? _]. lia.
    - intros x l. split; [tauto|]. intros [?|(_ & ? & _)]; [by left|lia]. }
  destruct (eff_ppre p a b Hw Ha Hb) as (p1 & E1 & He1).
  { intros Hf. destruct (decide (maspects p = 0)); [exfalso; auto|lia]. }
  rewrite E1. cbn [obind]. pose proof (eff_adds _ _ _ _ He1) as Had. pose proof (maspects_padds _ _ Had) as Has.
  pose proof (eff_wf _ _ _ _ He1) as Hw1.
  assert (Hfin : forall q r', pset_link p1 (interleave a b) w = (q, r') ->
     meff p1 q (fun l => wl (maspects p) l (Some (a, b, w)))
       (fun k x => intra_pair (maspects p) a b /\ k = 0 /\ (x = node_of a \/ x = node_of b))
       (fun x t => intra_pair (maspects p) a b /\ mfic p1 = false /\ t = player_of (maspects p) a /\ (x = node_of a \/ x = node_of b)) /\
     r' = if decide (intra_pair (maspects p) a b) then Ok tt else Err KeyError).
  { intros q r'. unfold pset_link. rewrite link_to_nodes_interleave by congruence.
    assert (Hz : inter_aspects a b = [0] <-> node_of a <> node_of b /\ tail a = tail b).
    { apply inter_aspects_zero; [congruence|]. by destruct a. }
    assert (Hkey : (q, r') = (p1, Err KeyError) -> ~ intra_pair (maspects p) a b ->
       meff p1 q (fun l => wl (maspects p) l (Some (a, b, w)))
       (fun k x => intra_pair (maspects p) a b /\ k = 0 /\ (x = node_of a \/ x = node_of b))
       (fun x t => intra_pair (maspects p) a b /\ mfic p1 = false /\ t = player_of (maspects p) a /\ (x = node_of a \/ x = node_of b)) /\
     r' = if decide (intra_pair (maspects p) a b) then Ok tt else Err KeyError).
    { intros [= -> ->] Hni. rewrite decide_False by done. split; [|done].
      eapply meff_iff; [apply (eff_meff _ _ _ _ (fun l => wl (maspects p) l (Some (a, b, w))) (eff_refl p1 Hw1))|done| |].
      - intros l. right. by apply Hwl0.
      - intros k x. split; [tauto|]. intros [?|[? _]]; [by left|done].
      - intros k x. split; [tauto|]. intros [?|[? _]]; [by left|done]. }
    destruct (decide (inter_aspects a b = [0])) as [Hi|Hi].
    - rewrite Hi. apply Hz in Hi as [Hne Htl].
      destruct (decide (1 <= maspects p)) as [H1|H1].
      + assert (Hip : intra_pair (maspects p) a b) by done.
        rewrite Has, lkey_player by done.
        destruct (lay_pA p1 (player_of (maspects p) a)) as [m Hm]; [done| | |].
        { pose proof (player_form (maspects p) a Ha H1) as Hfo.
          assert (Hin : forall k x, a !! k = Some x -> psl p1 k x). { intros k x Hk. apply (eff_sl _ _ _ _ He1). auto. }
          destruct a as [|i a]; [done|]. destruct a as [|y [|z a]]; simpl in Ha, Hfo |- *; [lia| |].
          - rewrite decide_True by lia. simpl. rewrite Has. split; [lia|]. by apply (Hin 1).
          - rewrite Has. split; [lia|]. intros k x Hk. by apply (Hin (S k)). }
        { rewrite Has. by apply player_form. }
        destruct (eff_hviews _ _ _ _ Hh He1 _ _ Hm) as [g Hg].
        destruct (ASet_meff p1 _ (node_of a) (node_of b) w m g Hw1 Hm Hg) as (q' & r'' & E2 & Hme & Hr).
        rewrite E2. intros [= <- <-]. rewrite decide_True by done. split.
        * eapply meff_iff; [exact Hme| |tauto|tauto]. intros l. unfold wl.
          assert (Hpp : player_of (maspects p) a = player_of (maspects p) b) by by apply player_inj.
          rewrite <- Hpp. destruct (decide (player_of (maspects p) a = l)) as [Hl|Hl].
          -- by rewrite decide_True.
          -- rewrite decide_False; [done|]. tauto.
        * destruct Hr as [->|(_ & ? & _)]; [done|congruence].
      + assert (pA p1 (lkey (maspects p1) (tail a)) = None) as Hn.
        { rewrite Has. replace (maspects p) with 0 by lia. unfold lkey. simpl.
          destruct (pA p1 (LTup (tail a))) eqn:E; [|done]. apply pA_lay in E as [_ [E _]]; [|done]. lia. }
        unfold A_setitem. rewrite Hn. intros E. apply Hkey; [done|]. intros [? _]. lia.
    - intros E. apply Hkey.
      + destruct (inter_aspects a b) as [|[|k] [|]]; congruence.
      + intros (_ & ? & ?). by apply Hi, Hz. }
  intros E. destruct (Hfin p' r E) as [Hme ->]. split; [|done].
  eapply meff_iff; [by eapply meff_pre|done| |].
  - intros k x. cbv beta. split; [|tauto]. intros [?|[?|(_ & -> & Hx)]]; [by left|by right|]. right.
    destruct a as [|i a]; [done|]. destruct b as [|j b]; [done|]. destruct Hx as [->| ->]; [by left|by right].
  - intros x l. cbv beta. rewrite (pa_fic _ _ Had). split.
    + intros [?|[(Hf & Hx)|((H1 & Htl & Hne) & Hf & -> & Hx)]]; [by left| |]; right; (split; [done|]).
      * split; [|done]. destruct (decide (maspects p = 0)); [exfalso; auto|lia].
      * split; [done|]. assert (player_of (maspects p) a = player_of (maspects p) b) by by apply player_inj.
        destruct Hx as [->| ->]; auto.
    + intros [?|(Hf & H1 & Hx)]; [by left|]. right. left. done.
Qed.

Lemma mstep_set p item w : mstep p (MSet item w) =
  match write_of (maspects p) (OpSet item w) with
  | Some (a, b, _) => passign p a b w | None => (p, Err KeyError) end.
Proof.
  cbn [mstep write_of]. set (d := S (maspects p)).
  assert (Hcase : (length item = 2 * d /\ psetitem_link p item = Ok item) \/
     (length item <> 2 * d /\ length item = d + 1 /\ psetitem_link p item = Ok (short_link_to_link item)) \/
     (length item <> 2 * d /\ length item <> d + 1 /\ psetitem_link p item = Err KeyError)).
  { unfold psetitem_link. fold d. destruct (decide (length item = 2 * d)); [by left|].
    destruct (decide (length item = d + 1)); [right; left; done|right; right; done]. }
  destruct Hcase as [[H1 H2]|[(H1 & H3 & H2)|(H1 & H3 & H2)]].
  - rewrite decide_True by done. rewrite (psetitem_ppre _ _ _ _ H2). unfold passign.
    destruct (even_split item d H1) as (_ & _ & E). by rewrite E.
  - rewrite decide_False by done. rewrite decide_True by done. rewrite (psetitem_ppre _ _ _ _ H2).
    destruct item as [|i [|j ss]]; simpl in H3; [lia|lia|]. rewrite short_link_spec.
    rewrite evens_interleave, odds_interleave by done. done.
  - rewrite !decide_False by done. unfold psetitem. by rewrite H2.
Qed.
Lemma mstep_nodeset p a b w : mstep p (MNodeSet a b w) =
  match write_of (maspects p) (OpNodeSet a b w) with
  | Some (a, b, _) => passign p a b w
  | None => (p, Err (if decide (length a = S (maspects p)) then AssertionError else KeyError)) end.
Proof.
  cbn [mstep write_of]. unfold pnode_setitem. destruct (decide (length a = S (maspects p))) as [H1|H1].
  - destruct (decide (length a = length b)) as [H2|H2].
    + rewrite decide_True by (split; congruence). assert (psetitem_link p (interleave a b) = Ok (interleave a b)) as Hl.
      { unfold psetitem_link. rewrite interleave_length by done. rewrite decide_True by lia. done. }
      by rewrite (psetitem_ppre _ _ _ _ Hl).
    + rewrite decide_False; [done|]. intros [? ?]. congruence.
  - rewrite decide_False by tauto. done.
Qed.

Lemma full_form_same asp l : full_form asp l <-> mlayer_form asp l.
Proof. done. Qed.
Lemma nl_of_eq asp x l a : mlayer_form asp l -> length a = S asp ->
  nl_of x l = a <-> x = node_of a /\ l = player_of asp a.
Proof.
  intros Hl Ha. destruct (nl_of_form asp x l Hl) as (H1 & H2 & H3 & H4). split.
  - intros <-. done.
  - intros [-> ->]. apply nl_of_player. by destruct a.
Qed.
Lemma mwrite_kind p o r l : 
  (match o with MSet _ _ | MNodeSet _ _ _ | MASet _ _ _ => False | _ => True end) -> mwrite (maspects p) (mdir p) l (o, r) = None.
Proof. by destruct o. Qed.

Lemma elem_of_pair {A} (x i j : A) : x ∈ [i; j] <-> x = i \/ x = j.
Proof. rewrite !elem_of_cons, elem_of_nil. tauto. Qed.
Lemma mstep_meff p o p' r : pwf p -> hviews p -> mstep p o = (p', r) ->
  exists S N, meff p p' (fun l => mwrite (maspects p) (mdir p) l (o, r)) S N /\
    (1 <= maspects p -> forall k x, psl p k x \/ S k x <-> psl p k x \/ mmentions (maspects p) (mfic p) (o, r) k x) /\
    (mfic p = false -> forall x l, mlayer_form (maspects p) l ->
       l ∈ mn2lv p x \/ N x l <-> l ∈ mn2lv p x \/ mcreates (maspects p) (o, r) x l).
Proof.
  intros Hw Hh.
  assert (Hpassign : forall a b w (o' : op), write_of (maspects p) o' = Some (a, b, w) -> passign p a b w = (p', r) ->
    (forall l, mwrite (maspects p) (mdir p) l (o, r) = wl (maspects p) l (Some (a, b, w))) ->
    (forall k x, mmentions (maspects p) (mfic p) (o, r) k x <-> a !! k = Some x \/ b !! k = Some x) ->
    (forall x l, mcreates (maspects p) (o, r) x l <-> mlayer_form (maspects p) l /\ (nl_of x l = a \/ nl_of x l = b)) ->
   exists S N, meff p p' (fun l => mwrite (maspects p) (mdir p) l (o, r)) S N /\
    (1 <= maspects p -> forall k x, psl p k x \/ S k x <-> psl p k x \/ mmentions (maspects p) (mfic p) (o, r) k x) /\
    (mfic p = false -> forall x l, mlayer_form (maspects p) l ->
       l ∈ mn2lv p x \/ N x l <-> l ∈ mn2lv p x \/ mcreates (maspects p) (o, r) x l)).
  { intros a b w o' Hwo E HW HS HN. destruct (write_of_length _ _ _ _ _ Hwo) as [Ha Hb].
    destruct (passign_meff p a b w p' r Hw Hh Ha Hb E) as [Hme _]. eexists _, _.
    split; [eapply meff_iff; [exact Hme|by intros; rewrite HW|done|done]|]. split.
    - intros H1 k x. rewrite HS. rewrite decide_False by lia. done.
    - intros Hf x l Hl. rewrite HN, (nl_of_eq _ x l a Hl Ha), (nl_of_eq _ x l b Hl Hb).
      destruct (nl_of_form _ x l Hl) as (_ & H1 & _). tauto. }
  assert (Hnone : (p', r) = (p, r) -> (forall l, mwrite (maspects p) (mdir p) l (o, r) = None) ->
    (forall k x, ~ mmentions (maspects p) (mfic p) (o, r) k x) -> (forall x l, ~ mcreates (maspects p) (o, r) x l) ->
    exists S N, meff p p' (fun l => mwrite (maspects p) (mdir p) l (o, r)) S N /\
    (1 <= maspects p -> forall k x, psl p k x \/ S k x <-> psl p k x \/ mmentions (maspects p) (mfic p) (o, r) k x) /\
    (mfic p = false -> forall x l, mlayer_form (maspects p) l ->
       l ∈ mn2lv p x \/ N x l <-> l ∈ mn2lv p x \/ mcreates (maspects p) (o, r) x l)).
  { intros [= ->] HW HS HN. eexists _, _. split.
    - apply (eff_meff _ _ _ _ _ (eff_refl p Hw)). intros l. right. apply HW.
    - split; [intros _ k x; specialize (HS k x); tauto|]. intros _ x l _. specialize (HN x l). tauto. }
  destruct o as [item w|a b w|l item w|x lay|y k|l x].
  - rewrite mstep_set. intros E. destruct (write_of (maspects p) (OpSet item w)) as [[[a b] w0]|] eqn:Hwo.
    + assert (w0 = w) as ->. { apply writes_spec in Hwo as [-> _]. done. }
      apply (Hpassign a b w (OpSet item w)); [done|done| | |].
      * intros l. unfold mwrite. cbn [fst]. by rewrite Hwo.
      * intros k x. unfold mmentions. cbn [fst]. split.
        -- intros (a' & b' & w' & Hx & Hk). apply writes_spec in Hx. rewrite Hwo in Hx. by injection Hx as -> -> ->.
        -- intros Hk. exists a, b, w. split; [by apply writes_spec|done].
      * intros x l. unfold mcreates. cbn [fst]. split; (intros [Hl Hx]; split; [done|]).
        -- destruct Hx as (a' & b' & Hx & Hk). assert (writes (maspects p) (OpSet item w) a' b' w) as Hx' by done.
           apply writes_spec in Hx'. rewrite Hwo in Hx'. by injection Hx' as -> ->.
        -- exists a, b. split; [|done]. by apply writes_spec in Hwo as [_ ?].
    + injection E as <- <-. apply Hnone; [done| | |].
      * intros l. unfold mwrite. cbn [fst]. by rewrite Hwo.
      * intros k x (a' & b' & w' & Hx & _). apply writes_spec in Hx. congruence.
      * intros x l [_ (a' & b' & Hx & _)]. assert (writes (maspects p) (OpSet item w) a' b' w) as Hx' by done.
        apply writes_spec in Hx'. congruence.
  - rewrite mstep_nodeset. intros E. destruct (write_of (maspects p) (OpNodeSet a b w)) as [[[a0 b0] w0]|] eqn:Hwo.
    + assert (a0 = a /\ b0 = b /\ w0 = w /\ length a = S (maspects p) /\ length b = S (maspects p)) as (-> & -> & -> & Ha & Hb).
      { apply writes_spec in Hwo as (-> & -> & -> & ? & ?). done. }
      apply (Hpassign a b w (OpNodeSet a b w)); [done|done| | |].
      * intros l. unfold mwrite. cbn [fst]. by rewrite Hwo.
      * intros k x. unfold mmentions. cbn [fst]. split.
        -- intros (a' & b' & w' & Hx & Hk). apply writes_spec in Hx. rewrite Hwo in Hx. by injection Hx as -> -> ->.
        -- intros Hk. exists a, b, w. split; [by apply writes_spec|done].
      * intros x l. unfold mcreates. cbn [fst]. tauto.
    + injection E as <- <-. apply Hnone; [done| | |].
      * intros l. unfold mwrite. cbn [fst]. by rewrite Hwo.
      * intros k x (a' & b' & w' & Hx & _). apply writes_spec in Hx. congruence.
      * intros x l [_ (Ha & Hb & _)]. simpl in Hwo. rewrite decide_True in Hwo by done. done.
  - cbn [mstep]. intros E. destruct (pA p l) as [m|] eqn:Hm.
    + destruct (decide (length item = 2)) as [H2|H2].
      * destruct item as [|i [|j [|]]]; try done. destruct (Hh l m Hm) as [g Hg].
        destruct (ASet_meff p l i j w m g Hw Hm Hg) as (q & r' & E2 & Hme & Hr). rewrite E in E2. injection E2 as <- <-.
        eexists _, _. split; [eapply meff_iff; [exact Hme| |done|done]|].
        -- intros t. unfold mwrite. cbn [fst snd]. destruct (decide (l = t)) as [->|Hne].
           ++ rewrite decide_True; [done|]. split; [done|]. destruct Hr as [?|(_ & ? & ? & ? & _)]; auto.
           ++ rewrite decide_False; [done|]. tauto.
        -- split.
           ++ intros _ k x. unfold mmentions. cbn [fst snd]. rewrite elem_of_pair. split.
              ** intros [?|[-> Hx]]; [by left|]. destruct Hr as [Hr|(_ & -> & _ & _ & Hn)]; [by right|]. left.
                 assert (x = j) as -> by tauto. destruct (mfic p) eqn:Hf.
                 --- rewrite (pA_nodes_fic _ _ _ Hm Hf) in Hn. by apply mnodes_psl.
                 --- destruct (pA_raw _ _ _ Hm) as [m0 Hm0]. unfold pA in Hm. rewrite Hm0, Hf in Hm. injection Hm as ->.
                     apply (pw_node p Hw Hf l m j Hm0) in Hn. by apply (pw_n2l p Hw) in Hn as [? _].
              ** tauto.
           ++ intros Hf x t Ht. unfold mcreates. cbn [fst snd]. rewrite elem_of_pair. split.
              ** intros [?|(_ & -> & Hx)]; [by left|]. destruct Hr as [Hr|(_ & -> & _ & _ & Hn)]; [by right|]. left.
                 assert (x = j) as -> by tauto. destruct (pA_raw _ _ _ Hm) as [m0 Hm0]. unfold pA in Hm. rewrite Hm0, Hf in Hm.
                 injection Hm as ->. by apply (pw_node p Hw Hf l m j Hm0) in Hn.
              ** intros [?|(_ & _ & -> & ?)]; [by left|by right].
      * unfold A_setitem in E. rewrite Hm in E. rewrite decide_False in E by done. injection E as <- <-.
        apply Hnone; [done| | |].
        -- intros t. unfold mwrite. cbn [fst]. by destruct item as [|? [|? [|]]].
        -- intros k x [? _]. done.
        -- intros x t [_ [? _]]. done.
    + unfold A_setitem in E. rewrite Hm in E. injection E as <- <-.
      eexists _, _. split; [apply (eff_meff _ _ _ _ _ (eff_refl p Hw))|].
      * intros t. unfold mwrite. cbn [fst snd]. destruct item as [|i [|j [|]]]; try (by right).
        match goal with |- context [decide ?P] => destruct (decide P) as [[-> [?|(-> & -> & _)]]|] end; [done| |by right]. left. by exists j.
      * split; [intros _ k x|intros _ x t _]; (split; [tauto|]).
        -- intros [?|[? _]]; [by left|done].
        -- intros [?|(_ & ? & _)]; [by left|done].
  - cbn [mstep]. intros E. destruct (padd_node_spec 0 p x lay Hw) as (q & E2 & He).
    unfold padd_node in E. rewrite E in E2. injection E2 as <- ->. eexists _, _. split; [|split].
    + apply (eff_meff _ _ _ _ _ He). by right.
    + done.
    + intros Hf y l Hl. unfold joins, mcreates. cbn [fst]. split.
      * intros [?|(_ & -> & -> & _)]; [by left|by right].
      * intros [?|(_ & -> & ->)]; [by left|]. right. split_and!; [done|done|done|].
        destruct l; simpl in *; [done|lia].
  - cbn [mstep]. intros E. destruct (decide (k <= maspects p)) as [Hk|Hk].
    + destruct (eff_add_layer p y k Hw Hk) as (q & E2 & He). rewrite E in E2. injection E2 as <- ->.
      eexists _, _. split; [|split].
      * apply (eff_meff _ _ _ _ _ He). by right.
      * intros _ j x. unfold mmentions. simpl. split; [|tauto]. intros [?|[-> ->]]; [by left|by right].
      * intros _ x l _. unfold mcreates. simpl. tauto.
    + assert (mslices p !! k = None) as Hn. { apply lookup_ge_None. rewrite (pw_len p Hw). lia. }
      unfold padd_layer in E. rewrite Hn in E. injection E as <- <-. apply Hnone; [done|done| |].
      * intros j x. unfold mmentions. simpl. intros (-> & _ & ?). lia.
      * intros x l [_ []].
  - cbn [mstep]. intros E. destruct (pA p l) as [m|] eqn:Hm.
    + rewrite (A_add_node_eq p l m x Hw Hm) in E. injection E as <- <-.
      destruct (eff_add1 p l m x Hw Hm) as [He _]. eexists _, _. split; [|split].
      * apply (eff_meff _ _ _ _ _ He). by right.
      * intros _ k y. unfold mmentions. simpl. tauto.
      * intros Hf y t Ht. unfold mcreates. simpl. split.
        -- intros [?|(_ & -> & ->)]; [by left|by right].
        -- intros [?|(_ & _ & -> & ->)]; [by left|by right].
    + unfold A_add_node, intra_add_node in E. rewrite Hm in E. injection E as <- <-. apply Hnone; [done|done| |].
      * intros k y [? _]. done.
      * intros y t [_ [? _]]. done.
Qed.

(** ** Reordering *)
Lemma mreorder_psl p q k x : mreorder p q -> psl q k x <-> psl p k x.
Proof.
  intros (_ & _ & _ & _ & Hs & _). unfold psl. split; intros (s & Hl & Hx).
  - destruct (Forall2_lookup_r _ _ _ _ _ Hs Hl) as (s' & Hs' & Hp). exists s'. split; [done|]. by rewrite Hp.
  - destruct (Forall2_lookup_l _ _ _ _ _ Hs Hl) as (s' & Hs' & Hp). exists s'. split; [done|]. by rewrite <- Hp.
Qed.
Lemma mreorder_n2lv p q x : mreorder p q -> Permutation (mn2lv p x) (mn2lv q x).
Proof. intros (_ & _ & _ & _ & _ & _ & Hn). unfold mn2lv. by destruct (dget_reorder _ _ x Hn) as [? _]. Qed.
Lemma mreorder_A (d e : list (layer * mlnet)) l :
  Forall2 (fun x y => x.1 = y.1 /\ reorder (x.2) (y.2)) d e ->
  match dget d l, dget e l with Some m, Some m' => reorder m m' | None, None => True | _, _ => False end.
Proof.
  induction 1 as [|[k m] [k' m'] d e [Hk Hr] H IH]; [done|]. simpl in *. subst k'.
  by destruct (decide (l = k)).
Qed.
Lemma mreorder_keys (d e : list (layer * mlnet)) :
  Forall2 (fun x y => x.1 = y.1 /\ reorder (x.2) (y.2)) d e -> dkeys d = dkeys e.
Proof. induction 1 as [|[k m] [k' m'] d e [Hk Hr] H IH]; [done|]. simpl in *. unfold dkeys in *. simpl. congruence. Qed.
Lemma mreorder_nodes p q : mreorder p q -> Permutation (mnodes p) (mnodes q).
Proof.
  intros (_ & _ & _ & _ & Hs & _). unfold mnodes.
  destruct (mslices p) as [|s ss], (mslices q) as [|s' ss']; inversion Hs; subst; simpl; done.
Qed.
Lemma mreorder_pA p q l : mreorder p q ->
  match pA p l, pA q l with Some m, Some m' => reorder m m' | None, None => True | _, _ => False end.
Proof.
  intros Hr. pose proof (mreorder_nodes p q Hr) as Hn. destruct Hr as (_ & _ & _ & Hf & _ & HA & _).
  pose proof (mreorder_A _ _ l HA) as Hl. unfold pA. rewrite <- Hf.
  destruct (dget (mA p) l) as [m|], (dget (mA q) l) as [m'|]; try done.
  destruct (mfic p); [|done]. destruct Hl as (H1 & H2 & H3 & H4 & H5 & H6 & H7 & _ & H9 & H10).
  split_and!; try done. simpl. by repeat constructor.
Qed.
Lemma mreorder_lay_in p q l : mreorder p q -> lay_in q l <-> lay_in p l.
Proof.
  intros Hr. pose proof (fun k x => mreorder_psl p q k x Hr) as Hp.
  assert (maspects q = maspects p) as Ha. { unfold maspects. by destruct Hr as (-> & _). }
  destruct l as [y|ls]; simpl; rewrite Ha.
  - by rewrite Hp.
  - split; intros [? H]; (split; [done|]); intros i y Hi; apply Hp; eauto.
Qed.
Lemma mreorder_pwf p q : mreorder p q -> pwf p -> pwf q.
Proof.
  intros Hr Hw. pose proof (fun k x => mreorder_psl p q k x Hr) as Hp.
  pose proof (fun x => mreorder_n2lv p q x Hr) as Hn. pose proof (fun l => mreorder_lay_in p q l Hr) as Hl.
  destruct Hr as (Hc & Hd & Hno & Hf & Hs & HA & Hn2).
  assert (maspects q = maspects p) as Ha. { unfold maspects. by rewrite Hc. }
  split.
  - rewrite Ha. rewrite <- (Forall2_length _ _ _ Hs). apply Hw.
  - apply Forall_lookup. intros k s Hk. destruct (Forall2_lookup_r _ _ _ _ _ Hs Hk) as (s' & Hs' & Hpp).
    rewrite <- Hpp. pose proof (pw_nd p Hw) as Hnd. rewrite Forall_lookup in Hnd. by apply (Hnd k).
  - rewrite <- (mreorder_keys _ _ HA). apply Hw.
  - intros l. rewrite <- (mreorder_keys _ _ HA), Hl, Ha. apply Hw.
  - intros l m Hm. pose proof (mreorder_A _ _ l HA) as HAl. rewrite Hm in HAl.
    destruct (dget (mA p) l) as [m'|] eqn:E; [|done]. destruct HAl as (_ & _ & _ & _ & _ & _ & _ & Hsl & _).
    rewrite <- (Forall2_length _ _ _ Hsl). by apply (pw_raw p Hw l).
  - rewrite <- (dkeys_reorder _ _ Hn2). apply Hw.
  - intros x. rewrite <- Hn. apply Hw.
  - intros Hfq. rewrite (pw_fic p Hw) in Hn2 by congruence. by inversion Hn2.
  - intros Hfq l m x Hm. pose proof (mreorder_A _ _ l HA) as HAl. rewrite Hm in HAl.
    destruct (dget (mA p) l) as [m'|] eqn:E; [|done].
    rewrite <- Hn. rewrite <- (pw_node p Hw) by (done || congruence).
    rewrite !net_nodes_sl. rewrite (reorder_sl m' m) by done. done.
  - intros x l Hx. rewrite <- Hn in Hx. rewrite Hp, Hl. by apply (pw_n2l p Hw).
Qed.

(** ** The invariant *)
Definition nhit (dir : bool) (i j x y : name) : Prop := (x = i /\ y = j) \/ (dir = false /\ x = j /\ y = i).
Global Instance nhit_dec dir i j x y : Decision (nhit dir i j x y).
Proof. unfold nhit. apply _. Defined.
Definition mspec_step (asp : nat) (dir : bool) (l : layer) (s : name -> name -> Z) (e : call) : name -> name -> Z :=
  match mwrite asp dir l e with
  | Some (i, j, w) => fun x y => if decide (nhit dir i j x y) then w else s x y
  | None => s
  end.
Definition mspec (asp : nat) (dir : bool) (l : layer) (h : list call) : name -> name -> Z :=
  fold_left (mspec_step asp dir l) h (fun _ _ => 0%Z).
Lemma mspec_app asp dir l h e : mspec asp dir l (h ++ [e]) = mspec_step asp dir l (mspec asp dir l h) e.
Proof. unfold mspec. by rewrite fold_left_app. Qed.

Record pinv (cs : list coupling) (dir : bool) (noe : Z) (fi : bool) (h : list call) (p : mpx) : Prop := {
  pi_wf : pwf p;
  pi_coup : mcoup p = cs;
  pi_dir : mdir p = dir;
  pi_noe : mnoe p = noe;
  pi_fic : mfic p = fi;
  pi_view : forall l m, pA p l = Some m -> exists g, hist 0 0 dir true g m /\
              forall x y, spec_run 0 0 dir g [x] [y] = mspec (length cs) dir l h x y;
  pi_none : forall l, pA p l = None -> forall x y, mspec (length cs) dir l h x y = 0%Z;
  pi_sl : 1 <= length cs -> forall k x, psl p k x <-> exists e, e ∈ h /\ mmentions (length cs) fi e k x;
  pi_n2l : fi = false -> forall x l, mlayer_form (length cs) l ->
           l ∈ mn2lv p x <-> exists e, e ∈ h /\ mcreates (length cs) e x l;
}.

Lemma spec_run_adds dir g hs : Forall is_addnode hs -> spec_run 0 0 dir (g ++ hs) = spec_run 0 0 dir g.
Proof.
  intros Hf. unfold spec_run. rewrite fold_left_app. generalize (fold_left (spec_step 0 dir) g (fun _ _ => 0%Z)).
  induction hs as [|o hs IH]; intros s; [done|]. apply Forall_cons in Hf as [Ho Hf]. destruct o; try done.
  cbn [fold_left]. by apply IH.
Qed.
Lemma evolves_hist dir g m ow m' (s : name -> name -> Z) : hist 0 0 dir true g m ->
  (forall x y, spec_run 0 0 dir g [x] [y] = s x y) -> evolves m ow m' ->
  exists g', hist 0 0 dir true g' m' /\
    forall x y, spec_run 0 0 dir g' [x] [y] =
      match ow with Some (i, j, w) => if decide (nhit dir i j x y) then w else s x y | None => s x y end.
Proof.
  intros Hg Hs (m1 & (hs & Hf & ->) & Hm'). pose proof (hist_run _ _ _ _ _ _ hs Hg) as Hg1.
  pose proof (spec_run_adds dir g hs Hf) as Hsr.
  destruct ow as [[[i j] w]|].
  - subst m'. exists ((g ++ hs) ++ [OpSet [i; j] w]). split; [by constructor|].
    intros x y. unfold spec_run. rewrite fold_left_app. fold (spec_run 0 0 dir (g ++ hs)). rewrite Hsr.
    cbn [fold_left]. unfold spec_step.
    change (write_of 0 (OpSet [i; j] w)) with (Some ([i], [j], w)). cbv iota beta.
    assert (hit dir [i] [j] [x] [y] <-> nhit dir i j x y) as Hh.
    { unfold hit, nhit. split; intros [[??]|(?&?&?)]; simplify_eq; auto. }
    destruct (decide (hit dir [i] [j] [x] [y])) as [H|H], (decide (nhit dir i j x y)) as [H'|H'];
      try done; try (by exfalso; tauto).
  - subst m'. exists (g ++ hs). split; [done|]. intros x y. by rewrite Hsr.
Qed.

Lemma mhist_inv cs dir noe fi h p : mhist cs dir noe fi h p -> pinv cs dir noe fi h p.
Proof.
  induction 1 as [|h p o p' r H IH E|h p q H IH Hr].
  - assert (Hn : forall l, pA (new_mpx cs dir noe fi) l = None) by done.
    split; try done.
    + apply new_mpx_pwf.
    + intros _ k x. split.
      * intros (s & Hs & Hx). unfold new_mpx in Hs. cbn [mslices] in Hs.
        apply lookup_replicate in Hs as [-> _]. by apply elem_of_nil in Hx.
      * intros (e & He & _). by apply elem_of_nil in He.
    + intros _ x l _. split; [by intros ?%elem_of_nil|]. intros (e & He & _). by apply elem_of_nil in He.
  - destruct IH as [Hw Hc Hd Hno Hf Hv Hn Hs Hn2].
    assert (Has : maspects p = length cs) by (unfold maspects; by rewrite Hc).
    assert (Hh : hviews p). { intros l m Hm. destruct (Hv l m Hm) as (g & Hg & _). rewrite Hd. eauto. }
    destruct (mstep_meff p o p' r Hw Hh E) as (S & N & Hme & HS & HN). rewrite Has, Hd, Hf in *.
    split.
    + apply Hme.
    + rewrite (me_coup _ _ _ _ _ Hme). done.
    + rewrite (me_dir _ _ _ _ _ Hme). done.
    + rewrite (me_noe _ _ _ _ _ Hme). done.
    + rewrite (me_fic _ _ _ _ _ Hme). done.
    + intros l m' Hm'. destruct (pA p l) as [m|] eqn:El.
      * destruct (me_old _ _ _ _ _ Hme l m El) as (m'' & Hm'' & He). rewrite Hm'' in Hm'. injection Hm' as ->.
        destruct (Hv l m El) as (g & Hg & Hgs). destruct (evolves_hist _ _ _ _ _ _ Hg Hgs He) as (g' & Hg' & Hs').
        exists g'. split; [done|]. intros x y. rewrite Hs', mspec_app. unfold mspec_step.
        by destruct (mwrite _ _ _ _) as [[[i j] w]|].
      * pose proof (me_new _ _ _ _ _ Hme l m' El Hm') as He. unfold empty_intra in He. rewrite Hd in He.
        destruct (evolves_hist dir [] _ _ _ (fun _ _ => 0%Z) (hist_init 0 0 dir true) (fun _ _ => eq_refl) He) as (g' & Hg' & Hs').
        exists g'. split; [done|]. intros x y. rewrite Hs', mspec_app. unfold mspec_step.
        destruct (mwrite _ _ _ _) as [[[i j] w]|]; by rewrite (Hn l El).
    + intros l Hl x y. assert (pA p l = None) as El.
      { destruct (pA p l) as [m|] eqn:El; [|done]. destruct (me_old _ _ _ _ _ Hme l m El) as (? & ? & _). congruence. }
      rewrite mspec_app. unfold mspec_step. destruct (mwrite _ _ _ _) as [[[i j] w]|] eqn:Hwr; [|by apply Hn].
      destruct (me_none _ _ _ _ _ Hme l i j w Hl Hwr) as [-> ->]. destruct (decide _); [done|by apply Hn].
    + intros H1 k x. rewrite (me_sl _ _ _ _ _ Hme), HS, (Hs H1) by done. split.
      * intros [(e & He & Hx)|Hx].
        -- exists e. split; [|done]. apply elem_of_app. by left.
        -- exists (o, r). split; [|done]. apply elem_of_app. right. by apply elem_of_list_singleton.
      * intros (e & He & Hx). apply elem_of_app in He as [He|He]; [by eauto|].
        apply elem_of_list_singleton in He as ->. by right.
    + intros Hfi x l Hl. rewrite (me_n2l _ _ _ _ _ Hme), HN, (Hn2 Hfi) by done. split.
      * intros [(e & He & Hx)|Hx].
        -- exists e. split; [|done]. apply elem_of_app. by left.
        -- exists (o, r). split; [|done]. apply elem_of_app. right. by apply elem_of_list_singleton.
      * intros (e & He & Hx). apply elem_of_app in He as [He|He]; [by eauto|].
        apply elem_of_list_singleton in He as ->. by right.
  - destruct IH as [Hw Hc Hd Hno Hf Hv Hn Hs Hn2]. pose proof (mreorder_pwf _ _ Hr Hw) as Hwq.
    pose proof (fun l => mreorder_pA p q l Hr) as HpA.
    split; [done|destruct Hr as (? & ? & ? & ? & _); congruence..| | | |].
    + intros l m' Hm'. specialize (HpA l). rewrite Hm' in HpA. destruct (pA p l) as [m|] eqn:El; [|done].
      destruct (Hv l m El) as (g & Hg & Hgs). exists g. split; [|done]. by apply hist_reorder with m.
    + intros l Hl. specialize (HpA l). rewrite Hl in HpA. destruct (pA p l) as [m|] eqn:El; [done|]. by apply Hn.
    + intros H1 k x. rewrite (mreorder_psl p q) by done. by apply Hs.
    + intros Hfi x l Hl. rewrite <- (mreorder_n2lv p q) by done. by apply Hn2.
Qed.
