(** * Properties C01-C15 of MultilayerNetwork *)
From Verif Require Import NetEdges.

(** ** Concrete networks used as examples *)
Definition A1 := NInt 1. Definition A2 := NInt 2. Definition A3 := NInt 3.
Definition La := NStr "a". Definition Lb := NStr "b". Definition Lc := NStr "c".

Lemma run_hist asp noe dir fi h1 h2 n : hist asp noe dir fi h1 n -> hist asp noe dir fi (h1 ++ h2) (run n h2).
Proof.
  revert h1 n. induction h2 as [|o h2 IH]; intros h1 n H; [by rewrite app_nil_r|].
  change (o :: h2) with ([o] ++ h2). rewrite app_assoc. apply IH. by constructor.
Qed.
Lemma run_hist0 asp noe dir fi h : hist asp noe dir fi h (run (new_net asp noe dir fi) h).
Proof. apply (run_hist _ _ _ _ []). constructor. Qed.

(** An undirected one-aspect network that is not fully interconnected: an
    overwritten link, a self-loop, an inter-layer link, a deletion, a call that
    raises and explicitly added nodes and layers. *)
Definition ex_h : list op :=
  [ OpSet [A1; A2; La] 5; OpSet [A1; A2; La; La] 7; OpSet [A1; A1; Lb] 2;
    OpNodeSet [A2; La] [A3; Lb] 4; OpSet [A2; A3; Lb] 9; OpSet [A3; A2; Lb; Lb] 0;
    OpSet [A1; A2] 3; OpAddNode A3 (Some (LBare Lc)); OpAddLayer (NStr "d") 1 ].
Definition ex_n : mlnet := run (new_net 1 0 false false) ex_h.
Lemma ex_hist : hist 1 0 false false ex_h ex_n.
Proof. apply run_hist0. Qed.
(** A directed network with noEdge -1 and two aspects, fully interconnected. *)
Definition ex_h2 : list op :=
  [ OpSet [A1; A2; La; La; Lb; Lc] 5; OpSet [A2; A1; La; La; Lc; Lb] 0; OpSet [A3; A3; La; Lb] 6;
    OpSet [A1; A3; La; Lb] 1; OpSet [A1; A3; La; Lb] (-1) ].
Definition ex_n2 : mlnet := run (new_net 2 (-1) true true) ex_h2.
Lemma ex_hist2 : hist 2 (-1) true true ex_h2 ex_n2.
Proof. apply run_hist0. Qed.

(** ** C01 *)
(** [reads n x y w]: reading the link by any of its index tuples gives [w]. *)
Theorem C01_read_last_write asp noe dir fi h n : hist asp noe dir fi h n ->
  forall x y w, length x = S asp -> length y = S asp ->
    reads n x y w <-> last_assigned asp noe dir h x y w.
Proof.
  intros H x y w Hx Hy. destruct (hist_inv _ _ _ _ _ _ H) as [_ _ Ha _ _ _].
  rewrite (hist_last _ _ _ _ _ _ _ _ _ H), reads_rd; [done|congruence..].
Qed.
Theorem C01_reads_total asp noe dir fi h n : hist asp noe dir fi h n ->
  forall x y, length x = S asp -> length y = S asp -> exists w, reads n x y w.
Proof.
  intros H x y Hx Hy. destruct (hist_inv _ _ _ _ _ _ H) as [_ _ Ha _ _ _].
  exists (rd n x y). apply reads_rd; [congruence|congruence|done].
Qed.
Example C01_example : reads ex_n [A2; La] [A1; La] 7 /\ reads ex_n [A3; Lb] [A2; Lb] 0.
Proof.
  split; [exists [A2; A1; La]; split; [by apply names_short|by vm_compute]|].
  exists [A3; A2; Lb]; split; [by apply names_short|by vm_compute].
Qed.
Print Assumptions C01_read_last_write.
Print Assumptions C01_reads_total.

(** ** C02 *)
Theorem C02_undirected_symmetric asp noe fi h n : hist asp noe false fi h n ->
  forall x y w, length x = S asp -> length y = S asp -> reads n x y w <-> reads n y x w.
Proof.
  intros H x y w Hx Hy. destruct (hist_inv _ _ _ _ _ _ H) as [_ HL Ha _ Hd _].
  rewrite !reads_rd by congruence. unfold rd. by rewrite (wfL_sym n HL Hd).
Qed.
Example C02_example : reads ex_n [A2; La] [A3; Lb] 4 /\ reads ex_n [A3; Lb] [A2; La] 4.
Proof.
  split; [exists [A2; A3; La; Lb]|exists [A3; A2; Lb; La]]; (split; [|by vm_compute]).
  - exact (names_link_full 1 [A2; La] [A3; Lb] eq_refl eq_refl).
  - exact (names_link_full 1 [A3; Lb] [A2; La] eq_refl eq_refl).
Qed.
Print Assumptions C02_undirected_symmetric.

(** ** C03 *)
(** Every pair of node-layers has exactly one full and one short-or-full index
    tuple; the model's (= the code's) conversion functions compute it. *)
Theorem C03_full_index_bijection asp :
  (forall a b, length a = S asp -> length b = S asp ->
     exists item, nodes_to_link a b = Ok item /\ length item = 2 * S asp /\ names_link asp item a b /\
       link_to_nodes item = (a, b)) /\
  (forall item, length item = 2 * S asp ->
     names_link asp item (link_to_nodes item).1 (link_to_nodes item).2 /\
     nodes_to_link (link_to_nodes item).1 (link_to_nodes item).2 = Ok item) /\
  (forall item a b a' b', names_link asp item a b -> names_link asp item a' b' -> a = a' /\ b = b').
Proof.
  assert (forall item a b, names_link asp item a b -> length item = 2 * S asp -> item = interleave a b) as Hfull.
  { intros item a b H Hl. destruct (names_link_inv _ _ _ _ H) as (Ha & Hb & [[_ ->]|[Hl' Hs]]); [done|].
    rewrite <- Hs. destruct item as [|x [|y [|]]]; simpl in Hl, Hl'; try lia. done. }
  split_and!.
  - intros a b Ha Hb. exists (interleave a b). unfold nodes_to_link. rewrite decide_True by lia.
    split_and!; [done|rewrite interleave_length; lia|by apply names_link_full|].
    apply link_to_nodes_interleave. lia.
  - intros item Hl. destruct (even_split item (S asp) Hl) as (H1 & H2 & H3). cbn [link_to_nodes fst snd].
    unfold nodes_to_link. rewrite decide_True by lia. rewrite H3. split; [|done].
    rewrite <- H3 at 1. by apply names_link_full.
  - intros item a b a' b' H H'. 
    destruct (names_link_inv _ _ _ _ H) as (Ha & Hb & Hc), (names_link_inv _ _ _ _ H') as (Ha' & Hb' & Hc').
    apply interleave_inj; [lia|lia|].
    destruct (decide (length item = 2 * S asp)) as [Hl|Hl].
    + by rewrite <- (Hfull _ _ _ H Hl), <- (Hfull _ _ _ H' Hl).
    + destruct Hc as [[? _]|[_ <-]]; [lia|]. by destruct Hc' as [[? _]|[_ <-]]; [lia|].
Qed.
(** Reading and writing through any two index tuples of the same link agree. *)
Theorem C03_same_link_same_effect n item item' a b :
  names_link (aspects n) item a b -> names_link (aspects n) item' a b ->
  getitem n (INm <$> item) = getitem n (INm <$> item') /\
  (exists w, getitem n (INm <$> item) = Ok (GWeight w)) /\
  forall w, setitem n item w = setitem n item' w /\ setitem n item w = node_setitem n a b w.
Proof.
  intros H H'. split_and!.
  - by rewrite (getitem_names n item a b H), (getitem_names n item' a b H').
  - eexists. by apply getitem_names.
  - intros w.
    assert (forall it, names_link (aspects n) it a b ->
       setitem n it w = obind (prep n (interleave a b)) (fun n2 _ => set_link n2 (interleave a b) w)) as Hs.
    { intros it Hit. apply (step_write n (OpSet it w) a b w). apply writes_spec. by split. }
    split; [by rewrite (Hs item H), (Hs item' H')|]. rewrite (Hs item H).
    destruct (names_link_inv _ _ _ _ H) as (Ha & Hb & _).
    symmetry. apply (step_write n (OpNodeSet a b w) a b w). apply writes_spec. by repeat split.
Qed.
Example C03_example : names_link 2 [A1; A2; La; Lb] [A1; La; Lb] [A2; La; Lb] /\
  names_link 2 [A1; A2; La; La; Lb; Lb] [A1; La; Lb] [A2; La; Lb].
Proof. split; [by apply names_short|exact (names_link_full 2 [A1; La; Lb] [A2; La; Lb] eq_refl eq_refl)]. Qed.
Print Assumptions C03_full_index_bijection.
Print Assumptions C03_same_link_same_effect.

(** ** C04 *)
Theorem C04_malformed_index n :
  (forall item, length item <> S (aspects n) -> length item <> 2 * S (aspects n) ->
     length item <> S (aspects n) + 1 -> getitem n item = Err KeyError) /\
  (forall item w, length item <> 2 * S (aspects n) -> length item <> S (aspects n) + 1 ->
     setitem n item w = (n, Err KeyError)) /\
  (forall a b w, length a <> S (aspects n) \/ length b <> S (aspects n) ->
     exists e, node_setitem n a b w = (n, Err e)).
Proof.
  split_and!.
  - intros item H1 H2 H3. unfold getitem. by rewrite !decide_False by lia.
  - intros item w H1 H2. apply (step_no_write n (OpSet item w)). simpl. by rewrite !decide_False by lia.
  - intros a b w H. apply (step_no_write n (OpNodeSet a b w)). simpl. by rewrite decide_False by tauto.
Qed.
Example C04_example : getitem ex_n [INm A1] = Err KeyError /\ setitem ex_n [A1; A2] 3 = (ex_n, Err KeyError) /\
  setitem ex_n [A1; A2; La; La; Lb] 3 = (ex_n, Err KeyError).
Proof. by vm_compute. Qed.
Print Assumptions C04_malformed_index.

(** ** C05 *)
(** Every write: exactly the named link (and its mirror image if undirected)
    changes; the only failing well-formed write is the deletion of an existing
    self-loop of an undirected network, which removes it nevertheless. *)
Theorem C05_write_effect asp noe dir fi h n : hist asp noe dir fi h n ->
  forall o a b w, writes asp o a b w ->
  let n' := (step n o).1 in
  (forall x y v, length x = S asp -> length y = S asp ->
     ~ (x = a /\ y = b) -> ~ (dir = false /\ x = b /\ y = a) -> reads n' x y v <-> reads n x y v) /\
  reads n' a b w /\
  ((step n o).2 = Err KeyError <-> w = noe /\ dir = false /\ a = b /\ linked n a b) /\
  ((step n o).2 <> Err KeyError -> (step n o).2 = Ok tt).
Proof.
  intros H o a b w Hw n'. destruct (hist_inv _ _ _ _ _ _ H) as [HS HL Ha Hn Hd _].
  subst asp noe dir. subst n'. destruct (step n o) as [n1 r] eqn:Es. simpl in *.
  apply writes_spec in Hw. destruct (write_of_length _ _ _ _ _ Hw) as [La Lb'].
  destruct (step_spec n o n1 r HS HL Es) as (HS' & HL' & A' & N' & D' & _ & Hl & _ & Hr & _).
  rewrite Hw in Hl. specialize (Hr _ _ _ Hw).
  split_and!.
  - intros x y v Hx Hy H1 H2. rewrite !reads_rd by congruence. unfold rd. rewrite Hl, N'.
    rewrite decide_False; [done|]. unfold hit. destruct (directed n); tauto.
  - apply reads_rd; [congruence..|]. unfold rd. rewrite Hl.
    rewrite decide_True by (unfold hit; auto). destruct (decide (w = noEdge n)) as [->|]; [by rewrite N'|done].
  - clear Hl. rewrite Hr, linked_lnk by (by split). gdec; split; done.
  - clear Hl. rewrite Hr. by gdec.
Qed.
Theorem C05_undirected_self_loop_deletion_refuted :
  exists n n', reachable n /\ reads n [A1; La] [A1; La] 2 /\
    setitem n [A1; A1; La] 0 = (n', Err KeyError) /\ noEdge n = 0%Z /\ reads n' [A1; La] [A1; La] 0.
Proof.
  pose (n := run (new_net 1 0 false true) [OpSet [A1; A1; La] 2]).
  exists n, (setitem n [A1; A1; La] 0).1. split_and!.
  - exists 1, 0%Z, false, true, [OpSet [A1; A1; La] 2]. apply run_hist0.
  - exists [A1; A1; La]; split; [by apply names_short|by vm_compute].
  - by vm_compute.
  - done.
  - exists [A1; A1; La]; split; [by apply names_short|by vm_compute].
Qed.
Print Assumptions C05_write_effect.
Print Assumptions C05_undirected_self_loop_deletion_refuted.

(** ** C06 *)
(** [ds] is a restriction of some coordinates ([None]: no restriction). *)
Theorem C06_neighbours_exact asp noe dir fi h n : hist asp noe dir fi h n ->
  forall a ds, dims_ok n ds ->
  lists_exactly (iter_out n a ds) (fun b => linked n a b /\ matches ds b) /\
  lists_exactly (iter_in n a ds) (fun b => linked n b a /\ matches ds b) /\
  lists_exactly (iter_total n a ds) (fun b => (linked n a b \/ linked n b a) /\ matches ds b).
Proof.
  intros H%hist_good a ds Hd. split_and!; [by apply iter_out_exact|by apply iter_in_exact|by apply iter_total_exact].
Qed.
Example C06_example : iter_total ex_n2 [A1; La; Lb] None = [[A2; La; Lc]] /\
  iter_in ex_n2 [A1; La; Lb] (Some [Some A2; None; None]) = [[A2; La; Lc]] /\
  iter_out ex_n [A2; La] None <> [] /\ iter_out ex_n [A2; La] (Some [None; Some Lb]) = [[A3; Lb]].
Proof. by vm_compute. Qed.
Print Assumptions C06_neighbours_exact.

(** ** C07 *)
Theorem C07_degrees_exact asp noe dir fi h n : hist asp noe dir fi h n ->
  forall a ds, dims_ok n ds ->
  (exists L, lists_exactly L (fun b => linked n a b /\ matches ds b) /\ degree_out n a ds = Z.of_nat (length L)) /\
  (exists L, lists_exactly L (fun b => linked n b a /\ matches ds b) /\ degree_in n a ds = Z.of_nat (length L)).
Proof.
  intros H%hist_good a ds Hd. split.
  - exists (iter_out n a ds). split; [by apply iter_out_exact|apply degree_out_iter].
  - exists (iter_in n a ds). split; [by apply iter_in_exact|apply degree_in_iter].
Qed.
Example C07_example : degree_out ex_n [A2; La] None = 2%Z /\ degree_in ex_n2 [A3; La; Lb] None = 1%Z.
Proof. by vm_compute. Qed.
Print Assumptions C07_degrees_exact.

(** ** C08 *)
(** Undirected, or directed with a restriction: always exact. *)
Theorem C08_total_degree_exact asp noe dir fi h n : hist asp noe dir fi h n ->
  forall a ds, dims_ok n ds -> dir = false \/ ds <> None ->
  exists L, lists_exactly L (fun b => (linked n a b \/ linked n b a) /\ matches ds b) /\
            degree n a ds = Z.of_nat (length L).
Proof.
  intros H a ds Hds Hc. pose proof (hist_good _ _ _ _ _ _ H) as Hg.
  destruct (hist_inv _ _ _ _ _ _ H) as [_ _ _ _ Hd _].
  pose proof (iter_total_exact n a ds Hg Hds) as HL. exists (iter_total n a ds). split; [done|].
  destruct ds as [ds|]; [by apply degree_dims_exact|]. apply degree_und_exact; [done|done|naive_solver|done].
Qed.
(** Directed: the counter equals the number of neighbours plus the number of
    earlier removals of a link pointing to [a] whose reverse did not exist. *)
Theorem C08_directed_degree_drift asp noe fi h n : hist asp noe true fi h n ->
  forall a, exists L R,
    lists_exactly L (fun b => linked n a b \/ linked n b a) /\
    lists_exactly R (lonely_removal asp noe h a) /\
    degree n a None = (Z.of_nat (length L) + Z.of_nat (length R))%Z.
Proof.
  intros H a. pose proof (hist_good _ _ _ _ _ _ H) as Hg.
  destruct (hist_inv _ _ _ _ _ _ H) as [_ _ _ _ Hd _].
  destruct (hist_total _ _ _ _ _ H a) as (R & HR & Ht).
  exists (iter_total n a None), R. split_and!; [|done|].
  - eapply lists_exactly_iff; [|exact (iter_total_exact n a None Hg I)]. intros b. simpl. tauto.
  - unfold degree. rewrite Hd. exact Ht.
Qed.
(** In particular it is exact after histories that never assign noEdge. *)
Theorem C08_directed_degree_insert_only asp noe fi h n : hist asp noe true fi h n ->
  (forall o a b, o ∈ h -> ~ writes asp o a b noe) ->
  forall a, exists L, lists_exactly L (fun b => linked n a b \/ linked n b a) /\
                      degree n a None = Z.of_nat (length L).
Proof.
  intros H Hno a. destruct (C08_directed_degree_drift _ _ _ _ _ H a) as (L & R & HL & [_ HR] & He).
  exists L. split; [done|]. destruct R as [|i R]; [rewrite He; simpl; lia|].
  destruct (proj1 (HR i) ltac:(left)) as (o & y & v & Ho & Hw & _).
  apply elem_of_list_lookup_2 in Ho. by apply Hno in Hw.
Qed.
Theorem C08_directed_degree_refuted :
  exists n a, reachable n /\ directed n = true /\ degree n a None = 1%Z /\
    lists_exactly [] (fun b => linked n a b \/ linked n b a).
Proof.
  pose (h := [OpSet [A1; A2] 1%Z; OpSet [A1; A2] 0%Z]).
  pose (n := run (new_net 0 0 true true) h).
  assert (hist 0 0 true true h n) as H by apply run_hist0.
  exists n, [A2]. split_and!; [by repeat eexists|done|by vm_compute|].
  destruct (C06_neighbours_exact _ _ _ _ _ _ H [A2] None I) as (_ & _ & HL).
  assert (iter_total n [A2] None = []) as E by by vm_compute. rewrite E in HL.
  eapply lists_exactly_iff; [|exact HL]. intros b. simpl. tauto.
Qed.
Example C08_example : degree ex_n2 [A1; La; Lb] None = 1%Z /\ degree ex_n2 [A3; La; Lb] None = 2%Z /\
  iter_total ex_n2 [A3; La; Lb] None = [[A3; La; Lb]] /\
  lonely_removal 2 (-1) ex_h2 [A3; La; Lb] 4.
Proof.
  split_and!; [by vm_compute..|].
  assert (writes 2 (OpSet [A1; A3; La; Lb] (-1)) [A1; La; Lb] [A3; La; Lb] (-1)) as Hw
    by (split; [done|by apply names_short]).
  assert (hist 2 (-1) true true (take 4 ex_h2) (run (new_net 2 (-1) true true) (take 4 ex_h2))) as H by apply run_hist0.
  exists (OpSet [A1; A3; La; Lb] (-1)), [A1; La; Lb], 1%Z. split_and!; try done.
  - apply (hist_last _ _ _ _ _ _ _ _ _ H). by vm_compute.
  - apply (hist_last _ _ _ _ _ _ _ _ _ H). by vm_compute.
Qed.
Print Assumptions C08_total_degree_exact.
Print Assumptions C08_directed_degree_drift.
Print Assumptions C08_directed_degree_insert_only.
Print Assumptions C08_directed_degree_refuted.

(** ** C09 *)
Theorem C09_strengths_exact asp noe dir fi h n : hist asp noe dir fi h n ->
  forall a ds, dims_ok n ds ->
  (exists L f, lists_exactly L (fun b => linked n a b /\ matches ds b) /\
     (forall b, b ∈ L -> reads n a b (f b)) /\ strength_out n a ds = zsumf f L) /\
  (exists L f, lists_exactly L (fun b => linked n b a /\ matches ds b) /\
     (forall b, b ∈ L -> reads n b a (f b)) /\ strength_in n a ds = zsumf f L) /\
  strength n a ds = (if dir then strength_in n a ds + strength_out n a ds else strength_out n a ds)%Z.
Proof.
  intros H a ds Hds. pose proof (hist_good _ _ _ _ _ _ H) as Hg.
  destruct (hist_inv _ _ _ _ _ _ H) as [_ _ Ha _ Hd _]. split_and!.
  - pose proof (iter_out_exact n a ds Hg Hds) as HL. exists (iter_out n a ds), (fun b => rd n a b).
    assert (forall b, b ∈ iter_out n a ds -> reads n a b (rd n a b)) as Hf.
    { intros b Hb. apply HL in Hb as [(? & ? & _) _]. by apply reads_rd. }
    split_and!; [done|done|]. by apply strength_out_exact.
  - pose proof (iter_in_exact n a ds Hg Hds) as HL. exists (iter_in n a ds), (fun b => rd n b a).
    assert (forall b, b ∈ iter_in n a ds -> reads n b a (rd n b a)) as Hf.
    { intros b Hb. apply HL in Hb as [(? & ? & _) _]. by apply reads_rd. }
    split_and!; [done|done|]. by apply strength_in_exact.
  - unfold strength. by rewrite Hd.
Qed.
Example C09_example : strength ex_n [A2; La] None = 11%Z /\ strength ex_n2 [A1; La; Lb] None = 5%Z /\
  strength_out ex_n [A2; La] (Some [None; Some Lb]) = 4%Z.
Proof. by vm_compute. Qed.
Print Assumptions C09_strengths_exact.

(** ** C10 *)
Theorem C10_directed_edges_exact asp noe fi h n : hist asp noe true fi h n ->
  lists_exactly (edges n) (fun e => exists a b, linked n a b /\ edge_tuple n a b e).
Proof.
  intros H. pose proof (hist_good _ _ _ _ _ _ H) as Hg.
  destruct (hist_inv _ _ _ _ _ _ H) as [_ _ _ _ Hd _]. unfold edges. rewrite Hd. by apply edges_dir_exact.
Qed.
Theorem C10_undirected_edges_exact asp noe fi h n : hist asp noe false fi h n ->
  NoDup (edges n) /\
  (forall e, e ∈ edges n -> exists a b, linked n a b /\ edge_tuple n a b e) /\
  (forall a b, linked n a b -> exists e, e ∈ edges n /\ (edge_tuple n a b e \/ edge_tuple n b a e)) /\
  (forall a b e e', e ∈ edges n -> e' ∈ edges n -> edge_tuple n a b e ->
      edge_tuple n a b e' \/ edge_tuple n b a e' -> e = e').
Proof.
  intros H. pose proof (hist_good _ _ _ _ _ _ H) as Hg.
  destruct (hist_inv _ _ _ _ _ _ H) as [_ _ _ _ Hd _]. by apply edges_und_exact.
Qed.
Example C10_example :
  edges ex_n = [([A1; A2; La; La], 7%Z); ([A1; A1; Lb; Lb], 2%Z); ([A2; A3; La; Lb], 4%Z)] /\
  length (edges ex_n2) = 3.
Proof. by vm_compute. Qed.
Print Assumptions C10_directed_edges_exact.
Print Assumptions C10_undirected_edges_exact.

(** ** C11 *)
Theorem C11_edge_count asp noe dir fi h n : hist asp noe dir fi h n ->
  edges_len n = Z.of_nat (length (edges n)).
Proof. intros H%hist_good. by apply edges_len_exact. Qed.
Example C11_example : edges_len ex_n = 3%Z /\ edges_len ex_n2 = 3%Z.
Proof. by vm_compute. Qed.
Print Assumptions C11_edge_count.

(** ** C12 *)
Lemma has_elem_sl n k x : has_elem n k x <-> sl n k x.
Proof.
  unfold has_elem, sl, get_layers. destruct (slices n !! k) as [s|]; split; intros (s' & E & Hx);
    try done; injection E as <-; eauto.
Qed.
Lemma present_slices n a : wfS n -> present n a -> length a = S (aspects n) /\ forall k x, a !! k = Some x -> has_elem n k x.
Proof.
  intros Hw Hp. split; [by apply present_length|]. intros k x Hk. apply has_elem_sl.
  apply elem_of_iter_node_layers in Hp as [Hp _]; [|done]. by apply nl_in_slices_sl in Hp as [_ Hp]; apply Hp.
Qed.
Lemma fic_of asp noe dir fi h n : hist asp noe dir fi h n -> fic n = true <-> asp = 0 \/ fi = true.
Proof. intros [_ _ _ _ _ ->]%hist_inv. destruct (decide _); naive_solver. Qed.

(** Endpoints of links are listed node-layers, made of listed nodes and layers. *)
Theorem C12_links_between_node_layers asp noe dir fi h n : hist asp noe dir fi h n ->
  forall a b, linked n a b ->
  a ∈ iter_node_layers n /\ b ∈ iter_node_layers n /\
  (forall k x, a !! k = Some x \/ b !! k = Some x -> has_elem n k x).
Proof.
  intros H%hist_good a b Hl. apply linked_lnk in Hl as [w Hw]; [|done].
  destruct (wfL_present _ (proj2 H) _ _ _ Hw) as [Ha Hb].
  split_and!; [done|done|]. intros k x [Hk|Hk]; [eapply (present_slices n a)|eapply (present_slices n b)];
    try done; apply H.
Qed.
(** Nodes and elementary layers are exactly those named by some call. *)
Theorem C12_nodes_and_layers_exact asp noe dir fi h n : hist asp noe dir fi h n ->
  forall k x, has_elem n k x <->
    exists o, o ∈ h /\ mentions asp (if decide (asp = 0) then true else fi) o k x.
Proof. intros H k x. rewrite has_elem_sl. by apply (hist_sl asp noe dir). Qed.
(** Every assignment - also of noEdge - creates its two node-layers, for good;
    no call removes a node, layer or node-layer. *)
Theorem C12_writes_create_node_layers asp noe dir fi h n : hist asp noe dir fi h n ->
  forall o a b w, o ∈ h -> writes asp o a b w -> a ∈ iter_node_layers n /\ b ∈ iter_node_layers n.
Proof.
  intros H. induction H as [|h n o H IH|h n m H IH Hr]; intros o' a b w Ho Hw.
  - by apply elem_of_nil in Ho.
  - destruct (hist_inv _ _ _ _ _ _ H) as [HS HL Ha Hn Hd Hf].
    destruct (step n o) as [n' r] eqn:Es. simpl in *.
    destruct (step_spec n o n' r HS HL Es) as (HS' & HL' & A' & N' & D' & F' & _ & _ & _ & Hsl & Hp).
    rewrite !Hp. apply elem_of_app in Ho as [Ho|Ho].
    + destruct (IH o' a b w Ho Hw). by split; left.
    + apply elem_of_list_singleton in Ho as ->.
      pose proof Hw as Hw'. apply writes_spec in Hw'. apply write_of_length in Hw' as [La Lb'].
      destruct (fic n) eqn:Fn.
      * assert (forall c, (c = a \/ c = b) -> nl_in_slices n' c) as Hc.
        { intros c Hc. apply nl_in_slices_sl. split.
          - rewrite (wfS_len _ HS'), A', Ha. by destruct Hc as [-> | ->].
          - intros k x Hk. apply Hsl. right. rewrite Ha.
            destruct o as [it v|a' b' v|x' l'|l' k']; simpl in *; try done; exists a, b, w;
              (split; [done|]); destruct Hc as [-> | ->]; auto. }
        split; right; left; auto.
      * rewrite Ha. split; right; right; (split; [done|]);
          destruct o as [it v|a' b' v|x' l'|l' k']; simpl in *; try done; eauto.
  - destruct (hist_inv _ _ _ _ _ _ H) as [HS HL _ _ _ _].
    rewrite !(reorder_present n m) by done. by eapply IH.
Qed.
Theorem C12_nothing_removed asp noe dir fi h n : hist asp noe dir fi h n -> forall o,
  (forall k x, has_elem n k x -> has_elem (step n o).1 k x) /\
  (forall a, a ∈ iter_node_layers n -> a ∈ iter_node_layers (step n o).1).
Proof.
  intros H o. destruct (hist_inv _ _ _ _ _ _ H) as [HS HL Ha Hn Hd Hf].
  destruct (step n o) as [n' r] eqn:Es. simpl.
  destruct (step_spec n o n' r HS HL Es) as (HS' & HL' & A' & N' & D' & F' & _ & _ & _ & Hsl & Hp).
  split; [intros k x; rewrite !has_elem_sl, Hsl; tauto|intros a; rewrite Hp; tauto].
Qed.
Example C12_example : [A3; Lb] ∈ iter_node_layers ex_n /\ has_elem ex_n 1 (NStr "d") /\
  [A3; NStr "d"] ∉ iter_node_layers ex_n.
Proof.
  split_and!; [by apply (bool_decide_unpack _); vm_compute| |by apply (bool_decide_unpack _); vm_compute].
  exists (default [] (slices ex_n !! 1)). split; [by vm_compute|].
  by apply (bool_decide_unpack _); vm_compute.
Qed.
Print Assumptions C12_links_between_node_layers.
Print Assumptions C12_nodes_and_layers_exact.
Print Assumptions C12_writes_create_node_layers.
Print Assumptions C12_nothing_removed.

(** ** C13 *)
Theorem C13_node_layers_nodup asp noe dir fi h n : hist asp noe dir fi h n -> NoDup (iter_node_layers n).
Proof. intros [H _]%hist_good. by apply NoDup_iter_node_layers. Qed.
(** Fully interconnected (and all zero-aspect networks): the full product. *)
Theorem C13_fully_interconnected asp noe dir fi h n : hist asp noe dir fi h n -> asp = 0 \/ fi = true ->
  forall a, a ∈ iter_node_layers n <-> length a = S asp /\ forall k x, a !! k = Some x -> has_elem n k x.
Proof.
  intros H Hfi a. apply (fic_of _ _ _ _ _ _ H) in Hfi. destruct (hist_inv _ _ _ _ _ _ H) as [HS HL Ha _ _ _].
  rewrite elem_of_iter_node_layers, nl_in_slices_sl, (wfS_len _ HS), Ha by done.
  setoid_rewrite has_elem_sl. split; [tauto|]. intros ?. split; [done|congruence].
Qed.
(** Otherwise: exactly the node-layers created by some call. *)
Theorem C13_partially_interconnected asp noe dir h n : hist asp noe dir false h n -> asp <> 0 ->
  forall a, a ∈ iter_node_layers n <-> exists o, o ∈ h /\ creates asp o a.
Proof. intros H Ha a. by apply (hist_present_nonfic asp noe dir). Qed.
(** [iter_nodes(layer)] lists, without duplicates, exactly the nodes that form a
    listed node-layer with [layer]; a fully interconnected network lists all
    nodes. *)
Theorem C13_nodes_of_layer asp noe dir fi h n : hist asp noe dir fi h n ->
  NoDup (iter_nodes n None) /\ (forall x, x ∈ iter_nodes n None <-> has_elem n 0 x) /\
  forall l, NoDup (iter_nodes n (Some l)) /\
    (asp = 0 \/ fi = true -> forall x, x ∈ iter_nodes n (Some l) <-> has_elem n 0 x) /\
    (asp <> 0 -> fi = false -> layer_form asp l ->
       forall x, x ∈ iter_nodes n (Some l) <-> nl_of x l ∈ iter_node_layers n).
Proof.
  intros H. destruct (hist_inv _ _ _ _ _ _ H) as [HS HL Ha _ _ _].
  assert (NoDup (net_nodes n)) as Hnd.
  { unfold net_nodes. destruct (slices n !! 0) as [s|] eqn:E; simpl; [|constructor].
    by eapply (Forall_lookup_1 _ _ _ _ (wfS_nodup _ HS)). }
  split_and!; [done|intros x; simpl; by rewrite has_elem_sl, net_nodes_sl|].
  intros l. unfold iter_nodes. destruct (fic n) eqn:Hf.
  - split_and!; [done|intros _ x; by rewrite has_elem_sl, net_nodes_sl|].
    intros Ha0 Hfi. apply (fic_of _ _ _ _ _ _ H) in Hf as [?|?]; [done|congruence].
  - change (default [] (dget (l2n n) l)) with (l2nv n l).
    split_and!; [apply (wfS_l2nv_nd _ HS)| |].
    + intros Hc. apply (fic_of _ _ _ _ _ _ H) in Hc. congruence.
    + intros Ha0 Hfi Hlf x. rewrite elem_of_iter_node_layers by done.
      assert (layer_of n (nl_of x l) = l /\ node_of (nl_of x l) = x) as [El En].
      { destruct l as [y|ls]; simpl in *.
        - rewrite decide_True by congruence. done.
        - destruct Hlf as [H2 H3]. destruct ls as [|y [|z ls]]; simpl in *; try lia. done. }
      rewrite El, En. split; [|intros [_ Hx]; by apply Hx].
      intros Hx. split; [|done]. apply (wfS_mirror _ HS) in Hx. apply (wfS_layer _ HS) in Hx as [Hx Hok].
      rewrite net_nodes_sl in Hx. apply layer_ok_sl in Hok. apply nl_in_slices_sl. rewrite (wfS_len _ HS), Ha.
      destruct l as [y|ls]; simpl in *.
      * split; [lia|]. intros [|[|k]] z Hk; simpl in Hk; [by injection Hk as <-|by injection Hk as <-; apply Hok|done].
      * split; [lia|]. intros [|k] z Hk; simpl in Hk; [by simplify_eq|]. by apply Hok.
Qed.
Example C13_example : iter_node_layers ex_n = [[A1; La]; [A2; La]; [A1; Lb]; [A3; Lb]; [A2; Lb]; [A3; Lc]] /\
  iter_nodes ex_n (Some (LBare Lb)) = [A1; A3; A2] /\ length (iter_node_layers ex_n2) = 6.
Proof. by vm_compute. Qed.
Print Assumptions C13_node_layers_nodup.
Print Assumptions C13_fully_interconnected.
Print Assumptions C13_partially_interconnected.
Print Assumptions C13_nodes_of_layer.

(** ** C14 *)
Theorem C14_equality_is_structural n m : reachable n -> reachable m ->
  net_eq n m = Ok true <-> same_network n m.
Proof. intros Hn%reachable_good Hm%reachable_good. by apply net_eq_exact. Qed.
Theorem C14_equality_equivalence :
  (forall n, reachable n -> net_eq n n = Ok true) /\
  (forall n m, reachable n -> reachable m -> net_eq n m = Ok true -> net_eq m n = Ok true) /\
  (forall n m k, reachable n -> reachable m -> reachable k ->
     net_eq n m = Ok true -> net_eq m k = Ok true -> net_eq n k = Ok true).
Proof.
  split_and!.
  - intros n Hn. apply C14_equality_is_structural; [done|done|apply same_network_refl].
  - intros n m Hn Hm. rewrite !C14_equality_is_structural by done. apply same_network_sym.
  - intros n m k Hn Hm Hk. rewrite !C14_equality_is_structural by done. apply same_network_trans.
Qed.
(** The comparison fails to return a boolean exactly when only the right-hand
    network is fully interconnected. *)
Theorem C14_equality_total n m :
  (net_eq n m = Err AttributeError <-> fic n = false /\ fic m = true) /\
  (fic n = fic m -> exists b, net_eq n m = Ok b).
Proof. split; [apply net_eq_raises|apply net_eq_total]. Qed.
Definition ex_m : mlnet := run (new_net 1 0 false false)
  [ OpAddLayer (NStr "d") 1; OpAddNode A3 (Some (LBare Lc)); OpAddNode A2 (Some (LBare Lb)); OpSet [A3; A2; Lb; La] 4;
    OpSet [A1; A1; Lb] 2; OpSet [A2; A1; La] 7 ].
Example C14_example : net_eq ex_n ex_m = Ok true /\ ex_n <> ex_m /\
  net_eq ex_n (run ex_m [OpSet [A1; A1; Lb] 3]) = Ok false /\
  net_eq ex_n (run ex_m [OpAddNode A2 (Some (LBare Lc))]) = Ok false.
Proof. split_and!; by vm_compute. Qed.
Print Assumptions C14_equality_is_structural.
Print Assumptions C14_equality_equivalence.
Print Assumptions C14_equality_total.

(** ** C15 *)
(** [slice_of asp item a js]: the index tuple [item] has [2(asp+1)] entries,
    its even entries are the names [a] and [js] are its odd entries (a name or
    a colon, at least one colon). *)
Definition slice_of (asp : nat) (item : list idx) (a : nl) (js : list idx) : Prop :=
  length a = S asp /\ length js = S asp /\ length item = 2 * S asp /\ IColon ∈ js /\
  (forall k, item !! (2 * k) = INm <$> a !! k) /\ (forall k, item !! (2 * k + 1) = js !! k).

Lemma slice_of_inv asp item a js : slice_of asp item a js -> item = interleave (INm <$> a) js.
Proof.
  intros (Ha & Hj & Hl & _ & He & Ho). destruct (even_split item (S asp) Hl) as (_ & _ & E).
  rewrite <- E. f_equal; apply list_eq; intros k.
  - by rewrite lookup_evens, He, list_lookup_fmap.
  - by rewrite lookup_odds, Ho.
Qed.
Lemma slice_dims_spec a js : length a = length js ->
  slice_dims (interleave (INm <$> a) js) = zip_with (fun x j => match j with IColon => None | INm _ => Some x end) a js.
Proof.
  revert js. induction a as [|x a IH]; intros [|j js] Hl; simpl in *; try lia; [done|].
  f_equal. apply IH. lia.
Qed.
Lemma mapM_INm (a : nl) : mapM idx_name (INm <$> a) = Some a.
Proof. apply mapM_idx_names. Qed.

(** [net[item]] is a handle on [a] whose iteration and degrees are restricted
    to the neighbours that agree WITH [a] in the coordinates that are not
    colons - whatever name is written there. *)
Theorem C15_slices asp noe dir fi h n : hist asp noe dir fi h n ->
  forall item a js, slice_of asp item a js ->
  exists ds, getitem n item = Ok (GNode a (Some ds)) /\ dims_ok n (Some ds) /\
    let keeps b := forall k j, js !! k = Some (INm j) -> b !! k = a !! k in
    lists_exactly (iter_out n a (Some ds)) (fun b => linked n a b /\ keeps b) /\
    lists_exactly (iter_in n a (Some ds)) (fun b => linked n b a /\ keeps b) /\
    lists_exactly (iter_total n a (Some ds)) (fun b => (linked n a b \/ linked n b a) /\ keeps b) /\
    degree n a (Some ds) = Z.of_nat (length (iter_total n a (Some ds))).
Proof.
  intros H item a js Hs. pose proof (hist_good _ _ _ _ _ _ H) as Hg.
  destruct (hist_inv _ _ _ _ _ _ H) as [_ _ Ha _ _ _].
  pose proof (slice_of_inv _ _ _ _ Hs) as ->. destruct Hs as (La' & Lj & Ll & Hc & _ & _).
  set (f := fun (x : name) (j : idx) => match j with IColon => None | INm _ => Some x end).
  exists (zip_with f a js).
  assert (dims_ok n (Some (zip_with f a js))) as Hok.
  { simpl. rewrite zip_with_length. lia. }
  split; [|split; [done|]].
  - unfold getitem. rewrite decide_False by lia. rewrite decide_True by lia.
    unfold getitem_full. rewrite evens_interleave by (rewrite fmap_length; lia). rewrite mapM_INm.
    rewrite odds_interleave by (rewrite fmap_length; lia). rewrite decide_True by done.
    rewrite slice_dims_spec by lia. done.
  - intros keeps.
    assert (forall b, length b = S (aspects n) -> matches (Some (zip_with f a js)) b <-> keeps b) as Hk.
    { intros b Hb. unfold matches, keeps. setoid_rewrite lookup_zip_with_Some. split.
      - intros Hm k j Hj. destruct (a !! k) as [x|] eqn:Ea.
        + apply (Hm k x). exists x, (INm j). done.
        + apply lookup_lt_Some in Hj. apply lookup_ge_None in Ea. lia.
      - intros Hm k x (y & j & E & Ey & Ej). destruct j as [j|]; [|done]. injection E as ->.
        by rewrite (Hm k j Ej). }
    assert (forall b, linked n a b -> length b = S (aspects n)) as H1 by (intros b (? & ? & _); done).
    assert (forall b, linked n b a -> length b = S (aspects n)) as H2 by (intros b (? & ? & _); done).
    split_and!.
    + eapply lists_exactly_iff; [|by apply iter_out_exact]. intros b. simpl. split; intros [Hl Hm]; (split; [done|]);
        apply Hk; auto.
    + eapply lists_exactly_iff; [|by apply iter_in_exact]. intros b. simpl. split; intros [Hl Hm]; (split; [done|]);
        apply Hk; auto.
    + eapply lists_exactly_iff; [|by apply iter_total_exact]. intros b. simpl. split; intros [[Hl|Hl] Hm];
        (split; [auto|]); apply Hk; auto.
    + apply degree_dims_exact; [done|done|]. by apply iter_total_exact.
Qed.
(** Documented meaning: restrict to the names that are written.  It holds for
    [net[i,i,s,:]], [net[i,:,s,s]], ... and [net[i,:,s,:]] but not in general. *)
Definition documented (js : list idx) (b : nl) : Prop :=
  forall k j, js !! k = Some (INm j) -> b !! k = Some j.
Theorem C15_documented_when_same asp noe dir fi h n : hist asp noe dir fi h n ->
  forall item a js, slice_of asp item a js ->
  (forall k j, js !! k = Some (INm j) -> a !! k = Some j) ->
  exists ds, getitem n item = Ok (GNode a (Some ds)) /\
    lists_exactly (iter_total n a (Some ds)) (fun b => (linked n a b \/ linked n b a) /\ documented js b).
Proof.
  intros H item a js Hs Hsame. destruct (C15_slices _ _ _ _ _ _ H _ _ _ Hs) as (ds & Hg & _ & _ & _ & Ht & _).
  exists ds. split; [done|]. eapply lists_exactly_iff; [|exact Ht]. intros b. simpl.
  split; intros [Hl Hk]; (split; [done|]); intros k j Hj.
  - rewrite <- (Hsame k j Hj). by eapply Hk.
  - rewrite (Hsame k j Hj). by apply Hk.
Qed.
Theorem C15_documented_slice_refuted :
  exists n item a js ds b, reachable n /\ slice_of (aspects n) item a js /\ getitem n item = Ok (GNode a (Some ds)) /\
    linked n a b /\ documented js b /\ b ∉ iter_total n a (Some ds).
Proof.
  pose (n := run (new_net 1 0 false true) [OpSet [A1; A2; La; Lb] 1]).
  exists n, [INm A1; INm A2; INm La; IColon], [A1; La], [INm A2; IColon], [Some A1; None], [A2; Lb].
  split_and!.
  - exists 1, 0%Z, false, true, [OpSet [A1; A2; La; Lb] 1]. apply run_hist0.
  - split_and!; try done.
    + right. left.
    + intros [|[|k]]; [done|done|]. rewrite !lookup_ge_None_2 by (simpl; lia). done.
    + intros [|[|k]]; [done|done|]. rewrite !lookup_ge_None_2 by (simpl; lia). done.
  - by vm_compute.
  - split_and!; [done|done|]. exists 1%Z. split; [|done]. exists [A1; A2; La; Lb].
    split; [exact (names_link_full 1 [A1; La] [A2; Lb] eq_refl eq_refl)|by vm_compute].
  - by intros [|[|k]] j [= <-].
  - by apply (bool_decide_unpack _); vm_compute.
Qed.
Print Assumptions C15_slices.
Print Assumptions C15_documented_when_same.
Print Assumptions C15_documented_slice_refuted.
