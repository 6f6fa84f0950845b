(** * Properties C23-C29: network transformations *)
From stdpp Require Import pretty.
From Verif Require Import PropsNet TransFacts2.

(** ** Specification vocabulary *)
(** [W] is the sum of the weights of all links of [n] from some [a] to some [b]
    with [Q a b]. *)
Definition weight_sum (n : mlnet) (Q : nl -> nl -> Prop) (W : Z) : Prop :=
  exists (L : list (nl * nl)) (ws : list Z),
    lists_exactly L (fun p => linked n (p.1) (p.2) /\ Q (p.1) (p.2)) /\
    Forall2 (fun p w => reads n (p.1) (p.2) w) L ws /\ W = foldr Z.add 0%Z ws.
(** The same, a link of an undirected network being counted only once. *)
Definition weight_sum_once (n : mlnet) (Q : nl -> nl -> Prop) (W : Z) : Prop :=
  exists (L : list (nl * nl)) (ws : list Z),
    NoDup L /\ (forall a b, (a, b) ∈ L -> linked n a b /\ Q a b) /\
    (forall a b, linked n a b -> Q a b -> (a, b) ∈ L \/ (directed n = false /\ (b, a) ∈ L)) /\
    (directed n = false -> forall a b, (a, b) ∈ L -> (b, a) ∈ L -> a = b) /\
    Forall2 (fun p w => reads n (p.1) (p.2) w) L ws /\ W = foldr Z.add 0%Z ws.
Definition same_config (n m : mlnet) : Prop :=
  noEdge m = noEdge n /\ directed m = directed n /\ (fic m = true <-> aspects m = 0 \/ fic n = true).

Lemma hist_config asp (n m : mlnet) g : hist asp (noEdge n) (directed n) (fic n) g m -> reachable m /\ aspects m = asp /\ same_config n m.
Proof.
  intros H. destruct (hist_inv _ _ _ _ _ _ H) as [HS HL Ha Hn Hd Hf]. split; [by repeat eexists|]. split; [done|].
  split; [done|]. split; [done|]. rewrite Ha. apply (fic_of _ _ _ _ _ _ H).
Qed.
Lemma zsumf_foldr {A} (f : A -> Z) L : zsumf f L = foldr Z.add 0%Z (f <$> L).
Proof. induction L as [|x L IH]; [done|]. rewrite zsumf_cons. cbn [fmap list_fmap foldr]. rewrite IH. done. Qed.
Lemma reads_list n L : good n -> (forall a b, (a, b) ∈ L -> length a = S (aspects n) /\ length b = S (aspects n)) ->
  Forall2 (fun (p : nl * nl) w => reads n (p.1) (p.2) w) L ((fun p => rd n (p.1) (p.2)) <$> L).
Proof.
  intros Hg. induction L as [|[a b] L IH]; intros H; [constructor|]. cbn [fmap list_fmap]. constructor.
  - simpl. destruct (H a b); [left|]. by apply reads_rd.
  - apply IH. intros a' b' H'. apply H. by right.
Qed.
Lemma linked_rd n a b : good n -> linked n a b <-> rd n a b <> noEdge n.
Proof. intros Hg. by rewrite rd_noEdge, linked_lnk. Qed.
Lemma linked_npairs n a b : good n -> linked n a b -> (a, b) ∈ npairs n \/ (directed n = false /\ (b, a) ∈ npairs n).
Proof.
  intros Hg Hl. apply linked_lnk in Hl as [w Hw]; [|done]. destruct (wfL_present _ (proj2 Hg) _ _ _ Hw) as [Ha Hb].
  apply (so_all _ _ _ (src_of_ok n Hg)); [done|done|]. simpl. apply rd_noEdge; eauto.
Qed.

(** ** C23 *)
(** [keep_coords ds a] is the node-layer [a] without the coordinates in [ds]. *)
Theorem C23_aggregate n ds : reachable n -> NoDup ds -> (forall d, d ∈ ds -> 1 <= d <= aspects n) ->
  exists n', aggregate (src_of n) ds false = Ok n' /\
    reachable n' /\ aspects n' = aspects n - length ds /\ same_config n n' /\
    (forall x y, length x = S (aspects n') -> length y = S (aspects n') -> x <> y ->
       exists W, weight_sum n (fun a b => keep_coords ds a = x /\ keep_coords ds b = y) W /\ reads n' x y (noEdge n + W)) /\
    (forall x, ~ linked n' x x) /\
    (forall x, has_elem n' 0 x <-> has_elem n 0 x) /\
    (fic n = true -> forall k x, 1 <= k -> has_elem n' k x <->
       exists a b, linked n a b /\ keep_coords ds a <> keep_coords ds b /\ (keep_coords ds a !! k = Some x \/ keep_coords ds b !! k = Some x)) /\
    (fic n = false -> 0 < aspects n' -> forall x, x ∈ iter_node_layers n' <-> exists a, a ∈ iter_node_layers n /\ x = keep_coords ds a).
Proof.
  intros Hr Hnd Hds. pose proof (reachable_good _ Hr) as Hg. pose proof (src_of_ok n Hg) as Hok.
  destruct (aggregate_spec (src_of n) (npairs n) (rd n) ds false Hok Hnd Hds) as (n' & g & E & Hh & Hrd & Hsl & Hnl); [by left|].
  simpl in Hh. destruct (hist_config _ _ _ _ Hh) as (Hr' & Ha & Hc). pose proof (reachable_good _ Hr') as Hg'.
  exists n'. split; [done|]. split; [done|]. split; [done|]. split; [done|]. split; [|split; [|split; [|split]]].
  - intros x y Hx Hy Hne. destruct (agg_sum (src_of n) (npairs n) (rd n) ds false x y Hok Hne) as (L & HL & Hs). simpl in HL.
    assert (lists_exactly L (fun p => linked n (p.1) (p.2) /\ keep_coords ds (p.1) = x /\ keep_coords ds (p.2) = y)) as HL'.
    { eapply lists_exactly_iff; [|exact HL]. intros [a b]. simpl. rewrite linked_rd by done. split; [tauto|]. intros (H1 & H2).
      apply rd_noEdge in H1 as [w Hw]; [|done]. destruct (wfL_present _ (proj2 Hg) _ _ _ Hw). split; [done|]. split; [done|]. split; [|done]. apply rd_noEdge; eauto. }
    exists (zsumf (fun p => rd n (p.1) (p.2)) L). split.
    + exists L, ((fun p => rd n (p.1) (p.2)) <$> L). split; [done|]. split; [|apply zsumf_foldr]. apply reads_list; [done|].
      intros a b Hab. apply HL' in Hab as [(? & ? & _) _]. done.
    + apply reads_rd; [done|done|]. rewrite Hrd, Hs. done.
  - intros x Hl. apply linked_rd in Hl; [|done]. apply Hl. rewrite Hrd. destruct Hc as (-> & _). simpl.
    assert (filter (towards ds false (directed n) x x) (npairs n) = []) as ->; [|unfold zsumf, zsum; simpl; lia].
    destruct (filter _ _) as [|[a b] T] eqn:Ef; [done|]. assert ((a, b) ∈ filter (towards ds false (directed n) x x) (npairs n)) as Hab by (rewrite Ef; left).
    apply elem_of_list_filter in Hab as [[[?|Hk] Hh'] _]; [done|]. simpl in *. exfalso. apply Hk. destruct Hh' as [[-> ->]|(_ & -> & ->)]; done.
  - intros x. rewrite !has_elem_sl, Hsl. unfold s_nodes. simpl. split; [|intros Hx; left; split; [done|by apply net_nodes_sl]].
    intros [[_ Hx]|[[? _]|[? _]]]; [by apply net_nodes_sl|lia|lia].
  - intros Hf k x Hk. rewrite has_elem_sl, Hsl. simpl. split.
    + intros [[? _]|[(_ & a & b & Hab & [?|Hkept] & Hx)|(_ & ? & _)]]; [lia|done| |congruence].
      exists a, b. split; [|done]. apply linked_lnk; [done|]. by apply npairs_linked.
    + intros (a & b & Hl & Hkept & Hx). right. left. split; [done|]. apply linked_npairs in Hl as [Hl|[_ Hl]]; [| |done].
      * exists a, b. split; [done|]. split; [by right|done].
      * exists b, a. split; [done|]. split; [right; simpl in *; congruence|tauto].
  - intros Hf Ha' x. apply Hnl; [done|]. simpl. lia.
Qed.
(** With [selfEdges=True] the self-links are summed too, every link between two
    node-layers of an undirected network being counted once. *)
Theorem C23_aggregate_self_edges n ds : reachable n -> NoDup ds -> (forall d, d ∈ ds -> 1 <= d <= aspects n) ->
  (directed n = true \/ forall a b w, linked n a b -> reads n a b w -> (0 < w)%Z) ->
  exists n', aggregate (src_of n) ds true = Ok n' /\
    reachable n' /\ aspects n' = aspects n - length ds /\ same_config n n' /\
    (forall x y, length x = S (aspects n') -> length y = S (aspects n') -> x <> y ->
       exists W, weight_sum n (fun a b => keep_coords ds a = x /\ keep_coords ds b = y) W /\ reads n' x y (noEdge n + W)) /\
    (forall x, length x = S (aspects n') ->
       exists W, weight_sum_once n (fun a b => keep_coords ds a = x /\ keep_coords ds b = x) W /\ reads n' x x (noEdge n + W)) /\
    (forall x, has_elem n' 0 x <-> has_elem n 0 x).
Proof.
  intros Hr Hnd Hds Hpos. pose proof (reachable_good _ Hr) as Hg. pose proof (src_of_ok n Hg) as Hok.
  destruct (aggregate_spec (src_of n) (npairs n) (rd n) ds true Hok Hnd Hds) as (n' & g & E & Hh & Hrd & Hsl & Hnl).
  { right. destruct Hpos as [?|Hpos]; [by left|right]. intros a b Hab. apply npairs_linked in Hab; [|done].
    destruct (lnk_lengths n a b Hg Hab). apply linked_lnk in Hab; [|done]. apply (Hpos a b _ Hab). by apply reads_rd. }
  simpl in Hh. destruct (hist_config _ _ _ _ Hh) as (Hr' & Ha & Hc). pose proof (reachable_good _ Hr') as Hg'.
  assert (forall a b, (a, b) ∈ npairs n -> linked n a b) as Hpl.
  { intros a b Hab. apply linked_lnk; [done|]. by apply npairs_linked. }
  exists n'. split; [done|]. split; [done|]. split; [done|]. split; [done|]. split; [|split].
  - intros x y Hx Hy Hne. destruct (agg_sum (src_of n) (npairs n) (rd n) ds true x y Hok Hne) as (L & HL & Hs). simpl in HL.
    assert (lists_exactly L (fun p => linked n (p.1) (p.2) /\ keep_coords ds (p.1) = x /\ keep_coords ds (p.2) = y)) as HL'.
    { eapply lists_exactly_iff; [|exact HL]. intros [a b]. simpl. rewrite linked_rd by done. split; [tauto|]. intros (H1 & H2).
      apply rd_noEdge in H1 as [w Hw]; [|done]. destruct (wfL_present _ (proj2 Hg) _ _ _ Hw). split; [done|]. split; [done|]. split; [|done]. apply rd_noEdge; eauto. }
    exists (zsumf (fun p => rd n (p.1) (p.2)) L). split.
    + exists L, ((fun p => rd n (p.1) (p.2)) <$> L). split; [done|]. split; [|apply zsumf_foldr]. apply reads_list; [done|].
      intros a b Hab. apply HL' in Hab as [(? & ? & _) _]. done.
    + apply reads_rd; [done|done|]. rewrite Hrd, Hs. done.
  - intros x Hx. set (L := filter (towards ds true (directed n) x x) (npairs n)).
    assert (forall a b, (a, b) ∈ L <-> (a, b) ∈ npairs n /\ keep_coords ds a = x /\ keep_coords ds b = x) as HL.
    { intros a b. unfold L. rewrite elem_of_list_filter. unfold towards, kept, hit. simpl. intuition congruence. }
    exists (zsumf (fun p => rd n (p.1) (p.2)) L). split; [|apply reads_rd; [done|done|]; by rewrite Hrd].
    exists L, ((fun p => rd n (p.1) (p.2)) <$> L). split; [apply NoDup_filter, Hok|]. split; [|split; [|split; [|split]]].
    + intros a b [Hab ?]%HL. auto.
    + intros a b Hl Hk. apply linked_npairs in Hl as [Hl|[? Hl]]; [| |done]; [left|right; split; [done|]]; apply HL; tauto.
    + intros Hd a b [H1 _]%HL [H2 _]%HL. by apply (so_once _ _ _ Hok).
    + apply reads_list; [done|]. intros a b [(? & ? & _)%Hpl _]%HL. done.
    + apply zsumf_foldr.
  - intros x. rewrite !has_elem_sl, Hsl. unfold s_nodes. simpl. split; [|intros Hx; left; split; [done|by apply net_nodes_sl]].
    intros [[_ Hx]|[[? _]|[? _]]]; [by apply net_nodes_sl|lia|lia].
Qed.
(** The check of the aspect numbers lets [aspects+1] through, which is not an
    aspect; the call then fails on the first link. *)
Theorem C23_aspect_range_refuted : exists n d, reachable n /\ 0 < d <= aspects n + 1 /\
  aggregate (src_of n) [d] false = Err KeyError /\ aggregate (src_of n) [S d] false = Err AssertionError.
Proof.
  exists ex_n, 2. split; [by repeat eexists; apply ex_hist|]. split; [vm_compute; lia|]. split; by vm_compute.
Qed.
(** Adding up self-links of an undirected network to [noEdge] raises. *)
Theorem C23_self_edges_refuted : exists n, reachable n /\ aggregate (src_of n) [1] true = Err KeyError.
Proof.
  exists (run (new_net 1 0 false true) [OpSet [A1; A1; La] 1; OpSet [A1; A1; Lb] (-1)]).
  split; [by repeat eexists; apply run_hist0|]. by vm_compute.
Qed.
Definition ex_agg : mlnet := run (new_net 2 0 false false)
  [ OpSet [A1; A2; La; La; Lb; Lc] 5; OpSet [A2; A1; La; La; Lc; Lb] 2; OpSet [A1; A2; La; La; Lc; Lc] 3; OpSet [A1; A2; Lb; Lc] 3;
    OpSet [A1; A1; La; Lb; Lc; Lc] 9; OpSet [A3; A3; La; La; Lb; Lc] 8; OpAddNode (NInt 9) None; OpAddNode (NInt 7) (Some (LTup [Lc; Lc])) ].
Example C23_example : exists n1 n2, aggregate (src_of ex_agg) [2] false = Ok n1 /\ getitem n1 (INm <$> [A1; A2; La; La]) = Ok (GWeight 5) /\
  getitem n1 (INm <$> [A3; A3; La; La]) = Ok (GWeight 0) /\ getitem n1 (INm <$> [A2; A1; Lb; Lb]) = Ok (GWeight 3) /\
  getitem n1 (INm <$> [A1; A1; Lb; La]) = Ok (GWeight 9) /\
  aggregate (src_of ex_agg) [1; 2] true = Ok n2 /\ getitem n2 (INm <$> [A2; A1]) = Ok (GWeight 8) /\ getitem n2 (INm <$> [A1; A1]) = Ok (GWeight 9).
Proof. do 2 eexists. split_and!; by vm_compute. Qed.
Print Assumptions C23_aggregate.
Print Assumptions C23_aggregate_self_edges.
Print Assumptions C23_aspect_range_refuted.
Print Assumptions C23_self_edges_refuted.

(** ** C24 *)
(** [W] is the sum over all layers [l] of the reading [net[i,j,l]]. *)
Definition layer_sum (n : mlnet) (i j : name) (W : Z) : Prop :=
  exists ls ws, lists_exactly ls (has_elem n 1) /\ Forall2 (fun l w => reads n [i; l] [j; l] w) ls ws /\ W = foldr Z.add 0%Z ws.
Lemma one_aspect n : good n -> aspects n = 1 -> exists ns ls, slices n = [ns; ls] /\ NoDup ns /\ NoDup ls /\
  (forall x, has_elem n 0 x <-> x ∈ ns) /\ (forall x, has_elem n 1 x <-> x ∈ ls).
Proof.
  intros [HS _] Ha. pose proof (wfS_len _ HS) as Hl. pose proof (wfS_nodup _ HS) as Hnd. rewrite Ha in Hl.
  destruct (slices n) as [|ns [|ls [|? ?]]] eqn:E; simpl in Hl; try lia. exists ns, ls. split; [done|].
  apply Forall_cons in Hnd as [H1 Hnd]. apply Forall_cons in Hnd as [H2 _]. split; [done|]. split; [done|].
  setoid_rewrite has_elem_sl. unfold sl. rewrite E. split; intros x; (split; [intros (s & [= <-] & Hx); done|intros Hx; eauto]).
Qed.
Lemma layer_sum_intro n ns ls i j : good n -> aspects n = 1 -> slices n = [ns; ls] -> NoDup ls -> (forall x, has_elem n 1 x <-> x ∈ ls) ->
  layer_sum n i j (zsumf (fun l => rd n [i; l] [j; l]) ls).
Proof.
  intros Hg Ha E Hnd Hls. exists ls, ((fun l => rd n [i; l] [j; l]) <$> ls). split; [split; [done|]; intros l; by rewrite Hls|].
  split; [|apply zsumf_foldr]. clear -Ha. induction ls as [|l ls IH]; cbn [fmap list_fmap]; constructor; [|done].
  apply reads_rd; simpl; congruence.
Qed.
Theorem C24_overlay n : reachable n -> aspects n = 1 -> directed n = false ->
  (forall i s, ~ (has_elem n 0 (NInt i) /\ has_elem n 0 (NStr s))) ->
  exists n', net_overlay n = Ok n' /\ reachable n' /\ aspects n' = 0 /\ directed n' = false /\ noEdge n' = 0%Z /\
    (forall i j, has_elem n 0 i -> has_elem n 0 j -> i <> j -> exists W, layer_sum n i j W /\ reads n' [i] [j] W) /\
    (forall i, has_elem n 0 i -> reads n' [i] [i] 0) /\
    (forall i, has_elem n' 0 i <-> has_elem n 0 i /\ (exists l, has_elem n 1 l) /\ exists j, has_elem n 0 j /\ j <> i).
Proof.
  intros Hr Ha Hd Hm. pose proof (reachable_good _ Hr) as Hg. destruct (one_aspect n Hg Ha) as (ns & ls & E & Hns & Hls & H0 & H1).
  unfold net_overlay. rewrite Ha, Hd, E.
  destruct (overlay_spec false ns ls (fun i j l => Ok (weight n [i; l] [j; l])) (fun i j l => rd n [i; l] [j; l])) as (n' & g & Eo & Hh & Hr1 & Hr2 & Hsl); [done|done|..].
  - intros i j l _ _ _ _. f_equal. by apply weight_rd.
  - intros _ _ i j Hi Hj. destruct i as [i|i], j as [j|j]; try done; exfalso; [apply (Hm i j)|apply (Hm j i)]; by rewrite !H0.
  - done.
  - intros _ i j l _ _ _ _. by apply rd_sym.
  - destruct (hist_inv _ _ _ _ _ _ Hh) as [_ _ Ha' Hn' Hd' _]. exists n'. split; [done|]. split; [by repeat eexists|]. split; [done|]. split; [done|]. split; [done|].
    split; [|split].
    + intros i j Hi%H0 Hj%H0 Hne. exists (zsumf (fun l => rd n [i; l] [j; l]) ls). split; [by eapply layer_sum_intro|].
      apply reads_rd; [by rewrite Ha'|by rewrite Ha'|]. by rewrite Hr1.
    + intros i Hi%H0. apply reads_rd; [by rewrite Ha'|by rewrite Ha'|]. by rewrite Hr2.
    + intros i. rewrite has_elem_sl, Hsl, H0. split.
      * intros (Hi & Hl & [?|(y & Hy & Hne)]); [done|]. split; [done|]. split; [|exists y; by rewrite H0].
        destruct ls as [|l ls]; [done|]. exists l. apply H1. left.
      * intros (Hi & (l & Hl%H1) & y & Hy%H0 & Hne). split; [done|]. split; [by intros ->; apply elem_of_nil in Hl|]. right. eauto.
Qed.
(** The overlay of a directed network is an undirected network in which both
    directions have been added up. *)
Theorem C24_overlay_directed n : reachable n -> aspects n = 1 -> directed n = true ->
  (forall i l w, reads n [i; l] [i; l] w -> (0 <= w)%Z) ->
  exists n', net_overlay n = Ok n' /\ reachable n' /\ aspects n' = 0 /\ directed n' = false /\
    (forall i j, has_elem n 0 i -> has_elem n 0 j -> i <> j ->
       exists W1 W2, layer_sum n i j W1 /\ layer_sum n j i W2 /\ reads n' [i] [j] (W1 + W2)) /\
    (forall i, has_elem n 0 i -> exists W, layer_sum n i i W /\ reads n' [i] [i] W) /\
    (forall i, has_elem n' 0 i <-> has_elem n 0 i /\ (exists l, has_elem n 1 l)).
Proof.
  intros Hr Ha Hd Hpos. pose proof (reachable_good _ Hr) as Hg. destruct (one_aspect n Hg Ha) as (ns & ls & E & Hns & Hls & H0 & H1).
  unfold net_overlay. rewrite Ha, Hd, E.
  destruct (overlay_spec true ns ls (fun i j l => Ok (weight n [i; l] [j; l])) (fun i j l => rd n [i; l] [j; l])) as (n' & g & Eo & Hh & Hr1 & Hr2 & Hsl); [done|done|..].
  - intros i j l _ _ _ _. f_equal. by apply weight_rd.
  - done.
  - intros _ i l _ _. apply (Hpos i l). apply reads_rd; [simpl; congruence|simpl; congruence|done].
  - done.
  - destruct (hist_inv _ _ _ _ _ _ Hh) as [_ _ Ha' Hn' Hd' _]. exists n'. split; [done|]. split; [by repeat eexists|]. split; [done|]. split; [done|].
    split; [|split].
    + intros i j Hi%H0 Hj%H0 Hne. exists (zsumf (fun l => rd n [i; l] [j; l]) ls), (zsumf (fun l => rd n [j; l] [i; l]) ls).
      split; [by eapply layer_sum_intro|]. split; [by eapply layer_sum_intro|].
      apply reads_rd; [by rewrite Ha'|by rewrite Ha'|]. rewrite Hr1 by done. symmetry. apply zsumf_add.
    + intros i Hi%H0. exists (zsumf (fun l => rd n [i; l] [i; l]) ls). split; [by eapply layer_sum_intro|].
      apply reads_rd; [by rewrite Ha'|by rewrite Ha'|]. by rewrite Hr2.
    + intros i. rewrite has_elem_sl, Hsl, H0. split.
      * intros (Hi & Hl & _). split; [done|]. destruct ls as [|l ls]; [done|]. exists l. apply H1. left.
      * intros (Hi & (l & Hl%H1)). split; [done|]. split; [by intros ->; apply elem_of_nil in Hl|by left].
Qed.
(** Node names of both kinds cannot be compared: the call raises. *)
Theorem C24_mixed_names n : reachable n -> aspects n = 1 -> directed n = false -> (exists l, has_elem n 1 l) ->
  (exists i s, has_elem n 0 (NInt i) /\ has_elem n 0 (NStr s)) -> net_overlay n = Err TypeError.
Proof.
  intros Hr Ha Hd (l & Hl) (i & s & Hi & Hs). pose proof (reachable_good _ Hr) as Hg. destruct (one_aspect n Hg Ha) as (ns & ls & E & Hns & Hls & H0 & H1).
  unfold net_overlay. rewrite Ha, Hd, E. apply (overlay_mixed ns ls _ (fun i j l => weight n [i; l] [j; l])); [done|..].
  - exists i, s. by rewrite <- !H0.
  - apply H1 in Hl. intros ->. by apply elem_of_nil in Hl.
Qed.
Example C24_example : exists n', net_overlay (run ex_n [OpSet [A1; A2; Lb] 30]) = Ok n' /\ getitem n' (INm <$> [A1; A2]) = Ok (GWeight 37) /\
  getitem n' (INm <$> [A2; A3]) = Ok (GWeight 0) /\ net_nodes n' = [A2; A1; A3].
Proof. eexists. split_and!; by vm_compute. Qed.
Print Assumptions C24_overlay.
Print Assumptions C24_overlay_directed.
Print Assumptions C24_mixed_names.

(** ** C25 *)
(** [args]: one selection per coordinate, [None] selects everything.
    [sel_nl args a]: every coordinate of [a] is selected. *)
Theorem C25_subnet n args : reachable n -> length args = S (aspects n) ->
  exists n', subnet n args false = Ok n' /\ reachable n' /\ aspects n' = aspects n /\ same_config n n' /\
    (forall a b w, sel_nl args a -> sel_nl args b -> reads n' a b w <-> reads n a b w) /\
    (forall a b, length a = S (aspects n) -> length b = S (aspects n) -> ~ (sel_nl args a /\ sel_nl args b) -> reads n' a b (noEdge n)) /\
    (forall k x, fic n = true \/ k <> 0 -> has_elem n' k x <-> has_elem n k x /\ exists o, args !! k = Some o /\ sel_name o x) /\
    (forall a, a ∈ iter_node_layers n' <-> a ∈ iter_node_layers n /\ sel_nl args a) /\
    (fic n = false -> forall x, has_elem n' 0 x <-> exists a, a ∈ iter_node_layers n' /\ a !! 0 = Some x).
Proof.
  intros Hr Hl. pose proof (reachable_good _ Hr) as Hg. pose proof Hg as [HS HL].
  destruct (subnet_spec n args false Hg Hl) as (n' & g & E & Hh & Hr1 & Hr2 & Hsl & Hnl).
  destruct (hist_config _ _ _ _ Hh) as (Hr' & Ha & Hc). pose proof (reachable_good _ Hr') as Hg'.
  exists n'. split; [done|]. split; [done|]. split; [done|]. split; [done|].
  assert (forall k x, fic n = true \/ k <> 0 -> has_elem n' k x <-> has_elem n k x /\ exists o, args !! k = Some o /\ sel_name o x) as Hel.
  { intros k x Hf. rewrite !has_elem_sl, Hsl. split; [|tauto]. intros [?|(Hf' & -> & _)]; [tauto|]. destruct Hf; congruence. }
  assert (forall a, a ∈ iter_node_layers n' <-> a ∈ iter_node_layers n /\ sel_nl args a) as Hnl'.
  { destruct (fic n) eqn:Hf; [|by apply Hnl]. intros a.
    assert (fic n' = true) as Hf' by (destruct Hc as (_ & _ & Hc); apply Hc; by right).
    rewrite !elem_of_iter_node_layers, !nl_in_slices_sl, (wfS_len _ HS), (wfS_len _ (proj1 Hg')), Hf, Hf', Ha by (done || apply Hg'). split.
    - intros [[Hla Hx] _]. split; [split; [split; [done|]|done]|].
      + intros k x Hk. specialize (Hx k x Hk). apply has_elem_sl in Hx. apply Hel in Hx as [Hx _]; [|by left]. by apply has_elem_sl.
      + intros k x o Hk Ho. specialize (Hx k x Hk). apply has_elem_sl in Hx. apply Hel in Hx as [_ (o' & Ho' & Hx)]; [|by left]. congruence.
    - intros [[[Hla Hx] _] Hs]. split; [|done]. split; [done|]. intros k x Hk. apply has_elem_sl, Hel; [by left|]. split; [apply has_elem_sl; eauto|].
      destruct (args !! k) as [o|] eqn:Ho; [exists o; split; [done|]; by eapply Hs|]. apply lookup_ge_None in Ho. apply lookup_lt_Some in Hk. lia. }
  split; [|split; [|split; [done|split; [done|]]]].
  - intros a b w Hsa Hsb. split; intros (item & Hi & Hw).
    + rewrite (getitem_names n' _ _ _ Hi) in Hw. injection Hw as <-. rewrite Ha in Hi. exists item. split; [done|].
      rewrite (getitem_names n _ _ _ Hi). by rewrite Hr1.
    + rewrite (getitem_names n _ _ _ Hi) in Hw. injection Hw as <-. rewrite <- Ha in Hi. exists item. split; [done|].
      rewrite (getitem_names n' _ _ _ Hi). by rewrite Hr1.
  - intros a b Hla Hlb Hno. apply reads_rd; [congruence|congruence|]. symmetry. apply Hr2. by right.
  - intros Hf x. rewrite has_elem_sl, Hsl. split.
    + intros [([?|?] & _)|(_ & _ & a & Hp & Hs & Hx)]; [congruence|done|]. exists a. split; [|done]. by apply Hnl'.
    + intros (a & [Hp Hs]%Hnl' & Hx). right. split; [done|]. split; [done|]. eauto.
Qed.
(** Without links ([nolinks=True]) the result has the same nodes, layers and
    node-layers but no links. *)
Theorem C25_subnet_nolinks n args : reachable n -> length args = S (aspects n) ->
  exists n' m, subnet n args true = Ok n' /\ subnet n args false = Ok m /\ reachable n' /\ same_config m n' /\
    (forall k x, has_elem n' k x <-> has_elem m k x) /\
    (forall a, a ∈ iter_node_layers n' <-> a ∈ iter_node_layers m) /\ (forall a b, ~ linked n' a b).
Proof.
  intros Hr Hl. pose proof (reachable_good _ Hr) as Hg. pose proof Hg as [HS HL].
  destruct (subnet_spec n args true Hg Hl) as (n' & g & E & Hh & Hr1 & Hr2 & Hsl & Hnl).
  destruct (subnet_spec n args false Hg Hl) as (m & g' & E' & Hh' & Hr1' & Hr2' & Hsl' & Hnl').
  destruct (hist_config _ _ _ _ Hh) as (Hr' & Ha & Hc1 & Hc2 & Hc3). pose proof (reachable_good _ Hr') as Hg'.
  destruct (hist_config _ _ _ _ Hh') as (Hrm & Ham & Hcm1 & Hcm2 & Hcm3). pose proof (reachable_good _ Hrm) as Hgm.
  exists n', m. split; [done|]. split; [done|]. split; [done|]. split.
  { split; [congruence|]. split; [congruence|]. rewrite Ha, Hc3, Hcm3, Ha, Ham. tauto. }
  assert (forall k x, has_elem n' k x <-> has_elem m k x) as Hel by (intros; by rewrite !has_elem_sl, Hsl, Hsl').
  split; [done|]. split.
  - intros a. destruct (fic n) eqn:Hf; [|by rewrite Hnl, Hnl'].
    assert (fic n' = true) as Hf' by (apply Hc3; by right). assert (fic m = true) as Hfm by (apply Hcm3; by right).
    rewrite !elem_of_iter_node_layers, !nl_in_slices_sl, (wfS_len _ (proj1 Hgm)), (wfS_len _ (proj1 Hg')), Hf', Hfm, Ha, Ham by (apply Hg' || apply Hgm).
    setoid_rewrite has_elem_sl in Hel. setoid_rewrite Hel. split; intros [? _]; (split; [done|done]).
  - intros a b Hlk. apply linked_rd in Hlk; [|done]. apply Hlk. rewrite Hc1. apply Hr2. by left.
Qed.
(** Selecting everything gives an equal network, if the network is fully interconnected. *)
Theorem C25_select_everything n : reachable n -> fic n = true ->
  exists n', subnet n (replicate (S (aspects n)) None) false = Ok n' /\ net_eq n n' = Ok true /\ net_eq n' n = Ok true.
Proof.
  intros Hr Hf. destruct (C25_subnet n (replicate (S (aspects n)) None) Hr) as (n' & E & Hr' & Ha & Hc & Hrd & _ & Hel & _).
  { apply replicate_length. }
  assert (forall a, sel_nl (replicate (S (aspects n)) None) a) as Hall.
  { intros a k x o _ Ho. apply lookup_replicate in Ho as [-> _]. done. }
  assert (forall k x, has_elem n k x <-> has_elem n' k x) as Hel'.
  { intros k x. rewrite Hel by by left. split; [|tauto]. intros Hx. split; [done|]. exists None. split; [|done].
    apply lookup_replicate. split; [done|]. apply has_elem_sl in Hx as (s & Hs & _). apply lookup_lt_Some in Hs.
    by rewrite (wfS_len _ (proj1 (reachable_good _ Hr))) in Hs. }
  destruct Hc as (Hc1 & Hc2 & Hc3). assert (fic n' = true) as Hf' by (apply Hc3; by right).
  assert (same_network n n') as Hs.
  { split_and!; [done|done|done|congruence|exact Hel'| |].
    - intros l x. unfold iter_nodes. rewrite Hf, Hf', !net_nodes_sl, <- !has_elem_sl. apply Hel'.
    - intros a b w _ _. symmetry. by apply Hrd. }
  exists n'. split; [done|]. split; apply C14_equality_is_structural; try done. by apply same_network_sym.
Qed.
(** A network that is not fully interconnected loses its nodes without node-layers. *)
Theorem C25_select_everything_refuted : exists n n', reachable n /\ fic n = false /\
  subnet n [None; None] false = Ok n' /\ net_eq n n' = Ok false /\ has_elem n 0 A1 /\ ~ has_elem n' 0 A1.
Proof.
  exists (run (new_net 1 0 false false) [OpAddNode A1 None; OpSet [A2; A3; La] 1]). eexists.
  split; [by repeat eexists; apply run_hist0|]. split; [done|]. split; [by vm_compute|]. split; [by vm_compute|]. split.
  - eexists. split; [by vm_compute|]. left.
  - intros (s & Es & Hs). vm_compute in Es. injection Es as <-. revert Hs. apply (bool_decide_unpack _). by vm_compute.
Qed.
Example C25_example : exists n', subnet ex_n [Some [A1; A2; A2; NInt 8]; Some [Lb; La]] false = Ok n' /\
  getitem n' (INm <$> [A2; A1; La]) = Ok (GWeight 7) /\ getitem n' (INm <$> [A1; A1; Lb]) = Ok (GWeight 2) /\
  getitem n' (INm <$> [A2; A3; La; Lb]) = Ok (GWeight 0) /\ length (iter_node_layers n') = 4.
Proof. eexists. split_and!; by vm_compute. Qed.
Print Assumptions C25_subnet.
Print Assumptions C25_subnet_nolinks.
Print Assumptions C25_select_everything.
Print Assumptions C25_select_everything_refuted.

(** ** C26 *)
(** The maps are given as dictionaries; names without an entry are kept. *)
Definition renamed (d : dict name name) (x y : name) : Prop :=
  dget d x = Some y \/ (dget d x = None /\ y = x).
(** [ds] lists the map for nodes followed by the maps for the aspects (absent
    maps are empty). *)
Definition renamed_at (ds : list (dict name name)) (k : nat) (x y : name) : Prop := renamed (default [] (ds !! k)) x y.
Definition renamed_nl (ds : list (dict name name)) (a b : nl) : Prop :=
  length a = length b /\ forall k x y, a !! k = Some x -> b !! k = Some y -> renamed_at ds k x y.
(** No two names of the same aspect of [n] get the same new name. *)
Definition injective_on (n : mlnet) (ds : list (dict name name)) : Prop :=
  forall k x y z, has_elem n k x -> has_elem n k y -> renamed_at ds k x z -> renamed_at ds k y z -> x = y.
Lemma renamed_iff d x y : renamed d x y <-> y = ren d x.
Proof. unfold renamed, ren. destruct (dget d x) as [z|]; simpl; split; [intros [[= ->]|[? _]]; done|intros ->; by left|intros [?|[_ ->]]; done|intros ->; by right]. Qed.
Lemma renamed_nl_iff ds a b : renamed_nl ds a b <-> b = ren_nl ds a.
Proof.
  split.
  - intros [Hl H]. apply list_eq. intros k. rewrite ren_nl_lookup. destruct (a !! k) as [x|] eqn:Ea, (b !! k) as [y|] eqn:Eb; simpl; [|exfalso..|done].
    + f_equal. specialize (H k x y Ea Eb). by apply renamed_iff in H.
    + apply lookup_lt_Some in Ea. apply lookup_ge_None in Eb. lia.
    + apply lookup_lt_Some in Eb. apply lookup_ge_None in Ea. lia.
  - intros ->. split; [by rewrite ren_nl_length|]. intros k x y Ea Eb. rewrite ren_nl_lookup, Ea in Eb. simpl in Eb. injection Eb as <-.
    by apply renamed_iff.
Qed.
Lemma s_layers_has n k x : x ∈ s_layers (src_of n) k <-> has_elem n k x.
Proof.
  rewrite has_elem_sl. unfold s_layers, sl. simpl. destruct (slices n !! k) as [s|]; simpl; split.
  - eauto.
  - by intros (s' & [= <-] & Hx).
  - by intros ?%elem_of_nil.
  - by intros (s' & ? & _).
Qed.
Lemma injective_on_iff n ds : injective_on n ds <->
  forall k x y, x ∈ s_layers (src_of n) k -> y ∈ s_layers (src_of n) k -> renames ds k x = renames ds k y -> x = y.
Proof.
  unfold injective_on, renamed_at. setoid_rewrite s_layers_has. setoid_rewrite renamed_iff. unfold renames. split.
  - intros H k x y Hx Hy E. by apply (H k x y (ren (default [] (ds !! k)) x)).
  - intros H k x y z Hx Hy -> E. by apply (H k x y).
Qed.
(** [n'] is the image of [n] under the renaming. *)
Definition image_of (ds : list (dict name name)) (n n' : mlnet) : Prop :=
  aspects n' = aspects n /\ same_config n n' /\
  (forall k y, has_elem n' k y <-> exists x, has_elem n k x /\ renamed_at ds k x y) /\
  (forall b, b ∈ iter_node_layers n' <-> exists a, a ∈ iter_node_layers n /\ renamed_nl ds a b) /\
  (forall a b a' b' w, a ∈ iter_node_layers n -> b ∈ iter_node_layers n -> renamed_nl ds a a' -> renamed_nl ds b b' ->
     reads n' a' b' w <-> reads n a b w) /\
  (forall a' b', linked n' a' b' -> exists a b, linked n a b /\ renamed_nl ds a a' /\ renamed_nl ds b b').
Theorem C26_relabel n ds : reachable n -> injective_on n ds ->
  exists n', relabel (src_of n) ds = Ok n' /\ reachable n' /\ image_of ds n n'.
Proof.
  intros Hr Hinj0. pose proof (proj1 (injective_on_iff n ds) Hinj0) as Hinj. pose proof (reachable_good _ Hr) as Hg. pose proof (src_of_ok n Hg) as Hok.
  destruct (relabel_spec (src_of n) (npairs n) (rd n) ds Hok Hinj) as (n' & g & E & Hh & Hr1 & Hr2 & Hsl & Hnl). simpl in *.
  destruct (hist_config _ _ _ _ Hh) as (Hr' & Ha & Hc). pose proof (reachable_good _ Hr') as Hg'.
  exists n'. split; [done|]. split; [done|]. split; [done|]. split; [done|]. split; [|split; [|split]].
  - intros k y. rewrite has_elem_sl, Hsl. setoid_rewrite s_layers_has. unfold renamed_at. setoid_rewrite renamed_iff. done.
  - intros b. rewrite Hnl. by setoid_rewrite renamed_nl_iff.
  - intros a b a' b' w Hpa Hpb Ea%renamed_nl_iff Eb%renamed_nl_iff. subst a' b'.
    assert (length a = S (aspects n)) by by apply present_len. assert (length b = S (aspects n)) by by apply present_len.
    rewrite !reads_rd by (rewrite ?ren_nl_length; congruence). by rewrite Hr1.
  - intros a' b' Hl. apply linked_rd in Hl; [|done]. destruct Hc as (Hc1 & _). rewrite Hc1 in Hl.
    assert (exists a b, a ∈ iter_node_layers n /\ b ∈ iter_node_layers n /\ a' = ren_nl ds a /\ b' = ren_nl ds b) as (a & b & Hpa & Hpb & -> & ->).
    { destruct (decide (Exists (fun a => Exists (fun b => a' = ren_nl ds a /\ b' = ren_nl ds b) (iter_node_layers n)) (iter_node_layers n))) as [He|He].
      - apply Exists_exists in He as (a & Hpa & He). apply Exists_exists in He as (b & Hpb & ? & ?). eauto 10.
      - exfalso. apply Hl, Hr2. intros (a & b & Hpa & Hpb & ? & ?). apply He. apply Exists_exists. exists a. split; [done|]. apply Exists_exists. eauto. }
    exists a, b. rewrite Hr1 in Hl by done. split; [by apply linked_rd|]. by rewrite !renamed_nl_iff.
Qed.
Definition ex_ds : list (dict name name) := [[(A1, A2); (A2, A1)]; [(La, NInt 0)]].
Lemma inj_list_b (f : name -> name) (l : list name) :
  forallb (fun x => forallb (fun y => implb (bool_decide (f x = f y)) (bool_decide (x = y))) l) l = true ->
  forall x y, x ∈ l -> y ∈ l -> f x = f y -> x = y.
Proof.
  intros H x y Hx Hy E. rewrite forallb_forall in H. specialize (H x (proj1 (elem_of_list_In _ _) Hx)).
  rewrite forallb_forall in H. specialize (H y (proj1 (elem_of_list_In _ _) Hy)).
  rewrite bool_decide_eq_true_2 in H by done. by apply bool_decide_eq_true_1 in H.
Qed.
Example C26_example : injective_on ex_n ex_ds /\ exists n', relabel (src_of ex_n) ex_ds = Ok n' /\
  getitem n' (INm <$> [A1; A2; NInt 0]) = Ok (GWeight 7) /\ getitem n' (INm <$> [A1; A3; NInt 0; Lb]) = Ok (GWeight 4) /\
  getitem n' (INm <$> [A2; A2; Lb]) = Ok (GWeight 2).
Proof.
  split; [|eexists; split_and!; by vm_compute]. apply (proj2 (injective_on_iff _ _)). intros k x y Hx Hy.
  assert (s_layers (src_of ex_n) 0 = [A1; A2; A3]) as E0 by by vm_compute.
  assert (s_layers (src_of ex_n) 1 = [La; Lb; Lc; NStr "d"]) as E1 by by vm_compute.
  assert (forall k0, s_layers (src_of ex_n) (S (S k0)) = []) as E2.
  { intros k0. unfold s_layers. rewrite lookup_ge_None_2; [done|]. vm_compute. lia. }
  destruct k as [|[|k]]; [rewrite E0 in Hx, Hy|rewrite E1 in Hx, Hy|rewrite E2 in Hx; by apply elem_of_nil in Hx];
    clear E0 E1 E2; revert x y Hx Hy; apply inj_list_b; by vm_compute.
Qed.
(** A map that is not injective merges nodes; the weight of one of the links is lost. *)
Theorem C26_not_injective_refuted : exists n ds n', reachable n /\ relabel (src_of n) ds = Ok n' /\ ~ image_of ds n n'.
Proof.
  set (n := run (new_net 0 0 false true) [OpSet [A1; A3] 1; OpSet [A2; A3] 2]). exists n, [[(A1, A2)]]. eexists.
  split; [by repeat eexists; apply run_hist0|]. split; [by vm_compute|].
  intros (_ & _ & _ & _ & H & _). destruct (H [A1] [A3] [A2] [A3] 1%Z) as [_ H'].
  - apply (bool_decide_unpack _). by vm_compute.
  - apply (bool_decide_unpack _). by vm_compute.
  - apply renamed_nl_iff. by vm_compute.
  - apply renamed_nl_iff. by vm_compute.
  - destruct H' as (item & Hi & Hw).
    + exists [A1; A3]. split; [by apply (names_short 0 A1 A3 [])|by vm_compute].
    + rewrite (getitem_names _ _ _ _ Hi) in Hw. by vm_compute in Hw.
Qed.
Print Assumptions C26_relabel.
Print Assumptions C26_not_injective_refuted.

(** ** C27 *)
(** [d] numbers the names in [s] with [start], [start]+1, ... in Python's order. *)
Definition numbering (start : Z) (s : list name) (d : dict name name) : Prop :=
  (forall x y, dget d x = Some y -> x ∈ s) /\
  (forall x, x ∈ s -> exists i, dget d x = Some (NInt i) /\ (start <= i < start + Z.of_nat (length s))%Z) /\
  (forall i, (start <= i < start + Z.of_nat (length s))%Z -> exists x, x ∈ s /\ dget d x = Some (NInt i)) /\
  (forall x y i j, dget d x = Some (NInt i) -> dget d y = Some (NInt j) -> (i < j)%Z <-> name_le x y /\ x <> y).
Lemma index_map_numbering start s d : NoDup s -> index_map start s = Ok d -> numbering start s d.
Proof.
  intros Hnd E. destruct (index_map_spec start s d Hnd E) as (H1 & H2 & H3 & H4 & H5 & H6 & H7).
  split; [done|]. split; [done|]. split; [|done]. intros i Hi. destruct (proj2 (H4 (NInt i))) as (x & Hx & Er); [eauto|].
  exists x. split; [done|]. destruct (H1 x Hx) as (i' & Hg & _). unfold ren in Er. rewrite Hg in Er. simpl in Er. congruence.
Qed.
Theorem C27_normalize n nodeStart layerStart : reachable n ->
  (forall k i s, ~ (has_elem n k (NInt i) /\ has_elem n k (NStr s))) ->
  exists n' ds, normalize (src_of n) nodeStart layerStart = Ok (n', ds) /\ reachable n' /\
    length ds = S (aspects n) /\
    (forall k s, get_layers n k = Ok s -> exists d, ds !! k = Some d /\ numbering (if decide (k = 0) then nodeStart else layerStart) s d) /\
    image_of ds n n' /\
    (forall k s, get_layers n k = Ok s -> forall y, has_elem n' k y <->
       exists i, y = NInt i /\ let start := if decide (k = 0) then nodeStart else layerStart in (start <= i < start + Z.of_nat (length s))%Z).
Proof.
  intros Hr Hm. pose proof (reachable_good _ Hr) as Hg. pose proof (src_of_ok n Hg) as Hok.
  destruct (normalize_spec (src_of n) (npairs n) (rd n) nodeStart layerStart Hok) as [[_ Hex] Hsp].
  destruct Hex as [[n' ds] E].
  { intros t [k Hk]%elem_of_list_lookup (i & s & Hi & Hs). apply (Hm k i s). simpl in Hk. split; apply has_elem_sl; unfold sl; rewrite ?Hk; eauto. }
  destruct (Hsp n' ds E) as (Hl & Erl & Hds). clear Hsp. simpl in *.
  assert (Hnd : forall k s, slices n !! k = Some s -> NoDup s).
  { intros k s Hs. by eapply (Forall_lookup_1 _ _ _ _ (so_slnd _ _ _ Hok)). }
  assert (Hgl : forall k s, get_layers n k = Ok s -> slices n !! k = Some s).
  { intros k s. unfold get_layers. destruct (slices n !! k); [by intros [= ->]|done]. }
  assert (injective_on n ds) as Hinj.
  { apply (proj2 (injective_on_iff _ _)). intros k x y Hx Hy. unfold s_layers in *. simpl in *. destruct (slices n !! k) as [t|] eqn:Ek; [|by apply elem_of_nil in Hx].
    destruct (Hds k t Ek) as (d & Ed & Hd). unfold renames. rewrite Ed. simpl in *. eapply index_map_spec; [|exact Hd|done|done]. by apply (Hnd k). }
  destruct (C26_relabel n ds Hr Hinj) as (n2 & E2 & Hr2 & Him). rewrite Erl in E2. injection E2 as <-.
  exists n', ds. split; [done|]. split; [done|]. split; [done|].
  assert (forall k s, get_layers n k = Ok s -> exists d, ds !! k = Some d /\ numbering (if decide (k = 0) then nodeStart else layerStart) s d) as Hnum.
  { intros k s Hs%Hgl. destruct (Hds k s Hs) as (d & Ed & Hd). exists d. split; [done|]. apply index_map_numbering; [by apply (Hnd k)|done]. }
  split; [done|]. split; [done|]. intros k s Hs y. destruct Him as (_ & _ & Hel & _). rewrite Hel.
  destruct (Hnum k s Hs) as (d & Ed & N1 & N2 & N3 & _). unfold renamed_at. rewrite Ed. simpl.
  assert (forall x, has_elem n k x <-> x ∈ s) as Hin.
  { intros x. unfold has_elem. rewrite Hs. split; [by intros (? & [= <-] & ?)|eauto]. }
  setoid_rewrite Hin. split.
  - intros (x & Hx & Hren). destruct (N2 x Hx) as (i & Hi & ?). exists i. split; [|done]. destruct Hren as [?|[? _]]; congruence.
  - intros (i & -> & Hi). destruct (N3 i Hi) as (x & Hx & Hd). exists x. split; [done|by left].
Qed.
(** Names of both kinds in one aspect cannot be sorted. *)
Theorem C27_mixed_names n nodeStart layerStart k i s : reachable n -> has_elem n k (NInt i) -> has_elem n k (NStr s) ->
  normalize (src_of n) nodeStart layerStart = Err TypeError.
Proof.
  intros Hr Hi Hs. pose proof (reachable_good _ Hr) as Hg. pose proof (src_of_ok n Hg) as Hok.
  destruct (normalize_spec (src_of n) (npairs n) (rd n) nodeStart layerStart Hok) as [[Hex _] _].
  rewrite has_elem_sl in Hi, Hs. destruct Hi as (t & Ht & Hi). destruct Hs as (t' & Ht' & Hs). assert (t' = t) as -> by congruence.
  assert (mixed t) as Hm by (exists i, s; done).
  assert (t ∈ slices n) as Hin by by eapply elem_of_list_lookup_2.
  unfold normalize in *. destruct (rmapM _ _) as [ds|e] eqn:Er; cbn [rbind] in *.
  - exfalso. pose proof (rmapM_Ok_length _ _ _ Er) as Hl. rewrite imap_length in Hl. simpl in Hl.
    destruct (lookup_lt_is_Some_2 ds k) as [d Hd]; [rewrite Hl; by eapply lookup_lt_Some|].
    destruct (rmapM_Ok_lookup _ _ _ _ _ Er Hd) as ([k' t2] & Hk & Hf). rewrite list_lookup_imap in Hk. simpl in Hk. rewrite Ht in Hk. injection Hk as <- <-.
    simpl in Hf. assert (~ mixed t) as Hnm by (eapply index_map_ok; eauto). done.
  - f_equal. apply rmapM_err in Er as ([k' t2] & _ & He). unfold index_map in He. simpl in He. destruct (py_sorted t2) as [|e'] eqn:Es; [done|].
    cbn [rbind] in He. injection He as ->. by eapply py_sorted_err.
Qed.
(** The inverse maps returned on request. *)
Theorem C27_inverse_maps start s d : NoDup s -> numbering start s d -> NoDup (dkeys d) -> 
  forall i x, dget (invert d) (NInt i) = Some x <-> dget d x = Some (NInt i).
Proof.
  intros Hnd (N1 & N2 & N3 & N4) Hk i x. apply invert_spec; [done|]. intros x1 x2 v H1 H2.
  destruct (N2 x1 (N1 _ _ H1)) as (j & Hj & _). assert (v = NInt j) as -> by congruence.
  pose proof (N4 x1 x2 j j H1 H2) as H12. pose proof (N4 x2 x1 j j H2 H1) as H21.
  destruct (decide (x1 = x2)) as [|Hne]; [done|]. exfalso. destruct (name_leb_total x1 x2) as [Hl|Hl].
  - destruct H12 as [_ H12]. specialize (H12 (conj Hl Hne)). lia.
  - destruct H21 as [_ H21]. specialize (H21 (conj Hl (not_eq_sym Hne))). lia.
Qed.
Example C27_example : exists n' ds, normalize (src_of ex_n) 0 10 = Ok (n', ds) /\
  ds = [[(A1, NInt 0); (A2, NInt 1); (A3, NInt 2)]; [(La, NInt 10); (Lb, NInt 11); (Lc, NInt 12); (NStr "d", NInt 13)]] /\
  getitem n' (INm <$> [NInt 1; NInt 0; NInt 10]) = Ok (GWeight 7) /\
  invert (default [] (ds !! 0)) = [(NInt 0, A1); (NInt 1, A2); (NInt 2, A3)].
Proof. do 2 eexists. split_and!; by vm_compute. Qed.
Print Assumptions C27_normalize.
Print Assumptions C27_mixed_names.
Print Assumptions C27_inverse_maps.

(** ** C28 *)
(** The comparison selected by the argument [method]. *)
Definition compares (r : rule) (w t : Z) : Prop :=
  match r with RGe => w >= t | RLe => w <= t | RGt => w > t | RLt => w < t | ROther => False end%Z.
Lemma acc_of_true r t w : acc_of r t w = true <-> compares r w t.
Proof. destruct r; simpl; rewrite ?bool_decide_eq_true; lia || done. Qed.
Theorem C28_threshold n t r : reachable n -> fic n = true -> r <> ROther ->
  exists n', threshold (src_of n) t r = Ok n' /\ reachable n' /\ aspects n' = aspects n /\ same_config n n' /\
    (forall k x, has_elem n' k x <-> has_elem n k x) /\
    (forall a b w, linked n' a b /\ reads n' a b w <-> linked n a b /\ reads n a b w /\ compares r w t).
Proof.
  intros Hr Hf Hro. pose proof (reachable_good _ Hr) as Hg. pose proof (src_of_ok n Hg) as Hok.
  destruct (threshold_spec (src_of n) (npairs n) (rd n) t r Hok Hf Hro) as (n' & g & E & Hh & Hr1 & Hr2 & Hsl). simpl in *.
  destruct (hist_config _ _ _ _ Hh) as (Hr' & Ha & Hc). pose proof (reachable_good _ Hr') as Hg'. pose proof Hc as (Hc1 & _).
  exists n'. split; [done|]. split; [done|]. split; [done|]. split; [done|]. split.
  { intros k x. by rewrite has_elem_sl, Hsl, s_layers_has. }
  intros a b w. assert (linked n a b -> a ∈ iter_node_layers n /\ b ∈ iter_node_layers n) as Hlp.
  { intros [v Hv]%linked_lnk; [|done]. by destruct (wfL_present _ (proj2 Hg) _ _ _ Hv). }
  assert (linked n' a b -> a ∈ iter_node_layers n /\ b ∈ iter_node_layers n) as Hlp'.
  { intros Hl%linked_rd; [|done]. rewrite Hc1 in Hl. destruct (decide (a ∈ iter_node_layers n)), (decide (b ∈ iter_node_layers n)); try done;
      exfalso; apply Hl, Hr2; tauto. }
  split.
  - intros [Hl Hw]. destruct (Hlp' Hl) as [Hpa Hpb]. pose proof Hl as (Hla & Hlb & _). apply reads_rd in Hw; [|done|done]. subst w.
    rewrite Ha in Hla, Hlb. apply linked_rd in Hl; [|done]. rewrite Hc1, Hr1 in Hl by done. rewrite Hr1 by done. rewrite linked_rd by done.
    rewrite <- acc_of_true. destruct (acc_of r t (rd n a b)) eqn:Eac; [|done]. split; [done|]. split; [|done]. by apply reads_rd.
  - intros (Hl & Hw & Hcmp). destruct (Hlp Hl) as [Hpa Hpb]. pose proof Hl as (Hla & Hlb & _). apply reads_rd in Hw; [|done|done]. subst w.
    apply linked_rd in Hl; [|done]. apply acc_of_true in Hcmp. rewrite linked_rd, Hc1 by done. rewrite (reads_rd n') by congruence.
    rewrite Hr1 by done. rewrite Hcmp. done.
Qed.
(** Networks that are not fully interconnected: the call raises as soon as there
    is a node-layer. *)
Theorem C28_not_fully_interconnected n t r : reachable n -> fic n = false -> iter_node_layers n <> [] ->
  threshold (src_of n) t r = Err NameError.
Proof.
  intros Hr Hf Hne. pose proof (reachable_good _ Hr) as Hg. pose proof (src_of_ok n Hg) as Hok.
  by apply (threshold_nonfic (src_of n) (npairs n) (rd n)).
Qed.
(** An unknown method is only reported if there is a link. *)
Theorem C28_unknown_method n t : reachable n -> fic n = true ->
  ((exists a b, linked n a b) -> threshold (src_of n) t ROther = Err GenericException) /\
  ((forall a b, ~ linked n a b) -> exists n', threshold (src_of n) t ROther = Ok n').
Proof.
  intros Hr Hf. pose proof (reachable_good _ Hr) as Hg. pose proof (src_of_ok n Hg) as Hok.
  destruct (threshold_other (src_of n) (npairs n) (rd n) t Hok Hf) as [H1 H2]. split.
  - intros (a & b & Hl). apply H1. apply linked_npairs in Hl as [Hl|[_ Hl]]; [| |done]; intros E; rewrite E in Hl; by apply elem_of_nil in Hl.
  - intros Hno. rewrite H2.
    + destruct (threshold_spec (src_of n) (npairs n) (rd n) t RGe Hok Hf) as (n' & g & E & _); [done|]. eauto.
    + destruct (npairs n) as [|[a b] L] eqn:E; [done|]. exfalso. apply (Hno a b). apply linked_lnk; [done|]. apply npairs_linked; [done|].
      rewrite E. left.
Qed.
Example C28_example : exists n', threshold (src_of (run (new_net 1 0 false true) ex_h)) 4 RGt = Ok n' /\
  getitem n' (INm <$> [A1; A2; La]) = Ok (GWeight 7) /\ getitem n' (INm <$> [A2; A3; La; Lb]) = Ok (GWeight 0) /\
  iter_node_layers ex_n <> [].
Proof. eexists. split_and!; by vm_compute. Qed.
Print Assumptions C28_threshold.
Print Assumptions C28_not_fully_interconnected.
Print Assumptions C28_unknown_method.

(** ** C29 *)
(** [str] stands for the naming of the node-layers by Python's [str]; it has to
    give different names to different node-layers (which Python's [str] does for
    tuples of ints and strs). *)
Theorem C29_underlying_graph n str : reachable n ->
  (forall a b, a ∈ iter_node_layers n -> b ∈ iter_node_layers n -> str a = str b -> a = b) ->
  exists n', underlying str (src_of n) = Ok n' /\ reachable n' /\ aspects n' = 0 /\ directed n' = directed n /\ noEdge n' = noEdge n /\
    (forall x, has_elem n' 0 x <-> exists a, a ∈ iter_node_layers n /\ x = str a) /\
    (forall a b w, a ∈ iter_node_layers n -> b ∈ iter_node_layers n -> reads n' [str a] [str b] w <-> reads n a b w) /\
    length (net_nodes n') = length (iter_node_layers n).
Proof.
  intros Hr Hinj. pose proof (reachable_good _ Hr) as Hg. pose proof (src_of_ok n Hg) as Hok.
  destruct (underlying_spec str (src_of n) (npairs n) (rd n) Hok Hinj) as (n' & g & E & Hh & Hr1 & Hr2 & Hsl). simpl in *.
  destruct (hist_inv _ _ _ _ _ _ Hh) as [HS' _ Ha' Hn' Hd' _]. exists n'. split; [done|]. split; [by repeat eexists|]. split; [done|]. split; [done|]. split; [done|].
  split; [intros x; by rewrite has_elem_sl|]. split.
  - intros a b w Hpa Hpb. assert (length a = S (aspects n)) by by apply present_len. assert (length b = S (aspects n)) by by apply present_len.
    rewrite !reads_rd by (rewrite ?Ha'; done). by rewrite Hr1.
  - rewrite <- (fmap_length str (iter_node_layers n)). apply Permutation_length. apply NoDup_same_perm.
    + unfold net_nodes. destruct (slices n' !! 0) as [s|] eqn:Es; simpl; [|constructor]. by eapply (Forall_lookup_1 _ _ _ _ (wfS_nodup _ HS')).
    + assert (forall l, (forall a, a ∈ l -> a ∈ iter_node_layers n) -> NoDup l -> NoDup (str <$> l)) as Hgen.
      { induction l as [|a l IH]; intros Hin Hnd; [constructor|]. apply NoDup_cons in Hnd as [Hal Hnd]. cbn [fmap list_fmap]. apply NoDup_cons. split.
        - intros (b & Eb & Hb)%elem_of_list_fmap. apply Hinj in Eb as ->; [done|apply Hin; left|apply Hin; by right].
        - apply IH; [|done]. intros b Hb. apply Hin. by right. }
      apply Hgen; [done|]. apply Hok.
    + intros x. rewrite net_nodes_sl, Hsl, elem_of_list_fmap. naive_solver.
Qed.
(** Example: the naming that joins the coordinates, on the example network. *)
Definition join (a : nl) : name := NStr (foldr (fun x s => match x with NInt i => (pretty i ++ "," ++ s)%string | NStr t => (t ++ "," ++ s)%string end) EmptyString a).
Example C29_example : exists n', underlying join (src_of ex_n) = Ok n' /\
  NoDup (join <$> iter_node_layers ex_n) /\
  getitem n' (INm <$> [NStr "1,a,"; NStr "2,a,"]) = Ok (GWeight 7) /\ length (net_nodes n') = 6.
Proof. eexists. split_and!; try by vm_compute. apply (bool_decide_unpack _). by vm_compute. Qed.
Print Assumptions C29_underlying_graph.
