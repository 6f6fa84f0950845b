(** * Properties C30-C32: degree distribution, density, shortest paths *)
From Verif Require Import PropsNet PropsTrans DiagFacts.

(** ** C30 *)
Lemma degs_dist_gen (f : nl -> Z) l : forall k,
  default 0%Z (dget (foldl (fun d a => dset d (f a) (default 0%Z (dget d (f a)) + 1)%Z) ([] : dict Z Z) l) k) =
    Z.of_nat (length (filter (fun a => f a = k) l)) /\
  (dget (foldl (fun d a => dset d (f a) (default 0%Z (dget d (f a)) + 1)%Z) ([] : dict Z Z) l) k = None <-> forall a, a ∈ l -> f a <> k).
Proof.
  induction l as [|a l IH] using rev_ind; intros k; [split; [done|]; split; [intros _ a Ha; by apply elem_of_nil in Ha|done]|].
  rewrite foldl_app. cbn [foldl]. rewrite dget_dset, filter_app, app_length. destruct (IH k) as [IH1 IH2]. destruct (IH (f a)) as [IH3 _].
  destruct (decide (k = f a)) as [->|Hne].
  - simpl default. rewrite IH3. rewrite filter_cons_True by done. simpl. split; [lia|]. split; [done|]. intros H. exfalso. apply (H a); [|done].
    apply elem_of_app. right. by apply elem_of_list_singleton.
  - rewrite filter_cons_False by congruence. simpl. rewrite IH1. split; [lia|]. rewrite IH2. split.
    + intros H b [Hb|Hb%elem_of_list_singleton]%elem_of_app; [by apply H|]. congruence.
    + intros H b Hb. apply H. apply elem_of_app. by left.
Qed.
(** Each count is the number of node-layers of that degree, and only degrees that
    occur are reported. *)
Theorem C30_distribution n : reachable n -> forall k c,
  dget (degs_dist n) k = Some c <->
  exists L, lists_exactly L (fun a => a ∈ iter_node_layers n /\ degree n a None = k) /\ L <> [] /\ c = Z.of_nat (length L).
Proof.
  intros Hr k c. pose proof (reachable_good _ Hr) as Hg.
  destruct (degs_dist_gen (fun a => degree n a None) (iter_node_layers n) k) as [H1 H2]. fold (degs_dist n) in H1, H2.
  set (F := filter (fun a => degree n a None = k) (iter_node_layers n)) in *.
  assert (lists_exactly F (fun a => a ∈ iter_node_layers n /\ degree n a None = k)) as HF.
  { split; [by apply NoDup_filter, NoDup_iter_node_layers, Hg|]. intros a. unfold F. rewrite elem_of_list_filter. tauto. }
  split.
  - intros Hc. rewrite Hc in H1. simpl in H1. exists F. split; [done|]. split; [|done]. intros E.
    assert (dget (degs_dist n) k = None) as Hno; [|congruence]. apply H2. intros a Ha Hk. assert (a ∈ F) as Hin by (by apply HF).
    rewrite E in Hin. by apply elem_of_nil in Hin.
  - intros (L & HL & Hne & ->). rewrite (lists_exactly_length _ _ _ HL HF) in *.
    destruct (dget (degs_dist n) k) as [c|] eqn:E; [simpl in H1; congruence|].
    exfalso. destruct L as [|a L]; [done|]. destruct (proj1 (proj2 HL a)) as [Ha Hk]; [left|]. by apply (proj1 H2 eq_refl a).
Qed.
Lemma zsum_dset (d : dict Z Z) k v : NoDup (dkeys d) ->
  zsum (dset d k v).*2 = (zsum d.*2 + v - default 0 (dget d k))%Z.
Proof.
  change (NoDup (dkeys d) -> zsumf snd (dset d k v) = (zsumf snd d + v - default 0 (dget d k))%Z).
  induction d as [|[k' v'] d IH]; intros Hnd; [cbn; lia|]. cbn [dkeys fmap list_fmap fst] in Hnd. apply NoDup_cons in Hnd as [Hk Hnd].
  cbn [dset dget]. destruct (decide (k = k')) as [->|Hne].
  - rewrite !zsumf_cons. simpl. lia.
  - rewrite !zsumf_cons. rewrite (IH Hnd). simpl. lia.
Qed.
(** The counts add up to the number of node-layers. *)
Theorem C30_counts_total n : reachable n -> NoDup (dkeys (degs_dist n)) /\
  zsum (degs_dist n).*2 = Z.of_nat (length (iter_node_layers n)).
Proof.
  intros _. unfold degs_dist. induction (iter_node_layers n) as [|a l [IH1 IH2]] using rev_ind; [split; [constructor|done]|].
  rewrite foldl_app. cbn [foldl]. split; [by apply NoDup_dset|]. rewrite zsum_dset by done. rewrite IH2, app_length. simpl. lia.
Qed.
(** [degstype="nodes"]. *)
Theorem C30_nodes n : reachable n -> forall a k,
  dget (degs_nodes n) a = Some k <-> a ∈ iter_node_layers n /\ degree n a None = k.
Proof.
  intros _ a k. unfold degs_nodes. induction (iter_node_layers n) as [|b l IH] using rev_ind.
  - split; [done|]. intros [H _]. by apply elem_of_nil in H.
  - rewrite foldl_app. cbn [foldl]. rewrite dget_dset, elem_of_app, elem_of_list_singleton. destruct (decide (a = b)) as [->|Hne].
    + split; [intros [= <-]; auto|]. intros [_ <-]. done.
    + rewrite IH. tauto.
Qed.
(** Handshake lemma. *)
Theorem C30_handshake n : reachable n -> directed n = false ->
  exists S, lists_exactly S (fun a => linked n a a) /\
    (zsumf (fun a => degree n a None) (iter_node_layers n) + Z.of_nat (length S) = 2 * Z.of_nat (length (edges n)))%Z /\
    edges_len n = Z.of_nat (length (edges n)).
Proof.
  intros Hr Hd. pose proof (reachable_good _ Hr) as Hg. pose proof (edges_len_pairs n Hg) as He. rewrite Hd in He.
  rewrite edges_len_exact in He by done. exists (fst <$> filter is_loop (pairs n)). split; [|split].
  - split.
    + assert (forall l : list (nl * nl), NoDup l -> (forall p, p ∈ l -> is_loop p) -> NoDup (fst <$> l)) as Hgen.
      { induction l as [|p l IH]; intros Hnd Hl; [constructor|]. apply NoDup_cons in Hnd as [Hp Hnd]. cbn [fmap list_fmap]. apply NoDup_cons. split.
        - intros (p' & E & Hp')%elem_of_list_fmap. assert (p' = p) as ->; [|done]. pose proof (Hl p ltac:(left)) as H1. pose proof (Hl p' ltac:(by right)) as H2.
          destruct p, p'. unfold is_loop in *. simpl in *. congruence.
        - apply IH; [done|]. intros p' Hp'. apply Hl. by right. }
      apply Hgen; [by apply NoDup_filter, NoDup_pairs|]. intros p [? _]%elem_of_list_filter. done.
    + intros a. rewrite elem_of_list_fmap, linked_lnk by done. split.
      * intros ([x y] & -> & [Hl Hp]%elem_of_list_filter). unfold is_loop in Hl. simpl in *. subst y. by apply elem_of_pairs in Hp.
      * intros Hl. exists (a, a). split; [done|]. apply elem_of_list_filter. split; [done|]. by apply elem_of_pairs.
  - rewrite fmap_length. rewrite (zsumf_ext _ (fun a => degree_out n a None)) by (intros; by apply degree_und).
    rewrite sum_degree_out by done. lia.
  - by apply edges_len_exact.
Qed.
Theorem C30_handshake_directed n : reachable n -> directed n = true ->
  zsumf (fun a => degree_out n a None) (iter_node_layers n) = Z.of_nat (length (edges n)) /\
  zsumf (fun a => degree_in n a None) (iter_node_layers n) = Z.of_nat (length (edges n)).
Proof.
  intros Hr Hd. pose proof (reachable_good _ Hr) as Hg. pose proof (edges_len_pairs n Hg) as He. rewrite Hd in He.
  rewrite edges_len_exact in He by done. rewrite sum_degree_out, He by done. split; [done|].
  rewrite (zsumf_ext _ (fun a => Z.of_nat (length ((fun b => (b, a)) <$> iter_in n a None)))) by (intros; by rewrite fmap_length, degree_in_iter).
  rewrite <- length_bind. f_equal. apply Permutation_length, NoDup_same_perm.
  - apply NoDup_bind; [by apply NoDup_iter_node_layers, Hg| |].
    + intros a _. apply NoDup_fmap; [by intros ?? [= ?]|]. apply (iter_in_exact n a None Hg I).
    + intros a b z _ _ (x & -> & _)%elem_of_list_fmap (y & [= -> ->] & _)%elem_of_list_fmap. done.
  - by apply NoDup_pairs.
  - intros [a b]. rewrite elem_of_pairs, <- linked_lnk, elem_of_list_bind by done. split.
    + intros (x & (y & [= -> ->] & Hy)%elem_of_list_fmap & _). by apply (iter_in_exact n x None Hg I) in Hy as [? _].
    + intros Hl. exists b. split; [apply elem_of_list_fmap; exists a; split; [done|]; by apply (iter_in_exact n b None Hg I)|].
      apply linked_lnk in Hl as [w Hw]; [|done]. by apply (wfL_present _ (proj2 Hg) _ _ _ Hw).
Qed.
Example C30_example : degs_dist ex_n = [(1, 3); (2, 1); (0, 2)]%Z /\ length (edges ex_n) = 3 /\ edges_len ex_n = 3%Z /\
  zsumf (fun a => degree ex_n a None) (iter_node_layers ex_n) = 5%Z.
Proof. by vm_compute. Qed.
Print Assumptions C30_distribution.
Print Assumptions C30_counts_total.
Print Assumptions C30_nodes.
Print Assumptions C30_handshake.
Print Assumptions C30_handshake_directed.

(** ** C31 *)
Lemma length_cart_z (s : list name) (ls : list (list name)) :
  Z.of_nat (length (cart (s :: ls))) = (Z.of_nat (length s) * Z.of_nat (length (cart ls)))%Z.
Proof.
  cbn [cart]. rewrite length_bind. rewrite (zsumf_ext _ (fun _ => Z.of_nat (length (cart ls)))) by (intros; by rewrite fmap_length).
  rewrite zsumf_const. lia.
Qed.
Lemma density_count n : good n -> fic n = true ->
  foldl (fun z a => (z * Z.of_nat (length (default [] (slices n !! S a))))%Z) (Z.of_nat (length (net_nodes n))) (seq 0 (aspects n)) =
  Z.of_nat (length (iter_node_layers n)).
Proof.
  intros [HS _] Hf. unfold iter_node_layers. rewrite Hf. pose proof (wfS_len _ HS) as Hl. unfold net_nodes.
  destruct (slices n) as [|s ls]; [done|]. simpl in Hl. injection Hl as Hl. cbn [lookup list_lookup default]. rewrite length_cart_z, <- Hl. clear.
  assert (forall z off, foldl (fun z a => (z * Z.of_nat (length (default [] ((s :: ls) !! S (a - off)))))%Z) z (seq off (length ls)) = (z * Z.of_nat (length (cart ls)))%Z) as H.
  { induction ls as [|l ls IH]; intros z off; [simpl; lia|]. cbn [length seq foldl]. rewrite Nat.sub_diag. cbn [lookup list_lookup default].
    rewrite length_cart_z. rewrite Z.mul_assoc. rewrite <- (IH (z * Z.of_nat (length l))%Z (S off)). 
    assert (forall l2 z1, (forall a, a ∈ l2 -> S off <= a) ->
      foldl (fun z2 a => (z2 * Z.of_nat (length (default [] ((s :: l :: ls) !! S (a - off)))))%Z) z1 l2 =
      foldl (fun z2 a => (z2 * Z.of_nat (length (default [] ((s :: ls) !! S (a - S off)))))%Z) z1 l2) as Hx.
    { induction l2 as [|a l2 IH2]; intros z1 Ha; [done|]. cbn [foldl]. rewrite IH2 by (intros b Hb; apply Ha; by right).
      specialize (Ha a ltac:(left)). replace (a - off) with (S (a - S off)) by lia. done. }
    apply Hx. intros a Ha%elem_of_seq. lia. }
  specialize (H (Z.of_nat (length s)) 0). rewrite <- H. unfold id.
  generalize (Z.of_nat (length s)) (seq 0 (length ls)). intros z l. revert z. induction l as [|a l IH]; intros z; [done|]. cbn [foldl].
  rewrite Nat.sub_0_r. apply IH.
Qed.
(** The ordered pairs of different elements. *)
Definition offdiag (l : list nl) : list (nl * nl) := l ≫= fun a => (fun b => (a, b)) <$> filter (fun b => b <> a) l.
Lemma elem_of_offdiag l a b : (a, b) ∈ offdiag l <-> a ∈ l /\ b ∈ l /\ b <> a.
Proof.
  unfold offdiag. rewrite elem_of_list_bind. split.
  - intros (x & (y & [= -> ->] & [H1 H2]%elem_of_list_filter)%elem_of_list_fmap & Hx). done.
  - intros (Ha & Hb & Hne). exists a. split; [|done]. apply elem_of_list_fmap. exists b. split; [done|]. by apply elem_of_list_filter.
Qed.
Lemma offdiag_length l : NoDup l -> Z.of_nat (length (offdiag l)) = (Z.of_nat (length l) * (Z.of_nat (length l) - 1))%Z.
Proof.
  intros Hnd. unfold offdiag. rewrite length_bind. rewrite (zsumf_ext _ (fun _ => Z.of_nat (length l) - 1)%Z).
  - rewrite zsumf_const. lia.
  - intros a Ha. rewrite fmap_length. pose proof (filter_split_length (fun b => b = a) l) as Hs.
    assert (length (filter (fun b => b = a) l) = 1) as H1; [|lia].
    assert (filter (fun b => b = a) l ≡ₚ [a]) as ->; [|done]. apply NoDup_same_perm; [by apply NoDup_filter|apply NoDup_singleton|].
    intros x. rewrite elem_of_list_filter, elem_of_list_singleton. split; [by intros [-> _]|]. by intros ->.
Qed.
Lemma NoDup_offdiag l : NoDup l -> NoDup (offdiag l).
Proof.
  intros Hnd. apply NoDup_bind; [done| |].
  - intros a _. apply NoDup_fmap; [by intros ?? [= ?]|]. by apply NoDup_filter.
  - intros a b z _ _ (x & -> & _)%elem_of_list_fmap (y & [= -> ->] & _)%elem_of_list_fmap. done.
Qed.
(** The density is the number of links divided by the number of pairs of
    node-layers; it lies between 0 and 1 and is 1 exactly for complete networks. *)
Theorem C31_density n : reachable n -> fic n = true -> (forall a, ~ linked n a a) -> 2 <= length (iter_node_layers n) ->
  exists q, density n = Ok q /\
    (let N := Z.of_nat (length (iter_node_layers n)) in
     q * inject_Z (N * (N - 1)) == inject_Z ((if directed n then 1 else 2) * Z.of_nat (length (edges n))) /\
     0 <= q /\ q <= 1 /\
     (q == 1 <-> forall a b, a ∈ iter_node_layers n -> b ∈ iter_node_layers n -> a <> b -> linked n a b))%Q.
Proof.
  intros Hr Hf Hself HN. pose proof (reachable_good _ Hr) as Hg. set (l := iter_node_layers n) in *. set (N := Z.of_nat (length l)).
  assert (NoDup l) as Hnd by apply NoDup_iter_node_layers, Hg.
  assert (net_nodes n <> []) as Hne.
  { intros E. pose proof (density_count n Hg Hf) as Hc. rewrite E in Hc. simpl in Hc. fold l in Hc.
    assert (forall r z, z = 0%Z -> foldl (fun z a => (z * Z.of_nat (length (default [] (slices n !! S a))))%Z) z r = 0%Z) as H0.
    { induction r as [|x r IH]; intros z ->; [done|]. cbn [foldl]. apply IH. lia. }
    rewrite H0 in Hc by done. lia. }
  set (c := (if directed n then 1 else 2)%Z). set (E := Z.of_nat (length (edges n))).
  assert (c * E = Z.of_nat (length (pairs n)))%Z as HcE.
  { pose proof (edges_len_pairs n Hg) as He. rewrite edges_len_exact in He by done. unfold c, E. destruct (directed n); [lia|].
    assert (filter is_loop (pairs n) = []) as H0; [|rewrite H0 in He; simpl in He; lia].
    destruct (filter is_loop (pairs n)) as [|[a b] r] eqn:Efl; [done|]. exfalso.
    assert ((a, b) ∈ filter is_loop (pairs n)) as Hin by (rewrite Efl; left). apply elem_of_list_filter in Hin as [Hlo Hin].
    unfold is_loop in Hlo. simpl in Hlo. subst b. apply elem_of_pairs in Hin; [|done]. apply (Hself a). by apply linked_lnk. }
  assert (forall p, p ∈ pairs n -> p ∈ offdiag l) as Hsub.
  { intros [a b] Hp. apply elem_of_pairs in Hp; [|done]. apply elem_of_offdiag. pose proof Hp as [w Hw]. destruct (wfL_present _ (proj2 Hg) _ _ _ Hw).
    split; [done|]. split; [done|]. intros ->. apply (Hself a). by apply linked_lnk. }
  pose proof (offdiag_length l Hnd) as Hoff. fold N in Hoff.
  assert (c * E <= N * (N - 1))%Z as Hle. { rewrite HcE, <- Hoff. apply inj_le. apply sub_len_le; [by apply NoDup_pairs|done]. }
  assert ((c * E = N * (N - 1))%Z <-> forall a b, a ∈ l -> b ∈ l -> a <> b -> linked n a b) as Heq.
  { rewrite HcE, <- Hoff. split.
    - intros Hlen a b Ha Hb Hab. apply Nat2Z.inj in Hlen. pose proof (sub_len_perm (pairs n) (offdiag l) ltac:(by apply NoDup_pairs) Hsub Hlen) as Hp.
      apply linked_lnk; [done|]. apply elem_of_pairs; [done|]. rewrite Hp. apply elem_of_offdiag. done.
    - intros Hall. f_equal. apply Permutation_length, NoDup_same_perm; [by apply NoDup_pairs|by apply NoDup_offdiag|].
      intros [a b]. split; [apply Hsub|]. intros (Ha & Hb & Hab)%elem_of_offdiag. apply elem_of_pairs; [done|]. apply linked_lnk; [done|]. apply Hall; [done..|congruence]. }
  assert (0 < N * (N - 1))%Z as Hpos by nia. assert (0 <= E)%Z as HE by lia.
  assert (~ inject_Z (N * (N - 1)) == 0)%Q as Hnz. { change 0%Q with (inject_Z 0). rewrite inject_Z_injective. lia. }
  assert (exists q, density n = Ok q /\ q * inject_Z (N * (N - 1)) == inject_Z (c * E))%Q as (q & Eq & Hq).
  { unfold density. rewrite decide_False by done. rewrite Hf, density_count by done. fold l N. rewrite edges_len_exact by done. fold E.
    unfold c. revert Hnz. generalize (N * (N - 1))%Z. intros P Hnz. destruct (directed n).
    - destruct (Qeq_bool _ _) eqn:Eb; [apply Qeq_bool_eq in Eb; done|]. eexists. split; [done|]. by rewrite Z.mul_1_l, Qmult_comm, Qmult_div_r.
    - destruct (Qeq_bool _ _) eqn:Eb.
      + apply Qeq_bool_eq in Eb. exfalso. apply Hnz. rewrite <- (Qmult_div_r (inject_Z P) (inject_Z 2)) by done. rewrite Eb. done.
      + eexists. split; [done|]. rewrite inject_Z_mult. change (inject_Z 2) with (2 # 1)%Q. field. done. }
  exists q. split; [done|]. split; [done|].
  assert (0 < inject_Z (N * (N - 1)))%Q as Hp'. { change 0%Q with (inject_Z 0). by rewrite <- Zlt_Qlt. }
  assert (0 <= inject_Z (c * E))%Q as H0'. { change 0%Q with (inject_Z 0). rewrite <- Zle_Qle. unfold c. destruct (directed n); lia. }
  split_and!.
  - apply (Qmult_le_r 0 q _ Hp'). rewrite Hq, Qmult_0_l. done.
  - apply (Qmult_le_r q 1 _ Hp'). rewrite Hq, Qmult_1_l. by rewrite <- Zle_Qle.
  - rewrite <- Heq. split.
    + intros Hq1. apply inject_Z_injective. by rewrite <- Hq, Hq1, Qmult_1_l.
    + intros Hce. apply (Qmult_inj_r q 1 _ Hnz). rewrite Hq, Qmult_1_l, Hce. done.
Qed.
(** All other cases. *)
Theorem C31_density_other n : reachable n ->
  ((forall x, ~ has_elem n 0 x) -> exists q, density n = Ok q /\ (q == 0)%Q) /\
  ((exists x, has_elem n 0 x) -> fic n = false -> density n = Err NameError) /\
  ((exists x, has_elem n 0 x) -> fic n = true -> length (iter_node_layers n) <= 1 -> density n = Err ZeroDivisionError).
Proof.
  intros Hr. pose proof (reachable_good _ Hr) as Hg.
  assert (net_nodes n = [] <-> forall x, ~ has_elem n 0 x) as Hemp.
  { assert (forall x, has_elem n 0 x <-> x ∈ net_nodes n) as Hx.
    { intros x. rewrite has_elem_sl. unfold sl, net_nodes. destruct (slices n !! 0) as [s|]; simpl.
      - split; [by intros (? & [= <-] & ?)|eauto].
      - split; [by intros (? & ? & ?)|]. by intros ?%elem_of_nil. }
    split; [intros E x; rewrite Hx, E; apply not_elem_of_nil|]. intros H. destruct (net_nodes n) as [|x r]; [done|]. exfalso. apply (H x), Hx. left. }
  unfold density. split; [|split].
  - intros H%Hemp. rewrite decide_True by done. eexists. split; [done|]. done.
  - intros [x Hx] Hf. rewrite decide_False by (intros H; by eapply (proj1 Hemp H)). by rewrite Hf.
  - intros [x Hx] Hf Hle. rewrite decide_False by (intros H; by eapply (proj1 Hemp H)). rewrite Hf, density_count by done.
    assert (length (iter_node_layers n) = 0 \/ length (iter_node_layers n) = 1) as [-> | ->] by lia; by destruct (directed n).
Qed.
Example C31_example : density (run (new_net 0 0 false true) [OpSet [A1; A2] 5; OpSet [A3; A2] 1]) = Ok (4 # 6)%Q /\
  density ex_n = Err NameError /\ density (run (new_net 0 0 false true) [OpAddNode A1 None]) = Err ZeroDivisionError.
Proof. by vm_compute. Qed.
Print Assumptions C31_density.
Print Assumptions C31_density_other.

(** ** C32 *)
(** [walk n a x D]: there is a walk from [a] to [x] along links of total weight [D]. *)
Inductive walk (n : mlnet) : nl -> nl -> Z -> Prop :=
| walk_here a : walk n a a 0
| walk_step a b c D w : walk n a b D -> linked n b c -> reads n b c w -> walk n a c (D + w).
(** [D] is the least total weight of a walk from one of the sources to [x]. *)
Definition distance (n : mlnet) (sources : list nl) (x : nl) (D : Z) : Prop :=
  (exists s, s ∈ sources /\ walk n s x D) /\ forall s D', s ∈ sources -> walk n s x D' -> (D <= D')%Z.

(** For positive weights the loop ends, whatever entry with the least distance the
    heap returns; the distances are exact and the forest consists of all links on
    shortest paths and of a self-link (with the weight of [net[s][s]]) at every
    source. *)
Theorem C32_dijkstra n sources : reachable n -> (forall s, s ∈ sources -> length s = S (aspects n)) ->
  (forall a b w, linked n a b -> reads n a b w -> (0 < w)%Z) ->
  exists N, forall choose fuel, heap_choice choose -> N <= fuel -> exists d f,
    dijkstra n choose fuel sources = Ok (d, f) /\
    (forall x D, dget d x = Some D <-> distance n sources x D) /\
    reachable f /\ aspects f = aspects n /\ directed f = true /\ noEdge f = (-1)%Z /\
    (forall a, a ∈ iter_node_layers f <-> exists D, dget d a = Some D) /\
    (forall a b w, a <> b -> linked f a b /\ reads f a b w <->
       linked n a b /\ reads n a b w /\ exists Da Db, dget d a = Some Da /\ dget d b = Some Db /\ Db = (Da + w)%Z) /\
    (forall a w, a ∈ sources -> reads f a a w <-> reads n a a w) /\
    (forall a, a ∉ sources -> ~ linked f a a).
Proof.
  intros Hr Hsrc Hpos. pose proof (reachable_good _ Hr) as Hg. pose proof Hg as [HS HL].
  set (U := sources ++ iter_node_layers n).
  assert (HUlen : forall a, a ∈ U -> length a = S (aspects n)) by (intros a [?|?]%elem_of_app; [auto|by apply present_len]).
  set (nb := fun a => iter_out n a None).
  assert (Hnb : forall a b, b ∈ nb a <-> linked n a b) by (intros a b; unfold nb; rewrite elem_of_iter_out, linked_lnk; done).
  assert (HUnb : forall a b, a ∈ U -> b ∈ nb a -> b ∈ U).
  { intros a b _ Hb%Hnb. apply linked_lnk in Hb as [w Hw]; [|done]. apply elem_of_app. right. by apply (wfL_present _ HL _ _ _ Hw). }
  assert (Hp : forall a b, a ∈ U -> b ∈ nb a -> (0 < weight n a b)%Z).
  { intros a b _ Hb%Hnb. apply (Hpos a b); [done|]. destruct Hb as (? & ? & _). by apply reads_weight. }
  destruct (exists_bound (fun p => weight n (p.1) (p.2)) (U ≫= fun a => (fun b => (a, b)) <$> nb a)) as (M & HM0 & HM).
  destruct (exists_bound (fun a => Z.of_nat (length (nb a))) U) as (K & HK0 & HK).
  destruct (dij_spec (aspects n) U sources (fun a => Ok (iter_out n a None)) (fun a b => Ok (weight n a b)) nb (weight n)) with (M := M) (K := Z.to_nat K)
    as (N & HN); try done.
  - intros s Hs. apply elem_of_app. by left.
  - intros a b Ha Hb. apply (HM (a, b)). apply elem_of_list_bind. exists a. split; [|done]. apply elem_of_list_fmap. eauto.
  - intros a Ha. specialize (HK a Ha). simpl in HK. lia.
  - exists N. intros choose fuel Hch Hfuel. destruct (HN choose fuel Hch Hfuel) as (d & f & log & E & _ & Hd & Hh & Hlog & Hin & HU).
    exists d, f. split; [exact E|].
    assert (Hwalk : forall a x D, wk nb (weight n) a x D <-> walk n a x D).
    { intros a x D. split.
      - induction 1 as [|a b c D _ IH Hc]; [constructor|]. apply Hnb in Hc. econstructor; [done|done|]. destruct Hc as (? & ? & _). by apply reads_weight.
      - induction 1 as [|a b c D w _ IH Hc Hw]; [constructor|]. pose proof Hc as (? & ? & _).
        assert (w = weight n b c) as ->. { apply reads_rd in Hw; [|done|done]. rewrite weight_rd by congruence. done. }
        constructor; [done|]. by apply Hnb. }
    assert (Hdist : forall x D, dget d x = Some D <-> distance n sources x D).
    { intros x D. rewrite Hd. unfold distance. setoid_rewrite Hwalk. done. }
    split; [done|]. destruct (hist_inv _ _ _ _ _ _ Hh) as [HSf HLf Haf Hnf Hdf Hff].
    assert (reachable f) as Hrf by by repeat eexists. split; [done|]. split; [done|]. split; [done|]. split; [done|].
    assert (Hll : forall a b, (a, b) ∈ log -> length a = S (aspects n) /\ length b = S (aspects n)).
    { intros a b Hab. apply Hlog in Hab as [[-> Hs]|(Hb & Da & Db & H1 & H2 & _)]; [by auto|]. apply Hnb in Hb as (? & ? & _). done. }
    pose proof (log_links _ _ _ _ _ _ Hh Hll) as Hrd. pose proof (reachable_good _ Hrf) as Hgf.
    split; [|split; [|split]].
    + intros a. rewrite (log_present _ _ _ _ _ _ Hh Hll). split.
      * intros (b & Hb). assert (forall a, a ∈ sources -> exists D, dget d a = Some D) as Hs.
        { intros a' Ha'. exists 0%Z. apply Hd. split; [exists a'; split; [done|constructor]|]. intros s D' Hs Hw.
          apply Hwalk in Hw. clear -Hw Hpos. induction Hw; [lia|]. specialize (Hpos b c w H H0). lia. }
        destruct Hb as [Hb|Hb]; apply Hlog in Hb as [[-> Hb]|(_ & Da & Db & H1 & H2 & _)]; eauto.
      * intros [D HD]. destruct (Hin a) as [s Hs]; [rewrite HD; eauto|]. exists s. by right.
    + intros a b w Hab. split.
      * intros [Hl Hw]. pose proof Hl as (Hla & Hlb & _). apply reads_rd in Hw; [|done|done]. subst w. apply linked_rd in Hl as Hl'; [|done].
        rewrite Haf in Hla, Hlb. rewrite Hrd in *. destruct (decide ((a, b) ∈ log)) as [Hin'|]; [|congruence].
        apply Hlog in Hin' as [[? _]|(Hb & Da & Db & H1 & H2 & H3)]; [done|]. apply Hnb in Hb as Hb'. split; [done|]. split; [by apply reads_weight|]. eauto.
      * intros (Hl & Hw & Da & Db & H1 & H2 & H3). pose proof Hl as (Hla & Hlb & _).
        assert (w = weight n a b) as ->. { apply reads_rd in Hw; [|done|done]. rewrite weight_rd by congruence. done. }
        assert ((a, b) ∈ log) as Hin'. { apply Hlog. right. split; [by apply Hnb|]. eauto. }
        pose proof (Hpos _ _ _ Hl Hw). split.
        -- apply linked_rd; [done|]. rewrite Hrd, decide_True, Hnf by done. lia.
        -- apply reads_rd; [by rewrite Haf|by rewrite Haf|]. rewrite Hrd, decide_True by done. done.
    + intros a w Ha. pose proof (Hsrc a Ha) as Hla. rewrite !reads_rd by (rewrite ?Haf; done). rewrite Hrd, decide_True by (apply Hlog; by left).
      by rewrite weight_rd.
    + intros a Ha Hl. apply linked_rd in Hl; [|done]. rewrite Hrd in Hl. destruct (decide ((a, a) ∈ log)) as [Hin'|]; [|congruence].
      apply Hlog in Hin' as [[_ ?]|(Hb & Da & Db & H1 & H2 & H3)]; [done|]. assert (Da = Db) by congruence.
      apply Hnb in Hb as Hb'. assert (0 < weight n a a)%Z; [|lia]. apply (Hpos a a); [done|]. destruct Hb' as (? & ? & _). by apply reads_weight.
Qed.
(** With a link of weight zero (possible when the absent weight is not zero) the
    loop never ends. *)
Definition zero_net : mlnet := run (new_net 0 (-1) false true) [OpSet [A1; A2] 0].
Definition zstep (st : dstate) : dstate :=
  default st (match dij_step (fun a => Ok (iter_out zero_net a None)) (fun a b => Ok (weight zero_net a b)) st 0 with Ok s => Some s | _ => None end).
Theorem C32_zero_weight_refuted : reachable zero_net /\
  (forall a b w, linked zero_net a b -> reads zero_net a b w -> (0 <= w)%Z) /\
  forall choose fuel, heap_choice choose -> dijkstra zero_net choose fuel [[NInt 1]] = Err OutOfFuel.
Proof.
  assert (reachable zero_net) as Hr. { do 5 eexists. apply run_hist0. } split; [done|]. split.
  { intros a b w Hl Hw. pose proof (reachable_good _ Hr) as Hg. pose proof Hl as (Ha & Hb & _). apply reads_rd in Hw; [|done|done].
    pose proof (proj1 (linked_lnk _ _ _ Hg) Hl) as Hk. apply elem_of_pairs in Hk; [|done]. subst w.
    assert (pairs zero_net = [([A1], [A2]); ([A2], [A1])]) as Ep by by vm_compute. rewrite Ep in Hk.
    repeat (apply elem_of_cons in Hk as [[= -> ->]|Hk]; [by vm_compute|]). by apply elem_of_nil in Hk. }
  intros choose fuel Hch. set (s0 := dij_init 0 [[NInt 1]]).
  assert (H1 : forall st D s t, dq st = [(D, s, t)] -> forall k, choose k (dq st) = 0).
  { intros st D s t E k. destruct (Hch k (dq st)) as (? & ? & ? & H & _); [by rewrite E|]. rewrite E in *. destruct (choose k _) as [|m]; [done|]. by destruct m. }
  assert (Hstep : forall st D s t st' k, dq st = [(D, s, t)] ->
     dij_step (fun a => Ok (iter_out zero_net a None)) (fun a b => Ok (weight zero_net a b)) st 0 = Ok st' ->
     dij_loop (fun a => Ok (iter_out zero_net a None)) (fun a b => Ok (weight zero_net a b)) choose (S k) st =
     dij_loop (fun a => Ok (iter_out zero_net a None)) (fun a b => Ok (weight zero_net a b)) choose k st').
  { intros st D s t st' k E Es. cbn [dij_loop]. rewrite E. rewrite <- E. rewrite (H1 _ _ _ _ E), Es. done. }
  assert (H0 : forall st D s t, dq st = [(D, s, t)] ->
     dij_loop (fun a => Ok (iter_out zero_net a None)) (fun a b => Ok (weight zero_net a b)) choose 0 st = Err OutOfFuel).
  { intros st D s t E. cbn [dij_loop]. by rewrite E. }
  assert (Hcyc : forall k st, st = zstep (zstep (zstep s0)) \/ st = zstep (zstep (zstep (zstep s0))) ->
     dij_loop (fun a => Ok (iter_out zero_net a None)) (fun a b => Ok (weight zero_net a b)) choose k st = Err OutOfFuel).
  { induction k as [|k IH]; intros st [-> | ->].
    - eapply H0. by vm_compute.
    - eapply H0. by vm_compute.
    - erewrite (Hstep _ _ _ _ (zstep (zstep (zstep (zstep s0))))); [apply IH; by right|by vm_compute|by vm_compute].
    - erewrite (Hstep _ _ _ _ (zstep (zstep (zstep s0)))); [apply IH; by left|by vm_compute|by vm_compute]. }
  unfold dijkstra, dijkstra_gen. change (aspects zero_net) with 0. fold s0. destruct fuel as [|[|[|k]]].
  - eapply H0. by vm_compute.
  - erewrite (Hstep _ _ _ _ (zstep s0)); [|by vm_compute|by vm_compute]. eapply H0. by vm_compute.
  - erewrite (Hstep _ _ _ _ (zstep s0)); [|by vm_compute|by vm_compute].
    erewrite (Hstep _ _ _ _ (zstep (zstep s0))); [|by vm_compute|by vm_compute]. eapply H0. by vm_compute.
  - erewrite (Hstep _ _ _ _ (zstep s0)); [|by vm_compute|by vm_compute].
    erewrite (Hstep _ _ _ _ (zstep (zstep s0))); [|by vm_compute|by vm_compute].
    erewrite (Hstep _ _ _ _ (zstep (zstep (zstep s0)))); [|by vm_compute|by vm_compute]. apply Hcyc. by left.
Qed.
(** A choice as the theorem asks for: the first entry of least distance. *)
Fixpoint first_min (q : list (Z * nl * nl)) : nat :=
  match q with
  | [] => 0
  | e :: q' => match q' !! first_min q' with
               | Some e' => if decide ((e.1).1 <= (e'.1).1)%Z then 0 else S (first_min q')
               | None => 0
               end
  end.
Example C32_choice : heap_choice (fun _ => first_min).
Proof.
  intros _ q. induction q as [|[[D s] t] q IH]; [done|]. intros _. cbn [first_min fst snd].
  destruct q as [|e q].
  { simpl. exists D, s, t. split; [done|]. intros D' s' t' [[= -> -> ->]|Hn]%elem_of_cons; [lia|]. by apply elem_of_nil in Hn. }
  destruct (IH ltac:(done)) as (D1 & s1 & t1 & E & H). rewrite E. cbn [fst snd]. destruct (decide _) as [Hle|Hle].
  - exists D, s, t. split; [done|]. intros D' s' t' [[= -> -> ->]|Hn]%elem_of_cons; [lia|]. specialize (H _ _ _ Hn). lia.
  - exists D1, s1, t1. split; [done|]. intros D' s' t' [[= -> -> ->]|Hn]%elem_of_cons; [lia|]. by eapply H.
Qed.
Example C32_example : let n := run (new_net 0 0 false true) [OpSet [A1; A2] 5; OpSet [A1; A3] 2; OpSet [A3; A2] 3] in
  reachable n /\ (forall a b w, linked n a b -> reads n a b w -> (0 < w)%Z) /\
  match dijkstra n (fun _ => first_min) 10 [[A1]] with
  | Ok (d, f) => d = [([A1], 0); ([A2], 5); ([A3], 2)]%Z /\ edges f = [([A1; A1], 0); ([A1; A3], 2); ([A1; A2], 5); ([A3; A2], 3)]%Z
  | Err _ => False
  end.
Proof.
  intros n. assert (reachable n) as Hr. { do 5 eexists. apply run_hist0. } split; [done|]. split; [|by vm_compute].
  intros a b w Hl Hw. pose proof (reachable_good _ Hr) as Hg. pose proof Hl as (Ha & Hb & _). apply reads_rd in Hw; [|done|done].
  pose proof (proj1 (linked_lnk _ _ _ Hg) Hl) as Hk. apply elem_of_pairs in Hk; [|done]. subst w.
  assert (pairs n = [([A1], [A2]); ([A1], [A3]); ([A2], [A1]); ([A2], [A3]); ([A3], [A1]); ([A3], [A2])]) as Ep by by vm_compute. rewrite Ep in Hk.
  repeat (apply elem_of_cons in Hk as [[= -> ->]|Hk]; [by vm_compute|]). by apply elem_of_nil in Hk.
Qed.
Print Assumptions C32_dijkstra.
Print Assumptions C32_zero_weight_refuted.
