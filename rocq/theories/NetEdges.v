(** * Edge iteration, number of edges, network equality *)
From Verif Require Export NetIter.

Lemma cart_length n a : wfS n -> a ∈ cart (slices n) -> length a = S (aspects n).
Proof. intros Hw Ha%elem_of_cart. rewrite <- (wfS_len _ Hw). by eapply Forall2_length. Qed.
Lemma lnk_cart n a b : good n -> is_Some (lnk n a b) -> a ∈ cart (slices n) /\ b ∈ cart (slices n).
Proof.
  intros [HS HL] [w Hw]. destruct (wfL_present _ HL _ _ _ Hw) as [H1 H2].
  apply elem_of_iter_node_layers in H1 as [H1 _]; [|done].
  apply elem_of_iter_node_layers in H2 as [H2 _]; [|done]. by rewrite !elem_of_cart.
Qed.
Lemma NoDup_cart_slices n : wfS n -> NoDup (cart (slices n)).
Proof. intros Hw. apply NoDup_cart, Hw. Qed.

Lemma elem_of_iter_out n a b : good n -> b ∈ iter_out n a None <-> is_Some (lnk n a b).
Proof.
  intros Hg. destruct (iter_out_exact n a None Hg I) as [_ H]. rewrite H, linked_lnk by done.
  simpl. tauto.
Qed.
Lemma NoDup_iter_out n a : good n -> NoDup (iter_out n a None).
Proof. intros Hg. apply (iter_out_exact n a None Hg I). Qed.

(** All ordered pairs of linked node-layers. *)
Definition pairs (n : mlnet) : list (nl * nl) :=
  cart (slices n) ≫= (fun a => (fun b => (a, b)) <$> iter_out n a None).
Lemma elem_of_pairs n a b : good n -> (a, b) ∈ pairs n <-> is_Some (lnk n a b).
Proof.
  intros Hg. unfold pairs. rewrite elem_of_list_bind. split.
  - intros (a' & (b' & [= -> ->] & Hb)%elem_of_list_fmap & _). by apply elem_of_iter_out.
  - intros Hs. exists a. split; [|by apply (lnk_cart n a b)]. apply elem_of_list_fmap.
    exists b. split; [done|]. by apply elem_of_iter_out.
Qed.
Lemma NoDup_pairs n : good n -> NoDup (pairs n).
Proof.
  intros Hg. apply NoDup_bind.
  - apply NoDup_cart_slices, Hg.
  - intros a _. apply NoDup_fmap; [by intros ?? [= ?]|by apply NoDup_iter_out].
  - intros x y z _ _ (? & -> & _)%elem_of_list_fmap (? & [= -> _] & _)%elem_of_list_fmap. done.
Qed.

Lemma pair_tuple n a b : length a = S (aspects n) -> length b = S (aspects n) ->
  edge_tuple n a b (interleave a b, weight n a b).
Proof.
  intros. split_and!; simpl; [rewrite interleave_length; lia|by apply names_link_full|by apply reads_weight].
Qed.
Lemma edge_tuple_eq n a b e : length a = S (aspects n) -> length b = S (aspects n) ->
  edge_tuple n a b e -> e = (interleave a b, weight n a b).
Proof.
  intros Ha Hb (Hl & Hn & Hr). destruct e as [item w]. simpl in *. apply reads_rd in Hr; [|done|done].
  rewrite weight_rd by lia. subst. f_equal.
  destruct (names_link_inv _ _ _ _ Hn) as (_ & _ & [[_ ->]|[Hl' Hs]]); [done|].
  rewrite <- Hs. destruct item as [|x [|y [|]]]; simpl in Hl, Hl'; try lia. done.
Qed.
Lemma edge_tuple_lengths n a b e : edge_tuple n a b e -> length a = S (aspects n) /\ length b = S (aspects n).
Proof. intros (_ & Hn & _). by destruct (names_link_inv _ _ _ _ Hn) as (? & ? & _). Qed.

Definition ptuple (n : mlnet) (p : nl * nl) : list name * Z := (interleave (p.1) (p.2), weight n (p.1) (p.2)).
Lemma edges_dir_pairs n : edges_dir n = ptuple n <$> pairs n.
Proof.
  unfold edges_dir, pairs. generalize (cart (slices n)). intros l.
  induction l as [|a l IH]; [done|]. 
  change ((a :: l) ≫= ?f) with (f a ++ (l ≫= f)). cbv beta.
  rewrite fmap_app, <- IH. f_equal. by rewrite <- list_fmap_compose.
Qed.

Lemma ptuple_inj n p q : good n -> is_Some (lnk n (p.1) (p.2)) -> is_Some (lnk n (q.1) (q.2)) ->
  ptuple n p = ptuple n q -> p = q.
Proof.
  intros Hg Hp Hq. destruct (lnk_lengths _ _ _ Hg Hp), (lnk_lengths _ _ _ Hg Hq).
  destruct p as [a b], q as [c d]. simpl in *. intros [= He _].
  apply interleave_inj in He as [-> ->]; [done|lia..].
Qed.

Lemma edges_dir_exact n : good n ->
  lists_exactly (edges_dir n) (fun e => exists a b, linked n a b /\ edge_tuple n a b e).
Proof.
  intros Hg. rewrite edges_dir_pairs. split.
  - apply NoDup_fmap_2_strong; [|by apply NoDup_pairs].
    intros [a b] [c d] H1%elem_of_pairs H2%elem_of_pairs; [|done|done]. by apply ptuple_inj.
  - intros e. rewrite elem_of_list_fmap. split.
    + intros ([a b] & -> & Hp%elem_of_pairs); [|done]. exists a, b. rewrite linked_lnk by done.
      split; [done|]. destruct (lnk_lengths _ _ _ Hg Hp). by apply pair_tuple.
    + intros (a & b & Hl & He). exists (a, b). apply linked_lnk in Hl; [|done].
      destruct (lnk_lengths _ _ _ Hg Hl). split; [by apply edge_tuple_eq|]. by apply elem_of_pairs.
Qed.

(** Undirected edges. *)
Fixpoint und_pairs (n : mlnet) (todo iterated : list nl) : list (nl * nl) :=
  match todo with
  | [] => []
  | a :: todo =>
    ((fun b => (a, b)) <$> filter (fun b => b ∉ iterated) (iter_total n a None))
    ++ und_pairs n todo (a :: iterated)
  end.
Lemma edges_und_pairs n todo it : edges_und n todo it = ptuple n <$> und_pairs n todo it.
Proof.
  revert it. induction todo as [|a todo IH]; intros it; [done|]. simpl.
  rewrite fmap_app, <- IH. f_equal. by rewrite <- list_fmap_compose.
Qed.
Lemma elem_of_und_pairs n todo it a b : (a, b) ∈ und_pairs n todo it <->
  exists pre post, todo = pre ++ a :: post /\ b ∈ iter_total n a None /\ b ∉ it /\ b ∉ pre.
Proof.
  revert it. induction todo as [|c todo IH]; intros it; simpl.
  - rewrite elem_of_nil. split; [done|]. intros ([|] & ? & ? & _); done.
  - rewrite elem_of_app, IH, elem_of_list_fmap. split.
    + intros [(b' & [= -> ->] & [Hn Hb]%elem_of_list_filter)|(pre & post & -> & Hb & Hn & Hp)].
      * exists [], todo. split_and!; [done|done|done|apply not_elem_of_nil].
      * exists (c :: pre), post. rewrite not_elem_of_cons in Hn. destruct Hn as [Hbc Hn].
        split_and!; [done|done|done|]. by rewrite not_elem_of_cons.
    + intros ([|c' pre] & post & [= -> ->] & Hb & Hn & Hp).
      * left. exists b. split; [done|]. apply elem_of_list_filter. done.
      * right. exists pre, post. rewrite not_elem_of_cons in Hp. destruct Hp.
        split_and!; [done|done| |done]. by rewrite not_elem_of_cons.
Qed.
Lemma NoDup_und_pairs n todo it : good n -> NoDup todo -> NoDup (und_pairs n todo it).
Proof.
  intros Hg. revert it. induction todo as [|c todo IH]; intros it Hnd; simpl; [constructor|].
  apply NoDup_cons in Hnd as [Hc Hnd]. apply NoDup_app. split_and!.
  - apply NoDup_fmap; [by intros ?? [= ?]|]. apply NoDup_filter. apply (iter_total_exact n c None Hg I).
  - intros [a b] (b' & [= -> ->] & _)%elem_of_list_fmap (pre & post & -> & _)%elem_of_und_pairs.
    apply Hc. apply elem_of_app. right. left.
  - by apply IH.
Qed.

Lemma before_after {A} `{EqDecision A} (l : list A) a b : NoDup l -> a ∈ l -> b ∈ l -> a <> b ->
  (exists pre post, l = pre ++ a :: post /\ b ∉ pre /\ b ∈ post) \/
  (exists pre post, l = pre ++ b :: post /\ a ∉ pre /\ a ∈ post).
Proof.
  induction l as [|c l IH]; intros Hnd Ha Hb Hab; [by apply elem_of_nil in Ha|].
  apply NoDup_cons in Hnd as [Hc Hnd].
  destruct (decide (a = c)) as [->|Hac].
  { left. exists [], l. split_and!; [done|apply not_elem_of_nil|]. apply elem_of_cons in Hb as [?|?]; [congruence|done]. }
  destruct (decide (b = c)) as [->|Hbc].
  { right. exists [], l. split_and!; [done|apply not_elem_of_nil|]. apply elem_of_cons in Ha as [?|?]; [congruence|done]. }
  apply elem_of_cons in Ha as [?|Ha]; [done|]. apply elem_of_cons in Hb as [?|Hb]; [done|].
  destruct (IH Hnd Ha Hb Hab) as [(pre & post & -> & H1 & H2)|(pre & post & -> & H1 & H2)]; [left|right];
    exists (c :: pre), post; (split_and!; [done| |done]); by rewrite not_elem_of_cons.
Qed.

Definition upairs (n : mlnet) : list (nl * nl) := und_pairs n (cart (slices n)) [].
Lemma elem_of_iter_total_und n a b : good n -> directed n = false ->
  b ∈ iter_total n a None <-> is_Some (lnk n a b).
Proof. intros Hg Hd. unfold iter_total. rewrite Hd. by apply elem_of_iter_out. Qed.

Lemma upairs_linked n a b : good n -> directed n = false -> (a, b) ∈ upairs n -> is_Some (lnk n a b).
Proof. intros Hg Hd (pre & post & _ & Hb & _)%elem_of_und_pairs. by apply elem_of_iter_total_und in Hb. Qed.
Lemma upairs_some n a b : good n -> directed n = false -> is_Some (lnk n a b) ->
  (a, b) ∈ upairs n \/ (b, a) ∈ upairs n.
Proof.
  intros Hg Hd Hs. destruct (lnk_cart n a b Hg Hs) as [Ha Hb].
  pose proof (NoDup_cart_slices n (proj1 Hg)) as Hnd. unfold upairs. rewrite !elem_of_und_pairs.
  assert (b ∈ iter_total n a None) as Hi1 by (by apply elem_of_iter_total_und).
  assert (a ∈ iter_total n b None) as Hi2.
  { apply elem_of_iter_total_und; [done|done|]. by rewrite (wfL_sym n (proj2 Hg) Hd b a). }
  destruct (decide (a = b)) as [->|Hne].
  - left. apply elem_of_list_split in Ha as (pre & post & Hl). exists pre, post.
    split_and!; [done|done|apply not_elem_of_nil|]. rewrite Hl in Hnd.
    apply NoDup_app in Hnd as (_ & Hdis & _). intros Hin. apply (Hdis b Hin). left.
  - destruct (before_after _ _ _ Hnd Ha Hb Hne) as [(pre & post & Hl & H1 & H2)|(pre & post & Hl & H1 & H2)];
      [left|right]; exists pre, post; split_and!; try done; apply not_elem_of_nil.
Qed.
Lemma upairs_once n a b : good n -> directed n = false -> a <> b ->
  (a, b) ∈ upairs n -> (b, a) ∈ upairs n -> False.
Proof.
  intros Hg Hd Hne H1 H2. pose proof (NoDup_cart_slices n (proj1 Hg)) as Hnd.
  apply elem_of_und_pairs in H1 as (pre & post & Hl & _ & _ & Hb).
  apply elem_of_und_pairs in H2 as (pre' & post' & Hl' & _ & _ & Ha).
  rewrite Hl in Hl', Hnd. clear Hl. revert pre' Hl' Ha.
  induction pre as [|c pre IH]; intros pre' Hl' Ha.
  - destruct pre' as [|c' pre']; simpl in Hl'; injection Hl' as ? ?; [done|]. subst. apply Ha. left.
  - destruct pre' as [|c' pre']; simpl in Hl'; injection Hl' as ? ?.
    + subst. apply Hb. left.
    + subst. simpl in Hnd. apply NoDup_cons in Hnd as [_ Hnd]. rewrite not_elem_of_cons in Hb, Ha.
      eapply IH; [tauto|done|done|tauto].
Qed.

(** Counting: ordered pairs = unordered pairs + swapped non-loops. *)
Definition swp (p : nl * nl) : nl * nl := (p.2, p.1).
Definition is_loop (p : nl * nl) : Prop := p.1 = p.2.
Global Instance is_loop_dec p : Decision (is_loop p).
Proof. unfold is_loop. apply _. Defined.

Lemma pairs_upairs n : good n -> directed n = false ->
  pairs n ≡ₚ upairs n ++ (swp <$> filter (fun p => ~ is_loop p) (upairs n)).
Proof.
  intros Hg Hd. apply NoDup_same_perm.
  - by apply NoDup_pairs.
  - pose proof (NoDup_und_pairs n (cart (slices n)) [] Hg (NoDup_cart_slices n (proj1 Hg))) as Hnd.
    apply NoDup_app. split_and!; [done| |].
    + intros [a b] H1 ([c d] & [= -> ->] & [H2 H3]%elem_of_list_filter)%elem_of_list_fmap. simpl in *.
      eapply (upairs_once n c d Hg Hd); [|done|done]. done.
    + apply NoDup_fmap; [|by apply NoDup_filter]. by intros [??] [??] [= -> ->].
  - intros [a b]. rewrite elem_of_pairs by done. rewrite elem_of_app, elem_of_list_fmap. split.
    + intros Hs. destruct (upairs_some n a b Hg Hd Hs) as [H|H]; [by left|].
      destruct (decide (a = b)) as [->|Hne]; [by left|]. right. exists (b, a). split; [done|].
      apply elem_of_list_filter. split; [|done]. unfold is_loop. simpl. congruence.
    + intros [H|([c d] & [= -> ->] & [H1 H2]%elem_of_list_filter)].
      * by apply upairs_linked.
      * simpl. rewrite (wfL_sym n (proj2 Hg) Hd). by apply upairs_linked.
Qed.

Lemma filter_split_length {A} (P : A -> Prop) `{!forall x, Decision (P x)} (l : list A) :
  length l = length (filter P l) + length (filter (fun x => ~ P x) l).
Proof.
  induction l as [|x l IH]; [done|]. rewrite !filter_cons.
  destruct (decide (P x)), (decide (~ P x)); simpl; try tauto; lia.
Qed.

Lemma loops_upairs n : good n -> directed n = false ->
  filter is_loop (pairs n) ≡ₚ filter is_loop (upairs n).
Proof.
  intros Hg Hd. apply NoDup_same_perm.
  - by apply NoDup_filter, NoDup_pairs.
  - apply NoDup_filter, NoDup_und_pairs; [done|]. apply NoDup_cart_slices, Hg.
  - intros [a b]. rewrite !elem_of_list_filter, elem_of_pairs by done. unfold is_loop. simpl. split.
    + intros [-> Hs]. split; [done|]. by destruct (upairs_some n b b Hg Hd Hs).
    + intros [-> Hs]. split; [done|]. by apply upairs_linked.
Qed.

Lemma upairs_length n : good n -> directed n = false ->
  2 * length (upairs n) = length (pairs n) + length (filter is_loop (pairs n)).
Proof.
  intros Hg Hd. rewrite (loops_upairs n Hg Hd). rewrite (pairs_upairs n Hg Hd).
  rewrite app_length, fmap_length. pose proof (filter_split_length is_loop (upairs n)). lia.
Qed.

(** Sums over node-layers. *)
Lemma zsumf_sub {A} `{EqDecision A} (f : A -> Z) l1 l2 : NoDup l1 -> NoDup l2 ->
  (forall x, x ∈ l1 -> x ∈ l2) -> (forall x, x ∈ l2 -> x ∉ l1 -> f x = 0%Z) -> zsumf f l1 = zsumf f l2.
Proof.
  intros H1 H2 Hsub Hz. rewrite (zsumf_perm f l1 (filter (fun x => x ∈ l1) l2)).
  - rewrite zsumf_filter. apply zsumf_ext. intros x Hx. destruct (decide (x ∈ l1)); [done|].
    symmetry. by apply Hz.
  - apply NoDup_same_perm; [done|by apply NoDup_filter|]. intros x. rewrite elem_of_list_filter. naive_solver.
Qed.

Lemma NoDup_iter_layers n : wfS n -> NoDup (iter_layers n).
Proof.
  intros Hw. unfold iter_layers.
  assert (forall k, Forall NoDup (drop k (slices n))) as Hd by (intros; apply Forall_drop, Hw).
  destruct (decide _).
  - apply NoDup_fmap; [by intros ?? [= ?]|]. by apply NoDup_cart.
  - destruct (decide _); [|constructor]. apply NoDup_fmap; [by intros ?? [= ?]|].
    destruct (slices n !! 1) as [s|] eqn:E; simpl; [|constructor].
    by eapply (Forall_lookup_1 _ _ _ _ (wfS_nodup _ Hw)).
Qed.
Lemma NoDup_iter_node_layers n : wfS n -> NoDup (iter_node_layers n).
Proof.
  intros Hw. unfold iter_node_layers. destruct (fic n) eqn:Hf; [by apply NoDup_cart_slices|].
  apply NoDup_bind.
  - by apply NoDup_iter_layers.
  - intros l _. apply NoDup_fmap.
    + intros x y. destruct l; simpl; by intros [= ?].
    + unfold iter_nodes. rewrite Hf. apply (wfS_l2nv_nd _ Hw l).
  - intros l l' z Hl Hl' (x & -> & _)%elem_of_list_fmap (y & He & _)%elem_of_list_fmap.
    unfold iter_layers in Hl, Hl'.
    destruct (decide (1 < aspects n)).
    + apply elem_of_list_fmap in Hl as (ls & -> & _). apply elem_of_list_fmap in Hl' as (ls' & -> & _).
      simpl in He. by injection He as -> ->.
    + destruct (decide (aspects n = 1)); [|by apply elem_of_nil in Hl].
      apply elem_of_list_fmap in Hl as (ls & -> & _). apply elem_of_list_fmap in Hl' as (ls' & -> & _).
      simpl in He. by injection He as -> ->.
Qed.
Lemma present_cart n a : wfS n -> present n a -> a ∈ cart (slices n).
Proof. intros Hw [H _]%elem_of_iter_node_layers; [|done]. by apply elem_of_cart. Qed.

Lemma length_bind {A B} (f : A -> list B) l : Z.of_nat (length (l ≫= f)) = zsumf (fun x => Z.of_nat (length (f x))) l.
Proof.
  induction l as [|x l IH]; [done|]. change ((x :: l) ≫= f) with (f x ++ (l ≫= f)).
  rewrite app_length, zsumf_cons. lia.
Qed.

Lemma sum_degree_out n : good n ->
  zsumf (fun a => degree_out n a None) (iter_node_layers n) = Z.of_nat (length (pairs n)).
Proof.
  intros Hg. pose proof (proj1 Hg) as HS. rewrite (zsumf_sub _ _ (cart (slices n))).
  - unfold pairs. rewrite length_bind. apply zsumf_ext. intros a _. rewrite fmap_length.
    apply degree_out_iter.
  - by apply NoDup_iter_node_layers.
  - by apply NoDup_cart_slices.
  - intros a. by apply present_cart.
  - intros a _ Hna. rewrite degree_out_iter. destruct (iter_out n a None) as [|b l] eqn:E; [done|].
    exfalso. assert (is_Some (lnk n a b)) as [w Hw].
    { apply elem_of_iter_out; [done|]. rewrite E. left. }
    destruct (wfL_present _ (proj2 Hg) _ _ _ Hw). done.
Qed.

Lemma sum_loops n : good n ->
  zsumf (fun a => if decide (weight n a a = noEdge n) then 0 else 1)%Z (iter_node_layers n)
  = Z.of_nat (length (filter is_loop (pairs n))).
Proof.
  intros Hg. pose proof (proj1 Hg) as HS.
  rewrite (zsumf_ext _ (fun a => if decide (is_Some (lnk n a a)) then 1 else 0)%Z).
  2:{ intros a _. rewrite weight_rd by done. pose proof (rd_noEdge n a a Hg).
      destruct (decide (rd n a a = noEdge n)), (decide (is_Some (lnk n a a))); tauto. }
  rewrite <- (zsumf_filter (fun a => is_Some (lnk n a a)) (fun _ => 1%Z)). rewrite zsumf_const.
  rewrite Z.mul_1_l. f_equal.
  rewrite <- (fmap_length (fun a => (a, a)) (filter _ (iter_node_layers n))).
  apply Permutation_length, NoDup_same_perm.
  - apply NoDup_fmap; [by intros ?? [= ?]|]. by apply NoDup_filter, NoDup_iter_node_layers.
  - by apply NoDup_filter, NoDup_pairs.
  - intros [a b]. rewrite elem_of_list_fmap, elem_of_list_filter, elem_of_pairs by done.
    unfold is_loop. simpl. split.
    + intros (c & [= -> ->] & [H1 H2]%elem_of_list_filter). done.
    + intros [-> [w Hw]]. exists b. split; [done|]. apply elem_of_list_filter.
      split; [eauto|]. by apply (wfL_present _ (proj2 Hg) b b w).
Qed.

Lemma degree_und n a : directed n = false -> degree n a None = degree_out n a None.
Proof. unfold degree. by intros ->. Qed.

Lemma edges_len_pairs n : good n ->
  (if directed n then edges_len n = Z.of_nat (length (pairs n))
   else 2 * edges_len n = Z.of_nat (length (pairs n)) + Z.of_nat (length (filter is_loop (pairs n))))%Z.
Proof.
  intros Hg. unfold edges_len. destruct (directed n) eqn:Hd.
  - by apply sum_degree_out.
  - rewrite zsumf_add, sum_loops by done.
    rewrite (zsumf_ext _ (fun a => degree_out n a None)); [|intros; by apply degree_und].
    rewrite sum_degree_out by done. pose proof (upairs_length n Hg Hd).
    replace (Z.of_nat (length (pairs n)) + Z.of_nat (length (filter is_loop (pairs n))))%Z
      with (Z.of_nat (length (upairs n)) * 2)%Z by lia.
    rewrite Z.div_mul by lia. lia.
Qed.

Lemma edges_len_exact n : good n -> edges_len n = Z.of_nat (length (edges n)).
Proof.
  intros Hg. pose proof (edges_len_pairs n Hg) as H. unfold edges. destruct (directed n) eqn:Hd.
  - rewrite edges_dir_pairs, fmap_length. done.
  - rewrite edges_und_pairs, fmap_length. fold (upairs n). pose proof (upairs_length n Hg Hd). lia.
Qed.

Lemma edges_und_exact n : good n -> directed n = false ->
  NoDup (edges n) /\
  (forall e, e ∈ edges n -> exists a b, linked n a b /\ edge_tuple n a b e) /\
  (forall a b, linked n a b -> exists e, e ∈ edges n /\ (edge_tuple n a b e \/ edge_tuple n b a e)) /\
  (forall a b e e', e ∈ edges n -> e' ∈ edges n -> edge_tuple n a b e ->
      edge_tuple n a b e' \/ edge_tuple n b a e' -> e = e').
Proof.
  intros Hg Hd. unfold edges. rewrite Hd, edges_und_pairs. fold (upairs n).
  pose proof (NoDup_und_pairs n (cart (slices n)) [] Hg (NoDup_cart_slices n (proj1 Hg))) as Hnd.
  fold (upairs n) in Hnd. split_and!.
  - apply NoDup_fmap_2_strong; [|done].
    intros [a b] [c d] H1%upairs_linked H2%upairs_linked; [|done..]. by apply ptuple_inj.
  - intros e ([a b] & -> & Hp)%elem_of_list_fmap. apply upairs_linked in Hp; [|done|done].
    exists a, b. rewrite linked_lnk by done. split; [done|].
    destruct (lnk_lengths _ _ _ Hg Hp). by apply pair_tuple.
  - intros a b Hl. apply linked_lnk in Hl; [|done]. destruct (lnk_lengths _ _ _ Hg Hl) as [Ha Hb].
    destruct (upairs_some n a b Hg Hd Hl) as [H|H].
    + exists (ptuple n (a, b)). split; [apply elem_of_list_fmap; eauto|]. left. by apply pair_tuple.
    + exists (ptuple n (b, a)). split; [apply elem_of_list_fmap; eauto|]. right. by apply pair_tuple.
  - intros a b e e' ([c d] & -> & H1)%elem_of_list_fmap ([c' d'] & -> & H2)%elem_of_list_fmap He He'.
    pose proof (upairs_linked _ _ _ Hg Hd H1) as H1'. pose proof (upairs_linked _ _ _ Hg Hd H2) as H2'.
    destruct (lnk_lengths _ _ _ Hg H1'), (lnk_lengths _ _ _ Hg H2').
    destruct (edge_tuple_lengths _ _ _ _ He) as [La Lb].
    apply edge_tuple_eq in He; [|done|done]. injection He as He _.
    apply interleave_inj in He as [-> ->]; [|lia..].
    destruct He' as [He'|He']; (apply edge_tuple_eq in He'; [|done|done]); injection He' as He' _;
      (apply interleave_inj in He' as [-> ->]; [|lia..]); [done|].
    destruct (decide (a = b)) as [->|Hne]; [done|]. exfalso. by eapply upairs_once.
Qed.

(** ** Equality *)
Lemma forallb_true {A} (f : A -> bool) l : forallb f l = true <-> forall x, x ∈ l -> f x = true.
Proof. rewrite forallb_forall. by setoid_rewrite elem_of_list_In. Qed.
Lemma lin_true {A} `{EqDecision A} (x : A) l : lin x l = true <-> x ∈ l.
Proof. unfold lin. by rewrite bool_decide_eq_true. Qed.
Lemma set_eqb_true {A} `{EqDecision A} (s t : list A) : set_eqb s t = true <-> forall x, x ∈ s <-> x ∈ t.
Proof.
  unfold set_eqb. rewrite andb_true_iff, !forallb_true. setoid_rewrite lin_true.
  split; [intros [H1 H2]; split; auto|]. intros H; split; intros; by apply H.
Qed.
Lemma slices_eqb_true s t : slices_eqb s t = true <-> Forall2 (fun x y => forall z, z ∈ x <-> z ∈ y) s t.
Proof.
  revert t. induction s as [|x s IH]; intros [|y t]; simpl.
  - split; [constructor|done].
  - split; [done|]. intros H; inversion H.
  - split; [done|]. intros H; inversion H.
  - rewrite andb_true_iff, set_eqb_true, IH. split; [intros [??]; by constructor|].
    by inversion 1.
Qed.
Lemma slices_sl n m : wfS n -> wfS m -> aspects n = aspects m ->
  slices_eqb (slices n) (slices m) = true <-> 
  (forall k x, (exists s, get_layers n k = Ok s /\ x ∈ s) <-> (exists s, get_layers m k = Ok s /\ x ∈ s)).
Proof.
  intros Hn Hm Ha. rewrite slices_eqb_true. rewrite Forall2_lookup. unfold get_layers. split.
  - intros H k x. specialize (H k). inversion H as [s t Hst|]; subst.
    + split; intros (u & [= <-] & Hx); [exists t|exists s]; (split; [done|]); by apply Hst.
    + done.
  - intros H k. pose proof (wfS_len _ Hn) as L1. pose proof (wfS_len _ Hm) as L2.
    destruct (slices n !! k) as [s|] eqn:E1, (slices m !! k) as [t|] eqn:E2.
    + constructor. intros x. specialize (H k x). rewrite E1, E2 in H. split; intros Hx.
      * destruct (proj1 H) as (? & [= <-] & ?); [by exists s|done].
      * destruct (proj2 H) as (? & [= <-] & ?); [by exists t|done].
    + apply lookup_lt_Some in E1. apply lookup_ge_None in E2. lia.
    + apply lookup_lt_Some in E2. apply lookup_ge_None in E1. lia.
    + constructor.
Qed.

Lemma n2l_eqb_true n m : wfS n -> wfS m ->
  n2l_eqb (n2l n) (n2l m) = true <-> forall x l, l ∈ n2lv n x <-> l ∈ n2lv m x.
Proof.
  intros Hn Hm. unfold n2l_eqb. rewrite andb_true_iff, set_eqb_true, forallb_true.
  assert (forall k, wfS k -> forall x, x ∈ dkeys (n2l k) <-> exists l, l ∈ n2lv k x) as Hk.
  { intros k Hw x. rewrite elem_of_dkeys. split.
    - intros Hs. apply (wfS_n2l_ne _ Hw) in Hs. destruct (n2lv k x) as [|l ls]; [done|]. exists l. left.
    - intros [l Hl]. unfold n2lv in Hl. destruct (dget (n2l k) x); [done|]. by apply elem_of_nil in Hl. }
  split.
  - intros [H1 H2] x l. destruct (decide (x ∈ dkeys (n2l n))) as [Hx|Hx].
    + specialize (H2 x Hx). rewrite set_eqb_true in H2. apply H2.
    + split; intros Hl; exfalso; apply Hx; [|apply H1]; apply Hk; eauto.
  - intros H. split.
    + intros x. rewrite !Hk by done. split; intros [l Hl]; exists l; by apply H.
    + intros x _. apply set_eqb_true. intros l. apply H.
Qed.

Lemma iter_nodes_n2l n m : wfS n -> wfS m -> fic n = false -> fic m = false ->
  (forall x l, l ∈ n2lv n x <-> l ∈ n2lv m x) <-> (forall l x, x ∈ iter_nodes n (Some l) <-> x ∈ iter_nodes m (Some l)).
Proof.
  intros Hn Hm Fn Fm. unfold iter_nodes. rewrite Fn, Fm.
  change (default [] (dget (l2n ?k) ?l)) with (l2nv k l).
  split; intros H l x; specialize (H x l).
  - rewrite !wfS_mirror by done. apply H.
  - rewrite <- !wfS_mirror by done. apply H.
Qed.

Lemma sub_len_perm {A} (l1 l2 : list A) : NoDup l1 -> (forall x, x ∈ l1 -> x ∈ l2) -> length l1 = length l2 ->
  l1 ≡ₚ l2.
Proof.
  intros H1 H2 H3. apply submseteq_Permutation_length_eq; [done|]. apply NoDup_submseteq; [done|]. intros x. apply H2.
Qed.
Lemma sub_len_le {A} (l1 l2 : list A) : NoDup l1 -> (forall x, x ∈ l1 -> x ∈ l2) -> length l1 <= length l2.
Proof. intros H1 H2. apply submseteq_length. apply NoDup_submseteq; [done|]. intros x. apply H2. Qed.

Definition edges_agree (n m : mlnet) : Prop :=
  edges_len n = edges_len m /\ forall e, e ∈ edges n -> get_link n (e.1) = get_link m (e.1).

Lemma edge_of_link n a b : good n -> is_Some (lnk n a b) ->
  exists w, (interleave a b, w) ∈ edges n \/ directed n = false /\ (interleave b a, w) ∈ edges n.
Proof.
  intros Hg Hs. destruct (directed n) eqn:Hd.
  - exists (weight n a b). left. unfold edges. rewrite Hd, edges_dir_pairs. apply elem_of_list_fmap.
    exists (a, b). split; [done|]. by apply elem_of_pairs.
  - destruct (upairs_some n a b Hg Hd Hs) as [H|H]; [exists (weight n a b)|exists (weight n b a)];
      [left|right; split; [done|]]; unfold edges; rewrite Hd, edges_und_pairs; apply elem_of_list_fmap;
      [by exists (a, b)|by exists (b, a)].
Qed.

Lemma get_link_rd n l : get_link n l = rd n (link_to_nodes l).1 (link_to_nodes l).2.
Proof.
  unfold get_link, rd, lnk, adj. destruct (link_to_nodes l) as [a b]. simpl.
  destruct (dget (nett n) a) as [row|]; simpl; [|done]. by destruct (dget row b).
Qed.
Lemma get_link_interleave n a b : length a = length b -> get_link n (interleave a b) = rd n a b.
Proof. intros. rewrite <- weight_rd by done. done. Qed.

Lemma edges_agree_iff n m : good n -> good m -> directed n = directed m -> noEdge n = noEdge m ->
  aspects n = aspects m -> edges_agree n m <-> forall a b, lnk n a b = lnk m a b.
Proof.
  intros Hn Hm Hd Hno Has. split.
  - intros [Hlen He].
    assert (forall a b, is_Some (lnk n a b) -> rd n a b = rd m a b) as Hrd.
    { intros a b Hs. destruct (lnk_lengths _ _ _ Hn Hs) as [La Lb].
      destruct (edge_of_link n a b Hn Hs) as (w & [Hi|[Hu Hi]]); apply He in Hi; simpl in Hi;
        rewrite !get_link_interleave in Hi by lia; [done|].
      unfold rd in *. rewrite (wfL_sym n (proj2 Hn) Hu a b), (wfL_sym m (proj2 Hm) (eq_trans (eq_sym Hd) Hu) a b).
      done. }
    assert (forall p, p ∈ pairs n -> p ∈ pairs m) as Hsub.
    { intros [a b] Hp. apply elem_of_pairs in Hp; [|done]. apply elem_of_pairs; [done|].
      apply rd_noEdge; [done|]. rewrite <- Hrd, <- Hno by done. by apply rd_noEdge. }
    assert (forall p, p ∈ filter is_loop (pairs n) -> p ∈ filter is_loop (pairs m)) as Hsub'.
    { intros p. rewrite !elem_of_list_filter. intros [??]; auto. }
    pose proof (NoDup_pairs n Hn) as Nn.
    pose proof (sub_len_le _ _ Nn Hsub). pose proof (sub_len_le _ _ (NoDup_filter is_loop _ Nn) Hsub').
    assert (length (pairs n) = length (pairs m)) as Heq.
    { pose proof (edges_len_pairs n Hn) as E1. pose proof (edges_len_pairs m Hm) as E2.
      rewrite <- Hd in E2. destruct (directed n); lia. }
    pose proof (sub_len_perm _ _ Nn Hsub Heq) as HP.
    intros a b. destruct (lnk n a b) as [w|] eqn:E.
    + assert (is_Some (lnk m a b)) as [w' Hw'].
      { apply elem_of_pairs; [done|]. apply Hsub, elem_of_pairs; [done|eauto]. }
      rewrite Hw'. specialize (Hrd a b (ex_intro _ _ E)). unfold rd in Hrd. rewrite E, Hw' in Hrd. simpl in Hrd.
      by subst.
    + destruct (lnk m a b) as [w'|] eqn:E'; [|done]. exfalso.
      assert ((a, b) ∈ pairs n) as Hp. { rewrite HP. apply elem_of_pairs; [done|eauto]. }
      apply elem_of_pairs in Hp as [? ?]; [|done]. congruence.
  - intros Hl.
    assert (pairs n ≡ₚ pairs m) as HP.
    { apply NoDup_same_perm; [by apply NoDup_pairs..|]. intros [a b]. rewrite !elem_of_pairs by done. by rewrite Hl. }
    split.
    + pose proof (edges_len_pairs n Hn) as E1. pose proof (edges_len_pairs m Hm) as E2.
      pose proof (Permutation_length HP) as L1.
      assert (length (filter is_loop (pairs n)) = length (filter is_loop (pairs m))) as L2 by (by rewrite HP).
      rewrite <- Hd in E2. destruct (directed n); lia.
    + intros e _. rewrite !get_link_rd. unfold rd. by rewrite Hl, Hno.
Qed.

Lemma links_reads n m : good n -> good m -> noEdge n = noEdge m -> aspects n = aspects m ->
  (forall a b, lnk n a b = lnk m a b) <->
  (forall a b w, length a = S (aspects n) -> length b = S (aspects n) -> reads n a b w <-> reads m a b w).
Proof.
  intros Hn Hm Hno Has. split.
  - intros Hl a b w La Lb. rewrite !reads_rd by congruence. unfold rd. by rewrite Hl, Hno.
  - intros H a b.
    assert (length a = S (aspects n) -> length b = S (aspects n) -> rd n a b = rd m a b) as Hr.
    { intros La Lb. apply (reads_rd m a b); [congruence..|]. apply H; [done|done|]. by apply reads_rd. }
    destruct (lnk n a b) as [w|] eqn:E1, (lnk m a b) as [w'|] eqn:E2; [| | |done].
    + destruct (lnk_lengths n a b Hn ltac:(eauto)). specialize (Hr ltac:(done) ltac:(done)).
      unfold rd in Hr. rewrite E1, E2 in Hr. simpl in Hr. by subst.
    + destruct (lnk_lengths n a b Hn ltac:(eauto)). specialize (Hr ltac:(done) ltac:(done)).
      unfold rd in Hr. rewrite E1, E2 in Hr. simpl in Hr. exfalso. apply (wfL_noe n (proj2 Hn) a b). congruence.
    + destruct (lnk_lengths m a b Hm ltac:(eauto)). specialize (Hr ltac:(congruence) ltac:(congruence)).
      unfold rd in Hr. rewrite E1, E2 in Hr. simpl in Hr. exfalso. apply (wfL_noe m (proj2 Hm) a b). congruence.
Qed.

Lemma net_eq_exact n m : good n -> good m -> net_eq n m = Ok true <-> same_network n m.
Proof.
  intros Hn Hm. unfold net_eq, same_network.
  destruct (fic n) eqn:Fn, (fic m) eqn:Fm; simpl.
  - split.
    + intros [= H]. repeat rewrite andb_true_iff in H. rewrite !bool_decide_eq_true in H.
      destruct H as [[[[[[H1 H2] _] H4] H5] H6] H7]. split_and!; [done..| | |].
      * apply slices_sl; [apply Hn|apply Hm|done|done].
      * intros l x. unfold iter_nodes. rewrite Fn, Fm. rewrite slices_eqb_true, Forall2_lookup in H5.
        specialize (H5 0). unfold net_nodes. inversion H5 as [? ? Hst|]; simpl; [apply Hst|done].
      * apply links_reads; [done..|]. apply edges_agree_iff; [done..|]. split; [done|].
        rewrite forallb_true in H7. intros e He. specialize (H7 e He). by rewrite bool_decide_eq_true in H7.
    + intros (H1 & H2 & H3 & _ & H4 & H5 & H6). f_equal.
      pose proof (proj2 (links_reads n m Hn Hm H3 H1) H6) as H6'.
      destruct (proj2 (edges_agree_iff n m Hn Hm H2 H3 H1) H6') as [H8 H9].
      repeat rewrite andb_true_iff. rewrite !bool_decide_eq_true. split_and!; try done.
      * apply slices_sl; [apply Hn|apply Hm|done|done].
      * apply forallb_true. intros e He. rewrite bool_decide_eq_true. auto.
  - split; [|intros (_ & _ & _ & ? & _); done].
    intros [= H]. repeat rewrite andb_true_iff in H. rewrite !bool_decide_eq_true in H. naive_solver.
  - split; [done|]. intros (_ & _ & _ & ? & _); done.
  - destruct (n2l_eqb (n2l n) (n2l m)) eqn:E; simpl.
    + rewrite (n2l_eqb_true n m (proj1 Hn) (proj1 Hm)) in E. 
      rewrite (iter_nodes_n2l n m (proj1 Hn) (proj1 Hm) Fn Fm) in E. split.
      * intros [= H]. repeat rewrite andb_true_iff in H. rewrite !bool_decide_eq_true in H.
        destruct H as [[[[[[H1 H2] _] H4] H5] H6] H7]. split_and!; [done..| | |].
        -- apply slices_sl; [apply Hn|apply Hm|done|done].
        -- done.
        -- apply links_reads; [done..|]. apply edges_agree_iff; [done..|]. split; [done|].
           rewrite forallb_true in H7. intros e He. specialize (H7 e He). by rewrite bool_decide_eq_true in H7.
      * intros (H1 & H2 & H3 & _ & H4 & H5 & H6). f_equal.
        pose proof (proj2 (links_reads n m Hn Hm H3 H1) H6) as H6'.
      destruct (proj2 (edges_agree_iff n m Hn Hm H2 H3 H1) H6') as [H8 H9].
        repeat rewrite andb_true_iff. rewrite !bool_decide_eq_true. split_and!; try done.
        ++ apply slices_sl; [apply Hn|apply Hm|done|done].
        ++ apply forallb_true. intros e He. rewrite bool_decide_eq_true. auto.
    + split; [done|]. intros (_ & _ & _ & _ & _ & H & _).
      pose proof (proj2 (iter_nodes_n2l n m (proj1 Hn) (proj1 Hm) Fn Fm) H) as H'.
      apply (n2l_eqb_true n m (proj1 Hn) (proj1 Hm)) in H'. congruence.
Qed.

Lemma net_eq_total n m : fic n = fic m -> exists b, net_eq n m = Ok b.
Proof. unfold net_eq. intros ->. destruct (fic m); simpl; eauto. destruct (n2l_eqb _ _); simpl; eauto. Qed.
Lemma net_eq_raises n m : net_eq n m = Err AttributeError <-> fic n = false /\ fic m = true.
Proof.
  unfold net_eq. destruct (fic n), (fic m); simpl; split; try done; try (intros []; done).
  destruct (n2l_eqb _ _); done.
Qed.
Lemma same_network_refl n : same_network n n.
Proof. by repeat split. Qed.
Lemma same_network_sym n m : same_network n m -> same_network m n.
Proof.
  intros (H1 & H2 & H3 & H4 & H5 & H6 & H7). split_and!; try done; try (intros; symmetry; auto).
  apply H7; congruence.
Qed.
Lemma same_network_trans n m k : same_network n m -> same_network m k -> same_network n k.
Proof.
  intros (H1 & H2 & H3 & H4 & H5 & H6 & H7) (G1 & G2 & G3 & G4 & G5 & G6 & G7).
  split_and!; try congruence; intros; (etrans; [|first [apply G5|apply G6|apply G7; congruence]]); auto.
Qed.
