(** * Properties C33-C37: network models *)
From Verif Require Import ModelsFacts MpxHist MpxIter PropsNet PropsMpx PropsTrans.

(** ** C33 *)
(** The decoding is a one-to-one correspondence between the indices below
    n(n-1)/2 and the pairs w < v < n. *)
Theorem C33_index_decoding n :
  lists_exactly (decode <$> seq 0 (n * (n - 1) / 2)) (fun vw => vw.2 < vw.1 /\ vw.1 < n).
Proof.
  rewrite tri_eq. split.
  - apply NoDup_fmap_2_strong; [|apply NoDup_seq]. intros i j _ _ E. pose proof (decode_spec i) as Hi. pose proof (decode_spec j) as Hj. rewrite E in Hi.
    destruct (decode j) as [v w]. lia.
  - intros [v w]. rewrite elem_of_list_fmap. cbn [fst snd]. split.
    + intros (i & E & Hi%elem_of_seq). pose proof (decode_spec i) as Hd. rewrite <- E in Hd. destruct Hd as [Hw Hd]. split; [done|].
      apply (tri_pos_bound v w n Hw). lia.
    + intros [Hw Hv]. exists (tri v + w). pose proof (proj1 (tri_pos_bound v w n Hw) Hv) as [Hb _]. split; [|apply elem_of_seq; lia].
      pose proof (decode_spec (tri v + w)) as H. destruct (decode (tri v + w)) as [v' w'].
      destruct H as [H1 H2]. by destruct (tri_pos_unique v w v' w' Hw H1 H2) as [-> ->].
Qed.
(** The decoding is what [1+floor(-0.5+sqrt(0.25+2*k))] means: v-1 is the largest
    x with (x+1/2)^2 <= 1/4+2k. *)
Theorem C33_decoding_is_floor k x :
  (x + 1 <= (decode k).1)%nat <-> ((inject_Z (Z.of_nat x) + (1 # 2)) * (inject_Z (Z.of_nat x) + (1 # 2)) <= (1 # 4) + 2 * inject_Z (Z.of_nat k))%Q.
Proof.
  pose proof (decode_floor k) as [H1 H2]. pose proof (decode_spec k) as Hd. destruct (decode k) as [v w]. cbn [fst] in *. destruct Hd as [Hw _].
  assert (((inject_Z (Z.of_nat x) + (1 # 2)) * (inject_Z (Z.of_nat x) + (1 # 2)) <= (1 # 4) + 2 * inject_Z (Z.of_nat k))%Q <->
    (2 * x + 1) * (2 * x + 1) <= 8 * k + 1) as ->.
  { unfold Qle. simpl. lia. }
  split; [|nia]. intros Hx. assert ((2 * x + 1) * (2 * x + 1) <= (2 * (v - 1) + 1) * (2 * (v - 1) + 1)); nia.
Qed.
(** edges=m: the network has the given nodes, exactly m links, all of weight 1, and
    no self-links; the links are the pairs whose numbers were drawn. *)
Theorem C33_er_edges nodes m k : NoDup nodes -> is_sample (length nodes * (length nodes - 1) / 2) m k ->
  exists n, er_single nodes (ErEdges m k) = Ok n /\ simple_net n (fun x => x ∈ nodes) (er_linked nodes (ErEdges m k)) /\
    length (edges n) = m /\ forall x, ~ linked n [x] [x].
Proof.
  intros Hnd Hk. destruct (er_calls nodes (ErEdges m k) Hnd Hk) as (cs & E & HN & HL & Hne & L & HLp & Hlen).
  unfold er_single. rewrite E. simpl. destruct (gcalls_net cs true) as (n & -> & Hs). exists n. split; [done|].
  pose proof (simple_edges _ _ _ _ Hs HLp) as He. pose proof (simple_net_ext _ _ _ _ _ Hs HN HL) as Hs'. split; [done|]. split; [congruence|].
  intros x Hx. destruct Hs as (_ & _ & _ & _ & _ & Hl & _). apply Hl in Hx as [Hx|Hx]; by apply Hne in Hx.
Qed.
Theorem C33_too_many_edges nodes m k : length nodes * (length nodes - 1) / 2 < m -> er_single nodes (ErEdges m k) = Err ValueError.
Proof. intros H. unfold er_single, single_layer_er. by rewrite decide_False by lia. Qed.
(** Every simple graph with m links on the nodes is the result for some sample. *)
Lemma graph_positions nodes L P : NoDup nodes -> lists_pairs L P -> (forall x y, P x y -> x ∈ nodes /\ y ∈ nodes) ->
  exists k, NoDup k /\ length k = length L /\ (forall i, i ∈ k -> i < tri (length nodes)) /\
    forall x y, P x y <-> exists v w, w < v /\ tri v + w ∈ k /\
       (nodes !! v = Some x /\ nodes !! w = Some y \/ nodes !! v = Some y /\ nodes !! w = Some x).
Proof.
  intros Hnd (HL & Hanti & HP) Hin.
  set (ix := fun x => default 0 (fst <$> list_find (fun z => z = x) nodes)).
  assert (Hix : forall x, x ∈ nodes -> nodes !! ix x = Some x).
  { intros x Hx. unfold ix. destruct (list_find_elem_of (fun z => z = x) nodes x Hx eq_refl) as [[i z] E]. rewrite E.
    apply list_find_Some in E as (E & -> & _). done. }
  assert (Hixu : forall v x, nodes !! v = Some x -> ix x = v).
  { intros v x Hv. apply (NoDup_lookup nodes _ _ x Hnd); [|done]. apply Hix. by eapply elem_of_list_lookup_2. }
  set (pos := fun q : name * name => tri (Nat.max (ix q.1) (ix q.2)) + Nat.min (ix q.1) (ix q.2)).
  assert (HLn : forall x y, (x, y) ∈ L -> x ∈ nodes /\ y ∈ nodes /\ x <> y).
  { intros x y Hxy. destruct (Hin x y) as [? ?]; [apply HP; by left|]. split; [done|]. split; [done|]. intros ->. by apply (Hanti y y). }
  assert (Hpos : forall x y v w, w < v -> x ∈ nodes -> y ∈ nodes -> x <> y -> pos (x, y) = tri v + w ->
    nodes !! v = Some x /\ nodes !! w = Some y \/ nodes !! v = Some y /\ nodes !! w = Some x).
  { intros x y v w Hw Hx%Hix Hy%Hix Hne E. unfold pos in E. cbn [fst snd] in E. assert (ix x <> ix y) by congruence.
    destruct (tri_pos_unique (Nat.max (ix x) (ix y)) (Nat.min (ix x) (ix y)) v w) as [E1 E2]; [lia|lia|done|].
    destruct (decide (ix x < ix y)).
    - right. replace v with (ix y) by lia. replace w with (ix x) by lia. done.
    - left. replace v with (ix x) by lia. replace w with (ix y) by lia. done. }
  exists (pos <$> L). split_and!.
  - apply NoDup_fmap_2_strong; [|done]. intros [x y] [x' y'] H1 H2 E. destruct (HLn _ _ H1) as (Hx & Hy & Hne). destruct (HLn _ _ H2) as (Hx' & Hy' & Hne').
    pose proof (Hix _ Hx') as I1. pose proof (Hix _ Hy') as I2. assert (ix x' <> ix y') by congruence.
    destruct (Hpos x y (Nat.max (ix x') (ix y')) (Nat.min (ix x') (ix y')) ltac:(lia) Hx Hy Hne E) as [[A B]|[A B]]; apply Hixu in A, B.
    + assert ((ix x = ix x' /\ ix y = ix y') \/ (ix x = ix y' /\ ix y = ix x')) as [[A1 A2]|[A1 A2]] by lia.
      * pose proof (Hix _ Hx). pose proof (Hix _ Hy). f_equal; congruence.
      * exfalso. apply (Hanti _ _ H1). replace y with x' by (pose proof (Hix _ Hx); pose proof (Hix _ Hy); congruence).
        replace x with y' by (pose proof (Hix _ Hx); pose proof (Hix _ Hy); congruence). done.
    + assert ((ix x = ix x' /\ ix y = ix y') \/ (ix x = ix y' /\ ix y = ix x')) as [[A1 A2]|[A1 A2]] by lia.
      * pose proof (Hix _ Hx). pose proof (Hix _ Hy). f_equal; congruence.
      * exfalso. apply (Hanti _ _ H1). replace y with x' by (pose proof (Hix _ Hx); pose proof (Hix _ Hy); congruence).
        replace x with y' by (pose proof (Hix _ Hx); pose proof (Hix _ Hy); congruence). done.
  - by rewrite fmap_length.
  - intros i ([x y] & -> & Hq)%elem_of_list_fmap. destruct (HLn _ _ Hq) as (Hx%Hix & Hy%Hix & Hne). unfold pos. cbn [fst snd].
    assert (ix x <> ix y) by congruence. apply lookup_lt_Some in Hx, Hy. apply (tri_pos_bound (Nat.max (ix x) (ix y))); lia.
  - intros x y. rewrite HP. split.
    + intros Hxy. assert (x ∈ nodes /\ y ∈ nodes /\ x <> y) as (Hx%Hix & Hy%Hix & Hne).
      { destruct Hxy as [H|H]; apply HLn in H; naive_solver. }
      assert (ix x <> ix y) by congruence. exists (Nat.max (ix x) (ix y)), (Nat.min (ix x) (ix y)). split; [lia|]. split.
      * apply elem_of_list_fmap. destruct Hxy as [H0|H0]; [by exists (x, y)|]. exists (y, x). split; [|done]. unfold pos. cbn [fst snd]. f_equal; [f_equal|]; lia.
      * destruct (decide (ix x < ix y)).
        -- right. replace (Nat.max (ix x) (ix y)) with (ix y) by lia. replace (Nat.min (ix x) (ix y)) with (ix x) by lia. done.
        -- left. replace (Nat.max (ix x) (ix y)) with (ix x) by lia. replace (Nat.min (ix x) (ix y)) with (ix y) by lia. done.
    + intros (v & w & Hw & ([x' y'] & E & Hq)%elem_of_list_fmap & Hvw). destruct (HLn _ _ Hq) as (Hx' & Hy' & Hne').
      symmetry in E. destruct (Hpos x' y' v w Hw Hx' Hy' Hne' E) as [[A B]|[A B]]; destruct Hvw as [[C D]|[C D]];
        rewrite A in C; rewrite B in D; injection C as <-; injection D as <-; auto.
Qed.
Theorem C33_every_graph nodes L P : NoDup nodes -> lists_pairs L P -> (forall x y, P x y -> x ∈ nodes /\ y ∈ nodes) ->
  exists k n, is_sample (length nodes * (length nodes - 1) / 2) (length L) k /\
    er_single nodes (ErEdges (length L) k) = Ok n /\ simple_net n (fun x => x ∈ nodes) P.
Proof.
  intros Hnd HL HP. destruct (graph_positions nodes L P Hnd HL HP) as (k & Hk & Hlen & Hb & Hpk).
  assert (is_sample (length nodes * (length nodes - 1) / 2) (length L) k) as Hs by (split; [done|]; split; [done|]; by rewrite tri_eq).
  destruct (C33_er_edges nodes (length L) k Hnd Hs) as (n & E & Hn & _). exists k, n. split; [done|]. split; [done|].
  eapply simple_net_ext; [exact Hn|done|]. intros x y. rewrite Hpk. unfold er_linked. setoid_rewrite tri_eq. done.
Qed.
Example C33_example : is_sample (4 * (4 - 1) / 2) 3 [4; 0; 5] /\
  match er_mono 4 (ErEdges 3 [4; 0; 5]) with
  | Ok n => (fun e => e.1) <$> edges n = [[NInt 0; NInt 1]; [NInt 1; NInt 3]; [NInt 2; NInt 3]]
  | Err _ => False
  end.
Proof.
  split; [|by vm_compute]. split; [done|]. split; [by apply (bool_decide_unpack _)|]. change (4 * (4 - 1) / 2) with 6. intros i Hi.
  repeat (apply elem_of_cons in Hi as [->|Hi]; [lia|]). by apply elem_of_nil in Hi.
Qed.
Print Assumptions C33_index_decoding.
Print Assumptions C33_decoding_is_floor.
Print Assumptions C33_er_edges.
Print Assumptions C33_too_many_edges.
Print Assumptions C33_every_graph.

(** ** C34 *)
(** 0 < p <= 1: for all random numbers the loop ends, the network has the given
    nodes and the links are exactly the pairs at the drawn positions. *)
Theorem C34_gnp nodes p s : NoDup nodes -> (0 < p)%Q -> (p <= 1)%Q ->
  exists n, er_single nodes (ErP p s) = Ok n /\ simple_net n (fun x => x ∈ nodes) (er_linked nodes (ErP p s)) /\
    forall x, ~ linked n [x] [x].
Proof.
  intros Hnd H0 H1. destruct (er_calls nodes (ErP p s) Hnd (conj H0 H1)) as (cs & E & HN & HL & Hne & _).
  unfold er_single. rewrite E. simpl. destruct (gcalls_net cs true) as (n & -> & Hs). exists n. split; [done|].
  pose proof (simple_net_ext _ _ _ _ _ Hs HN HL) as Hs'. split; [done|].
  intros x Hx. destruct Hs as (_ & _ & _ & _ & _ & Hl & _). apply Hl in Hx as [Hx|Hx]; by apply Hne in Hx.
Qed.
(** p = 1 gives the complete graph. *)
Theorem C34_p_one nodes p s : NoDup nodes -> (p == 1)%Q ->
  exists n, er_single nodes (ErP p s) = Ok n /\ simple_net n (fun x => x ∈ nodes) (fun x y => x ∈ nodes /\ y ∈ nodes /\ x <> y).
Proof.
  intros Hnd Hp. destruct (C34_gnp nodes p s Hnd) as (n & E & Hs & _); [by rewrite Hp|by rewrite Hp|]. exists n. split; [done|].
  eapply simple_net_ext; [exact Hs|done|]. intros x y. unfold er_linked, drawn. split.
  - intros (v & w & Hw & _ & Hxy). destruct Hxy as [[Hx Hy]|[Hx Hy]]; (split; [by eapply elem_of_list_lookup_2|]; split; [by eapply elem_of_list_lookup_2|]); intros ->;
      (assert (v = w) by by apply (NoDup_lookup nodes _ _ y)); lia.
  - intros (Hx & Hy & Hne). apply elem_of_list_lookup in Hx as [i Hi], Hy as [j Hj]. assert (i <> j) by congruence. assert (i < j \/ j < i) as [Hij|Hij] by lia.
    + exists j, i. auto.
    + exists i, j. auto.
Qed.
(** Every simple graph on the nodes is the result for some random numbers. *)
Theorem C34_every_graph nodes p L P : NoDup nodes -> (0 < p)%Q -> (p < 1)%Q -> lists_pairs L P -> (forall x y, P x y -> x ∈ nodes /\ y ∈ nodes) ->
  exists s n, er_single nodes (ErP p s) = Ok n /\ simple_net n (fun x => x ∈ nodes) P.
Proof.
  intros Hnd H0 H1 HL HP. destruct (graph_positions nodes L P Hnd HL HP) as (k & Hk & Hlen & Hb & Hpk).
  set (k' := merge_sort le k). assert (StronglySorted lt k') as Hso.
  { assert (StronglySorted le k') as Hs by (apply Sorted_StronglySorted; [intros ???; lia|]; apply (Sorted_merge_sort le)).
    assert (NoDup k') as Hn by by unfold k'; rewrite merge_sort_Permutation. clear -Hs Hn.
    induction Hs as [|x l Hs IH Hx]; constructor.
    - apply IH. by apply NoDup_cons in Hn as [_ ?].
    - apply NoDup_cons in Hn as [Hx' Hn]. rewrite Forall_forall in Hx |- *. intros y Hy. specialize (Hx y Hy). assert (x <> y) by congruence. lia. }
  assert (forall i, i ∈ k' <-> i ∈ k) as Hkk by (intros i; unfold k'; by rewrite merge_sort_Permutation).
  exists (skips_of 0 k' (tri (length nodes))). destruct (C34_gnp nodes p (skips_of 0 k' (tri (length nodes))) Hnd H0) as (n & E & Hs & _); [by apply Qlt_le_weak|].
  exists n. split; [done|]. eapply simple_net_ext; [exact Hs|done|]. intros x y. rewrite Hpk. unfold er_linked, drawn. setoid_rewrite tri_eq.
  assert (forall v w, w < v -> nodes !! v <> None -> tri v + w ∈ k <->
    ((p == 1)%Q \/ exists i, tri v + w = i + sum_list (skips_of 0 k' (tri (length nodes)) <$> seq 0 (S i)))) as Hi.
  { intros v w Hw Hv. assert (tri v + w < tri (length nodes)) as Hlt.
    { apply (tri_pos_bound v w _ Hw). apply lookup_lt_is_Some. by apply not_eq_None_Some. }
    rewrite <- Hkk, <- (skips_of_spec k' 0 (tri (length nodes)) Hso ltac:(intros; lia) _ Hlt). setoid_rewrite sum_gpos. split.
    - intros [i Hi]. right. exists i. lia.
    - intros [Hp|[i Hi]]; [|exists i; lia]. rewrite Hp in H1. by apply Qlt_irrefl in H1. }
  split; intros (v & w & Hw & Hd & Hxy); exists v, w; (split; [done|]; split; [|done]); apply Hi; try done;
    destruct Hxy as [[-> _]|[-> _]]; done.
Qed.
(** p = 0 with at least two nodes, and p > 1, raise. *)
Theorem C34_p_zero nodes p s : (p == 0)%Q -> 2 <= length nodes -> er_single nodes (ErP p s) = Err ZeroDivisionError.
Proof.
  intros Hp Hn. unfold er_single, single_layer_er. apply Qeq_bool_iff in Hp as Hp'. destruct (Qeq_bool p 1) eqn:E.
  - apply Qeq_bool_eq in E. rewrite E in Hp. done.
  - rewrite decide_False by lia. by rewrite Hp'.
Qed.
(** [er] with lists of parameters: every layer is such a network; layers do not
    influence each other. *)
Lemma zip_with_snoc_len {A B} (l1 : list A) (l2 : list B) : length l1 = length l2 -> forall i a b, zip l1 l2 !! i = Some (a, b) <-> l1 !! i = Some a /\ l2 !! i = Some b.
Proof.
  intros Hl i a b. rewrite lookup_zip_with_Some. split; [by intros (? & ? & [= -> ->] & ? & ?)|]. intros [? ?]. eauto.
Qed.
Lemma elem_of_two {A} (x y z : A) : x ∈ [y; z] <-> x = y \/ x = z.
Proof. by rewrite elem_of_cons, elem_of_list_singleton. Qed.
Lemma er_layers_hist c fi ls : forall h p, mhist [c] false 0 fi h p ->
  (forall t, t ∈ ls -> NoDup ((t.2).1) /\ er_par_ok (length ((t.2).1)) ((t.2).2)) ->
  exists p' css, rfold er_layer p ls = Ok p' /\
    Forall2 (fun t cs => single_layer_er ((t.2).1) ((t.2).2) = Ok cs) ls css /\
    mhist [c] false 0 fi (h ++ mjoin (zip_with (fun t cs => okc (MAddLayer (t.1) 1) :: (okc <$> (g_mop (t.1) <$> cs))) ls css)) p'.
Proof.
  induction ls as [|t ls IH]; intros h p H Hok; [exists p, []; simpl; by rewrite app_nil_r|].
  destruct (Hok t ltac:(left)) as [Hnd Hpar]. destruct (er_calls _ _ Hnd Hpar) as (cs & E & HN & HL & Hne & _).
  cbn [rfold]. unfold er_layer at 1. destruct (do_mop_safe _ _ _ _ _ _ (MAddLayer (t.1) 1) H eq_refl) as (p1 & -> & H1). simpl. rewrite E. simpl.
  assert (mhas p1 1 (t.1)) as Hl.
  { apply (C51_nodes_layers_exact _ _ _ _ _ _ H1); [done|]. eexists. split; [apply elem_of_app; right; left|]. unfold mmentions. simpl. auto. }
  destruct (mbuild_safe _ _ _ _ (g_mop (t.1) <$> cs) _ _ H1) as (p2 & -> & H2).
  { apply Forall_fmap, Forall_forall. intros [x|x y] Hg; simpl; [done|]. split; [done|]. left. by apply Hne. }
  destruct (IH _ _ H2) as (p' & css & E' & Hc & Hh); [intros; apply Hok; by right|].
  exists p', (cs :: css). split; [done|]. split; [by constructor|]. simpl. by rewrite <- !app_assoc in Hh.
Qed.
Lemma lookup_range n i : range n !! i = if decide (i < n) then Some (NInt (Z.of_nat i)) else None.
Proof.
  unfold range. rewrite list_lookup_fmap. destruct (decide (i < n)); [by rewrite lookup_seq_lt|]. by rewrite lookup_seq_ge by lia.
Qed.
Lemma elem_of_range n x : x ∈ range n <-> exists i, i < n /\ x = NInt (Z.of_nat i).
Proof.
  unfold range. rewrite elem_of_list_fmap. setoid_rewrite elem_of_seq. split; intros (i & ? & ?); exists i; (split; [|done]) || (split; [done|]); try done; lia.
Qed.
Lemma NoDup_range n : NoDup (range n).
Proof. apply NoDup_fmap_2; [|apply NoDup_seq]. intros i j [= ?]. lia. Qed.
Lemma length_range n : length (range n) = n.
Proof. unfold range. by rewrite fmap_length, seq_length. Qed.
Theorem C34_er_multiplex c fi ls :
  (forall ns par, (ns, par) ∈ ls -> NoDup ns /\ er_par_ok (length ns) par) ->
  exists p, er_multiplex [c] fi ls = Ok p /\
    (forall l, mhas p 1 l <-> l ∈ range (length ls)) /\
    (forall x, mhas p 0 x <-> exists ns par, (ns, par) ∈ ls /\ x ∈ ns) /\
    (fi = false -> forall x l, mexists p [x; l] <-> exists i ns par, l = NInt (Z.of_nat i) /\ ls !! i = Some (ns, par) /\ x ∈ ns) /\
    (forall i ns par, ls !! i = Some (ns, par) -> layer_links p (NInt (Z.of_nat i)) (er_linked ns par)).
Proof.
  intros Hok. unfold er_multiplex. set (tls := zip (range (length ls)) ls).
  assert (Hlk : forall i l ns par, tls !! i = Some (l, (ns, par)) <-> l = NInt (Z.of_nat i) /\ ls !! i = Some (ns, par)).
  { intros i l ns par. unfold tls. rewrite zip_with_snoc_len by by rewrite length_range. rewrite lookup_range. split.
    - intros [H1 H2]. split; [|done]. destruct (decide _); [by injection H1 as <-|done].
    - intros [-> H2]. split; [|done]. by rewrite decide_True by by eapply lookup_lt_Some. }
  destruct (er_layers_hist c fi tls [] (new_mpx [c] false 0 fi)) as (p & css & -> & Hcs & Hh); [constructor| |].
  { intros [l [ns par]] Ht. apply elem_of_list_lookup in Ht as [i Hi]. apply Hlk in Hi as [_ Hi]. apply Hok. by eapply elem_of_list_lookup_2. }
  exists p. split; [done|]. simpl in Hh. set (hh := mjoin _) in Hh.
  assert (Hcall : forall i ns par, ls !! i = Some (ns, par) -> exists cs, css !! i = Some cs /\ single_layer_er ns par = Ok cs /\
     (forall x, gnode cs x <-> x ∈ ns) /\ (forall x y, glink cs x y <-> er_linked ns par x y) /\ (forall x y, GLink x y ∈ cs -> x <> y)).
  { intros i ns par Hi. destruct (Hok ns par ltac:(by eapply elem_of_list_lookup_2)) as [Hnd Hpar].
    assert (tls !! i = Some (NInt (Z.of_nat i), (ns, par))) as Ht by by apply Hlk.
    destruct (Forall2_lookup_l _ _ _ _ _ Hcs Ht) as (cs & Hi' & E). cbn [fst snd] in E. exists cs. split; [done|]. split; [done|].
    destruct (er_calls _ _ Hnd Hpar) as (cs' & E' & H1 & H2 & H3 & _). assert (cs' = cs) as -> by congruence. done. }
  assert (Hin : forall e, e ∈ hh <-> exists i ns par cs, ls !! i = Some (ns, par) /\ css !! i = Some cs /\
     (e = okc (MAddLayer (NInt (Z.of_nat i)) 1) \/ exists g, g ∈ cs /\ e = okc (g_mop (NInt (Z.of_nat i)) g))).
  { intros e. unfold hh. rewrite elem_of_list_join. split.
    - intros (b & He & Hb). apply elem_of_lookup_zip_with in Hb as (i & [l [ns par]] & cs & -> & Ht & Hi'). apply Hlk in Ht as [-> Hi]. cbn [fst] in He.
      exists i, ns, par, cs. split; [done|]. split; [done|]. apply elem_of_cons in He as [->|He]; [by left|right].
      rewrite <- list_fmap_compose in He. apply elem_of_list_fmap in He as (g & -> & Hg). eauto.
    - intros (i & ns & par & cs & Hi & Hi' & He). eexists. split.
      2:{ apply elem_of_lookup_zip_with. exists i, (NInt (Z.of_nat i), (ns, par)), cs. split; [reflexivity|]. split; [by apply Hlk|done]. }
      cbn [fst]. destruct He as [->|(g & Hg & ->)]; [left|right]. rewrite <- list_fmap_compose. apply elem_of_list_fmap. by exists g. }
  split_and!.
  - intros l. rewrite (C51_nodes_layers_exact _ _ _ _ _ _ Hh) by done. setoid_rewrite Hin. split.
    + intros (e & (i & ns & par & cs & Hi & Hi' & He) & Hm). destruct He as [->|([x|x y] & Hg & ->)]; unfold mmentions in Hm; cbn [okc g_mop fst snd mentions] in Hm; [|by destruct Hm as (_ & ? & _)..].
      destruct Hm as (_ & -> & _). apply elem_of_range. exists i. split; [by eapply lookup_lt_Some|done].
    + intros (i & Hi & ->)%elem_of_range. destruct (lookup_lt_is_Some_2 _ _ Hi) as [[ns par] Hls]. destruct (Hcall _ _ _ Hls) as (cs & Hi' & _).
      eexists. split; [exists i, ns, par, cs; split; [done|]; split; [done|]; by left|]. unfold mmentions. simpl. split; [done|]. split; [done|lia].
  - intros x. rewrite (C51_nodes_layers_exact _ _ _ _ _ _ Hh) by done. setoid_rewrite Hin. split.
    + intros (e & (i & ns & par & cs & Hi & Hi' & He) & Hm). destruct (Hcall _ _ _ Hi) as (cs' & Hi'' & _ & Hn & _). assert (cs' = cs) as -> by congruence.
      exists ns, par. split; [by eapply elem_of_list_lookup_2|]. apply Hn. destruct He as [->|(g & Hg & ->)]; [by destruct Hm as (? & _)|].
      exists g. split; [done|]. destruct g as [y|y z]; unfold mmentions in Hm; cbn [okc g_mop fst snd] in Hm; [tauto|]. apply elem_of_two, Hm.
    + intros (ns & par & [i Hi]%elem_of_list_lookup & Hx). destruct (Hcall _ _ _ Hi) as (cs & Hi' & _ & Hn & _). apply Hn in Hx. destruct Hx as (g & Hg & Hx).
      eexists. split; [exists i, ns, par, cs; split; [done|]; split; [done|]; right; by exists g|]. destruct g as [y|y z]; unfold mmentions; cbn [okc g_mop fst snd]; [done|].
      split; [done|]. split; [done|]. by apply elem_of_two.
  - intros -> x l. rewrite (C51_node_layers_exact _ _ _ _ _ _ Hh) by done. setoid_rewrite Hin. split.
    + intros (e & x' & l' & (i & ns & par & cs & Hi & Hi' & He) & [Hl' Hm] & Heq). destruct (Hcall _ _ _ Hi) as (cs' & Hi'' & _ & Hn & _). assert (cs' = cs) as -> by congruence.
      destruct He as [->|(g & Hg & ->)]; [done|]. exists i, ns, par. rewrite <- Hn.
      destruct g as [y|y z]; cbn [okc g_mop fst snd] in Hm.
      * destruct Hm as (_ & <- & ->). injection Heq as -> ->. split; [done|]. split; [done|]. by eexists.
      * destruct Hm as (_ & <- & Hx). injection Heq as -> ->. split; [done|]. split; [done|]. eexists. split; [done|]. by apply elem_of_two in Hx.
    + intros (i & ns & par & -> & Hi & Hx). destruct (Hcall _ _ _ Hi) as (cs & Hi' & _ & Hn & _). apply Hn in Hx. destruct Hx as (g & Hg & Hx).
      eexists _, x, (LBare (NInt (Z.of_nat i))). split; [exists i, ns, par, cs; split; [done|]; split; [done|]; right; by exists g|]. split; [|done]. split; [done|].
      destruct g as [y|y z]; cbn [okc g_mop fst snd]; [done|]. split; [done|]. split; [done|]. by apply elem_of_two.
  - intros i ns par Hi. destruct (Hcall _ _ _ Hi) as (cs & Hi' & _ & _ & Hl & _).
    assert (Hw : forall e l x y w, e ∈ hh -> mwrites 1 e (LBare l) x y w -> w = 1%Z /\ exists i cs, l = NInt (Z.of_nat i) /\ css !! i = Some cs /\ GLink x y ∈ cs).
    { intros e l x y w (i1 & ns1 & par1 & cs1 & Hi1 & Hi1' & He)%Hin Hw. destruct He as [->|(g & Hg & ->)]; [by destruct Hw|].
      apply mwrites_g in Hw as (<- & -> & ->). split; [done|]. eauto. }
    eapply layer_links_ext; [eapply (mones _ _ _ _ Hh)|].
    + intros e l x y w He Hw'. by destruct (Hw e l x y w He Hw').
    + intros l x w (i1 & ns1 & par1 & cs1 & Hi1 & Hi1' & He)%Hin. destruct He as [He|([y|y z] & Hg & [= -> -> -> ->])]; [done|].
      destruct (Hcall _ _ _ Hi1) as (cs' & Hi1'' & _ & _ & _ & Hne). assert (cs' = cs1) as -> by congruence. by apply (Hne z z).
    + intros x y Hne. rewrite <- Hl. split.
      * intros (e & He & [Ha|[_ Ha]]); destruct (Hw e _ _ _ _ He Ha) as (_ & i1 & cs1 & [= Hii] & Hc & Hg); (assert (i = i1) as <- by lia); (assert (cs1 = cs) as -> by congruence); [by left|by right].
      * intros [Hg|Hg]; (eexists; split; [apply Hin; exists i, ns, par, cs; split; [done|]; split; [done|]; right; eexists; split; [exact Hg|done]|]);
          [left|right; split; [done|]]; by apply mwrites_g.
Qed.
Example C34_example :
  match er_mono 4 (ErP (1 # 2) (fun i => i)) with
  | Ok n => (fun e => e.1) <$> edges n = [[NInt 0; NInt 1]; [NInt 1; NInt 2]; [NInt 2; NInt 3]]
  | Err _ => False
  end.
Proof. by vm_compute. Qed.
Example C34_multiplex_example : let ls := [(range 3, ErEdges 2 [2; 0]); ([NInt 5; NInt 7], ErP (1 # 3) (fun _ => 0))] in
  (forall ns par, (ns, par) ∈ ls -> NoDup ns /\ er_par_ok (length ns) par) /\
  match er_multiplex [CCat 1] false ls with Ok p => pgetitem p [NInt 5; NInt 7; NInt 1] = Ok 1%Z | Err _ => False end.
Proof.
  intros ls. split; [|by vm_compute]. intros ns par [[= -> ->]|[[= -> ->]|?%elem_of_nil]%elem_of_cons]%elem_of_cons; [| |done].
  - split; [apply NoDup_range|]. split; [done|]. split; [by apply (bool_decide_unpack _)|]. change (_ / 2) with 3. intros i Hi.
    repeat (apply elem_of_cons in Hi as [->|Hi]; [lia|]). by apply elem_of_nil in Hi.
  - split; [by apply (bool_decide_unpack _)|]. by split.
Qed.
Print Assumptions C34_gnp.
Print Assumptions C34_p_one.
Print Assumptions C34_every_graph.
Print Assumptions C34_p_zero.
Print Assumptions C34_er_multiplex.
Theorem C34_p_above_one nodes p s : (1 < p)%Q -> 2 <= length nodes -> er_single nodes (ErP p s) = Err ValueError.
Proof.
  intros Hp Hn. unfold er_single, single_layer_er. destruct (Qeq_bool p 1) eqn:E.
  { apply Qeq_bool_eq in E. rewrite E in Hp. by apply Qlt_irrefl in Hp. }
  rewrite decide_False by lia. destruct (Qeq_bool p 0) eqn:E0.
  { apply Qeq_bool_eq in E0. rewrite E0 in Hp. done. }
  destruct (Qle_bool p 1) eqn:E1; [|done]. apply Qle_bool_iff in E1. exfalso. apply (Qlt_irrefl p). by eapply Qle_lt_trans.
Qed.
Print Assumptions C34_p_above_one.

(** ** C35 *)
(** One node: [full] makes no call at all, so the network has no nodes. *)
Lemma full_mono_calls l1 l2 : (l1 ≫= fun x => l2 ≫= fun y => if decide (x <> y) then [OpSet [x; y] 1] else []) =
  g_op <$> (l1 ≫= fun x => l2 ≫= fun y => if decide (x <> y) then [GLink x y] else []).
Proof.
  induction l1 as [|x l1 IH]; [done|]. rewrite !bind_cons, fmap_app, <- IH. f_equal.
  clear. induction l2 as [|y l2 IH]; [done|]. rewrite !bind_cons, fmap_app, IH. by destruct (decide _).
Qed.
Lemma range_two n x : 2 <= n -> x ∈ range n -> exists y, y ∈ range n /\ x <> y.
Proof.
  intros Hn (i & Hi & ->)%elem_of_range. destruct (decide (i = 0)) as [->|].
  - exists (NInt 1). split; [apply elem_of_range; by exists 1|done].
  - exists (NInt 0). split; [apply elem_of_range; exists 0; split; [lia|done]|]. intros [= ?]. lia.
Qed.
Lemma range_ne n x y : x ∈ range n -> y ∈ range n -> x <> y -> 2 <= n.
Proof. intros (i & ? & ->)%elem_of_range (j & ? & ->)%elem_of_range Hne. assert (i <> j) by congruence. lia. Qed.
Theorem C35_full_monoplex k : exists n, full_mono k = Ok n /\
  simple_net n (fun x => x ∈ range k /\ 2 <= k) (fun x y => x ∈ range k /\ y ∈ range k /\ x <> y).
Proof.
  unfold full_mono. rewrite full_mono_calls. set (cs := range k ≫= _). destruct (gcalls_net cs true) as (n & -> & Hs). exists n. split; [done|].
  assert (Hcs : forall g, g ∈ cs <-> exists x y, x ∈ range k /\ y ∈ range k /\ x <> y /\ g = GLink x y).
  { intros g. unfold cs. rewrite elem_of_list_bind. split.
    - intros (x & Hg & Hx). apply elem_of_list_bind in Hg as (y & Hg & Hy). destruct (decide _); [|by apply elem_of_nil in Hg].
      apply elem_of_list_singleton in Hg. eauto 10.
    - intros (x & y & Hx & Hy & Hne & ->). exists x. split; [|done]. apply elem_of_list_bind. exists y. split; [|done]. rewrite decide_True by done. by left. }
  eapply simple_net_ext; [exact Hs| |].
  - intros x. unfold gnode. setoid_rewrite Hcs. split.
    + intros (g & (x' & y' & Hx & Hy & Hne & ->) & Hg). pose proof (range_ne _ _ _ Hx Hy Hne). by destruct Hg as [-> | ->].
    + intros [Hx Hk]. destruct (range_two k x Hk Hx) as (y & Hy & Hne). exists (GLink x y). split; [eauto 10|by left].
  - intros x y. unfold glink. rewrite !Hcs. split.
    + intros [(x' & y' & ? & ? & ? & [= -> ->])|(x' & y' & ? & ? & ? & [= -> ->])]; done.
    + intros (? & ? & ?). left. eauto 10.
Qed.
(** With layers: the nodes and layers are there if there are at least two nodes, and
    on every layer exactly the pairs of different nodes are linked. *)
Theorem C35_full_multiplex c k layers : exists p, full_mpx c k layers = Ok p /\
  (forall x, mhas p 0 x <-> x ∈ range k /\ 2 <= k /\ layers <> []) /\
  (forall l, mhas p 1 l <-> l ∈ layers /\ 2 <= k) /\
  forall l, layer_links p l (fun x y => l ∈ layers /\ x ∈ range k /\ y ∈ range k /\ x <> y).
Proof.
  unfold full_mpx. set (os := layers ≫= _).
  assert (Hos : forall o, o ∈ os <-> exists l x y, l ∈ layers /\ x ∈ range k /\ y ∈ range k /\ x <> y /\ o = MSet [x; y; l; l] 1).
  { intros g. unfold os. rewrite elem_of_list_bind. split.
    - intros (l & Hg & Hl). apply elem_of_list_bind in Hg as (x & Hg & Hx). apply elem_of_list_bind in Hg as (y & Hg & Hy).
      destruct (decide _); [|by apply elem_of_nil in Hg]. apply elem_of_list_singleton in Hg. eauto 10.
    - intros (l & x & y & Hl & Hx & Hy & Hne & ->). exists l. split; [|done]. apply elem_of_list_bind. exists x. split; [|done].
      apply elem_of_list_bind. exists y. split; [|done]. rewrite decide_True by done. by left. }
  destruct (mbuild_safe c false 0 true os [] (new_mpx [c] false 0 true)) as (p & -> & Hh); [constructor| |].
  { apply Forall_forall. intros o (l & x & y & _ & _ & _ & Hne & ->)%Hos. done. }
  simpl in Hh.
  assert (Hin : forall e, e ∈ okc <$> os <-> exists l x y, l ∈ layers /\ x ∈ range k /\ y ∈ range k /\ x <> y /\ e = okc (MSet [x; y; l; l] 1)).
  { intros e. rewrite elem_of_list_fmap. split.
    - intros (o & -> & (l & x & y & ? & ? & ? & ? & ->)%Hos). eauto 10.
    - intros (l & x & y & ? & ? & ? & ? & ->). eexists. split; [done|]. apply Hos. eauto 10. }
  assert (Hm : forall l x y j z, mmentions 1 true (okc (MSet [x; y; l; l] 1)) j z <-> (j = 0 /\ (z = x \/ z = y)) \/ (j = 1 /\ z = l)).
  { intros l x y j z. unfold mmentions. simpl. split.
    - intros (a & b & w & [_ [-> ->]%names_link2] & Hz). destruct j as [|[|j]]; simpl in Hz; [left|right|by destruct Hz];
        destruct Hz as [[= ->]|[= ->]]; auto.
    - intros H. exists [x; l], [y; l], 1%Z. split; [split; [done|]; by apply names_link2|]. destruct H as [[-> [-> | ->]]|[-> ->]]; simpl; auto. }
  exists p. split; [done|]. split; [|split].
  - intros z. rewrite (C51_nodes_layers_exact _ _ _ _ _ _ Hh) by done. setoid_rewrite Hin. split.
    + intros (e & (l & x & y & Hl & Hx & Hy & Hne & ->) & Hz). apply Hm in Hz as [[_ Hz]|[? _]]; [|done]. pose proof (range_ne _ _ _ Hx Hy Hne).
      assert (layers <> []) by by (intros ->; apply elem_of_nil in Hl). by destruct Hz as [-> | ->].
    + intros (Hx & Hk & Hl). destruct layers as [|l ls]; [done|]. destruct (range_two k z Hk Hx) as (y & Hy & Hne).
      exists (okc (MSet [z; y; l; l] 1)). split; [exists l, z, y; split; [left|done]|]. apply Hm. auto.
  - intros l. rewrite (C51_nodes_layers_exact _ _ _ _ _ _ Hh) by done. setoid_rewrite Hin. split.
    + intros (e & (l' & x & y & Hl & Hx & Hy & Hne & ->) & Hz). apply Hm in Hz as [[? _]|[_ ->]]; [done|]. pose proof (range_ne _ _ _ Hx Hy Hne). done.
    + intros [Hl Hk]. exists (okc (MSet [NInt 0; NInt 1; l; l] 1)). split; [|apply Hm; auto]. exists l, (NInt 0), (NInt 1). split; [done|].
      split; [apply elem_of_range; exists 0; split; [lia|done]|]. split; [apply elem_of_range; exists 1; split; [lia|done]|]. done.
  - intros l.
    assert (Hw : forall l' x y l i j w, mwrites 1 (okc (MSet [x; y; l'; l'] 1)) (LBare l) i j w <-> w = 1%Z /\ i = x /\ j = y /\ l = l').
    { intros l' x y l0 i j w. unfold mwrites. simpl. split.
      - intros (_ & <- & Hl). apply names_link2 in Hl as [E1 E2]. injection E1 as -> ->. by injection E2 as ->.
      - intros (-> & -> & -> & ->). split; [done|]. split; [done|]. by apply names_link2. }
    eapply layer_links_ext; [eapply (mones _ _ _ _ Hh)|].
    + intros e l0 i j w (l' & x & y & _ & _ & _ & _ & ->)%Hin. by intros [-> _]%Hw.
    + intros l0 x w (l' & x' & y & _ & _ & _ & _ & E)%Hin. done.
    + intros x y Hne. split.
      * intros (e & (l' & x' & y' & Hl & Hx & Hy & Hne' & ->)%Hin & Ha). destruct Ha as [Ha|[_ Ha]]; apply Hw in Ha as (_ & -> & -> & ->); done.
      * intros (Hl & Hx & Hy & _). exists (okc (MSet [x; y; l; l] 1)). split; [apply Hin; eauto 10|]. left. by apply Hw.
Qed.
(** [full_multilayer]: all pairs of different node-layers are linked. *)
Theorem C35_full_multilayer k layers : NoDup layers -> exists n, full_multilayer k layers = Ok n /\
  reachable n /\ aspects n = 1 /\ directed n = false /\
  (forall x, has_elem n 0 x <-> x ∈ range k /\ layers <> [] /\ (2 <= k \/ 2 <= length layers)) /\
  (forall l, has_elem n 1 l <-> l ∈ layers /\ 1 <= k /\ (2 <= k \/ 2 <= length layers)) /\
  (forall x l y r, linked n [x; l] [y; r] <-> x ∈ range k /\ y ∈ range k /\ l ∈ layers /\ r ∈ layers /\ (x, l) <> (y, r)) /\
  (forall a b, linked n a b -> reads n a b 1).
Proof.
  intros Hnd. unfold full_multilayer. set (os := layers ≫= _).
  assert (Hos : forall o, o ∈ os <-> exists x l y r, x ∈ range k /\ y ∈ range k /\ l ∈ layers /\ r ∈ layers /\ (x, l) <> (y, r) /\
     o = OpSet (interleave [x; l] [y; r]) 1).
  { intros o. unfold os. rewrite elem_of_list_bind. split.
    - intros (l & Hg & Hl). apply elem_of_list_bind in Hg as (r & Hg & Hr). apply elem_of_list_bind in Hg as (x & Hg & Hx).
      apply elem_of_list_bind in Hg as (y & Hg & Hy). destruct (decide _) as [Hd|]; [|by apply elem_of_nil in Hg].
      apply elem_of_list_singleton in Hg. exists x, l, y, r. split_and!; try done. destruct Hd; congruence.
    - intros (x & l & y & r & Hx & Hy & Hl & Hr & Hne & ->). exists l. split; [|done]. apply elem_of_list_bind. exists r. split; [|done].
      apply elem_of_list_bind. exists x. split; [|done]. apply elem_of_list_bind. exists y. split; [|done].
      rewrite decide_True; [by left|]. destruct (decide (x = y)) as [->|]; [right; congruence|by left]. }
  set (W := fun a b : nl => match a, b with
    | [x; l], [y; r] => if decide (x ∈ range k /\ y ∈ range k /\ l ∈ layers /\ r ∈ layers /\ (x, l) <> (y, r)) then 1%Z else 0%Z
    | _, _ => 0%Z end).
  destruct (sets_net 1 true os W) as (n & Hb & Hr & Ha & Hd & Hn & Hrd & Hel).
  - intros o (x & l & y & r & Hx & Hy & Hl & Hr & Hne & ->)%Hos. exists [x; l], [y; r], 1%Z. split; [done|]. split; [done|]. split; [done|].
    split; [congruence|]. unfold W. by split; rewrite decide_True.
  - intros a b Hw. unfold W in Hw. destruct a as [|x [|l [|]]]; try done. destruct b as [|y [|r [|]]]; try done.
    destruct (decide _) as [H|]; [|done]. exists [x; l], [y; r], 1%Z. split; [|by auto]. apply Hos. exists x, l, y, r. tauto.
  - exists n. split; [done|]. split; [done|]. split; [done|]. split; [done|]. pose proof (reachable_good _ Hr) as Hg.
    assert (Hin : forall j z, has_elem n j z <-> exists x l y r, x ∈ range k /\ y ∈ range k /\ l ∈ layers /\ r ∈ layers /\ (x, l) <> (y, r) /\ [x; l] !! j = Some z).
    { intros j z. rewrite Hel. split.
      - intros (a & b & w & (x & l & y & r & Hx & Hy & Hl & Hr' & Hne & E)%Hos & Hla & Hlb & Hz).
        assert (a = [x; l] /\ b = [y; r]) as [-> ->].
        { destruct a as [|a1 [|a2 [|]]], b as [|b1 [|b2 [|]]]; try done. simpl in E. injection E as -> -> -> -> ->. done. }
        destruct Hz as [Hz|Hz]; [exists x, l, y, r|exists y, r, x, l]; naive_solver.
      - intros (x & l & y & r & Hx & Hy & Hl & Hr' & Hne & Hz). exists [x; l], [y; r], 1%Z. split; [apply Hos; exists x, l, y, r; done|]. auto. }
    assert (H2 : forall x l y r, x ∈ range k -> y ∈ range k -> l ∈ layers -> r ∈ layers -> (x, l) <> (y, r) -> 2 <= k \/ 2 <= length layers).
    { intros x l y r Hx Hy Hl Hr' Hne. destruct (decide (x = y)) as [->|]; [right|left; by apply (range_ne k x y)].
      assert (l <> r) by congruence. destruct layers as [|l1 [|l2 ls]]; [by apply elem_of_nil in Hl| |simpl; lia].
      apply elem_of_list_singleton in Hl, Hr'. congruence. }
    assert (H3 : forall x l, x ∈ range k -> l ∈ layers -> 2 <= k \/ 2 <= length layers -> exists y r, y ∈ range k /\ r ∈ layers /\ (x, l) <> (y, r)).
    { intros x l Hx Hl [H|H].
      - destruct (range_two k x H Hx) as (y & Hy & Hne). exists y, l. split; [done|]. split; [done|]. congruence.
      - exists x. destruct layers as [|l1 [|l2 ls]]; simpl in H; [lia|lia|]. destruct (decide (l = l1)) as [->|].
        + exists l2. split; [done|]. split; [right; left|]. intros [= ->]. apply NoDup_cons in Hnd as [Hnd _]. apply Hnd. left.
        + exists l1. split; [done|]. split; [left|]. congruence. }
    split; [|split; [|split]].
    + intros z. rewrite Hin. split.
      * intros (x & l & y & r & Hx & Hy & Hl & Hr' & Hne & [= <-]). split; [done|]. split; [intros ->; by apply elem_of_nil in Hl|by apply (H2 x l y r)].
      * intros (Hx & Hl & H). destruct layers as [|l ls]; [done|]. destruct (H3 z l Hx ltac:(left) H) as (y & r & Hy & Hr' & Hne).
        exists z, l, y, r. split_and!; try done. left.
    + intros z. rewrite Hin. split.
      * intros (x & l & y & r & Hx & Hy & Hl & Hr' & Hne & [= <-]). split; [done|]. split; [|by apply (H2 x l y r)].
        apply elem_of_range in Hx as (i & ? & _). lia.
      * intros (Hl & Hk & H). assert (NInt 0 ∈ range k) as Hx by (apply elem_of_range; exists 0; split; [lia|done]).
        destruct (H3 (NInt 0) z Hx Hl H) as (y & r & Hy & Hr' & Hne). exists (NInt 0), z, y, r. split_and!; done.
    + intros x l y r. rewrite linked_rd, Hrd, Hn by done. unfold W. destruct (decide _) as [H|H]; split; try done.
    + intros a b Hl. pose proof Hl as (Hla & Hlb & _). apply reads_rd; [done|done|]. rewrite Hrd. apply linked_rd in Hl; [|done]. rewrite Hrd, Hn in Hl.
      unfold W in *. destruct a as [|x [|l [|]]]; try done. destruct b as [|y [|r [|]]]; try done. by destruct (decide _).
Qed.
Example C35_example :
  match full_multilayer 2 [NStr "a"; NStr "b"] with Ok n => length (edges n) = 6 | Err _ => False end /\
  match full_mpx (CCat 1) 3 [NStr "a"; NStr "b"] with Ok p => pgetitem p [NInt 0; NInt 2; NStr "b"] = Ok 1%Z | Err _ => False end /\
  match full_mono 4 with Ok n => length (edges n) = 6 | Err _ => False end.
Proof. by vm_compute. Qed.
(** One node and one or more layers: neither the node nor the layers are there. *)
Theorem C35_single_node_lost_refuted : exists c layers p, layers <> [] /\ full_mpx c 1 layers = Ok p /\
  (~ mhas p 0 (NInt 0)) /\ forall l, ~ mhas p 1 l.
Proof.
  exists (CCat 1), [NStr "a"]. destruct (C35_full_multiplex (CCat 1) 1 [NStr "a"]) as (p & E & H0 & H1 & _).
  exists p. split; [done|]. split; [done|]. split; [rewrite H0|intros l; rewrite H1]; naive_solver lia.
Qed.
Print Assumptions C35_full_monoplex.
Print Assumptions C35_full_multiplex.
Print Assumptions C35_full_multilayer.
Print Assumptions C35_single_node_lost_refuted.

(** ** C52 *)
(** [er_multilayer]: every pair of different nodes and every ordered pair of layers
    gets the link and weight decided by its own coin; no node is linked to itself,
    neither on a layer nor across layers. *)
Definition nd (i : nat) : name := NInt (Z.of_nat i).
Theorem C52_er_multilayer k layers coin wt : NoDup layers -> exists n, er_multilayer k layers coin wt = Ok n /\
  reachable n /\ aspects n = 1 /\ directed n = false /\
  (forall i j l r, i < j -> j < k -> l ∈ layers -> r ∈ layers ->
     reads n [nd i; l] [nd j; r] (if coin l r i j then wt l r i j else 0)) /\
  (forall a b, linked n a b -> exists i j l r, i < j /\ j < k /\ l ∈ layers /\ r ∈ layers /\ coin l r i j = true /\
     (a = [nd i; l] /\ b = [nd j; r] \/ b = [nd i; l] /\ a = [nd j; r])) /\
  (forall z l r, ~ linked n [z; l] [z; r]).
Proof.
  intros Hnd. unfold er_multilayer. set (os := layers ≫= _).
  assert (Hos : forall o, o ∈ os <-> exists i j l r, i < j /\ j < k /\ l ∈ layers /\ r ∈ layers /\ coin l r i j = true /\
     o = OpSet (interleave [nd i; l] [nd j; r]) (wt l r i j)).
  { intros o. unfold os. rewrite elem_of_list_bind. split.
    - intros (l & Hg & Hl). apply elem_of_list_bind in Hg as (r & Hg & Hr). apply elem_of_list_bind in Hg as (i & Hg & Hi%elem_of_seq).
      apply elem_of_list_bind in Hg as (j & Hg & Hj%elem_of_seq). destruct (coin l r i j) eqn:E; [|by apply elem_of_nil in Hg].
      apply elem_of_list_singleton in Hg. exists i, j, l, r. split; [lia|]. split; [lia|]. done.
    - intros (i & j & l & r & Hij & Hj & Hl & Hr & E & ->). exists l. split; [|done]. apply elem_of_list_bind. exists r. split; [|done].
      apply elem_of_list_bind. exists i. split; [|apply elem_of_seq; lia]. apply elem_of_list_bind. exists j. split; [|apply elem_of_seq; lia].
      rewrite E. by left. }
  set (W1 := fun x y l r => match x, y with
    | NInt i, NInt j => let i := Z.to_nat i in let j := Z.to_nat j in
       if decide (x = nd i /\ y = nd j /\ i < j /\ j < k /\ l ∈ layers /\ r ∈ layers /\ coin l r i j = true) then wt l r i j else 0%Z
    | _, _ => 0%Z end).
  set (W := fun a b : nl => match a, b with
    | [x; l], [y; r] => (W1 x y l r + W1 y x r l)%Z
    | _, _ => 0%Z end).
  assert (HW1 : forall i j l r, i < j -> j < k -> l ∈ layers -> r ∈ layers -> W1 (nd i) (nd j) l r = if coin l r i j then wt l r i j else 0%Z).
  { intros i j l r Hij Hj Hl Hr. unfold W1. cbn -[decide]. rewrite !Nat2Z.id. destruct (coin l r i j) eqn:E; [by rewrite decide_True|].
    rewrite decide_False; [done|]. intros (_ & _ & _ & _ & _ & _ & ?). congruence. }
  assert (HW0 : forall i j l r, i <= j -> W1 (nd j) (nd i) l r = 0%Z).
  { intros i j l r Hij. unfold W1. cbn -[decide]. rewrite !Nat2Z.id. rewrite decide_False; [done|]. lia. }
  assert (HW1' : forall x y l r, W1 x y l r <> 0%Z -> exists i j, x = nd i /\ y = nd j /\ i < j /\ j < k /\ l ∈ layers /\ r ∈ layers /\ coin l r i j = true).
  { intros x y l r H. unfold W1 in H. destruct x as [x|], y as [y|]; try done. cbn zeta in H. destruct (decide _) as [(-> & -> & H')|]; [|done]. eauto. }
  assert (HWW : forall i j l r, i < j -> W [nd i; l] [nd j; r] = W1 (nd i) (nd j) l r /\ W [nd j; r] [nd i; l] = W1 (nd i) (nd j) l r).
  { intros i j l r Hij. unfold W. rewrite (HW0 i j r l) by lia. split; lia. }
  destruct (sets_net 1 true os W) as (n & Hb & Hr & Ha & Hd & Hn & Hrd & _).
  - intros o (i & j & l & r & Hij & Hj & Hl & Hr & E & ->)%Hos. exists [nd i; l], [nd j; r], (wt l r i j). split; [done|]. split; [done|]. split; [done|].
    split; [intros [= ?]; lia|]. destruct (HWW i j l r Hij) as [-> ->]. rewrite HW1 by done. by rewrite E.
  - intros a b Hw. unfold W in Hw. destruct a as [|x [|l [|]]]; try done. destruct b as [|y [|r [|]]]; try done.
    assert (W1 x y l r <> 0%Z \/ W1 y x r l <> 0%Z) as [H|H] by lia; apply HW1' in H as (i & j & -> & -> & ? & ? & ? & ? & ?).
    + exists [nd i; l], [nd j; r], (wt l r i j). split; [apply Hos; exists i, j, l, r; done|]. auto.
    + exists [nd i; r], [nd j; l], (wt r l i j). split; [apply Hos; exists i, j, r, l; done|]. auto.
  - exists n. split; [done|]. split; [done|]. split; [done|]. split; [done|]. pose proof (reachable_good _ Hr) as Hg.
    assert (Hlk : forall a b, linked n a b -> exists i j l r, i < j /\ j < k /\ l ∈ layers /\ r ∈ layers /\ coin l r i j = true /\
       (a = [nd i; l] /\ b = [nd j; r] \/ b = [nd i; l] /\ a = [nd j; r])).
    { intros a b Hl. apply linked_rd in Hl; [|done]. rewrite Hrd, Hn in Hl.
      unfold W in Hl. destruct a as [|x [|l [|]]]; try done. destruct b as [|y [|r [|]]]; try done.
      assert (W1 x y l r <> 0%Z \/ W1 y x r l <> 0%Z) as [H|H] by lia; apply HW1' in H as (i & j & -> & -> & ? & ? & ? & ? & ?).
      + exists i, j, l, r. auto 10.
      + exists i, j, r, l. auto 10. }
    split; [|split].
    + intros i j l r Hij Hj Hl Hr'. apply reads_rd; [by rewrite Ha|by rewrite Ha|]. rewrite Hrd. destruct (HWW i j l r Hij) as [-> _]. by rewrite HW1.
    + done.
    + intros z l r (i & j & l' & r' & Hij & _ & _ & _ & _ & [[E1 E2]|[E1 E2]])%Hlk;
        injection E1 as -> ->; injection E2 as E2 _; lia.
Qed.
Example C52_example : match er_multilayer 3 [NStr "a"; NStr "b"] (fun l r i j => bool_decide (l <> r)) (fun _ _ i j => Z.of_nat (i + j)) with
  | Ok n => length (edges n) = 6 /\ getitem n (INm <$> [NInt 1; NInt 2; NStr "b"; NStr "a"]) = Ok (GWeight 3%Z)
  | Err _ => False end.
Proof. by vm_compute. Qed.
Print Assumptions C52_er_multilayer.

(** ** C37 *)
Lemma ba_inv0 c ms : ba_inv c ms 0 (new_mpx [c] false 0 true) [] [].
Proof.
  split; [apply mhist_init|]. split; [done|]. split; [done|]. split; [by intros ? ?%elem_of_nil|]. split; [intros; lia|]. split; [intros; lia|done].
Qed.
Lemma ba_run c n ms rnd p links rnd' : rfold (ba_node ms) (new_mpx [c] false 0 true, [], rnd) (seq 0 n) = Ok (p, links, rnd') ->
  exists nbs, ba_inv c ms n p links nbs.
Proof.
  intros E. pose proof (ba_nodes_spec c ms n 0 (new_mpx [c] false 0 true) [] [] rnd) as H. rewrite E in H. apply H, ba_inv0.
Qed.
Definition ba_link (nbs : list (list (list name))) (t : nat) (x y : name) : Prop :=
  exists k sets s, nbs !! k = Some sets /\ sets !! t = Some s /\ (x = nd k /\ y ∈ s \/ y = nd k /\ x ∈ s).
Lemma ba_set_range c ms n p links nbs k sets t s : ba_inv c ms n p links nbs -> nbs !! k = Some sets -> sets !! t = Some s -> k < n /\ NoDup s /\ forall x, x ∈ s -> x ∈ range k.
Proof.
  intros (_ & Hlen & Hg & _) Hk Ht. split; [rewrite <- Hlen; by eapply lookup_lt_Some|]. destruct (Forall2_lookup_r _ _ _ _ _ (Hg _ _ Hk) Ht) as (m & _ & H1 & _ & H2). done.
Qed.
Lemma nd_inj i j : nd i = nd j -> i = j.
Proof. intros [= ?]. lia. Qed.
Lemma ba_layer_links c ms n p links nbs t : ba_inv c ms n p links nbs -> layer_links p (nd t) (ba_link nbs t).
Proof.
  intros Hi. pose proof Hi as (Hh & _).
  assert (Hw : forall e l x y w, e ∈ okc <$> nops 0 nbs -> mwrites 1 e (LBare l) x y w -> w = 1%Z /\
    exists k sets u s, nbs !! k = Some sets /\ sets !! u = Some s /\ x = nd k /\ y ∈ s /\ l = nd u).
  { intros e l x y w (o & -> & Ho)%elem_of_list_fmap Hw. apply elem_of_nops in Ho as (k & sets & Hk & [->|(u & s & z & Hu & Hz & ->)]); [by destruct Hw|].
    destruct Hw as (_ & <- & Hl). apply names_link1 in Hl as (<- & <- & <-). split; [done|]. exists k, sets, u, s. done. }
  eapply layer_links_ext; [eapply (mones _ _ _ _ Hh)|].
  - intros e l x y w He Hx. by destruct (Hw e l x y w He Hx).
  - intros l x w (o & E & Ho)%elem_of_list_fmap. apply elem_of_nops in Ho as (k & sets & Hk & [->|(u & s & z & Hu & Hz & ->)]); done.
  - intros x y Hne. split.
    + intros (e & He & [Ha|[_ Ha]]); destruct (Hw _ _ _ _ _ He Ha) as (_ & k & sets & u & s & Hk & Hu & -> & Hy & <-%nd_inj); exists k, sets, s; auto 10.
    + intros (k & sets & s & Hk & Ht & Hxy).
      assert (forall z, z ∈ s -> okc (MSet [nd k; z; nd t] 1) ∈ okc <$> nops 0 nbs) as He.
      { intros z Hz. apply elem_of_list_fmap_1, elem_of_nops. exists k, sets. split; [done|]. right. by exists t, s, z. }
      destruct Hxy as [[-> Hy]|[-> Hx]].
      * eexists. split; [by apply He|]. left. split; [done|]. split; [done|]. by apply names_link1.
      * eexists. split; [by apply He|]. right. split; [done|]. split; [done|]. split; [done|]. by apply names_link1.
Qed.
Lemma mreads_fun c dir noe fi h p l x y w w' : mhist [c] dir noe fi h p -> x <> y -> mreads p [x; l] [y; l] w -> mreads p [x; l] [y; l] w' -> w = w'.
Proof.
  intros H Hne Hw Hw'. destruct (C17_reads_total _ _ _ _ _ _ H (LBare l) x y) as [v Hv]; [done|done|].
  pose proof (pinv_asp _ _ _ _ _ _ (mhist_inv _ _ _ _ _ _ H)) as Has. destruct Hw as (it & Hn & E). destruct Hw' as (it' & Hn' & E').
  rewrite Has in Hn, Hn'. pose proof (Hv _ Hn). pose proof (Hv _ Hn'). congruence.
Qed.
Lemma linked_iff c dir noe fi h p l x y P : mhist [c] dir noe fi h p -> layer_links p l P -> (P x y \/ ~ P x y) -> x <> y -> mreads p [x; l] [y; l] 1 <-> P x y.
Proof.
  intros H [Hl _] Hd Hne. destruct (Hl x y Hne) as [H1 H0]. split; [|done]. intros Hr. destruct Hd as [?|Hd]; [done|]. specialize (H0 Hd).
  pose proof (mreads_fun _ _ _ _ _ _ _ _ _ _ _ H Hne Hr H0). done.
Qed.
Lemma ba_link_dec nbs t x y : ba_link nbs t x y \/ ~ ba_link nbs t x y.
Proof.
  assert (ba_link nbs t x y <-> Exists (fun ks => match (ks.2 : list (list name)) !! t with Some s => x = nd (ks.1) /\ y ∈ s \/ y = nd (ks.1) /\ x ∈ s | None => False end) (zip (seq 0 (length nbs)) nbs)) as Hiff.
  { rewrite Exists_exists. split.
    - intros (k & sets & s & Hk & Ht & H). exists (k, sets). split; [|simpl; by rewrite Ht]. apply elem_of_list_lookup. exists k.
      apply lookup_zip_with_Some. exists k, sets. split; [done|]. split; [|done]. apply lookup_seq. split; [lia|]. by eapply lookup_lt_Some.
    - intros ([k sets] & Hk & H). apply elem_of_list_lookup in Hk as [j Hj]. apply lookup_zip_with_Some in Hj as (k' & sets' & [= <- <-] & Hk & Hs).
      apply lookup_seq in Hk as [-> _]. simpl in H. destruct (sets !! t) as [s|] eqn:E; [|done]. by exists j, sets, s. }
  rewrite Hiff. refine (match decide _ with left H => or_introl H | right H => or_intror H end).
  apply Exists_dec. intros [k sets]. simpl. destruct (sets !! t); apply _.
Qed.
(** On the layer with parameter m every node i >= m has exactly m links to
    different older nodes, and the nodes before have none. *)
Theorem C37_older_neighbours c n ms rnd p t m i : ba_total_degree c n ms rnd = Ok p -> ms !! t = Some m -> i < n ->
  exists L : list nat, lists_exactly L (fun j => j < i /\ mreads p [nd i; nd t] [nd j; nd t] 1) /\ length L = (if decide (m <= i) then m else 0).
Proof.
  unfold ba_total_degree. destruct (rfold _ _ _) as [[[p' links] rnd']|] eqn:E; [|done]. intros [= <-] Ht Hin.
  destruct (ba_run _ _ _ _ _ _ _ E) as [nbs Hi]. pose proof Hi as (Hh & Hlen & Hg & _).
  destruct (lookup_lt_is_Some_2 nbs i ltac:(lia)) as [sets Hs]. destruct (Forall2_lookup_l _ _ _ _ _ (Hg _ _ Hs) Ht) as (s & Hst & Hnd & Hls & Hsr).
  exists (filter (fun j => nd j ∈ s) (seq 0 i)). split.
  - split; [apply NoDup_filter, NoDup_seq|]. intros j. rewrite elem_of_list_filter, elem_of_seq. split.
    + intros [Hj ?]. split; [lia|]. apply (linked_iff _ _ _ _ _ _ _ _ _ _ Hh (ba_layer_links _ _ _ _ _ _ t Hi) (ba_link_dec _ _ _ _)); [intros [= ?]; lia|].
      exists i, sets, s. auto.
    + intros [Hj Hr]. split; [|lia].
      apply (linked_iff _ _ _ _ _ _ _ _ _ _ Hh (ba_layer_links _ _ _ _ _ _ t Hi) (ba_link_dec _ _ _ _)) in Hr; [|intros [= ?]; lia].
      destruct Hr as (k & sets' & s' & Hk & Ht' & [[<-%nd_inj Hy]|[<-%nd_inj Hx]]).
      * assert (sets' = sets) as -> by congruence. assert (s' = s) as -> by congruence. done.
      * destruct (ba_set_range _ _ _ _ _ _ _ _ _ _ Hi Hk Ht') as (_ & _ & Hr). apply Hr, elem_of_range in Hx as (j' & ? & [= ?]). lia.
  - rewrite <- Hls. assert (nd <$> filter (fun j => nd j ∈ s) (seq 0 i) ≡ₚ s) as Hp; [|by rewrite <- Hp, fmap_length].
    apply NoDup_Permutation; [|done|].
    + apply NoDup_fmap_2; [exact nd_inj|]. apply NoDup_filter, NoDup_seq.
    + intros x. rewrite elem_of_list_fmap. split.
      * intros (j & -> & Hj). by apply elem_of_list_filter in Hj as [? _].
      * intros Hx. pose proof (Hsr x Hx) as (j & ? & ->)%elem_of_range. exists j. split; [done|]. apply elem_of_list_filter. split; [done|]. apply elem_of_seq. lia.
Qed.
(** There is nothing else in the network: the nodes are 0..n-1, the layers those
    with 1 <= m < n, every weight is 1 and there are no self-links. *)
Theorem C37_nothing_else c n ms rnd p : ba_total_degree c n ms rnd = Ok p ->
  (forall x, mhas p 0 x <-> x ∈ range n) /\
  (forall l, mhas p 1 l <-> exists t m, ms !! t = Some m /\ l = nd t /\ 1 <= m /\ m < n) /\
  (forall x y t w, x <> y -> mreads p [x; nd t] [y; nd t] w -> w = 0%Z \/
     w = 1%Z /\ exists i j, j < i /\ i < n /\ (x = nd i /\ y = nd j \/ x = nd j /\ y = nd i)) /\
  (forall x l, mexists p [x; l] -> agetitem p (LBare l) [x; x] = Ok 0%Z).
Proof.
  unfold ba_total_degree. destruct (rfold _ _ _) as [[[p' links] rnd']|] eqn:E; [|done]. intros [= <-].
  destruct (ba_run _ _ _ _ _ _ _ E) as [nbs Hi]. pose proof Hi as (Hh & Hlen & Hg & _).
  assert (Hm : forall k x, mhas p' k x <-> exists j sets, nbs !! j = Some sets /\ (k = 0 /\ x = nd j \/ exists t s y, sets !! t = Some s /\ y ∈ s /\
     (k = 0 /\ (x = nd j \/ x = y) \/ k = 1 /\ x = nd t))).
  { intros k x. rewrite (C51_nodes_layers_exact _ _ _ _ _ _ Hh) by done. setoid_rewrite elem_of_list_fmap. split.
    - intros (e & (o & -> & Ho) & Hx). apply elem_of_nops in Ho as (j & sets & Hj & [->|(u & s & z & Hu & Hz & ->)]); exists j, sets; (split; [done|]).
      + left. destruct Hx as [[-> ->]|[(? & _)|(? & _)]]; done.
      + right. exists u, s, z. split; [done|]. split; [done|]. destruct Hx as (a & b & w & [_ Hn] & Hx). inversion Hn as [? ? ? Hl|? ? ? Hl]; subst; [done|].
        destruct k as [|[|k]]; simpl in Hx; [left|right|by destruct Hx]; destruct Hx as [[= <-]|[= <-]]; auto.
    - intros (j & sets & Hj & [[-> ->]|(t & s & y & Ht & Hy & Hx)]).
      + eexists. split; [eexists; split; [done|]; apply elem_of_nops; exists j, sets; split; [done|]; by left|]. by left.
      + eexists. split; [eexists; split; [done|]; apply elem_of_nops; exists j, sets; split; [done|]; right; by exists t, s, y|].
        exists [nd j; nd t], [y; nd t], 1%Z. split; [split; [done|]; by apply names_link1|]. destruct Hx as [[-> [-> | ->]]|[-> ->]]; simpl; auto. }
  split; [|split; [|split]].
  - intros x. rewrite Hm. split.
    + intros (j & sets & Hj & H). assert (j < n) by (rewrite <- Hlen; by eapply lookup_lt_Some).
      destruct H as [[_ ->]|(t & s & y & Ht & Hy & [[_ [-> | ->]]|[? _]])]; [apply elem_of_range; by exists j|apply elem_of_range; by exists j| |done].
      destruct (ba_set_range _ _ _ _ _ _ _ _ _ _ Hi Hj Ht) as (_ & _ & Hr). apply (range_sub j); [lia|by apply Hr].
    + intros (j & Hj & ->)%elem_of_range. destruct (lookup_lt_is_Some_2 nbs j ltac:(lia)) as [sets Hs]. exists j, sets. split; [done|]. by left.
  - intros l. rewrite Hm. split.
    + intros (j & sets & Hj & [[? _]|(t & s & y & Ht & Hy & [[? _]|[_ ->]])]); [done|done|].
      destruct (Forall2_lookup_r _ _ _ _ _ (Hg _ _ Hj) Ht) as (m & Hmt & Hnd & Hls & _). exists t, m. split; [done|]. split; [done|].
      assert (j < n) by (rewrite <- Hlen; by eapply lookup_lt_Some). destruct s; [by apply elem_of_nil in Hy|]. simpl in Hls. destruct (decide _); lia.
    + intros (t & m & Ht & -> & H1 & Hn). destruct (lookup_lt_is_Some_2 nbs m ltac:(lia)) as [sets Hs].
      destruct (Forall2_lookup_l _ _ _ _ _ (Hg _ _ Hs) Ht) as (s & Hst & Hnd & Hls & _). rewrite decide_True in Hls by done.
      destruct s as [|y s]; [simpl in Hls; lia|]. exists m, sets. split; [done|]. right. exists t, (y :: s), y. split; [done|]. split; [left|]. by right.
  - intros x y t w Hne Hw. pose proof (ba_layer_links _ _ _ _ _ _ t Hi) as [Hl _]. destruct (Hl x y Hne) as [H1 H0].
    destruct (ba_link_dec nbs t x y) as [Hd|Hd].
    + right. split; [by apply (mreads_fun _ _ _ _ _ _ _ _ _ _ _ Hh Hne Hw), H1|]. destruct Hd as (k & sets & s & Hk & Ht & Hxy).
      destruct (ba_set_range _ _ _ _ _ _ _ _ _ _ Hi Hk Ht) as (Hkn & _ & Hr).
      destruct Hxy as [[-> Hy]|[-> Hy]]; apply Hr, elem_of_range in Hy as (j & ? & ->); exists k, j; auto.
    + left. by apply (mreads_fun _ _ _ _ _ _ _ _ _ _ _ Hh Hne Hw), H0.
  - intros x l Hx. apply (C19_self_condition _ _ _ _ _ _ [x; l] Hh); [done|done|].
    intros l' z w (o & Eo & Ho)%elem_of_list_fmap. apply elem_of_nops in Ho as (k & sets & Hk & [->|(u & s & y & Hu & Hz & ->)]); done.
Qed.
(** Preferential attachment: after any number of nodes the pool from which
    neighbours are drawn holds every node once per link it has on any layer. *)
Theorem C37_pool_is_total_degree c n ms rnd p pool rnd' :
  rfold (ba_node ms) (new_mpx [c] false 0 true, [], rnd) (seq 0 n) = Ok (p, pool, rnd') ->
  forall x, exists L : list (name * nat), lists_exactly L (fun yt => yt.1 <> x /\ yt.2 < length ms /\ mreads p [x; nd (yt.2)] [yt.1; nd (yt.2)] 1) /\
    length (filter (fun y => y = x) pool) = length L.
Proof.
  intros E x. destruct (ba_run _ _ _ _ _ _ _ E) as [nbs Hi]. pose proof Hi as (Hh & Hlen & Hg & _ & _ & _ & Hc). exists (nbl 0 nbs x). split; [|apply Hc]. split.
  - apply NoDup_nbl. intros k sets s Hk [t Ht]%elem_of_list_lookup. by apply (ba_set_range _ _ _ _ _ _ _ _ _ _ Hi Hk Ht).
  - intros [y t]. rewrite elem_of_nbl. cbn [fst snd]. split.
    + intros (k & sets & z & Hk & (t' & s & Ht & Hz & E')%elem_of_sp & H). cbn [fst snd] in *. simpl in E'. subst t'.
      destruct (ba_set_range _ _ _ _ _ _ _ _ _ _ Hi Hk Ht) as (Hkn & _ & Hr). pose proof (Hr z Hz) as (j & Hj & ->)%elem_of_range.
      assert (t < length ms) as Htl. { rewrite (Forall2_length _ _ _ (Hg _ _ Hk)). by eapply lookup_lt_Some. }
      assert (y <> x) as Hne. { destruct H as [[-> ->]|(H1 & <- & ->)]; [intros [= ?]; lia|done]. }
      split; [done|]. split; [done|]. apply (linked_iff _ _ _ _ _ _ _ _ _ _ Hh (ba_layer_links _ _ _ _ _ _ t Hi) (ba_link_dec _ _ _ _)); [done|].
      exists k, sets, s. split; [done|]. split; [done|]. destruct H as [[-> ->]|(H1 & <- & ->)]; [left|right]; done.
    + intros (Hne & Ht & Hr). apply (linked_iff _ _ _ _ _ _ _ _ _ _ Hh (ba_layer_links _ _ _ _ _ _ t Hi) (ba_link_dec _ _ _ _)) in Hr; [|done].
      destruct Hr as (k & sets & s & Hk & Hst & [[-> Hy]|[-> Hx]]).
      * exists k, sets, y. split; [done|]. split; [apply elem_of_sp; by exists t, s|]. by left.
      * exists k, sets, x. split; [done|]. split; [apply elem_of_sp; by exists t, s|]. right. done.
Qed.
(** It never raises (OutOfFuel means that the given list of outcomes is too short
    or not possible), and it can always end. *)
Theorem C37_never_raises c n ms rnd e : ba_total_degree c n ms rnd = Err e -> e = OutOfFuel.
Proof.
  unfold ba_total_degree. pose proof (ba_nodes_spec c ms n 0 (new_mpx [c] false 0 true) [] [] rnd) as H.
  destruct (rfold _ _ _) as [[[p' links] rnd']|e']; [done|]. intros [= <-]. apply H, ba_inv0.
Qed.
Lemma ba_fill_done links m ls rnd : m <= length ls -> ba_fill links m ls rnd = Ok (ls, rnd).
Proof. intros H. destruct rnd; cbn [ba_fill]; by rewrite decide_False by lia. Qed.
Lemma ba_fill_can links m : (forall x, x ∈ range m -> x ∈ links) -> exists k ls, forall rest, ba_fill links m [] (k ++ rest) = Ok (ls, rest).
Proof.
  intros Hin. destruct (decide (m = 0)) as [->|Hm0]; [exists [], []; intros rest; by apply ba_fill_done|].
  set (ix := fun x : name => default 0 (fst <$> list_find (fun z => z = x) links)).
  assert (Hix : forall x, x ∈ range m -> links !! ix x = Some x).
  { intros x Hx. unfold ix. destruct (list_find_elem_of (fun z => z = x) links x (Hin x Hx) eq_refl) as [[i z] E]. rewrite E.
    by apply list_find_Some in E as (E & -> & _). }
  assert (omap (fun i => links !! i) (ix <$> range m) = range m) as Ho.
  { revert Hix. generalize (range m). intros l Hl. induction l as [|x l IH]; [done|]. rewrite fmap_cons.
    change (omap (fun i => links !! i) (ix x :: (ix <$> l))) with (match links !! ix x with Some y => y :: omap (fun i => links !! i) (ix <$> l) | None => omap (fun i => links !! i) (ix <$> l) end).
    rewrite Hl by left. rewrite IH; [done|]. intros y Hy. apply Hl. by right. }
  assert (length (range m) <= length links) as Hlen.
  { apply submseteq_length, NoDup_submseteq; [apply NoDup_range|done]. }
  rewrite length_range in Hlen.
  destruct (foldl_sadd (range m) [] (NoDup_nil_2)) as (_ & _ & _ & Hs). specialize (Hs (NoDup_range m) ltac:(by intros ? _ ?%elem_of_nil)).
  rewrite length_range in Hs. simpl in Hs.
  exists [ix <$> range m], (foldl (fun s x => sadd x s) [] (range m)). intros rest. cbn [app ba_fill length]. rewrite decide_True by lia.
  rewrite decide_True by lia. rewrite decide_True.
  - rewrite Ho. apply ba_fill_done. lia.
  - split; [rewrite fmap_length, length_range; lia|]. split.
    + apply NoDup_fmap_2_strong; [|apply NoDup_range]. intros x y Hx%Hix Hy%Hix Exy. congruence.
    + apply Forall_fmap, Forall_forall. intros x Hx%Hix. by eapply lookup_lt_Some.
Qed.
Lemma ba_layers_can c i links ms : (forall m, m ∈ ms -> m < i -> forall x, x ∈ range m -> x ∈ links) -> (forall x, x ∈ links -> x ∈ range i) ->
  forall t p sets0 h, mhist [c] false 0 true h p -> exists k r, forall rest, rfold (ba_layer i links) (p, sets0, k ++ rest) (zip (seq t (length ms)) ms) = Ok (r, rest).
Proof.
  intros Hms Hlinks. induction ms as [|m ms IH]; intros t p sets0 h H; cbn [length seq zip zip_with rfold]; [exists [], (p, sets0); done|].
  assert (exists k ls, good_set i m ls /\ forall rest, (if decide (i = m) then Ok (range i, k ++ rest) else if decide (m < i) then ba_fill links m [] (k ++ rest) else Ok ([], k ++ rest)) = Ok (ls, rest)) as (k & ls & Hg & Hk).
  { destruct (decide (i = m)) as [->|].
    - exists [], (range m). split; [|done]. split; [apply NoDup_range|]. rewrite decide_True by lia. split; [apply length_range|done].
    - destruct (decide (m < i)).
      + destruct (ba_fill_can links m) as (k & ls & Hk); [apply Hms; [left|done]|]. exists k, ls. split; [|done].
        pose proof (ba_fill_spec links m (k ++ []) [] (NoDup_nil_2) ltac:(simpl; lia) ltac:(by intros ? ?%elem_of_nil)) as Hf. rewrite Hk in Hf.
        destruct Hf as (H1 & H2 & H3). split; [done|]. rewrite decide_True by lia. auto.
      + exists [], []. split; [|done]. split; [constructor|]. rewrite decide_False by lia. split; [done|]. by intros ? ?%elem_of_nil. }
  destruct (mbuild_safe c false 0 true (lay_ops i t ls) h p H) as (p1 & Hb & H1).
  { apply Forall_fmap, Forall_forall. intros x Hx. simpl. apply Hg in Hx. apply elem_of_range in Hx as (j & ? & ->). intros [= ?]. lia. }
  destruct (IH ltac:(intros m' Hm'; apply Hms; by right) (S t) p1 (sets0 ++ [ls]) _ H1) as (k2 & r & Hr). exists (k ++ k2), r. intros rest. rewrite <- app_assoc.
  unfold ba_layer at 1. rewrite Hk. cbn [rbind]. unfold lay_ops in Hb. rewrite Hb. cbn [rbind]. apply Hr.
Qed.
(** There are always outcomes with which it ends. *)
Theorem C37_can_end c n ms : exists rnd p, ba_total_degree c n ms rnd = Ok p.
Proof.
  assert (forall k i p links nbs, ba_inv c ms i p links nbs -> exists rnd r, forall rest, rfold (ba_node ms) (p, links, rnd ++ rest) (seq i k) = Ok (r, rest)) as H.
  { induction k as [|k IH]; intros i p links nbs Hi; cbn [seq rfold]; [by exists [], (p, links)|].
    pose proof Hi as (Hh & Hlen & Hg & Hsub & Hsup & _).
    destruct (do_mop_safe _ _ _ _ _ _ (MAddNode (NInt (Z.of_nat i)) None) Hh I) as (p1 & E1 & H1).
    destruct (ba_layers_can c i links ms Hsup Hsub 0 p1 [] _ H1) as (k1 & [p2 sets] & Hr).
    assert (forall rest, ba_node ms (p, links, k1 ++ rest) i = Ok (p2, ba_links i links sets, rest)) as Hn.
    { intros rest. unfold ba_node. rewrite E1. cbn [rbind]. rewrite Hr. done. }
    pose proof (ba_node_spec _ _ _ _ _ _ (k1 ++ []) Hi) as Hs. rewrite Hn in Hs. destruct Hs as (sets' & Hi' & _).
    destruct (IH _ _ _ _ Hi') as (k2 & r & Hr2). exists (k1 ++ k2), r. intros rest. rewrite <- app_assoc, Hn. apply Hr2. }
  destruct (H n 0 _ _ _ (ba_inv0 c ms)) as (rnd & [p links] & Hr). exists rnd, p. unfold ba_total_degree. specialize (Hr []). rewrite app_nil_r in Hr. by rewrite Hr.
Qed.
Example C37_example : match ba_total_degree (CCat 1) 4 [1; 2] [[1]; [0]; [1; 2]; [3]] with
  | Ok p => pgetitem p [NInt 3; NInt 0; NInt 0] = Ok 1%Z /\ pgetitem p [NInt 3; NInt 2; NInt 1] = Ok 1%Z | Err _ => False end.
Proof. by vm_compute. Qed.
Print Assumptions C37_older_neighbours.
Print Assumptions C37_nothing_else.
Print Assumptions C37_pool_is_total_degree.
Print Assumptions C37_never_raises.
Print Assumptions C37_can_end.
