(** * Properties C47-C49 and C53-C55: graphlet analysis *)
From stdpp Require Import prelude relations.
From Verif Require Import Base Net NetSpec NetFacts NetHist NetIter NetEdges Supra TransFacts TransFacts2 PropsTrans Samp SampFacts PropsSamp
  Graphlet GraphletSpec GraphletFacts PartFacts SccFacts TouchFacts OrbitFacts.
Local Open Scope nat_scope.

(** ** C47: automorphism orbits *)
(** The result has one entry per node, in order; the entry of a node is the least
    node that products of generators and their inverses take it to, so two nodes
    have equal entries iff one is taken to the other. *)
Theorem C47_orbits (nodes : list name) (gens : list (dict name name)) : NoDup nodes -> Forall (permutes nodes) gens ->
  (forall x y, x ∈ nodes -> y ∈ nodes -> moved (gapply <$> gens) x y -> is_int x = is_int y) ->
  exists o, node_orbits nodes gens = Ok o /\ dkeys o = nodes /\
    (forall x, x ∈ nodes -> exists m, dget o x = Some m /\ moved (gapply <$> gens) x m /\ forall y, moved (gapply <$> gens) x y -> name_le m y) /\
    (forall x y, x ∈ nodes -> y ∈ nodes -> dget o x = dget o y <-> moved (gapply <$> gens) x y).
Proof.
  intros Hnd Hg Hk. destruct (node_orbits_sets nodes gens Hnd Hg) as (d & E & Hf & Hr). unfold node_orbits. rewrite E. cbn [rbind].
  apply (each_least name_le py_min (moved (gapply <$> gens))); try done.
  - intros x y H1 H2. by apply name_leb_antisym.
  - apply moved_sym.
  - apply moved_trans.
  - intros s x Hx Hs. destruct (py_min_ok s) as (m & Em & Hm & Hle); [| |by exists m].
    + intros ->. apply (not_elem_of_nil x). apply Hs. constructor.
    + assert (forall y, moved (gapply <$> gens) x y -> y ∈ nodes) as Hin. { intros y Hy. by apply (moved_in nodes gens x y). }
      intros a b Ha%Hs Hb%Hs. apply Hk; [by apply Hin..|]. eapply moved_trans; [|exact Hb]. by apply moved_sym.
Qed.
(** If some orbit contains both an int and a str, TypeError. *)
Theorem C47_orbits_mixed (nodes : list name) (gens : list (dict name name)) x y : NoDup nodes -> Forall (permutes nodes) gens ->
  x ∈ nodes -> moved (gapply <$> gens) x y -> is_int x <> is_int y -> node_orbits nodes gens = Err TypeError.
Proof.
  intros Hnd Hg Hx Hxy Hk. destruct (node_orbits_sets nodes gens Hnd Hg) as (d & E & Hf & Hr). unfold node_orbits. rewrite E. cbn [rbind].
  apply each_fails; [done| |].
  - intros z s Hz Es. destruct s as [|a s]; [exfalso; assert (inrow d z z) as (s & Es' & Hin) by (apply Hr; [done|constructor]); rewrite Es in Es'; injection Es' as <-; by apply elem_of_nil in Hin|].
    unfold py_min. destruct (_ && _); [by right|left; by eexists].
  - destruct (Hf x Hx) as [s Es]. exists x, s. split; [done|]. split; [done|].
    assert (forall z, moved (gapply <$> gens) x z -> z ∈ s) as Hs. { intros z Hz. apply Hr in Hz as (s' & Es' & Hin); [|done]. congruence. }
    apply (py_min_mixed s x y); [apply Hs; constructor|by apply Hs|done].
Qed.
(** Node-layers of a network with one aspect, moved by a node map and a layer map
    together. *)
Theorem C47_nl_orbits (nls : list (name * name)) (gens : list (dict name name * dict name name)) : NoDup nls -> Forall (nl_permutes nls) gens ->
  (forall x y, x ∈ nls -> y ∈ nls -> is_int (x.1) = is_int (y.1) /\ is_int (x.2) = is_int (y.2)) ->
  exists o, nl_orbits nls gens = Ok o /\ dkeys o = nls /\
    (forall x, x ∈ nls -> exists m, dget o x = Some m /\ moved (pair_apply <$> gens) x m /\ forall y, moved (pair_apply <$> gens) x y -> pair_leb m y = true) /\
    (forall x y, x ∈ nls -> y ∈ nls -> dget o x = dget o y <-> moved (pair_apply <$> gens) x y).
Proof.
  intros Hnd Hg Hk. destruct (nl_orbits_sets nls gens Hnd Hg) as (d & E & Hf & Hr). unfold nl_orbits. rewrite E. cbn [rbind].
  apply (each_least (fun a b => pair_leb a b = true) py_min2 (moved (pair_apply <$> gens))); try done.
  - intros x y H1 H2. by apply pair_leb_antisym.
  - apply moved_sym.
  - apply moved_trans.
  - intros s x Hx Hs. destruct (py_min2_ok s) as (m & Em & Hm & Hle); [| |by exists m].
    + intros ->. apply (not_elem_of_nil x). apply Hs. constructor.
    + assert (forall y, moved (pair_apply <$> gens) x y -> y ∈ nls) as Hin. { intros y Hy. by apply (nl_moved_in nls gens x y). }
      intros a b Ha%Hs Hb%Hs. apply Hk; by apply Hin.
Qed.
(** The dictionary over all graphlets: its keys are the (size, index, node) of the
    graphlets given, and each graphlet's entries are its orbits. *)
Theorem C47_all_graphlets (nets : dict nat (list (list name * list (dict name name)))) : NoDup (dkeys nets) ->
  (forall k l i net, dget nets k = Some l -> l !! i = Some net -> NoDup (net.1) /\ Forall (permutes (net.1)) (net.2) /\ forall x y, x ∈ net.1 -> y ∈ net.1 -> is_int x = is_int y) ->
  exists d, all_orbits nets = Ok d /\
    (forall k i x, is_Some (dget d (k, i, x)) <-> exists l net, dget nets k = Some l /\ l !! i = Some net /\ x ∈ net.1) /\
    (forall k l i net, dget nets k = Some l -> l !! i = Some net ->
      (forall x m, x ∈ net.1 -> dget d (k, i, x) = Some m -> moved (gapply <$> net.2) x m /\ forall y, moved (gapply <$> net.2) x y -> name_le m y) /\
      (forall x y, x ∈ net.1 -> y ∈ net.1 -> dget d (k, i, x) = dget d (k, i, y) <-> moved (gapply <$> net.2) x y)).
Proof.
  intros Hnd Hok.
  assert (forall k l i net, dget nets k = Some l -> l !! i = Some net -> exists o, node_orbits (net.1) (net.2) = Ok o /\ dkeys o = net.1 /\
    (forall x, x ∈ net.1 -> exists m, dget o x = Some m /\ moved (gapply <$> net.2) x m /\ forall y, moved (gapply <$> net.2) x y -> name_le m y) /\
    (forall x y, x ∈ net.1 -> y ∈ net.1 -> dget o x = dget o y <-> moved (gapply <$> net.2) x y)) as Ho.
  { intros k l i net Hk Hi. destruct (Hok k l i net Hk Hi) as (H1 & H2 & H3). apply C47_orbits; [done..|]. intros x y Hx Hy _. by apply H3. }
  destruct (all_orbits_ok nets Hnd) as (d & E & Hd).
  { intros k l i net Hk Hi. destruct (Ho k l i net Hk Hi) as (o & Eo & Ko & _). exists o. split; [done|]. rewrite Ko. by apply (Hok k l i net). }
  exists d. split; [done|].
  assert (forall k l i net o x, dget nets k = Some l -> l !! i = Some net -> node_orbits (net.1) (net.2) = Ok o -> dget d (k, i, x) = dget o x) as Hdo.
  { intros k l i net o x Hk Hi Eo. destruct (dget o x) as [m|] eqn:Em; [apply Hd; by exists l, net, o|].
    destruct (dget d (k, i, x)) as [m|] eqn:Ed; [|done]. apply Hd in Ed as (l' & net' & o' & Hk' & Hi' & Eo' & Em'). congruence. }
  split.
  - intros k i x. split.
    + intros [m Hm]. apply Hd in Hm as (l & net & o & Hk & Hi & Eo & Em). exists l, net. split; [done|]. split; [done|].
      destruct (Ho k l i net Hk Hi) as (o' & Eo' & Ko & _). rewrite Eo in Eo'. injection Eo' as <-. rewrite <- Ko. apply elem_of_dkeys. by exists m.
    + intros (l & net & Hk & Hi & Hx). destruct (Ho k l i net Hk Hi) as (o & Eo & Ko & _). rewrite (Hdo k l i net o x) by done. apply elem_of_dkeys. by rewrite Ko.
  - intros k l i net Hk Hi. destruct (Ho k l i net Hk Hi) as (o & Eo & Ko & Hm & Hq). split.
    + intros x m Hx. rewrite (Hdo k l i net o x) by done. intros Em. destruct (Hm x Hx) as (m' & Em' & ?). rewrite Em in Em'. injection Em' as <-. done.
    + intros x y Hx Hy. rewrite !(Hdo k l i net o) by done. by apply Hq.
Qed.
Definition g_rot : dict name name := [(NInt 1, NInt 2); (NInt 2, NInt 3); (NInt 3, NInt 1)].
Definition g_swap : dict name name := [(NInt 3, NInt 5); (NInt 5, NInt 3)].
Example C47_example : let nodes := [NInt 5; NInt 3; NInt 4; NInt 1; NInt 2] in
  NoDup nodes /\ Forall (permutes nodes) [g_swap; g_rot] /\
  node_orbits nodes [g_swap; g_rot] = Ok [(NInt 5, NInt 1); (NInt 3, NInt 1); (NInt 4, NInt 4); (NInt 1, NInt 1); (NInt 2, NInt 1)] /\
  node_orbits nodes [g_swap] = Ok [(NInt 5, NInt 3); (NInt 3, NInt 3); (NInt 4, NInt 4); (NInt 1, NInt 1); (NInt 2, NInt 2)] /\
  node_orbits [NInt 1; NStr "a"] [[(NInt 1, NStr "a"); (NStr "a", NInt 1)]] = Err TypeError /\
  nl_orbits [(NInt 2, NStr "b"); (NInt 1, NStr "a")] [([(NInt 1, NInt 2); (NInt 2, NInt 1)], [(NStr "a", NStr "b"); (NStr "b", NStr "a")])] =
    Ok [((NInt 2, NStr "b"), (NInt 1, NStr "a")); ((NInt 1, NStr "a"), (NInt 1, NStr "a"))].
Proof.
  cbn zeta. split_and!; [apply (bool_decide_unpack _); by vm_compute| |by vm_compute..].
  repeat (apply Forall_cons; split); [| |apply Forall_nil; done]; (split_and!; [apply (bool_decide_unpack _); by vm_compute| |apply (bool_decide_unpack _); by vm_compute]).
  - intros x Hx. cbn in Hx. set_solver.
  - intros x Hx. cbn in Hx. set_solver.
Qed.
Example C47_example_nl : let nls := [(NInt 2, NStr "b"); (NInt 1, NStr "a")] in let g := ([(NInt 1, NInt 2); (NInt 2, NInt 1)], [(NStr "a", NStr "b"); (NStr "b", NStr "a")]) in
  NoDup nls /\ nl_permutes nls g /\ (forall x y, x ∈ nls -> y ∈ nls -> is_int (x.1) = is_int (y.1) /\ is_int (x.2) = is_int (y.2)).
Proof.
  cbn zeta. split_and!.
  - apply (bool_decide_unpack _); by vm_compute.
  - split_and!; try (split_and!; [apply (bool_decide_unpack _); by vm_compute|done|apply (bool_decide_unpack _); by vm_compute]).
    + intros a Ha. apply elem_of_cons in Ha as [->|Ha]; [cbn; set_solver|]. apply elem_of_list_singleton in Ha as ->. cbn. set_solver.
    + intros a Ha. apply elem_of_cons in Ha as [->|Ha]; [cbn; set_solver|]. apply elem_of_list_singleton in Ha as ->. cbn. set_solver.
  - intros x y Hx Hy. apply elem_of_cons in Hx as [->|Hx]; [|apply elem_of_list_singleton in Hx as ->]; (apply elem_of_cons in Hy as [->|Hy]; [|apply elem_of_list_singleton in Hy as ->]); done.
Qed.

(** ** C48: layer combinations and partitions *)
Theorem C48_layer_combinations {V} `{EqDecision V} (layers : list V) : NoDup layers ->
  (forall c, c ∈ layer_combinations layers -> NoDup c /\ c <> [] /\ forall x, x ∈ c -> x ∈ layers) /\
  (forall s, NoDup s -> s <> [] -> (forall x, x ∈ s -> x ∈ layers) -> exists c, c ∈ layer_combinations layers /\ c ≡ₚ s) /\
  NoDup (layer_combinations layers) /\ (forall c d, c ∈ layer_combinations layers -> d ∈ layer_combinations layers -> c ≡ₚ d -> c = d).
Proof. apply layer_combinations_ok. Qed.
(** Whatever order the sets are listed in, [partitions] yields partitions into
    blocks of [r], every such partition, and none twice. *)
Theorem C48_partitions {V} `{EqDecision V} (ord : list (list V) -> bool -> list V -> list V) (s : list V) (r fuel : nat) :
  (forall p b l, ord p b l ≡ₚ l) -> 1 <= r -> NoDup s -> length s mod r = 0 -> length s < fuel ->
  exists L, partitions ord fuel [] s (Z.of_nat r) = Ok L /\
    (forall p, p ∈ L -> is_partition s r p) /\ (forall p, is_partition s r p -> exists q, q ∈ L /\ same_partition p q) /\
    NoDup L /\ (forall p q, p ∈ L -> q ∈ L -> same_partition p q -> p = q).
Proof. intros. by apply partitions_ok. Qed.
(** Other arguments. *)
Theorem C48_partitions_rejects {V} `{EqDecision V} (ord : list (list V) -> bool -> list V -> list V) (s : list V) (r : Z) (fuel : nat) :
  (forall p b l, ord p b l ≡ₚ l) -> length s < fuel ->
  (r = 0%Z -> partitions ord fuel [] s r = Err ZeroDivisionError) /\
  (r <> 0%Z -> (Z.of_nat (length s) mod r <> 0)%Z -> partitions ord fuel [] s r = Err AssertionError) /\
  ((r < 0)%Z -> (Z.of_nat (length s) mod r = 0)%Z -> partitions ord fuel [] s r = match s with [] => Ok [[]] | _ => Err ValueError end).
Proof.
  intros Ho Hf. destruct fuel as [|fuel]; [lia|]. cbn [partitions]. split_and!.
  - intros ->. done.
  - intros Hr Hm. rewrite decide_False by done. by rewrite decide_False.
  - intros Hr Hm. rewrite decide_False by lia. rewrite decide_True by done. pose proof (Ho [] false s) as Hp. destruct (ord [] false s) as [|x l], s as [|y s]; try done.
    + by apply Permutation_nil_l in Hp.
    + by apply Permutation_nil_r in Hp.
    + unfold combs_z. rewrite decide_False by lia. done.
Qed.
(** [partitions_with_remainder] uses [xrange]: it never yields anything. *)
Theorem C48_remainder_refuted : forall {V} (s : list V) r, partitions_with_remainder s r = Err NameError.
Proof. done. Qed.
Example C48_example : layer_combinations [1; 2; 3] = [[1]; [2]; [3]; [1; 2]; [1; 3]; [2; 3]; [1; 2; 3]] /\
  partitions (fun _ _ l => l) 5 [] [1; 2; 3; 4] 2 = Ok [[[1; 2]; [3; 4]]; [[1; 3]; [2; 4]]; [[1; 4]; [2; 3]]] /\
  partitions (fun _ b l => if b then rev l else l) 5 [] [1; 2; 3; 4] 2 = Ok [[[1; 4]; [3; 2]]; [[1; 3]; [4; 2]]; [[1; 2]; [4; 3]]] /\
  partitions (fun _ _ l => l) 5 [] [1; 2; 3] 2 = Err AssertionError.
Proof. by vm_compute. Qed.

(** ** C49: strongly connected components *)
Theorem C49_sccs {V} `{EqDecision V} (net : dict V (list V)) : NoDup (dkeys net) -> (forall k us u, dget net k = Some us -> u ∈ us -> u ∈ dkeys net) ->
  exists L, sccs net = Ok L /\ concat L ≡ₚ dkeys net /\ forall c, c ∈ L -> c <> [] /\ forall x y, x ∈ c -> (y ∈ c <-> strong net x y).
Proof. intros Hnd Ht. destruct (sccs_ok net Hnd Ht) as (L & H1 & H2 & H3 & _). by exists L. Qed.
(** The components come in an order in which no arc leads to a later one. *)
Theorem C49_order {V} `{EqDecision V} (net : dict V (list V)) L : NoDup (dkeys net) -> (forall k us u, dget net k = Some us -> u ∈ us -> u ∈ dkeys net) ->
  sccs net = Ok L -> sinks_first net L.
Proof. intros Hnd Ht E. destruct (sccs_ok net Hnd Ht) as (L' & H1 & H2 & H3 & H4). assert (L' = L) as -> by congruence. done. Qed.
(** A successor that is not a node of the network: KeyError. *)
Theorem C49_unknown_successor {V} `{EqDecision V} (net : dict V (list V)) k us u : NoDup (dkeys net) -> dget net k = Some us -> u ∈ us -> u ∉ dkeys net ->
  sccs net = Err KeyError.
Proof. intros Hnd E Hu Hn. apply sccs_keyerror; [done|]. intros Ht. apply Hn. by apply (Ht k us u). Qed.
Example C49_example : let net := [(1, [2]); (2, [3; 4]); (3, [1]); (4, [5]); (5, [4; 6]); (6, [])] in
  NoDup (dkeys net) /\ (forall k us u, dget net k = Some us -> u ∈ us -> u ∈ dkeys net) /\
  sccs net = Ok [[6]; [4; 5]; [1; 2; 3]] /\ sccs [(1, [2])] = Err KeyError.
Proof.
  cbn zeta. split_and!; [apply (bool_decide_unpack _); by vm_compute| |by vm_compute..].
  intros k us u E Hu. apply dget_elem_of in E; [|apply (bool_decide_unpack _); by vm_compute]. revert u Hu.
  assert (Forall (fun kv : nat * list nat => Forall (fun u => u ∈ [1; 2; 3; 4; 5; 6]) (kv.2)) [(1, [2]); (2, [3; 4]); (3, [1]); (4, [5]); (5, [4; 6]); (6, [])]) as H by (apply (bool_decide_unpack _); by vm_compute).
  rewrite Forall_forall in H. specialize (H _ E). cbn [snd] in H. by rewrite Forall_forall in H.
Qed.

(** ** C53: connected node sets *)
(** [touching_orbit_nodes]: the connected node sets of 2 to [k] nodes that contain
    [x], each once. *)
Theorem C53_touching n x k : reachable n -> aspects n = 1 ->
  lists_sets (touching n x k) (fun s => x ∈ s /\ 2 <= length s <= k /\ set_connected (adjacent n) s).
Proof. apply touching_ok. Qed.
(** The sets examined by [orbit_counts_all]: the nodes are taken in turn, and the
    sets found for a node are the connected sets of 2 to [k] nodes that contain it
    and none of the nodes before it. *)
Theorem C53_all_sets n k nodes : reachable n -> aspects n = 1 -> NoDup nodes ->
  (all_sets (all_nbrs n) k [] nodes).*1 = nodes /\
  forall pre x post, nodes = pre ++ x :: post -> exists L, all_sets (all_nbrs n) k [] nodes !! length pre = Some (x, L) /\
    lists_sets L (fun s => x ∈ s /\ 2 <= length s <= k /\ (forall z, z ∈ s -> z ∉ pre) /\ set_connected (adjacent n) s).
Proof. apply all_sets_net. Qed.
(** So over all nodes every connected set of 2 to [k] nodes occurs exactly once. *)
Theorem C53_every_set_once n k nodes s : reachable n -> aspects n = 1 -> NoDup nodes -> NoDup s -> (forall x, x ∈ s -> x ∈ nodes) -> 2 <= length s <= k -> set_connected (adjacent n) s ->
  exists i x L j t, all_sets (all_nbrs n) k [] nodes !! i = Some (x, L) /\ L !! j = Some t /\ same_set s t /\
    forall i' x' L' j' t', all_sets (all_nbrs n) k [] nodes !! i' = Some (x', L') -> L' !! j' = Some t' -> same_set s t' -> i' = i /\ j' = j.
Proof.
  intros Hr Ha Hnd Hs Hin Hlen Hc. destruct (all_sets_net n k nodes Hr Ha Hnd) as [H1 H2].
  assert (exists pre x post, nodes = pre ++ x :: post /\ x ∈ s /\ forall z, z ∈ s -> z ∉ pre) as (pre & x & post & En & Hx & Hpre).
  { destruct (list_find (fun x => x ∈ s) nodes) as [[i x]|] eqn:Ef.
    - apply list_find_Some in Ef as (Hi & Hx & Hbefore). exists (take i nodes), x, (drop (S i) nodes). split; [symmetry; by apply take_drop_middle|]. split; [done|].
      intros z Hz (j & Hj)%elem_of_list_lookup_1. apply lookup_take_Some in Hj as [Hj Hji]. by apply (Hbefore j z).
    - exfalso. apply list_find_None in Ef. rewrite Forall_forall in Ef. destruct s as [|z s]; [cbn in Hlen; lia|]. apply (Ef z); [apply Hin|]; left. }
  destruct (H2 pre x post En) as (L & EL & HL). destruct HL as (L1 & L2 & L3). destruct (L2 s Hs) as (t & Ht & Hst); [done|]. apply elem_of_list_lookup in Ht as [j Hj].
  exists (length pre), x, L, j, t. split; [done|]. split; [done|]. split; [done|]. intros i' x' L' j' t' Hi' Hj' Hst'.
  assert (nodes !! i' = Some x') as Hn'. { rewrite <- H1. by rewrite list_lookup_fmap, Hi'. }
  assert (nodes = take i' nodes ++ x' :: drop (S i') nodes) as En' by (symmetry; by apply take_drop_middle).
  assert (length (take i' nodes) = i') as Hl'. { rewrite take_length. apply lookup_lt_Some in Hn'. lia. }
  destruct (H2 _ _ _ En') as (L'' & EL' & HL'). rewrite Hl', Hi' in EL'. injection EL' as <-. destruct HL' as (M1 & _ & M3).
  destruct (M1 t') as (_ & Hx' & _ & Hb' & _). { by eapply elem_of_list_lookup_2. }
  assert (i' = length pre) as ->.
  { destruct (Nat.lt_trichotomy i' (length pre)) as [Hlt|[?|Hgt]]; [|done|].
    - exfalso. apply (Hpre x'). { by apply Hst'. } rewrite En in Hn'. rewrite lookup_app_l in Hn' by done. by eapply elem_of_list_lookup_2.
    - exfalso. apply (Hb' x). { by apply Hst'. } apply elem_of_list_lookup. exists (length pre). apply lookup_take_Some. split; [|lia]. rewrite En. rewrite lookup_app_r by done. by rewrite Nat.sub_diag. }
  rewrite EL in Hi'. injection Hi' as <- <-. split; [done|]. symmetry. apply (L3 j j' t t'); [done..|]. eapply same_set_trans; [apply same_set_sym; exact Hst|done].
Qed.
Definition g_net : mlnet := run (new_net 1 0 false false)
  [OpNodeSet [x1; la] [x2; la] 1; OpNodeSet [x2; la] [x2; lb] 1; OpNodeSet [x2; lb] [x3; lb] 1; OpNodeSet [x3; la] [NStr "z"; la] 1].
Example C53_example : reachable g_net /\ aspects g_net = 1 /\
  touching g_net x1 3 = [[x1; x2]; [x1; x2; x3]] /\ touching g_net x2 3 = [[x2; x1]; [x2; x3]; [x2; x1; x3]; [x2; x3; NStr "z"]] /\
  all_sets (all_nbrs g_net) 3 [] [x1; x2; x3; NStr "z"] = [(x1, [[x1; x2]; [x1; x2; x3]]); (x2, [[x2; x3]; [x2; x3; NStr "z"]]); (x3, [[x3; NStr "z"]]); (NStr "z", [])].
Proof. split; [apply run_reachable|]. by vm_compute. Qed.

(** ** C54: orbit lists and orbit numbers *)
Theorem C54_list_orbits (auts : dict orbit name) (k : nat) :
  (forall o, o ∈ default [] (dget (list_orbits auts) k) <-> exists j x a, ((k, j, x), a) ∈ auts /\ o = (k, j, a)) /\
  NoDup (default [] (dget (list_orbits auts) k)) /\
  (is_Some (dget (list_orbits auts) k) <-> exists j x a, ((k, j, x), a) ∈ auts).
Proof. apply list_orbits_ok. Qed.
(** The orbits of the graphlets of 2 to [n] nodes get the numbers 0, 1, 2, ..., each
    orbit one number and each number one orbit, and the ordered list holds at each
    position the orbit with that number. *)
Theorem C54_orbit_numbers n (nets : dict nat (list (list name))) (auts : dict orbit name) :
  (forall k, 2 <= k <= n -> exists l, dget nets k = Some l /\ forall j nodes x, l !! j = Some nodes -> x ∈ nodes -> is_Some (dget auts (k, j, x))) ->
  exists d l, orbit_numbers n nets auts = Ok d /\ ordered_orbits d = Ok l /\ NoDup (dkeys d) /\
    (forall o, is_Some (dget d o) <-> exists k g j nodes x a, 2 <= k <= n /\ dget nets k = Some g /\ g !! j = Some nodes /\ x ∈ nodes /\ dget auts (k, j, x) = Some a /\ o = (k, j, a)) /\
    (forall i, i < length d <-> exists o, dget d o = Some i) /\ (forall o o' i, dget d o = Some i -> dget d o' = Some i -> o = o') /\
    length l = length d /\ (forall i o, l !! i = Some (Some o) <-> dget d o = Some i).
Proof.
  intros H. destruct (numbers_ok n nets auts H) as (d & E & Hnd & Hnum & Hks). destruct (ordered_ok d) as (l & El & Hlen & Hl); [by rewrite Hnum|].
  exists d, l. split; [done|]. split; [done|]. split; [done|]. split_and!.
  - intros o. rewrite <- elem_of_dkeys, Hks, elem_of_listed. split; intros (k & g & j & nodes & x & a & Hk & Hrest); exists k, g, j, nodes, x, a; (split; [|done]).
    + apply elem_of_seq in Hk. lia.
    + apply elem_of_seq. lia.
  - intros i. split.
    + intros Hi. assert (i ∈ d.*2) as Hin by (rewrite Hnum; apply elem_of_seq; lia). apply elem_of_list_fmap in Hin as ([o i'] & -> & Hin). exists o. by apply dget_elem_of.
    + intros (o & Ho). apply dget_elem_of in Ho; [|done]. assert (i ∈ d.*2) as Hin by (apply elem_of_list_fmap; by exists (o, i)). rewrite Hnum in Hin. apply elem_of_seq in Hin. lia.
  - intros o o' i Ho Ho'. apply dget_elem_of in Ho, Ho'; [|done..]. apply elem_of_list_lookup in Ho as [p Hp], Ho' as [q Hq].
    assert (p = q) as <-; [|congruence]. eapply (NoDup_lookup (d.*2)); [rewrite Hnum; apply NoDup_seq| |]; rewrite list_lookup_fmap; [by rewrite Hp|by rewrite Hq].
  - done.
  - intros i o. rewrite Hl. by rewrite dget_elem_of.
Qed.
Example C54_example : let nets := [(2, [[NInt 0; NInt 1]]); (3, [[NInt 0; NInt 1; NInt 2]])] in
  let auts := [((2, 0, NInt 0), NInt 0); ((2, 0, NInt 1), NInt 0); ((3, 0, NInt 0), NInt 0); ((3, 0, NInt 1), NInt 1); ((3, 0, NInt 2), NInt 0)] in
  orbit_numbers 3 nets auts = Ok [((2, 0, NInt 0), 0); ((3, 0, NInt 0), 1); ((3, 0, NInt 1), 2)] /\
  ordered_orbits [((2, 0, NInt 0), 0); ((3, 0, NInt 0), 1); ((3, 0, NInt 1), 2)] = Ok [Some (2, 0, NInt 0); Some (3, 0, NInt 0); Some (3, 0, NInt 1)] /\
  list_orbits auts = [(2, [(2, 0, NInt 0)]); (3, [(3, 0, NInt 0); (3, 0, NInt 1)])] /\
  (forall k, 2 <= k <= 3 -> exists l, dget nets k = Some l /\ forall j nodes x, l !! j = Some nodes -> x ∈ nodes -> is_Some (dget auts (k, j, x))).
Proof.
  cbn zeta. split; [by vm_compute|]. split; [by vm_compute|]. split; [by vm_compute|].
  intros k Hk. assert (k = 2 \/ k = 3) as [->| ->] by lia; eexists; (split; [vm_compute; reflexivity|]); intros [|j] nodes x Hj Hx; cbn in Hj; simplify_eq.
  - repeat (apply elem_of_cons in Hx as [->|Hx]; [vm_compute; by eexists|]). by apply elem_of_nil in Hx.
  - repeat (apply elem_of_cons in Hx as [->|Hx]; [vm_compute; by eexists|]). by apply elem_of_nil in Hx.
Qed.

(** ** C55: definitely independent equations *)
(** The equations are split into two groups; an equation is in the first iff all
    orbits it combines have two nodes, or it mentions an orbit that no other
    equation mentions. *)
Theorem C55_definitely_independent (eqs : dict eqkey (list orbit)) : NoDup (dkeys eqs) ->
  exists ind und, definitely_independent eqs = (ind, und, eqs) /\ ind ++ und ≡ₚ dkeys eqs /\
  forall k os, (k, os) ∈ eqs -> k ∈ ind <-> (forall o, o ∈ key_orbits k -> o.1.1 = 2) \/ exists o, o ∈ os ++ key_orbits k /\ forall k' os', (k', os') ∈ eqs -> k' <> k -> o ∉ os' ++ key_orbits k'.
Proof. apply independent_ok. Qed.
Example C55_example : let a : orbit := (2, 0, NInt 0) in let b : orbit := (3, 0, NInt 0) in let c : orbit := (3, 1, NInt 0) in let d : orbit := (4, 0, NInt 0) in
  NoDup [KTwice a; KPair a b; KPair b a; KTwice b] /\
  definitely_independent [(KTwice a, [b]); (KPair a b, [c]); (KPair b a, [c]); (KTwice b, [c; d])] =
    ([KTwice a; KTwice b], [KPair a b; KPair b a], [(KTwice a, [b]); (KPair a b, [c]); (KPair b a, [c]); (KTwice b, [c; d])]).
Proof. cbn zeta. split; [apply (bool_decide_unpack _); by vm_compute|by vm_compute]. Qed.
Print Assumptions C47_orbits.
Print Assumptions C47_orbits_mixed.
Print Assumptions C47_nl_orbits.
Print Assumptions C47_all_graphlets.
Print Assumptions C48_layer_combinations.
Print Assumptions C48_partitions.
Print Assumptions C48_partitions_rejects.
Print Assumptions C48_remainder_refuted.
Print Assumptions C49_sccs.
Print Assumptions C49_order.
Print Assumptions C49_unknown_successor.
Print Assumptions C53_touching.
Print Assumptions C53_all_sets.
Print Assumptions C53_every_set_once.
Print Assumptions C54_list_orbits.
Print Assumptions C54_orbit_numbers.
Print Assumptions C55_definitely_independent.
