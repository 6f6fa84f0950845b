(** * Orbit counts of multiplex networks: C87 *)
From stdpp Require Import prelude relations.
From Verif Require Import Base Net NetSpec MpxSpec MpxFacts MpxHist PropsMpx MpxBuild Graphlet GraphletSpec GraphletFacts Isom MpxIsom IsomSpec PropsIsom PropsIsomMpx Enum EnumSpec EnumNet EnumFacts PropsEnum
  OrbitCount CountSpec CountFacts CountRun CountCat.
Local Open Scope nat_scope.

(** The number of sets with a property is determined by the property. *)
Lemma lists_sets_le L L' P : lists_sets L P -> lists_sets L' P -> length L <= length L'.
Proof.
  intros (A1 & _ & A3) (_ & B2 & _).
  assert (forall K, (forall s, s ∈ K -> s ∈ L) -> exists I, length I = length K /\ forall i m, I !! i = Some m -> exists s t, K !! i = Some s /\ L' !! m = Some t /\ same_set s t) as HI.
  { induction K as [|s K IH]; intros HK; [by exists []|]. destruct IH as (I & HlI & HI); [intros; apply HK; by right|]. destruct (A1 s) as [Hn Hs]; [apply HK; left|].
    destruct (B2 s Hn Hs) as (t & [m Hm]%elem_of_list_lookup & Hst). exists (m :: I). split; [cbn; lia|]. intros [|i] m'; [intros [= <-]; by exists s, t|]. apply HI. }
  destruct (HI L) as (I & HlI & HI'); [done|]. rewrite <- HlI, <- (seq_length (length L') 0). apply submseteq_length, NoDup_submseteq.
  - apply NoDup_alt. intros i j m Hi Hj. destruct (HI' i m Hi) as (s & t & Hs & Ht & Hst). destruct (HI' j m Hj) as (s' & t' & Hs' & Ht' & Hst'). rewrite Ht in Ht'. injection Ht' as <-.
    apply (A3 i j s s' Hs Hs'). destruct Hst, Hst'. split; auto.
  - intros m [i Hi]%elem_of_list_lookup. destruct (HI' i m Hi) as (s & t & _ & Ht & _). apply elem_of_seq. apply lookup_lt_Some in Ht. lia.
Qed.
Lemma counts_sets_fun k k' P : counts_sets k P -> counts_sets k' P -> k = k'.
Proof. intros (L & HL & <-) (L' & HL' & <-). pose proof (lists_sets_le L L' P HL HL'). pose proof (lists_sets_le L' L P HL' HL). lia. Qed.

(** The pipeline [graphlets], [automorphism_orbits], [orbit_numbers], [ordered_orbit_list]: it
    succeeds; two nodes of a graphlet have the same orbit exactly when an automorphism of the
    graphlet takes one to the other, and the list has each orbit once. *)
Theorem C87_catalogue {T} `{EqDecision T} (canon : dict nat nat -> list (nat * nat) -> T) perms c layers al n n_l : exact_canon canon -> exact_perms perms -> enumerable c layers al ->
  exists nets invs auts orbits, graphlets canon al n layers n_l [c] = Ok (nets, invs) /\ automorphism_orbits perms al nets = Ok auts /\ orbit_list n nets auts = Ok orbits /\
    catalogue canon al c layers (default (length layers) n_l) n nets invs auts orbits /\ NoDup orbits /\
    (forall k j a, (k, j, a) ∈ orbits <-> 2 <= k <= n /\ exists g x, graphlet_at nets k j g /\ mhas g 0 x /\ dget auts (k, j, x) = Some a) /\
    (forall k j g x y, graphlet_at nets k j g -> mhas g 0 x -> mhas g 0 y ->
      dget auts (k, j, x) = dget auts (k, j, y) <-> exists m, misomorphism (fun a => a ∈ aspect_list 1 al) m g g /\ m 0 x = y).
Proof.
  intros Hc Hp He. destruct (C86_sound canon n layers n_l c al Hc He) as (nets & invs & E & _).
  destruct (catalogue_ok canon perms c layers al n n_l nets invs Hc Hp He E) as (auts & ol & Ea & Eo & Hcat & Hn & Hol & _). exists nets, invs, auts, ol.
  do 5 (split; [done|]). split; [|apply Hcat]. intros k j a. split; [apply Hol|]. intros (Hk & g & x & Hg & Hx & Ha).
  destruct (cat_aut _ _ _ _ _ _ _ _ _ _ Hcat k j g x Hg Hx) as (a' & Ha' & Hin). rewrite Ha in Ha'. injection Ha' as <-. by apply Hin.
Qed.

(** Every connected set of 2 to n nodes around a node belongs to exactly one orbit of this node. *)
Theorem C87_one_orbit {T} `{EqDecision T} (structure : auxg -> auxg -> bool) (mapping : auxg -> auxg -> dict nat nat) (canon : dict nat nat -> list (nat * nat) -> T)
    c layers n_l al n nets (invs : @invariants T) auts orbits p x s :
  exact_backend structure -> exact_mapping structure mapping -> enumerable c layers al -> catalogue canon al c layers n_l n nets invs auts orbits ->
  plain c p -> on_layers layers n_l p -> NoDup s -> touches p n x s -> exists o, o ∈ orbits /\ forall o', occupies c al nets auts p x o' s <-> o' = o.
Proof.
  intros Hb Hm [_ E2 E3 E4 E5] Hcat Hp Hl Hs (Hx & Hlen & Hin & Hc).
  destruct (orbit_of_ok c layers n_l E2 E3 al E4 E5 structure mapping canon n nets invs auts orbits Hb Hm Hcat p s Hp Hl Hs Hlen Hin Hc) as (cl & _ & H).
  destruct (H x Hx) as (Ho & _ & _ & Hu). eexists. split; [exact Ho|exact Hu].
Qed.

(** [orbit_counts]: for every listed orbit, the number of connected node sets of size 2 to n
    around the node in whose subnetwork the node occupies the orbit. *)
Theorem C87_orbit_counts {T} `{EqDecision T} (structure : auxg -> auxg -> bool) (mapping : auxg -> auxg -> dict nat nat) (canon : dict nat nat -> list (nat * nat) -> T)
    c layers n_l al n nets (invs : @invariants T) auts orbits p x d0 :
  exact_backend structure -> exact_mapping structure mapping -> enumerable c layers al -> catalogue canon al c layers n_l n nets invs auts orbits ->
  plain c p -> on_layers layers n_l p -> mhas p 0 x ->
  exists d, orbit_counts structure mapping canon al nets invs auts n x p d0 orbits = Ok d /\
    (forall o, o ∈ orbits -> exists k, dget d (x, o) = Some k /\ counts_sets k (fun s => touches p n x s /\ occupies c al nets auts p x o s)) /\
    (forall y o, y <> x \/ o ∉ orbits -> dget d (y, o) = dget d0 (y, o)).
Proof. intros Hb Hm [_ E2 E3 E4 E5] Hcat Hp Hl Hx. by apply (orbit_counts_ok c layers n_l E2 E3 al E4 E5). Qed.

(** [orbit_counts_all]: the same counts for all nodes.  Afterwards the network given by the
    caller has the same nodes and layers and no links inside the layers. *)
Theorem C87_orbit_counts_all {T} `{EqDecision T} (structure : auxg -> auxg -> bool) (mapping : auxg -> auxg -> dict nat nat) (canon : dict nat nat -> list (nat * nat) -> T)
    c layers n_l al n nets (invs : @invariants T) auts orbits p :
  exact_backend structure -> exact_mapping structure mapping -> enumerable c layers al -> catalogue canon al c layers n_l n nets invs auts orbits ->
  plain c p -> on_layers layers n_l p ->
  exists d q, orbit_counts_all structure mapping canon al nets invs auts p n orbits = Ok (d, q) /\
    (forall x o, mhas p 0 x -> o ∈ orbits -> exists k, dget d (x, o) = Some k /\ counts_sets k (fun s => touches p n x s /\ occupies c al nets auts p x o s)) /\
    (forall x o, is_Some (dget d (x, o)) <-> mhas p 0 x /\ o ∈ orbits) /\
    (forall k y, k <= 1 -> mhas q k y <-> mhas p k y) /\ (forall l a b, ~ tied q l a b).
Proof.
  intros Hb Hm [_ E2 E3 E4 E5] Hcat Hp Hl. destruct (orbit_counts_all_ok c layers n_l E2 E3 al E4 E5 structure mapping canon n nets invs auts orbits Hb Hm Hcat p Hp Hl) as (d & q & E & H1 & H2 & _ & H3 & H4).
  exists d, q. done.
Qed.

(** The two functions agree; the counts do not depend on the backend functions. *)
Theorem C87_agree {T T'} `{EqDecision T} `{EqDecision T'} s1 m1 (k1 : dict nat nat -> list (nat * nat) -> T) s2 m2 (k2 : dict nat nat -> list (nat * nat) -> T')
    c layers n_l al n nets (i1 : @invariants T) (i2 : @invariants T') auts orbits p x d0 o :
  exact_backend s1 -> exact_mapping s1 m1 -> exact_backend s2 -> exact_mapping s2 m2 -> enumerable c layers al ->
  catalogue k1 al c layers n_l n nets i1 auts orbits -> catalogue k2 al c layers n_l n nets i2 auts orbits ->
  plain c p -> on_layers layers n_l p -> mhas p 0 x -> o ∈ orbits ->
  exists d d' q, orbit_counts s1 m1 k1 al nets i1 auts n x p d0 orbits = Ok d /\ orbit_counts_all s2 m2 k2 al nets i2 auts p n orbits = Ok (d', q) /\ dget d (x, o) = dget d' (x, o).
Proof.
  intros B1 M1 B2 M2 He C1 C2 Hp Hl Hx Ho. destruct (C87_orbit_counts s1 m1 k1 c layers n_l al n nets i1 auts orbits p x d0 B1 M1 He C1 Hp Hl Hx) as (d & E & H & _).
  destruct (C87_orbit_counts_all s2 m2 k2 c layers n_l al n nets i2 auts orbits p B2 M2 He C2 Hp Hl) as (d' & q & E' & H' & _). exists d, d', q. split; [done|]. split; [done|].
  destruct (H o Ho) as (k & -> & Hk). destruct (H' x o Hx Ho) as (k' & -> & Hk'). by rewrite (counts_sets_fun k k' _ Hk Hk').
Qed.

(** ** A backend exists *)
Lemma iso_try f c1 l1 c2 l2 : NoDup (dkeys c1) -> NoDup (dkeys c2) -> graph_iso f c1 l1 c2 l2 -> f <$> dkeys c1 ∈ permutations (dkeys c2) /\ try_map c1 l1 c2 l2 (f <$> dkeys c1) = true.
Proof.
  intros N1 N2 ((B1 & B2 & B3) & Hcol & Hadj).
  assert (forall i, i ∈ dkeys c1 -> default 0 (dget (zip (dkeys c1) (f <$> dkeys c1)) i) = f i) as Hf.
  { intros i [j Hj]%elem_of_list_lookup. assert (dget (zip (dkeys c1) (f <$> dkeys c1)) i = Some (f i)) as ->; [|done]. apply dget_zip; [done|by rewrite fmap_length|]. exists j. by rewrite list_lookup_fmap, Hj. }
  split.
  - apply permutations_Permutation, NoDup_Permutation; [done| |].
    + apply NoDup_fmap_2_strong; [|done]. intros x y Hx Hy. by apply B2.
    + intros y. rewrite elem_of_list_fmap. split; [intros Hy; destruct (B3 y Hy) as (x & Hx & <-); eauto|]. intros (x & -> & Hx). by apply B1.
  - unfold try_map. rewrite !andb_true_iff, bool_decide_eq_true, fmap_length. split; [split; [done|]|].
    + apply forallb_forall. intros i Hi. apply elem_of_list_In in Hi. rewrite Hf by done. apply bool_decide_eq_true. by apply Hcol.
    + apply forallb_forall. intros i Hi. apply elem_of_list_In in Hi. apply forallb_forall. intros j Hj. apply elem_of_list_In in Hj. rewrite !Hf by done.
      apply eqb_true_iff. apply Bool.eq_true_iff_eq. rewrite !joinedb_iff. by apply Hadj.
Qed.
(** All automorphisms. *)
Definition brute_perms (g : auxg) : list (dict nat nat) :=
  map (fun p => zip (dkeys (g_color g)) p) (filter (fun p => try_map (g_color g) (g_links g) (g_color g) (g_links g) p = true) (permutations (dkeys (g_color g)))).
Lemma brute_perms_exact : exact_perms brute_perms.
Proof.
  intros g N. split.
  - apply Forall_forall. intros d (p & -> & [Ht Hp]%elem_of_list_filter)%elem_of_list_fmap. apply permutations_Permutation in Hp.
    assert (length (dkeys (g_color g)) = length p) as Hl. { unfold try_map in Ht. rewrite !andb_true_iff, bool_decide_eq_true in Ht. by destruct Ht as [[-> _] _]. }
    apply valid_check; [done|done| | |].
    + by rewrite snd_zip by lia.
    + by rewrite fst_zip by lia.
    + rewrite snd_zip by lia. done.
  - intros f Hf. destruct (iso_try f _ _ _ _ N N Hf) as [H1 H2]. apply (composed_step _ _ id (fun i => default i (dget (zip (dkeys (g_color g)) (f <$> dkeys (g_color g))) i))).
    + by apply composed_id.
    + eexists. split; [|done]. apply elem_of_list_fmap. eexists. split; [done|]. apply elem_of_list_filter. done.
    + intros i Hi. cbn. apply elem_of_list_lookup in Hi as [j Hj]. assert (dget (zip (dkeys (g_color g)) (f <$> dkeys (g_color g))) i = Some (f i)) as ->; [|done].
      apply dget_zip; [done|by rewrite fmap_length|]. exists j. by rewrite list_lookup_fmap, Hj.
Qed.
Example C87_backends : exact_backend brute /\ exact_mapping brute brute_mapping /\ exact_canon brute_canon /\ exact_perms brute_perms.
Proof. split; [exact brute_exact|]. split; [exact brute_mapping_exact|]. split; [exact brute_canon_exact|exact brute_perms_exact]. Qed.

(** ** Examples *)
(** The path 5 - 7 - 9 in one layer. *)
Definition path_ops : list mop := set_ops [(NInt 5, NInt 7, ea); (NInt 7, NInt 9, ea)].
Definition path : mpx := match mbuild (new_mpx [CNone None] false 0 true) path_ops with Ok p => p | Err _ => new_mpx [CNone None] false 0 true end.
Example C87_path : plain (CNone None) path /\ on_layers [ea] 1 path /\ mhas path 0 (NInt 7) /\ tied path ea (NInt 5) (NInt 7) /\ tied path ea (NInt 7) (NInt 9).
Proof.
  pose proof (mhist_init [CNone None] false 0%Z true) as H0.
  destruct (add_links (CNone None) [] (new_mpx [CNone None] false 0 true) [(NInt 5, NInt 7, ea); (NInt 7, NInt 9, ea)] [] H0) as (p & g & E & Hg & M0 & M1 & Hw).
  { intros x y l. rewrite !elem_of_cons, elem_of_nil. intros [[= -> -> ->]|[[= -> -> ->]|[]]]; done. }
  assert (path = p) as ->. { unfold path, path_ops. cbn [fmap list_fmap] in E. rewrite app_nil_r in E. by rewrite E. }
  assert (forall k x, ~ mhas (new_mpx [CNone None] false 0 true) k x) as Hno. { intros k x. rewrite (C51_nodes_layers_exact _ _ _ _ _ _ H0) by done. by intros (e & ?%elem_of_nil & _). }
  assert (forall l x y, tied p l x y <-> (x, y, l) ∈ [(NInt 5, NInt 7, ea); (NInt 7, NInt 9, ea)] \/ (y, x, l) ∈ [(NInt 5, NInt 7, ea); (NInt 7, NInt 9, ea)]) as HT.
  { intros l x y. rewrite (add_tied _ _ _ _ _ _ Hw). split; [|auto]. intros [Ht|?]; [|done]. apply (en_tied _ _ _ H0) in Ht as [? _]. by edestruct Hno. }
  split; [split|split; [|split; [|split]]].
  - by exists g.
  - intros l x. rewrite HT, !elem_of_cons, elem_of_nil. by intros [[[= -> ]|[[= -> ]|[]]]|[[= -> ]|[[= -> ]|[]]]].
  - exists [ea]. split; [|split; [done|done]]. split; [apply NoDup_singleton|]. intros l. rewrite M1, elem_of_list_singleton. split.
    + intros ->. right. right. exists (NInt 5), (NInt 7). left.
    + intros [?|[?%elem_of_nil|(x & y & Hxy)]]; [exfalso; by eapply Hno|exfalso; assumption|]. rewrite !elem_of_cons, elem_of_nil in Hxy. destruct Hxy as [[= _ _ ->]|[[= _ _ ->]|[]]]; reflexivity.
  - apply M0. right. exists (NInt 9), ea. left. right. left.
  - apply HT. left. left.
  - apply HT. left. right. left.
Qed.
(** The orbits of the graphlets with up to three nodes in one layer: the ends of a link, the
    middle and the ends of a path, a triangle.  In the path each end is the end of one link and
    the end of one path, and the middle is the end of two links and the middle of one path; then
    the links are gone. *)
Definition count_path (all : bool) : res (list orbit * list (list (option nat)) * bool) :=
  let? r := graphlets brute_canon (Some [0]) 3 [ea] None [CNone None] in
  let? auts := automorphism_orbits brute_perms (Some [0]) (r.1) in
  let? ol := orbit_list 3 (r.1) auts in
  let? dq := (if all then orbit_counts_all brute brute_mapping brute_canon (Some [0]) (r.1) (r.2) auts path 3 ol
    else let? d := orbit_counts brute brute_mapping brute_canon (Some [0]) (r.1) (r.2) auts 3 (NInt 7) path [] ol in Ok (d, path)) in
  Ok (ol, (fun x => (fun o => dget (dq.1) (x, o)) <$> ol) <$> [NInt 5; NInt 7; NInt 9], bool_decide (lrd (dq.2) (LBare ea) (NInt 5) (NInt 7) = 0%Z)).
Example C87_counts :
  count_path false = Ok ([(2, 0, NInt 0); (3, 0, NInt 0); (3, 0, NInt 1); (3, 1, NInt 0)],
    [[None; None; None; None]; [Some 2; Some 1; Some 0; Some 0]; [None; None; None; None]], false) /\
  count_path true = Ok ([(2, 0, NInt 0); (3, 0, NInt 0); (3, 0, NInt 1); (3, 1, NInt 0)],
    [[Some 1; Some 0; Some 1; Some 0]; [Some 2; Some 1; Some 0; Some 0]; [Some 1; Some 0; Some 1; Some 0]], true).
Proof. vm_compute. done. Qed.

Print Assumptions C87_catalogue.
Print Assumptions C87_one_orbit.
Print Assumptions C87_orbit_counts.
Print Assumptions C87_orbit_counts_all.
Print Assumptions C87_agree.
