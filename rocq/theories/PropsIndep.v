(** * Properties C89-C91: independent equations and redundant orbits *)
From stdpp Require Import prelude relations.
From Verif Require Import Base Net NetEdges Supra TransFacts TransFacts2 Samp SampFacts Graphlet GraphletSpec GraphletFacts SccFacts OrbitEq OrbitFacts Indep IndepSpec IndepFacts RedFacts DepFacts DepMain.
Local Open Scope nat_scope.

Lemma filt_sub {A} (P : A -> Prop) `{!forall x, Decision (P x)} (l : list A) : sublist (filter P l) l.
Proof. induction l as [|x l IH]; [done|]. rewrite filter_cons. destruct (decide (P x)); by constructor. Qed.
Lemma filt_nodup {K V} (P : K * V -> Prop) `{!forall x, Decision (P x)} (l : list (K * V)) : NoDup (l.*1) -> NoDup ((filter P l).*1).
Proof.
  induction l as [|x l IH]; [done|]. cbn [fmap list_fmap]. intros [H1 H2]%NoDup_cons. rewrite filter_cons. destruct (decide (P x)); [|by apply IH]. cbn.
  apply NoDup_cons. split; [|by apply IH]. intros (y & E & Hy)%elem_of_list_fmap. apply elem_of_list_filter in Hy as [_ Hy]. apply H1. rewrite E. by apply elem_of_list_fmap_1.
Qed.
(** ** C89: redundant orbits *)
Lemma dget_Some_elem {K V} `{EqDecision K} (d : dict K V) k v : dget d k = Some v -> (k, v) ∈ d.
Proof. induction d as [|[k' v'] d IH]; [done|]. cbn. destruct (decide _) as [E|_]; [|intros H; right; by apply IH]. intros [= ->]. subst. by left. Qed.
Lemma rmapM_ok {A B} (f : A -> res B) (h : A -> B) l : (forall x, x ∈ l -> f x = Ok (h x)) -> rmapM f l = Ok (h <$> l).
Proof. induction l as [|x l IH]; intros H; [done|]. cbn [rmapM]. rewrite H by (by left). cbn [rbind]. rewrite IH by (intros; apply H; by right). done. Qed.
(** Each independent equation is given one of its own orbits, no orbit twice: the one with
    the greatest number that is not given to an earlier equation.  ValueError iff
    an equation is met all of whose orbits have been given away. *)
Theorem C89_redundant (ord : list nat -> list nat) inds eqs (orbit_is : dict orbit nat) orbit_list :
  (forall l, ord l ≡ₚ l) -> (forall eq, eq ∈ inds -> exists os, dget eqs eq = Some os /\ forall o, o ∈ os -> is_Some (dget orbit_is o)) ->
  (forall o i, dget orbit_is o = Some i -> orbit_list !! i = Some o) ->
  (exists rs fs is, redundant_orbits ord inds eqs orbit_is orbit_list = Ok rs /\ rs ≡ₚ fs /\ NoDup fs /\ length fs = length inds /\
    (forall k eq o, inds !! k = Some eq -> fs !! k = Some o -> exists os, dget eqs eq = Some os /\ o ∈ os) /\
    greedy eqs orbit_is inds is /\ forall k o, fs !! k = Some o -> exists i, is !! k = Some i /\ dget orbit_is o = Some i) \/
  (redundant_orbits ord inds eqs orbit_is orbit_list = Err ValueError /\
    exists l1 eq l2 is, inds = l1 ++ eq :: l2 /\ greedy eqs orbit_is l1 is /\ forall j, occurs eqs orbit_is eq j -> j ∈ is).
Proof.
  intros Hord Hready Hinv. unfold redundant_orbits. destruct (red_fold eqs orbit_is inds Hready) as [(is & -> & Hg)|[-> Hx]]; [left|right; by split].
  cbn [rbind]. set (h := fun i => match orbit_list !! i with Some o => o | None => (0, 0, NInt 0) end).
  assert (forall k i, is !! k = Some i -> exists eq, inds !! k = Some eq) as Hk.
  { intros k i Hi. destruct Hg as [Hl _]. apply lookup_lt_is_Some_2. rewrite <- Hl. by eapply lookup_lt_Some. }
  assert (forall i, i ∈ is -> exists o, orbit_list !! i = Some o /\ dget orbit_is o = Some i) as Hi.
  { intros i [k Hi]%elem_of_list_lookup. destruct (Hk k i Hi) as [eq He]. destruct (proj2 Hg k eq i He Hi) as [(os & o & _ & _ & Eo) _]. exists o. split; [by apply Hinv|done]. }
  rewrite (rmapM_ok _ h). 2: { intros i Hin. rewrite Hord in Hin. destruct (Hi i Hin) as (o & Eo & _). unfold h. by rewrite Eo. }
  exists (h <$> ord is), (h <$> is), is. split_and!; try done.
  - by rewrite Hord.
  - apply NoDup_fmap_2_strong; [|by eapply greedy_nodup]. intros x y Hx Hy. destruct (Hi x Hx) as (o & Eo & Ex), (Hi y Hy) as (o' & Eo' & Ey). unfold h. rewrite Eo, Eo'. intros ->. congruence.
  - rewrite fmap_length. apply Hg.
  - intros k eq o He Ho. apply list_lookup_fmap_Some in Ho as (i & Ei & ->). destruct (proj2 Hg k eq i He Ei) as [(os & o & E1 & E2 & E3) _].
    exists os. split; [done|]. unfold h. by rewrite (Hinv o i E3).
  - intros k o Ho. apply list_lookup_fmap_Some in Ho as (i & Ei & ->). exists i. split; [done|]. destruct (Hi i) as (o & Eo & En); [by eapply elem_of_list_lookup_2|]. unfold h. by rewrite Eo.
Qed.
(** The choice is determined by the order of the equations. *)
Theorem C89_unique eqs (orbit_is : dict orbit nat) inds is is' : greedy eqs orbit_is inds is -> greedy eqs orbit_is inds is' -> is = is' /\ NoDup is.
Proof. intros H1 H2. split; [by eapply greedy_unique|by eapply greedy_nodup]. Qed.
(** An equation or an orbit that the dictionaries do not know: KeyError. *)
Theorem C89_unknown (ord : list nat -> list nat) inds eqs (orbit_is : dict orbit nat) orbit_list eq : dget eqs eq = None ->
  redundant_orbits ord (eq :: inds) eqs orbit_is orbit_list = Err KeyError.
Proof. intros E. unfold redundant_orbits. cbn [rfold]. unfold red_step. by rewrite E. Qed.
(** Whether there is a result can depend on the order in which the set of equations is
    iterated, even when distinct orbits can be given to all of them. *)
Theorem C89_order_refuted : exists inds inds' eqs (orbit_is : dict orbit nat) orbit_list rs, inds ≡ₚ inds' /\ NoDup inds /\
  (forall eq, eq ∈ inds -> exists os, dget eqs eq = Some os /\ forall o, o ∈ os -> is_Some (dget orbit_is o)) /\
  (forall o i, dget orbit_is o = Some i -> orbit_list !! i = Some o) /\
  redundant_orbits id inds eqs orbit_is orbit_list = Ok rs /\ redundant_orbits id inds' eqs orbit_is orbit_list = Err ValueError.
Proof.
  set (a := (3, 0, NInt 0) : orbit). set (b := (3, 1, NInt 0) : orbit). set (e1 := KTwice (2, 0, NInt 0)). set (e2 := KTwice (2, 1, NInt 0)).
  exists [e1; e2], [e2; e1], [(e1, [b]); (e2, [a; b])], [(a, 0); (b, 1)], [a; b], [b; a]. split_and!.
  - apply perm_swap.
  - apply (bool_decide_unpack _). by vm_compute.
  - intros eq [->|[->|H]%elem_of_cons]%elem_of_cons; [| |by apply elem_of_nil in H].
    + exists [b]. split; [done|]. intros o ->%elem_of_list_singleton. by exists 1.
    + exists [a; b]. split; [done|]. intros o [->|[->|H]%elem_of_cons]%elem_of_cons; [by exists 0|by exists 1|by apply elem_of_nil in H].
  - intros o i H%dget_Some_elem. apply elem_of_cons in H as [[= -> ->]|H]; [done|]. by apply elem_of_list_singleton in H as [= -> ->].
  - by vm_compute.
  - by vm_compute.
Qed.
Example C89_example : let a : orbit := (3, 0, NInt 0) in let b : orbit := (3, 1, NInt 0) in let c : orbit := (4, 2, NInt 1) in
  let e1 := KTwice (2, 0, NInt 0) in let e2 := KPair (2, 1, NInt 0) (2, 0, NInt 0) in
  let eqs := [(e1, [a; b; c]); (e2, [a; c])] in let is : dict orbit nat := [(a, 0); (b, 1); (c, 2)] in
  redundant_orbits (@rev nat) [e1; e2] eqs is [a; b; c] = Ok [a; c] /\ redundant_orbits id [e2; e1] eqs is [a; b; c] = Ok [c; b] /\
  redundant_orbits id [e1; KTwice a] eqs is [a; b; c] = Err KeyError.
Proof. by vm_compute. Qed.
Print Assumptions C89_redundant.
Print Assumptions C89_unique.
Print Assumptions C89_unknown.
Print Assumptions C89_order_refuted.

(** ** C90: independents and dependents of a dependency network *)
(** Every equation is in exactly one of the two groups; a dependent equation has
    successors and follows from the independent ones; an independent equation has no
    successors or depends on itself. *)
Theorem C90_split {V} `{EqDecision V} (three : V -> bool) (ord : list V -> list V) (net : dict V (list V)) : (forall l, ord l ≡ₚ l) -> sound_net three net ->
  exists L I D, sccs net = Ok L /\ independents_and_dependents three ord L net = Ok (I, D) /\ I ++ D ≡ₚ dkeys net /\
    (forall v, v ∈ D -> derived net I v /\ dget net v <> Some []) /\ (forall v, v ∈ I -> dget net v = Some [] \/ on_cycle net v).
Proof. intros Ho Hs. by apply net_split. Qed.
(** Without cycles the independent equations are those without successors. *)
Theorem C90_acyclic {V} `{EqDecision V} (three : V -> bool) (ord : list V -> list V) (net : dict V (list V)) L I D : (forall l, ord l ≡ₚ l) -> sound_net three net ->
  (forall v, ~ on_cycle net v) -> sccs net = Ok L -> independents_and_dependents three ord L net = Ok (I, D) ->
  forall v, v ∈ I <-> dget net v = Some [].
Proof.
  intros Ho Hs Hc EL E. destruct (net_split three ord Ho net Hs) as (L' & I' & D' & EL' & E' & Hp & HD & HI). assert (L' = L) as -> by congruence.
  assert (I' = I /\ D' = D) as [-> ->] by (split; congruence). intros v. split.
  - intros Hv. destruct (HI v Hv) as [?|?]; [done|]. by destruct (Hc v).
  - intros Hv. assert (v ∈ dkeys net) as Hk by (apply elem_of_dkeys; by eexists). rewrite <- Hp in Hk. apply elem_of_app in Hk as [?|HvD]; [done|]. by destruct (proj2 (HD v HvD)).
Qed.
(** [all_inds_and_deps] tries every choice of one dependency set per equation and
    returns a split with the most dependent equations; NameError when no choice has a
    dependent equation. *)
Theorem C90_best {V} `{EqDecision V} (three : V -> bool) (ord : list V -> list V) (alts : dict V (list (list V))) : (forall l, ord l ≡ₚ l) -> NoDup (dkeys alts) ->
  (forall net, chosen alts net -> sound_net three net) ->
  (all_inds_and_deps three ord alts = Err NameError /\
     forall net L I D, chosen alts net -> sccs net = Ok L -> independents_and_dependents three ord L net = Ok (I, D) -> D = []) \/
  exists I D net L, all_inds_and_deps three ord alts = Ok (I, D, net) /\ chosen alts net /\ sccs net = Ok L /\ independents_and_dependents three ord L net = Ok (I, D) /\ D <> [] /\
    forall net' L' I' D', chosen alts net' -> sccs net' = Ok L' -> independents_and_dependents three ord L' net' = Ok (I', D') -> length D' <= length D.
Proof.
  intros Ho Hn Hs. destruct (all_ok three ord Ho alts Hn Hs) as [[E Hall]|(I & D & net & E & Hch & (L & EL & Esp) & HD & Hmax)].
  - left. split; [done|]. intros net L I D Hch EL Esp. apply (Hall net I D Hch). by exists L.
  - right. exists I, D, net, L. split_and!; try done. intros net' L' I' D' Hch' EL' Esp'. apply (Hmax net' I' D' Hch'). by exists L'.
Qed.
(** The number of independent equations can depend on the order in which a set is iterated. *)
Theorem C90_order_refuted : exists (net : dict nat (list nat)) L I D I' D', sound_net (fun _ => false) net /\ sccs net = Ok L /\
  independents_and_dependents (fun _ => false) id L net = Ok (I, D) /\ independents_and_dependents (fun _ => false) (@rev nat) L net = Ok (I', D') /\ length I <> length I'.
Proof.
  exists [(1, [2; 3]); (2, [1]); (3, [1; 2])]. do 5 eexists. split; [|split; [by vm_compute|split; [by vm_compute|split; [by vm_compute|by vm_compute]]]].
  split; [apply (bool_decide_unpack _); by vm_compute|]. split; [|done]. intros v us u E Hu.
  assert (Forall (fun us => Forall (fun u => u ∈ [1; 2; 3]) us) ([[2; 3]; [1]; [1; 2]])) as HF by (apply (bool_decide_unpack _); by vm_compute).
  rewrite Forall_forall in HF. specialize (HF us). rewrite Forall_forall in HF. apply HF; [|done].
  apply dget_Some_elem in E. do 2 (apply elem_of_cons in E as [[= -> ->]|E]; [set_solver|]). apply elem_of_list_singleton in E as [= -> ->]. set_solver.
Qed.
Example C90_example : let alts := [(1, [[2; 5]; [3]]); (2, [[1; 3]]); (3, []); (5, [[3; 1]])] in
  NoDup (dkeys alts) /\ choices alts = [[(1, [2; 5]); (2, [1; 3]); (3, []); (5, [3; 1])]; [(1, [3]); (2, [1; 3]); (3, []); (5, [3; 1])]] /\
  all_inds_and_deps (fun v => bool_decide (v = 5)) id alts = Ok ([3], [1; 5; 2], [(1, [3]); (2, [1; 3]); (3, []); (5, [3; 1])]) /\
  all_inds_and_deps (fun v => bool_decide (v = 5)) id [(1, []); (2, [])] = Err NameError.
Proof. cbn zeta. split; [apply (bool_decide_unpack _); by vm_compute|by vm_compute]. Qed.
(** The hypotheses of [C90_best] hold for it. *)
Definition sound_check {V} `{EqDecision V} (three : V -> bool) (net : dict V (list V)) : bool :=
  bool_decide (NoDup (dkeys net)) && forallb (fun kv : V * list V => forallb (fun u => bool_decide (u ∈ dkeys net)) (kv.2) &&
    (negb (three (kv.1)) || (negb (bool_decide (kv.2 = [])) && bool_decide (kv.1 ∉ kv.2)))) net.
Lemma sound_checked {V} `{EqDecision V} (three : V -> bool) (net : dict V (list V)) : sound_check three net = true -> sound_net three net.
Proof.
  unfold sound_check. rewrite andb_true_iff, forallb_forall. intros [H1 H2]. apply bool_decide_eq_true in H1. split; [done|].
  assert (forall v us, dget net v = Some us -> forallb (fun u => bool_decide (u ∈ dkeys net)) us = true /\ (three v = true -> us <> [] /\ v ∉ us)) as H.
  { intros v us E%dget_Some_elem. specialize (H2 (v, us) (proj1 (elem_of_list_In _ _) E)). cbn [fst snd] in H2. apply andb_true_iff in H2 as [H2 H3]. split; [done|].
    intros Ht. rewrite Ht in H3. cbn in H3. apply andb_true_iff in H3 as [H3 H4]. apply negb_true_iff, bool_decide_eq_false in H3. apply bool_decide_eq_true in H4. done. }
  split; [|intros v us Ht E; by apply (proj2 (H v us E))]. intros v us u E Hu. destruct (H v us E) as [Hf _]. rewrite forallb_forall in Hf.
  specialize (Hf u (proj1 (elem_of_list_In _ _) Hu)). by apply bool_decide_eq_true in Hf.
Qed.
Example C90_ready : let alts := [(1, [[2; 5]; [3]]); (2, [[1; 3]]); (3, []); (5, [[3; 1]])] in
  forall net, chosen alts net -> sound_net (fun v => bool_decide (v = 5)) net.
Proof.
  intros alts net Hc. apply choices_ok in Hc; [|apply (bool_decide_unpack _); by vm_compute]. apply sound_checked.
  assert (forallb (sound_check (fun v => bool_decide (v = 5))) (choices alts) = true) as H by (by vm_compute). rewrite forallb_forall in H. by apply H, elem_of_list_In.
Qed.
Example C90_acyclic_ready : let net := [(1, [2; 3]); (2, [3]); (3, [])] in sound_net (fun _ => false) net /\ (forall v, ~ on_cycle net v) /\
  sccs net = Ok [[3]; [2]; [1]] /\ independents_and_dependents (fun _ => false) id [[3]; [2]; [1]] net = Ok ([3], [2; 1]).
Proof.
  cbn zeta. split; [apply sound_checked; by vm_compute|]. split; [|by vm_compute]. intros v Hv.
  assert (forall x y, tc (arc [(1, [2; 3]); (2, [3]); (3, [])]) x y -> x < y) as H; [|specialize (H v v Hv); lia].
  intros x y. induction 1 as [x y Ha|x y z Ha _ IH]; [|assert (x < y); [|lia]]; destruct Ha as (us & E & Hu); apply dget_Some_elem in E;
    repeat (apply elem_of_cons in E as [[= -> ->]|E]; [set_unfold; lia|]); by apply elem_of_nil in E.
Qed.
Print Assumptions C90_split.
Print Assumptions C90_acyclic.
Print Assumptions C90_best.
Print Assumptions C90_order_refuted.

(** ** C91: independent orbit equations *)
(** [find_key] finds the equation for two orbits, in either order, iff there is one. *)
Theorem C91_find_key {V} (o1 o2 : orbit) (eqs : dict eqkey V) :
  (forall k, find_key o1 o2 eqs = Some k -> k ∈ dkeys eqs /\ orbits2 k ≡ₚ [o1; o2]) /\
  (find_key o1 o2 eqs = None -> forall k, k ∈ dkeys eqs -> ~ orbits2 k ≡ₚ [o1; o2]).
Proof. split; [intros k; apply find_key_some|intros H k; by apply find_key_none]. Qed.
(** [find_equations]: all products or none. *)
Theorem C91_find_equations set_eqs o eq os : dget set_eqs eq = Some os -> exists ks, find_equations o (Some eq) set_eqs = Ok ks /\
  ((exists p, p ∈ os /\ find_key o p set_eqs = None) -> ks = []) /\
  ((forall p, p ∈ os -> is_Some (find_key o p set_eqs)) -> forall k, k ∈ ks <-> exists p, p ∈ os /\ find_key o p set_eqs = Some k).
Proof.
  intros E. cbn [find_equations]. rewrite E. eexists. split; [done|]. split.
  - intros (p & Hp & En). by eapply find_loop_none.
  - intros H k. rewrite find_loop_ok by done. rewrite elem_of_nil. tauto.
Qed.
(** [eqs_in_layers] and [orbit_in_layers]. *)
Lemma nets_sub_ok (nets : dict nat (list mpx)) layers o : NoDup (dkeys nets) -> o.1 ∈ nets_sub nets layers <-> on_layers nets layers o.
Proof.
  intros Hn. unfold nets_sub, on_layers. rewrite elem_of_list_bind. split.
  - intros ([k l] & H & Hin). cbn [fst snd] in H. apply elem_of_list_omap in H as ([i g] & Hig & H). apply elem_of_lookup_imap in Hig as (i' & g' & [= <- <-] & Hl).
    cbn [fst snd] in H. destruct (set_eqb (layers_of g) layers) eqn:Es; [|done]. injection H as H. destruct o as [[n j] v]. cbn in *. injection H as <- <-.
    exists l, g. split; [by apply dget_elem_of|]. split; [done|]. by apply set_eqb_true.
  - intros (l & g & E & Hl & Hs). exists (o.1.1, l). split; [|by apply dget_Some_elem]. cbn [fst snd]. apply elem_of_list_omap. exists (o.1.2, g).
    split; [apply elem_of_lookup_imap; by exists (o.1.2), g|]. cbn [fst snd]. apply set_eqb_true in Hs. rewrite Hs. by destruct o as [[? ?] ?].
Qed.
Theorem C91_layers {V} (nets : dict nat (list mpx)) layers (eqs : dict eqkey V) : NoDup (dkeys nets) ->
  (forall k v, (k, v) ∈ eqs_in_layers nets layers eqs <-> (k, v) ∈ eqs /\ on_layers nets layers (head_orbit k)) /\
  eqs_in_layers nets layers eqs `sublist_of` eqs /\
  (forall o b, orbit_in_layers nets layers o = Ok b -> b = true <-> on_layers nets layers o).
Proof.
  intros Hn. split; [|split].
  - intros k v. unfold eqs_in_layers. rewrite elem_of_list_filter. cbn [fst]. rewrite nets_sub_ok by done. tauto.
  - apply filt_sub.
  - intros o b. unfold orbit_in_layers, net_at, on_layers. destruct (dget nets (o.1.1)) as [l|] eqn:E; [|done]. destruct (l !! o.1.2) as [g|] eqn:Eg; [|done].
    cbn [rbind]. intros [= <-]. rewrite set_eqb_true. split.
    + intros H. by exists l, g.
    + intros (l' & g' & E' & Eg' & H). assert (g' = g) as -> by congruence. done.
Qed.
(** The equations that are looked at for the layers [comb]. *)
Definition sub_eqs (nets : dict nat (list mpx)) (n_l : nat) (layers comb : list name) (eqs : dict eqkey (list orbit)) : dict eqkey (list orbit) :=
  if decide (length layers = n_l) then eqs else eqs_in_layers nets comb eqs.
Lemma sub_eqs_nodup nets n_l layers comb eqs : NoDup (dkeys eqs) -> NoDup (dkeys (sub_eqs nets n_l layers comb eqs)).
Proof.
  intros Hn. unfold sub_eqs. destruct (decide _); [done|]. by apply filt_nodup.
Qed.
Lemma run_parts ord ordk n n_l layers nets ol eqs I : independent_equations ord ordk n n_l layers nets ol eqs = Ok I ->
  (forall comb, comb ∈ combs n_l layers -> exists J, layer_part ord ordk n nets ol comb (sub_eqs nets n_l layers comb eqs) = Ok J /\ forall v, v ∈ J -> v ∈ I) /\
  (forall v, v ∈ I -> exists comb J, comb ∈ combs n_l layers /\ layer_part ord ordk n nets ol comb (sub_eqs nets n_l layers comb eqs) = Ok J /\ v ∈ J).
Proof.
  unfold independent_equations. assert (forall l acc, rfold (fun inds comb => let eqs_sub := if decide (length layers = n_l) then eqs else eqs_in_layers nets comb eqs in
    let? r := layer_part ord ordk n nets ol comb eqs_sub in Ok (sunion inds r)) acc l = Ok I ->
    (forall v, v ∈ acc -> v ∈ I) /\ (forall comb, comb ∈ l -> exists J, layer_part ord ordk n nets ol comb (sub_eqs nets n_l layers comb eqs) = Ok J /\ forall v, v ∈ J -> v ∈ I) /\
    (forall v, v ∈ I -> v ∈ acc \/ exists comb J, comb ∈ l /\ layer_part ord ordk n nets ol comb (sub_eqs nets n_l layers comb eqs) = Ok J /\ v ∈ J)) as H.
  { induction l as [|comb l IH]; intros acc; cbn [rfold].
    - intros [= ->]. split; [done|]. split; [intros comb Hc; by apply elem_of_nil in Hc|by left].
    - cbn zeta. fold (sub_eqs nets n_l layers comb eqs). destruct (layer_part ord ordk n nets ol comb (sub_eqs nets n_l layers comb eqs)) as [J|] eqn:EJ; [|done]. cbn [rbind]. intros E.
      destruct (IH _ E) as (H1 & H2 & H3). split_and!.
      + intros v Hv. apply H1, elem_of_sunion. by left.
      + intros c [->|Hc]%elem_of_cons; [|by apply H2]. exists J. split; [done|]. intros v Hv. apply H1, elem_of_sunion. by right.
      + intros v [Hv|(c & J' & Hc & EJ' & Hv)]%H3; [|right; exists c, J'; split; [by right|done]]. apply elem_of_sunion in Hv as [?|Hv]; [by left|].
        right. exists comb, J. split; [by left|done]. }
  intros E. destruct (H _ _ E) as (_ & H2 & H3). split; [done|]. intros v [Hv|?]%H3; [by apply elem_of_nil in Hv|done].
Qed.
(** The equations returned are enough: for the layers of every graphlet there is a
    dependency network in which every step has a reason and every equation on these layers
    follows from the returned ones. *)
Theorem C91_enough ord ordk n n_l layers nets ol eqs I comb : (forall l, ord l ≡ₚ l) -> (forall l, ordk l ≡ₚ l) -> NoDup (dkeys eqs) -> n <> 3 ->
  independent_equations ord ordk n n_l layers nets ol eqs = Ok I -> comb ∈ combs n_l layers ->
  exists net, (forall v us, dget net v = Some us -> us <> [] -> justified (sub_eqs nets n_l layers comb eqs) v us) /\
    forall k, k ∈ dkeys (sub_eqs nets n_l layers comb eqs) -> derived net I (DEq k).
Proof.
  intros Ho Hk Hn H3 E Hc. destruct (proj1 (run_parts _ _ _ _ _ _ _ _ _ E) comb Hc) as (J & EJ & HJ).
  destruct (layer_ok ord ordk Ho Hk n nets ol comb _ (sub_eqs_nodup nets n_l layers comb eqs Hn) J H3 EJ) as (net & H1 & _ & H2 & H4 & _).
  exists net. split; [done|]. intros k Hk'. eapply derived_mono; [exact HJ|]. by apply H4, H2.
Qed.
(** For one combination of layers: an equation returned has no dependencies or depends on itself, and
    something is left out. *)
Theorem C91_part ord ordk n layers nets ol eqs I : (forall l, ord l ≡ₚ l) -> (forall l, ordk l ≡ₚ l) -> NoDup (dkeys eqs) -> n <> 3 ->
  layer_part ord ordk n nets ol layers eqs = Ok I ->
  exists net, (forall v us, dget net v = Some us -> us <> [] -> justified eqs v us) /\ (forall v, v ∈ I -> v ∈ dkeys net) /\
    (forall k, k ∈ dkeys eqs -> DEq k ∈ dkeys net) /\ (forall v, v ∈ dkeys net -> derived net I v) /\ (exists v, v ∈ dkeys net /\ v ∉ I) /\
    (forall v, v ∈ I -> dget net v = Some [] \/ on_cycle net v) /\ NoDup I.
Proof. intros Ho Hk Hn H3. by apply layer_ok. Qed.
(** Three nodes: all equations on the layers of the graphlets are returned. *)
Theorem C91_three_nodes ord ordk n_l layers nets ol eqs : NoDup (dkeys nets) -> NoDup (dkeys eqs) ->
  (forall k o, k ∈ dkeys eqs -> o ∈ orbits2 k -> o.1.1 = 2) ->
  exists I, independent_equations ord ordk 3 n_l layers nets ol eqs = Ok I /\
    forall v, v ∈ I <-> exists k comb, v = DEq k /\ k ∈ dkeys eqs /\ comb `sublist_of` layers /\ length comb = n_l /\ (length layers = n_l \/ on_layers nets comb (head_orbit k)).
Proof.
  intros Hnn Hn H2.
  assert (forall comb, exists J, layer_part ord ordk 3 nets ol comb (sub_eqs nets n_l layers comb eqs) = Ok J /\
    forall v, v ∈ J <-> exists k, v = DEq k /\ k ∈ dkeys eqs /\ (length layers = n_l \/ on_layers nets comb (head_orbit k))) as Hpart.
  { intros comb. unfold layer_part. destruct (independent_ok _ (sub_eqs_nodup nets n_l layers comb eqs Hn)) as (ind & und & E & Hp & Hi). rewrite E.
    rewrite decide_True by done. eexists. split; [done|]. intros v.
    assert (forall k os, (k, os) ∈ sub_eqs nets n_l layers comb eqs <-> (k, os) ∈ eqs /\ (length layers = n_l \/ on_layers nets comb (head_orbit k))) as Hsub.
    { intros k os. unfold sub_eqs. destruct (decide (length layers = n_l)) as [El|El]; [naive_solver|]. rewrite (proj1 (C91_layers nets comb eqs Hnn) k os). naive_solver. }
    rewrite elem_of_list_fmap. split.
    - intros (k & -> & Hk). exists k. split; [done|]. assert (k ∈ dkeys (sub_eqs nets n_l layers comb eqs)) as Hk' by (rewrite <- Hp; apply elem_of_app; by left).
      apply elem_of_list_fmap in Hk' as ([k0 os] & -> & [Hin Hl]%Hsub). split; [|done]. by apply elem_of_list_fmap_1_alt with (k0, os).
    - intros (k & -> & Hk & Hl). exists k. split; [done|]. pose proof Hk as Hk0. apply elem_of_list_fmap in Hk as ([k0 os] & -> & Hin).
      apply (Hi k0 os). { by apply Hsub. } left. intros o Ho. apply (H2 k0 o); [done|]. destruct k0 as [a b|a]; cbn in *; [done|]. apply elem_of_list_singleton in Ho as ->. by left. }
  unfold independent_equations. set (f := fun inds comb => _).
  assert (forall l acc, exists I, rfold f acc l = Ok I /\ forall v, v ∈ I <-> v ∈ acc \/ exists comb k, comb ∈ l /\ v = DEq k /\ k ∈ dkeys eqs /\ (length layers = n_l \/ on_layers nets comb (head_orbit k))) as H.
  { induction l as [|comb l IH]; intros acc; cbn [rfold].
    - exists acc. split; [done|]. intros v. split; [by left|]. intros [?|(c & k & Hc & _)]; [done|by apply elem_of_nil in Hc].
    - unfold f at 1. cbn zeta. fold (sub_eqs nets n_l layers comb eqs). destruct (Hpart comb) as (J & -> & HJ). cbn [rbind]. destruct (IH (sunion acc J)) as (I & EI & HI).
      exists I. split; [done|]. intros v. rewrite HI, elem_of_sunion, HJ. split.
      + intros [[?|(k & H)]|(c & k & Hc & H)]; [by left|right; exists comb, k; split; [by left|done]|right; exists c, k; split; [by right|done]].
      + intros [?|(c & k & [->|Hc]%elem_of_cons & H)]; [auto|left; right; by exists k|right; by exists c, k]. }
  destruct (H (combs n_l layers) []) as (I & EI & HI). exists I. split; [done|]. intros v. rewrite HI, elem_of_nil. split.
  - intros [[]|(c & k & [Hc1 Hc2]%elem_of_combs & -> & Hk & Hl)]. by exists k, c.
  - intros (k & c & -> & Hk & Hc1 & Hc2 & Hl). right. exists c, k. split; [by apply elem_of_combs|done].
Qed.
(** Four nodes, two different two-node orbits on the same layers: there never is a result. *)
Theorem C91_four_nodes_refuted ord ordk n nets ol layers eqs a b os I : NoDup (dkeys nets) -> NoDup (dkeys eqs) -> 4 <= n ->
  a <> b -> a.1.1 = 2 -> b.1.1 = 2 -> KPair a b ∈ dkeys eqs -> KPair b a ∉ dkeys eqs ->
  dget ol 2 = Some os -> (forall o, o ∈ os -> o.1.1 = 2) -> b ∈ os -> on_layers nets layers b ->
  layer_part ord ordk n nets ol layers eqs <> Ok I.
Proof.
  intros Hnn Hn H4 Hab Ha Hb Hin Hout Hos H2 Hbo (l & g & El & Eg & Hs). eapply (layer_fails ord ordk n nets ol layers eqs a b os I); try done.
  unfold orbit_in_layers, net_at. rewrite El, Eg. cbn [rbind]. apply set_eqb_true in Hs. by rewrite Hs.
Qed.
(** One layer and four nodes: [a] is the edge, [q] and [t] the middle of a path and the triangle; the hypotheses of [C91_enough] hold and there is a result. *)
Definition eg_net (ls : list name) : mpx := pset_slices (new_mpx [CNone None] false 0 false) [[NInt 0; NInt 1]; ls].
Example C91_example : let a : orbit := (2, 0, NInt 0) in let q : orbit := (3, 0, NInt 0) in let p : orbit := (3, 0, NInt 1) in let t : orbit := (3, 1, NInt 0) in
  let x : orbit := (4, 0, NInt 0) in let y : orbit := (4, 1, NInt 0) in let z : orbit := (4, 2, NInt 0) in
  let nets := [(2, [eg_net [NStr "x"]])] in let ol := [(2, [a]); (3, [q; p; t])] in
  let eqs := [(KTwice a, [q; t]); (KPair q a, [x; y]); (KPair p a, [x; z]); (KPair t a, [y; x])] in
  NoDup (dkeys eqs) /\
  independent_equations id id 4 1 [NStr "x"] nets ol eqs = Ok [DEq (KPair p a); DEq (KTwice a); DEq (KPair q a); DEq (KPair t a)] /\
  (let? d := eq_network nets eqs [KPair q a; KPair t a] 4 in Ok (dget d (DThree a a a), dget d (DEq (KPair q a)))) =
    Ok (Some [[DEq (KPair q a); DEq (KPair t a); DEq (KTwice a)]], Some [[DEq (KTwice a); DEq (KPair t a); DThree a a a]]) /\
  independent_equations id id 3 1 [NStr "x"] nets ol [(KTwice a, [q; t])] = Ok [DEq (KTwice a)].
Proof. cbn zeta. split; [apply (bool_decide_unpack _); by vm_compute|by vm_compute]. Qed.
(** Two layers and two two-node graphlets on them: NameError. *)
Example C91_fails : let a : orbit := (2, 0, NInt 0) in let b : orbit := (2, 1, NInt 0) in let q : orbit := (3, 0, NInt 0) in
  let nets := [(2, [eg_net [NStr "x"; NStr "y"]; eg_net [NStr "x"; NStr "y"]])] in let ol := [(2, [a; b]); (3, [q])] in let eqs := [(KTwice a, [q]); (KPair a b, [q])] in
  NoDup (dkeys nets) /\ NoDup (dkeys eqs) /\ KPair b a ∉ dkeys eqs /\ on_layers nets [NStr "x"; NStr "y"] b /\
  independent_equations id id 4 2 [NStr "x"; NStr "y"] nets ol eqs = Err NameError.
Proof.
  cbn zeta. split; [apply (bool_decide_unpack _); by vm_compute|]. split; [apply (bool_decide_unpack _); by vm_compute|]. split; [apply (bool_decide_unpack _); by vm_compute|].
  split; [|by vm_compute]. do 2 eexists. split; [done|]. split; [done|]. done.
Qed.
Print Assumptions C91_find_key.
Print Assumptions C91_find_equations.
Print Assumptions C91_layers.
Print Assumptions C91_enough.
Print Assumptions C91_part.
Print Assumptions C91_three_nodes.
Print Assumptions C91_four_nodes_refuted.
