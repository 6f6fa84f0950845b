(** * Property C99: the networks behind the terms of the orbit equations *)
From stdpp Require Import prelude.
From Coq Require Import QArith.
From Verif Require Import Base Net NetSpec NetHist NetIter NetEdges Supra MpxSpec MpxFacts MpxHist MpxIter MpxTrans TransFacts2 MpxBuild PropsMpx MpxRelabel PropsMpxRelabel MpxSub PropsMpxEq MpxEdges PropsMpxEdges Samp SampFacts Graphlet GraphletSpec PartFacts
  Isom MpxIsom IsomSpec PropsIsom PropsIsomMpx EnumSpec EnumNet Enum EnumFacts PropsEnum OrbitCount CountSpec CountFacts CountCat OrbitEq EqSpec EqFacts OrbitGen PropsIndep PropsCount PropsOrbGen PropsComb PropsMerge.
Local Open Scope nat_scope.

(** [p] is obtained by gluing the graphlet [g2] at [y] to the graphlet [g1] at [x] and then merging [k] pairs of nodes; [both] are
    the nodes that come from both graphlets. *)
Inductive overlapped (c : coupling) (al : option (list nat)) (g1 g2 : mpx) (x y : name) : nat -> mpx -> list name -> Prop :=
| ov_glue s q : ((forall l, s l = l) \/ (al <> Some [0] /\ cyclic g2 s)) -> plain c q -> glued g1 g2 x y s q -> overlapped c al g1 g2 x y 0 q [x]
| ov_merge k p both u v q : overlapped c al g1 g2 x y k p both -> across p both u v -> alike p both u v -> plain c q -> joined p u v q ->
    overlapped c al g1 g2 x y (S k) q (both ++ [u]).
(** The nodes of the graphlets are natural numbers and their links have weight 1; the orbits are those of nodes of the graphlets. *)
Record numbered (c : coupling) (layers : list name) (n_l : nat) (nets : dict nat (list mpx)) (auts : dict orbit name) : Prop := {
  nu_net : forall k j g, graphlet_at nets k j g -> plain c g /\ on_layers layers n_l g /\ unit_weights g;
  nu_nodes : forall k j g u, graphlet_at nets k j g -> mhas g 0 u -> exists z, u = NInt z /\ (0 <= z)%Z;
  nu_orbit : forall o : orbit, listed auts o -> exists g, graphlet_at nets (o.1.1) (o.1.2) g /\ mhas g 0 (o.2) }.

Section thm.
Context {T : Type} `{EqDecision T} (structure : auxg -> auxg -> bool) (mapping : auxg -> auxg -> dict nat nat) (canon : dict nat nat -> list (nat * nat) -> T).
Context (c : coupling) (layers : list name) (n_l : nat) (al : option (list nat)) (nets : dict nat (list mpx)) (invs : @invariants T) (auts : dict orbit name).
Context (Hback : exact_backend structure) (Hcanon : exact_canon canon) (Hen : enumerable c layers al) (Hnum : numbered c layers n_l nets auts).
Notation orb := (orbit_of structure mapping canon al nets invs auts).
Notation coef := (coefficient structure mapping canon al nets invs auts).
Definition ready (p : mpx) (both : list name) : Prop := plain c p /\ on_layers layers n_l p /\ (forall u, mhas p 0 u -> exists z, u = NInt z) /\
  (forall u, u ∈ both -> mhas p 0 u) /\ (forall u v l, across p both u v -> ~ tied p l u v).
Lemma same_on p q : on_layers layers n_l p -> (forall l, mhas q 1 l <-> mhas p 1 l) -> on_layers layers n_l q.
Proof. intros (t & [Nt Ht] & Hln & Hin) Hq. exists t. split; [split; [done|]|done]. intros l. by rewrite Ht, Hq. Qed.
Lemma ov_ready g1 g2 x y k p both : plain c g1 -> on_layers layers n_l g1 -> plain c g2 -> (forall u, mhas g1 0 u -> exists z, u = NInt z /\ (0 <= z)%Z) -> mhas g1 0 x ->
  overlapped c al g1 g2 x y k p both -> ready p both.
Proof.
  intros P1 L1 P2 Hpos Hx. induction 1 as [s q Hs Pq Gq|k p both u v q _ (Pp & Lp & Ip & Bp & Up) Hac Hal Pq Jq].
  - pose proof Gq as (f & F0 & _ & F2 & Q0 & Q1 & Qt). split; [done|]. split; [by eapply same_on|]. split; [|split].
    + intros w [Hw|(l & u & w' & Ht & ->)]%Q0; [apply Hpos in Hw as (z & -> & _); eauto|]. destruct (pl_net _ _ P2) as [h Hh]. apply (en_tied _ _ _ Hh) in Ht as (Hu & _).
      destruct (decide (u = y)) as [->|Hne]; [rewrite F0; apply Hpos in Hx as (z & -> & _); eauto|]. destruct (F2 u Hu Hne) as (_ & z & -> & _). eauto.
    + intros w ->%elem_of_list_singleton. apply Q0. by left.
    + intros w w' l. apply (C98_untied_start c g1 g2 x y s); try done. intros z Hz. apply Hpos in Hz as (z' & [= ->] & ?). done.
  - pose proof Jq as (J0 & J1 & _). split; [done|]. split; [by eapply same_on|]. split; [intros w [? _]%J0; auto|]. split.
    + intros w Hw. apply J0. destruct Hac as (Hu & _ & _ & Hv & a & b & -> & -> & ? & ?). rewrite elem_of_app, elem_of_list_singleton in Hw. destruct Hw as [Hw| ->]; [split; [auto|by intros ->]|split; [done|]]. intros [= ->]. lia.
    + intros w w' l. by apply (C98_untied_step p both u v).
Qed.
Lemma rounds_ov g1 g2 x y : (forall k p both, overlapped c al g1 g2 x y k p both -> ready p both) -> forall k j level acc r,
  (forall m, m ∈ level -> overlapped c al g1 g2 x y j (m.1) (m.2)) -> merge_rounds structure canon al k level acc = Ok r ->
  forall m, m ∈ r -> m ∈ acc \/ exists i, i <= j + k /\ overlapped c al g1 g2 x y i (m.1) (m.2).
Proof using Hback Hcanon Hen.
  intros Hr. induction k as [|k IH]; intros j level acc r Hl; cbn [merge_rounds]; [intros [= <-]; by left|]. destruct (rmapM _ level) as [ls|] eqn:E; cbn [rbind]; [|done].
  assert (forall m, m ∈ concat ls -> overlapped c al g1 g2 x y (S j) (m.1) (m.2)) as Hls.
  { clear IH. revert ls E. induction level as [|[p both] level IH]; intros ls; cbn [rmapM]; [intros [= <-] m Hm; by apply elem_of_nil in Hm|]. cbn [fst snd].
    specialize (Hl (p, both) ltac:(left)) as Hp. destruct (Hr _ _ _ Hp) as (Pp & Lp & Ip & Bp & Up). cbn [fst snd] in *.
    destruct (C98_merge structure canon c layers n_l al p both Hback Hcanon Hen Pp Lp Ip Bp) as (ms & -> & Hms & _); [intros u v l; apply Up|]. cbn [rbind].
    destruct (rmapM _ level) as [ls'|]; cbn [rbind]; [|done]. intros [= <-] m. cbn [concat]. intros [Hm|Hm]%elem_of_app; [|apply (IH ltac:(intros; apply Hl; by right) _ eq_refl _ Hm)].
    destruct m as [q b]. destruct (Hms q b Hm) as (u & v & Hac & Ha & -> & Pq & Jq & _). cbn [fst snd]. by eapply ov_merge. }
  intros Er m Hm. destruct (IH (S j) _ _ _ Hls Er m Hm) as [[?|Hin]%elem_of_app|(i & ? & ?)]; [by left|right; exists (S j); split; [lia|by apply Hls]|right; exists i; split; [lia|done]].
Qed.
Lemma terms a b rhs : right_side structure mapping canon al nets invs auts a b = Ok (Some rhs) ->
  exists cs merged, combine_orbits canon al nets a b = Ok (Some cs) /\
    merge_rounds structure canon al (a.1.1 + b.1.1 - 1 - (Nat.max (a.1.1) (b.1.1) + 1)) ((fun q => (q, [a.2])) <$> cs) ((fun q => (q, [a.2])) <$> cs) = Ok merged /\
    forall o q, dget rhs o = Some q -> exists net p both, (p, both) ∈ merged /\ coef (a.2) both a b net = Ok q /\ orb (a.2) net = Ok o /\
      (net = p \/ exists l, add_possible_edges both p = Ok l /\ net ∈ l).
Proof.
  intros Er. unfold right_side in Er. destruct (combine_orbits canon al nets a b) as [[cs|]|]; cbn [rbind] in Er; [|done..].
  destruct (merge_rounds _ _ _ _ _ _) as [merged|] eqn:Em; cbn [rbind] in Er; [|done]. exists cs, merged. split; [done|]. split; [exact Em|].
  destruct (rmapM _ merged) as [added|] eqn:Ead; cbn [rbind] in Er; [|done].
  assert (forall m, m ∈ merged ++ concat added -> exists p both, (p, both) ∈ merged /\ m.2 = both /\ (m.1 = p \/ exists l, add_possible_edges both p = Ok l /\ m.1 ∈ l)) as Hsrc.
  { intros m [Hm|Hm]%elem_of_app; [exists (m.1), (m.2); split; [by destruct m|]; auto|]. clear -Ead Hm. revert added Ead Hm. induction merged as [|[p both] merged IH]; intros added; cbn [rmapM]; [intros [= <-] Hm; by apply elem_of_nil in Hm|].
    cbn [fst snd]. destruct (add_possible_edges both p) as [l|] eqn:E; cbn [rbind]; [|done]. destruct (rmapM _ merged) as [ad|]; cbn [rbind]; [|done]. intros [= <-]. cbn [concat]. intros [Hm|Hm]%elem_of_app.
    - apply elem_of_list_fmap in Hm as (q & -> & Hq). exists p, both. split; [left|]. split; [done|]. right. by exists l.
    - destruct (IH ad eq_refl Hm) as (p' & b' & ? & ?). exists p', b'. split; [by right|done]. }
  destruct (rfold _ [] (merged ++ concat added)) as [reps|] eqn:Erep; cbn [rbind] in Er; [|done]. destruct (rmapM _ reps) as [coefs|] eqn:Eco; cbn [rbind] in Er; [|done].
  injection Er as <-.
  assert (forall o m, (o, m) ∈ reps -> orb (a.2) (m.1) = Ok o /\ m ∈ merged ++ concat added) as Ho.
  { revert Erep. assert (forall l, (forall m, m ∈ l -> m ∈ merged ++ concat added) -> forall (d : dict orbit (mpx * list name)), (forall o m, (o, m) ∈ d -> orb (a.2) (m.1) = Ok o /\ m ∈ merged ++ concat added) ->
      rfold (fun (d : dict orbit (mpx * list name)) m => let? o := orb (a.2) (m.1) in Ok (if din d o then d else dset d o m)) d l = Ok reps ->
      forall o m, (o, m) ∈ reps -> orb (a.2) (m.1) = Ok o /\ m ∈ merged ++ concat added) as H; [|apply H; [done|intros ? ? Hx; by apply elem_of_nil in Hx]].
    induction l as [|m l IH]; intros Hl d Hdo; [by intros [= <-]|]. cbn [rfold]. destruct (orb (a.2) (m.1)) as [o|] eqn:Eo; cbn [rbind]; [|done]. apply IH; [intros; apply Hl; by right|].
    destruct (din d o) eqn:Ed; [done|]. intros o' m' Hin. assert ((o', m') ∈ d \/ (o', m') = (o, m)) as [Hd|[= -> ->]]; [|by apply Hdo|split; [done|apply Hl; left]].
    clear -Hin. induction d as [|[k v] d IH]; cbn in Hin; [apply elem_of_list_singleton in Hin; by right|]. destruct (decide _) as [Hk|Hk] in Hin.
    - subst. apply elem_of_cons in Hin as [?|?]; [by right|left; by right].
    - apply elem_of_cons in Hin as [->|Hin]; [left; left|]. destruct (IH Hin); [left; by right|by right]. }
  assert (forall o q, (o, q) ∈ coefs -> exists m, (o, m) ∈ reps /\ coef (a.2) (m.2) a b (m.1) = Ok q) as Hc.
  { clear -Eco. revert coefs Eco. induction reps as [|[o m] reps IH]; intros coefs; cbn [rmapM].
    - intros [= <-] ? ? H. by apply elem_of_nil in H.
    - cbn [fst snd]. destruct (coefficient _ _ _ _ _ _ _ _ _ _ _ _) as [q|] eqn:Eq; cbn [rbind]; [|done]. destruct (rmapM _ reps) as [cs|]; cbn [rbind]; [|done]. intros [= <-]. specialize (IH cs eq_refl).
      intros o' q' [[= -> ->]|H]%elem_of_cons; [exists m; split; [left|done]|]. destruct (IH o' q' H) as (m' & ? & ?). exists m'. split; [by right|done]. }
  intros o q Hq. apply PropsIndep.dget_Some_elem in Hq. apply elem_of_list_filter in Hq as [_ Hq]. destruct (Hc o q Hq) as (m & Hm & Em'). destruct (Ho o m Hm) as [Eo Hin]. destruct (Hsrc m Hin) as (p & both & Hp & E2 & Hn).
  exists (m.1), p, both. subst both. done.
Qed.
Lemma rounds_all k : forall level acc r, merge_rounds structure canon al k level acc = Ok r -> exists lv : nat -> list (mpx * list name),
  lv 0 = level /\ (forall m, m ∈ acc -> m ∈ r) /\ (forall i m, i < k -> m ∈ lv (S i) -> m ∈ r) /\
  forall i m, i < k -> m ∈ lv i -> exists ms, merge_nodes structure canon al (m.2) (m.1) = Ok ms /\ forall m', m' ∈ ms -> m' ∈ lv (S i).
Proof.
  induction k as [|k IH]; intros level acc r; cbn [merge_rounds].
  - intros [= <-]. exists (fun _ => level). split; [done|]. split; [done|]. split; intros; lia.
  - destruct (rmapM _ level) as [ls|] eqn:E; cbn [rbind]; [|done]. intros (lv & H0 & Ha & Hr & Hs)%IH. exists (fun i => match i with 0 => level | S i => lv i end). split; [done|].
    split; [intros m Hm; apply Ha, elem_of_app; by left|]. split.
    + intros [|i] m Hi Hm; [apply Ha, elem_of_app; right; by rewrite <- H0|]. apply (Hr i); [lia|done].
    + intros [|i] m Hi Hm; [|apply Hs; [lia|done]]. rewrite H0. clear -E Hm. revert ls E. induction level as [|m0 level IH]; intros ls; cbn [rmapM]; [by apply elem_of_nil in Hm|].
      destruct (merge_nodes _ _ _ (m0.2) (m0.1)) as [ms|] eqn:E0; cbn [rbind]; [|done]. destruct (rmapM _ level) as [ls'|]; cbn [rbind]; [|done]. intros [= <-]. cbn [concat].
      apply elem_of_cons in Hm as [->|Hm]; [exists ms; split; [done|]; intros; apply elem_of_app; by left|]. destruct (IH Hm ls' eq_refl) as (ms' & ? & Hin). exists ms'. split; [done|]. intros m' Hm'. apply elem_of_app. right. by apply Hin.
Qed.
Lemma terms_all a b rhs : right_side structure mapping canon al nets invs auts a b = Ok (Some rhs) ->
  exists cs merged, combine_orbits canon al nets a b = Ok (Some cs) /\
    merge_rounds structure canon al (a.1.1 + b.1.1 - 1 - (Nat.max (a.1.1) (b.1.1) + 1)) ((fun q => (q, [a.2])) <$> cs) ((fun q => (q, [a.2])) <$> cs) = Ok merged /\
    forall p both, (p, both) ∈ merged -> exists l, add_possible_edges both p = Ok l /\ forall net, net = p \/ net ∈ l ->
      exists o q net' both', orb (a.2) net = Ok o /\ orb (a.2) net' = Ok o /\ coef (a.2) both' a b net' = Ok q /\ ((0 < q)%Q -> dget rhs o = Some q) /\ (~ (0 < q)%Q -> dget rhs o = None).
Proof.
  intros Er. unfold right_side in Er. destruct (combine_orbits canon al nets a b) as [[cs|]|]; cbn [rbind] in Er; [|done..].
  destruct (merge_rounds _ _ _ _ _ _) as [merged|] eqn:Em; cbn [rbind] in Er; [|done]. exists cs, merged. split; [done|]. split; [exact Em|].
  destruct (rmapM _ merged) as [added|] eqn:Ead; cbn [rbind] in Er; [|done].
  assert (forall p both, (p, both) ∈ merged -> exists l, add_possible_edges both p = Ok l /\ forall net, net ∈ l -> (net, both) ∈ concat added) as Hadd.
  { clear -Ead. revert added Ead. induction merged as [|[p0 b0] merged IH]; intros added; cbn [rmapM]; [intros _ ? ? Hm; by apply elem_of_nil in Hm|].
    cbn [fst snd]. destruct (add_possible_edges b0 p0) as [l|] eqn:E; cbn [rbind]; [|done]. destruct (rmapM _ merged) as [ad|]; cbn [rbind]; [|done]. intros [= <-] p both. cbn [concat]. intros [[= -> ->]|Hm]%elem_of_cons.
    - exists l. split; [done|]. intros net Hn. apply elem_of_app. left. apply elem_of_list_fmap. by exists net.
    - destruct (IH ad eq_refl p both Hm) as (l' & ? & Hl). exists l'. split; [done|]. intros net Hn. apply elem_of_app. right. by apply Hl. }
  destruct (rfold _ [] (merged ++ concat added)) as [reps|] eqn:Erep; cbn [rbind] in Er; [|done]. destruct (rmapM _ reps) as [coefs|] eqn:Eco; cbn [rbind] in Er; [|done].
  injection Er as <-.
  assert (NoDup (dkeys reps) /\ (forall o m, dget reps o = Some m -> orb (a.2) (m.1) = Ok o) /\ forall m, m ∈ merged ++ concat added -> exists o, orb (a.2) (m.1) = Ok o /\ is_Some (dget reps o)) as (Hn & Ho & Hall).
  { revert Erep. generalize (merged ++ concat added). intros l.
    assert (forall d : dict orbit (mpx * list name), NoDup (dkeys d) -> (forall o m, dget d o = Some m -> orb (a.2) (m.1) = Ok o) ->
      rfold (fun (d : dict orbit (mpx * list name)) m => let? o := orb (a.2) (m.1) in Ok (if din d o then d else dset d o m)) d l = Ok reps ->
      NoDup (dkeys reps) /\ (forall o m, dget reps o = Some m -> orb (a.2) (m.1) = Ok o) /\ (forall o, is_Some (dget d o) -> is_Some (dget reps o)) /\
      forall m, m ∈ l -> exists o, orb (a.2) (m.1) = Ok o /\ is_Some (dget reps o)) as H; [|intros E; destruct (H [] ltac:(constructor) ltac:(done) E) as (? & ? & _ & ?); done].
    induction l as [|m l IH]; intros d Hd Hdo; [intros [= <-]; split; [done|]; split; [done|]; split; [done|]; intros m Hm; by apply elem_of_nil in Hm|].
    cbn [rfold]. destruct (orb (a.2) (m.1)) as [o|] eqn:Eo; cbn [rbind]; [|done]. intros E.
    assert (is_Some (dget (if din d o then d else dset d o m) o)) as Hs. { destruct (din d o) eqn:Ed; [unfold din in Ed; by destruct (dget d o); [eexists|]|]. rewrite dget_dset_eq. by eexists. }
    apply IH in E as (E1 & E2 & E3 & E4).
    - split; [done|]. split; [done|]. split; [|intros m' [->|Hm]%elem_of_cons; [exists o; split; [done|by apply E3]|by apply E4]]. intros o' Hs'. apply E3. destruct (din d o); [done|].
      destruct (decide (o' = o)) as [->|Hne]; [done|by rewrite dget_dset_ne].
    - destruct (din d o); [done|by apply NoDup_dset].
    - destruct (din d o); [done|]. intros o' m'. destruct (decide (o' = o)) as [->|Hne]; [rewrite dget_dset_eq; by intros [= <-]|rewrite dget_dset_ne by done; apply Hdo]. }
  assert (dkeys coefs = dkeys reps /\ forall o m, (o, m) ∈ reps -> exists q, (o, q) ∈ coefs /\ coef (a.2) (m.2) a b (m.1) = Ok q) as [Hc1 Hc2].
  { clear -Eco. revert coefs Eco. induction reps as [|[o m] reps IH]; intros coefs; cbn [rmapM].
    - intros [= <-]. split; [done|]. intros ? ? H. by apply elem_of_nil in H.
    - cbn [fst snd]. destruct (coefficient _ _ _ _ _ _ _ _ _ _ _ _) as [q|] eqn:Eq; cbn [rbind]; [|done]. destruct (rmapM _ reps) as [cs|]; cbn [rbind]; [|done]. intros [= <-]. destruct (IH cs eq_refl) as [H1 H2]. split; [unfold dkeys in *; cbn; by f_equal|].
      intros o' m' [[= -> ->]|H]%elem_of_cons; [exists q; split; [left|done]|]. destruct (H2 o' m' H) as (q' & ? & ?). exists q'. split; [by right|done]. }
  intros p both Hp. destruct (Hadd p both Hp) as (l & El & Hl). exists l. split; [done|]. intros net Hnet.
  assert ((net, both) ∈ merged ++ concat added) as Hin by (apply elem_of_app; destruct Hnet as [->|?]; [by left|right; by apply Hl]).
  destruct (Hall _ Hin) as (o & Eo & m & Hm). cbn [fst] in Eo. pose proof Hm as Hm'. apply dget_elem_of in Hm'; [|done]. destruct (Hc2 o m Hm') as (q & Hq & Ec). exists o, q, (m.1), (m.2).
  split; [done|]. split; [by apply Ho|]. split; [done|]. rewrite <- Hc1 in Hn. clear -Hn Hq. split; intros Hpos.
  - assert (dget coefs o = Some q) as Hd by (by apply dget_elem_of). clear Hq. induction coefs as [|[o' q'] l IH]; [done|]. rewrite filter_cons. cbn in Hd. unfold dkeys in Hn. cbn in Hn. apply NoDup_cons in Hn as [H1 H2].
    destruct (decide (o = o')) as [->|Hne].
    + injection Hd as ->. rewrite decide_True by (cbn; unfold Qlt in Hpos; cbn in Hpos; lia). cbn. by rewrite decide_True.
    + destruct (decide _); [cbn; rewrite decide_False by done|]; by apply IH.
  - destruct (dget (filter _ coefs) o) as [q'|] eqn:E; [|done]. exfalso. apply PropsIndep.dget_Some_elem, elem_of_list_filter in E as [H1 H2]. apply dget_elem_of in H2; [|done]. apply dget_elem_of in Hq; [|done]. rewrite Hq in H2. injection H2 as <-.
    apply Hpos. unfold Qlt. cbn in *. lia.
Qed.
(** Each term of an equation is for the orbit of the shared node in a network in which the two graphlets overlap,
    possibly with links added between nodes of the one and nodes of the other, and its coefficient
    is that of [coefficient] for this network and the nodes that come from both. *)
Theorem C99_terms n eqs k rhs : orbit_equations structure mapping canon al nets invs auts n = Ok eqs -> dget eqs k = Some rhs ->
  exists a b g1 g2, fits auts n a b /\ k = (if decide (a = b) then KTwice a else KPair b a) /\ graphlet_at nets (a.1.1) (a.1.2) g1 /\ graphlet_at nets (b.1.1) (b.1.2) g2 /\
    forall o q, dget rhs o = Some q -> exists i p both net,
      i <= Nat.min (a.1.1) (b.1.1) - 2 /\ overlapped c al g1 g2 (a.2) (b.2) i p both /\
      (net = p \/ exists ts, ts <> [] /\ (forall x y l, (x, y, l) ∈ ts -> across p both x y /\ mhas p 1 l) /\ adds p ts net) /\
      coef (a.2) both a b net = Ok q /\ orb (a.2) net = Ok o.
Proof using Hback Hcanon Hen Hnum.
  intros (V & E & HV)%visits Hk. destruct (keys_inv _ _ _ _ _ _ _ _ _ E) as (_ & I2 & _). destruct (I2 k rhs Hk) as (a & b & Hab & -> & Er). apply HV in Hab. cbn [fst snd] in Hab.
  pose proof Hab as (La & Lb & _). destruct (nu_orbit _ _ _ _ _ Hnum a La) as (g1 & G1 & X1). destruct (nu_orbit _ _ _ _ _ Hnum b Lb) as (g2 & G2 & X2).
  destruct (nu_net _ _ _ _ _ Hnum _ _ _ G1) as (P1 & L1 & _). destruct (nu_net _ _ _ _ _ Hnum _ _ _ G2) as (P2 & L2 & U2).
  exists a, b, g1, g2. split; [done|]. split; [done|]. split; [done|]. split; [done|].
  assert (forall u, mhas g1 0 u -> exists z, u = NInt z /\ (0 <= z)%Z) as Hpos by (intros u; by apply (nu_nodes _ _ _ _ _ Hnum _ _ _ _ G1)).
  assert (forall z, mhas g1 0 (NInt z) -> (0 <= z)%Z) as Hpos' by (intros z (z' & [= ->] & ?)%Hpos; done).
  assert (forall l, mhas g1 1 l <-> mhas g2 1 l) as Hl.
  { destruct (proj1 (proj1 (side_layers structure mapping canon al nets invs auts a b _ Er))) as (la & lb & ga & gb & E1 & E2 & E3 & E4 & Hs); [done|].
    destruct G1 as (l1 & ? & ?), G2 as (l2 & ? & ?). by simplify_eq. }
  destruct (terms a b rhs Er) as (cs & merged & Ec & Em & Ht).
  destruct (C97_combine canon c layers n_l al nets a b g1 g2 Hcanon Hen G1 G2 P1 L1 P2 L2 U2 X1 X2 Hpos' Hl) as (q0 & qs & Ec' & Gq & Hqs & _ & Hplain & _). rewrite Ec in Ec'. injection Ec' as ->.
  pose proof (fun k p both => ov_ready g1 g2 (a.2) (b.2) k p both P1 L1 P2 Hpos X1) as Hready.
  assert (forall m, m ∈ ((fun q => (q, [a.2])) <$> (q0 :: qs)) -> overlapped c al g1 g2 (a.2) (b.2) 0 (m.1) (m.2)) as Hstart.
  { intros m (q & -> & Hq)%elem_of_list_fmap. cbn [fst snd]. pose proof (Hplain q Hq) as Pq. apply elem_of_cons in Hq as [->|Hq]; [apply (ov_glue _ _ _ _ _ _ (fun l => l)); auto|].
    destruct (Hqs q Hq) as (Hne & s & Hcy & Hg). apply (ov_glue _ _ _ _ _ _ s); auto. }
  intros o q Hq. destruct (Ht o q Hq) as (net & p & both & Hin & Eq & Eo & Hnet).
  assert (exists i, i <= Nat.min (a.1.1) (b.1.1) - 2 /\ overlapped c al g1 g2 (a.2) (b.2) i p both) as (i & Hi & Hov).
  { destruct (rounds_ov g1 g2 (a.2) (b.2) Hready _ 0 _ _ _ Hstart Em (p, both) Hin) as [H|(i & Hi & H)]; [exists 0; split; [lia|by apply (Hstart (p, both))]|exists i; split; [lia|done]]. }
  exists i, p, both, net. split; [done|]. split; [done|]. split; [|done]. destruct Hnet as [->|(l & El & Hnl)]; [by left|right].
  destruct (Hready _ _ _ Hov) as ([[h Hh] _] & _ & Ip & _ & _). destruct (C95_add_possible_edges c h p both Hh (fits_no_net c layers (en_fit _ _ _ Hen)) Ip) as (qs' & Eqs & Hqs' & _).
  rewrite El in Eqs. injection Eqs as <-. destruct (Hqs' net Hnl) as (ts & ? & ? & ?). by exists ts.
Qed.
(** The search: the glued network is found, and when layers may be permuted each cycle of the layers up to isomorphism; from
    a found network each pair of alike nodes is merged, up to isomorphism, as long as fewer pairs have been merged than the smaller
    graphlet has nodes minus two; to each found network every choice of links is added.  The orbit of the shared node in each of
    these networks has a term, unless the coefficient for its first representative is not positive. *)
Theorem C99_search n eqs k rhs : orbit_equations structure mapping canon al nets invs auts n = Ok eqs -> dget eqs k = Some rhs ->
  exists a b g1 g2 (found : nat -> mpx -> list name -> Prop), fits auts n a b /\ k = (if decide (a = b) then KTwice a else KPair b a) /\ graphlet_at nets (a.1.1) (a.1.2) g1 /\ graphlet_at nets (b.1.1) (b.1.2) g2 /\
    (exists q, glued g1 g2 (a.2) (b.2) (fun l => l) q /\ found 0 q [a.2]) /\
    (forall s, al <> Some [0] -> cyclic g2 s -> exists r r', found 0 r [a.2] /\ glued g1 g2 (a.2) (b.2) s r' /\ misomorphic al r r') /\
    (forall i p both x y, i < Nat.min (a.1.1) (b.1.1) - 2 -> found i p both -> across p both x y -> alike p both x y ->
      exists q both' q', found (S i) q both' /\ joined p x y q' /\ misomorphic al q q') /\
    (forall i p both ts, i <= Nat.min (a.1.1) (b.1.1) - 2 -> found i p both -> (forall x y l, (x, y, l) ∈ ts -> across p both x y /\ mhas p 1 l) ->
      exists net o q net' both', ((ts = [] /\ net = p) \/ (ts <> [] /\ adds p ts net)) /\ orb (a.2) net = Ok o /\
        orb (a.2) net' = Ok o /\ coef (a.2) both' a b net' = Ok q /\ ((0 < q)%Q -> dget rhs o = Some q) /\ (~ (0 < q)%Q -> dget rhs o = None)).
Proof using Hback Hcanon Hen Hnum.
  intros (V & E & HV)%visits Hk. destruct (keys_inv _ _ _ _ _ _ _ _ _ E) as (_ & I2 & _). destruct (I2 k rhs Hk) as (a & b & Hab & -> & Er). apply HV in Hab. cbn [fst snd] in Hab.
  pose proof Hab as (La & Lb & _). destruct (nu_orbit _ _ _ _ _ Hnum a La) as (g1 & G1 & X1). destruct (nu_orbit _ _ _ _ _ Hnum b Lb) as (g2 & G2 & X2).
  destruct (nu_net _ _ _ _ _ Hnum _ _ _ G1) as (P1 & L1 & _). destruct (nu_net _ _ _ _ _ Hnum _ _ _ G2) as (P2 & L2 & U2).
  assert (forall u, mhas g1 0 u -> exists z, u = NInt z /\ (0 <= z)%Z) as Hpos by (intros u; by apply (nu_nodes _ _ _ _ _ Hnum _ _ _ _ G1)).
  assert (forall z, mhas g1 0 (NInt z) -> (0 <= z)%Z) as Hpos' by (intros z (z' & [= ->] & ?)%Hpos; done).
  assert (forall l, mhas g1 1 l <-> mhas g2 1 l) as Hl.
  { destruct (proj1 (proj1 (side_layers structure mapping canon al nets invs auts a b _ Er))) as (la & lb & ga & gb & E1 & E2 & E3 & E4 & Hs); [done|].
    destruct G1 as (l1 & ? & ?), G2 as (l2 & ? & ?). by simplify_eq. }
  destruct (terms_all a b rhs Er) as (cs & merged & Ec & Em & Ht).
  destruct (C97_combine canon c layers n_l al nets a b g1 g2 Hcanon Hen G1 G2 P1 L1 P2 L2 U2 X1 X2 Hpos' Hl) as (q0 & qs & Ec' & Gq & Hqs & Hcyc & Hplain & _). rewrite Ec in Ec'. injection Ec' as ->.
  pose proof (fun k p both => ov_ready g1 g2 (a.2) (b.2) k p both P1 L1 P2 Hpos X1) as Hready.
  destruct (rounds_all _ _ _ _ Em) as (lv & H0 & Hacc & Hin & Hnext). set (K := Nat.min (a.1.1) (b.1.1) - 2). assert (a.1.1 + b.1.1 - 1 - (Nat.max (a.1.1) (b.1.1) + 1) = K) as HK by lia. rewrite HK in Hin, Hnext.
  exists a, b, g1, g2, (fun i p both => (p, both) ∈ lv i /\ overlapped c al g1 g2 (a.2) (b.2) i p both). split; [done|]. split; [done|]. split; [done|]. split; [done|].
  assert (forall q, q ∈ q0 :: qs -> (q, [a.2]) ∈ lv 0 /\ overlapped c al g1 g2 (a.2) (b.2) 0 q [a.2]) as Hstart.
  { intros q Hq. split; [rewrite H0; apply elem_of_list_fmap; by exists q|]. pose proof (Hplain q Hq) as Pq. apply elem_of_cons in Hq as [->|Hq]; [apply (ov_glue _ _ _ _ _ _ (fun l => l)); auto|].
    destruct (Hqs q Hq) as (Hne & s & Hcy & Hg). apply (ov_glue _ _ _ _ _ _ s); auto. }
  split; [exists q0; split; [done|apply Hstart; left]|]. split; [|split].
  - intros s Hne Hs. destruct (Hcyc s Hne Hs) as (r & r' & Hr & ? & ?). exists r, r'. split; [by apply Hstart|done].
  - intros i p both x y Hi [Hlv Hov] Hac Hal. destruct (Hready _ _ _ Hov) as (Pp & Lp & Ip & Bp & Up). destruct (Hnext i (p, both) Hi Hlv) as (ms & Ems & Hms). cbn [fst snd] in Ems.
    destruct (C98_merge structure canon c layers n_l al p both Hback Hcanon Hen Pp Lp Ip Bp) as (ms' & Ems' & M1 & M2 & _); [intros u v l; apply Up|]. rewrite Ems in Ems'. injection Ems' as <-.
    destruct (M2 x y Hac Hal) as (q & b' & q' & Hq & _ & Jq & Iq). exists q, b', q'. split; [|done]. split; [by apply Hms|]. destruct (M1 q b' Hq) as (u & v & ? & ? & -> & ? & ? & _). by eapply ov_merge.
  - intros i p both ts Hi [Hlv Hov] Hts. destruct (Ht p both) as (l & El & Hnet). { destruct i as [|i]; [apply Hacc; by rewrite <- H0|]. apply (Hin i); [lia|done]. }
    destruct (Hready _ _ _ Hov) as ([[h Hh] _] & _ & Ip & _ & _). destruct (C95_add_possible_edges c h p both Hh (fits_no_net c layers (en_fit _ _ _ Hen)) Ip) as (qs' & Eqs & _ & Hall). rewrite El in Eqs. injection Eqs as <-.
    destruct (decide (ts = [])) as [->|Hne].
    + destruct (Hnet p) as (o & q & net' & both' & ?); [by left|]. exists p, o, q, net', both'. split; [by left|done].
    + destruct (Hall ts Hne Hts) as (net & Hnl & Had). destruct (Hnet net) as (o & q & net' & both' & ?); [by right|]. exists net, o, q, net', both'. split; [by right|done].
Qed.
End thm.
(** The graphlets of [graphlets] and the orbits of [automorphism_orbits] are as required. *)
Theorem C99_numbered {T} `{EqDecision T} (canon : dict nat nat -> list (nat * nat) -> T) perms c layers al n n_l nets invs auts : exact_canon canon -> exact_perms perms -> enumerable c layers al ->
  graphlets canon al n layers n_l [c] = Ok (nets, invs) -> automorphism_orbits perms al nets = Ok auts -> numbered c layers (default (length layers) n_l) nets auts.
Proof.
  intros Hc Hp He Eg Ea. destruct (C86_sound canon n layers n_l c al Hc He) as (nets' & invs' & Eg' & _ & Hs). rewrite Eg in Eg'. injection Eg' as <- <-.
  destruct (catalogue_ok canon perms c layers al n n_l nets invs Hc Hp He Eg) as (auts' & ol & Ea' & _ & _ & _ & _ & Nd & Hn). rewrite Ea in Ea'. injection Ea' as <-. split.
  - intros k j g (l & Hl & Hj). destruct (Hs k l Hl) as [Hs' _]. destruct (Hs' g) as (Gg & _ & Hu); [by eapply elem_of_list_lookup_2|]. destruct (graphlet_plain _ _ _ _ _ Gg). done.
  - intros k j g u (l & Hl & Hj) Hu. destruct (Hs k l Hl) as [Hs' _]. destruct (Hs' g) as (_ & Hr & _); [by eapply elem_of_list_lookup_2|]. apply Hr in Hu as (i & _ & ->). eexists. split; [done|lia].
  - intros o (x & Hx). apply dget_elem_of in Hx; [|done]. destruct (Hn _ _ _ _ Hx) as (g & ? & _ & ?). by exists g.
Qed.
Lemma three_ready {T} `{EqDecision T} structure mapping (canon : dict nat nat -> list (nat * nat) -> T) perms eqs : exact_canon canon -> exact_perms perms ->
  (let? r := graphlets canon (Some [0]) 3 [ea] None [CNone None] in let? auts := automorphism_orbits perms (Some [0]) (r.1) in
   orbit_equations structure mapping canon (Some [0]) (r.1) (r.2) auts 3) = Ok eqs ->
  exists nets invs auts, numbered (CNone None) [ea] 1 nets auts /\ orbit_equations structure mapping canon (Some [0]) nets invs auts 3 = Ok eqs.
Proof.
  intros Hc Hp E. destruct (graphlets canon (Some [0]) 3 [ea] None [CNone None]) as [[nets invs]|] eqn:Eg; cbn [rbind] in E; [|done]. cbn [fst snd] in E.
  destruct (automorphism_orbits perms (Some [0]) nets) as [auts|] eqn:Ea; cbn [rbind] in E; [|done]. exists nets, invs, auts. split; [|exact E].
  apply (C99_numbered canon perms (CNone None) [ea] (Some [0]) 3 None nets invs auts Hc Hp ltac:(apply C86_enumerable) Eg Ea).
Qed.
Lemma three_run : (let? r := graphlets brute_canon (Some [0]) 3 [ea] None [CNone None] in let? auts := automorphism_orbits brute_perms (Some [0]) (r.1) in
   orbit_equations brute brute_mapping brute_canon (Some [0]) (r.1) (r.2) auts 3) = Ok [(KTwice (2, 0, NInt 0), [((3, 0, NInt 0), (2 # 2)%Q); ((3, 1, NInt 0), (2 # 2)%Q)])].
Proof. vm_compute. done. Qed.
(** Up to three nodes in one layer. *)
Example C99_ready : exact_backend brute /\ exact_canon brute_canon /\ enumerable (CNone None) [ea] (Some [0]) /\ exists nets invs auts,
  numbered (CNone None) [ea] 1 nets auts /\ orbit_equations brute brute_mapping brute_canon (Some [0]) nets invs auts 3 = Ok [(KTwice (2, 0, NInt 0), [((3, 0, NInt 0), (2 # 2)%Q); ((3, 1, NInt 0), (2 # 2)%Q)])].
Proof.
  destruct C87_backends as (Hb & _ & Hc & Hp). split; [done|]. split; [done|]. split; [apply C86_enumerable|]. exact (@three_ready _ _ _ _ _ _ _ Hc Hp three_run).
Qed.
Print Assumptions C99_terms.
Print Assumptions C99_numbered.
Print Assumptions C99_search.
