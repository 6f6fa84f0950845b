(** * Lemmas for the orbit counts *)
From stdpp Require Import prelude relations.
From Verif Require Import Base Net NetSpec NetHist NetIter Supra MpxSpec MpxFacts MpxHist MpxIter MpxTrans MpxBuild PropsMpx MpxRelabel MpxSub PropsMpxSub PropsMpxEq OverlapFacts MpxEdges
  Samp Graphlet GraphletSpec GraphletFacts TouchFacts Isom IsomFacts MpxIsom IsomSpec PropsIsom PropsIsomMpx SampFacts Enum EnumSpec EnumNet EnumFacts OrbitCount CountSpec.
Local Open Scope nat_scope.

(** ** Composition and inversion of isomorphisms *)
Lemma bij_inv (L : list name) (P Q : name -> Prop) f : (forall x, x ∈ L <-> P x) -> bijective P Q f ->
  exists g, bijective Q P g /\ (forall x, P x -> g (f x) = x) /\ (forall y, Q y -> f (g y) = y).
Proof.
  intros HL (B1 & B2 & B3). set (g := fun y => match list_find (fun x => f x = y) L with Some (_, x) => x | None => y end).
  assert (forall x, P x -> g (f x) = x) as Hg.
  { intros x Hx. unfold g. destruct (list_find _ L) as [[i z]|] eqn:E.
    - apply list_find_Some in E as (Hi & Ez & _). apply B2; [|done|done]. apply HL. by apply elem_of_list_lookup_2 in Hi.
    - apply list_find_None in E. rewrite Forall_forall in E. exfalso. apply (E x); [by apply HL|done]. }
  assert (forall y, Q y -> P (g y) /\ f (g y) = y) as Hy. { intros y (x & Hx & <-)%B3. by rewrite (Hg x Hx). }
  exists g. split; [|split; [done|intros y Hq; by apply Hy]]. split; [|split].
  - intros y Hq. by apply Hy.
  - intros y z Hq Hz E. rewrite <- (proj2 (Hy y Hq)), <- (proj2 (Hy z Hz)). by f_equal.
  - intros x Hx. exists (f x). split; [by apply B1|by apply Hg].
Qed.
Lemma bij_comp (P Q R : name -> Prop) f g : bijective P Q f -> bijective Q R g -> bijective P R (fun x => g (f x)).
Proof.
  intros (A1 & A2 & A3) (B1 & B2 & B3). split; [|split].
  - intros x Hx. by apply B1, A1.
  - intros x y Hx Hy E. apply A2; [done..|]. apply B2; [by apply A1..|done].
  - intros z (y & Hy & <-)%B3. apply A3 in Hy as (x & Hx & <-). by exists x.
Qed.
Lemma shape_comp c p q r A m m' : shape_iso c p q A m -> shape_iso c q r A m' -> shape_iso c p r A (fun a x => m' a (m a x)).
Proof.
  intros [N L F Tp Ti C] [N' L' F' _ Ti' C']. pose proof N as (N1 & N2 & _). pose proof L as (L1 & L2 & _). split.
  - by eapply bij_comp.
  - by eapply bij_comp.
  - intros a x Ha. by rewrite F, F'.
  - done.
  - intros l x y Hl Hx Hy Hne. rewrite Ti by done. apply Ti'; [by apply L1|by apply N1..|]. intros E. by apply Hne, N2.
  - intros l l' Hl Hl' Hne. rewrite C by done. apply C'; [by apply L1..|]. intros E. by apply Hne, L2.
Qed.
Lemma shape_inv c p q al m (N ls : list name) : (forall x, x ∈ N <-> mhas p 0 x) -> (forall l, l ∈ ls <-> mhas p 1 l) -> 0 ∈ aspect_list 1 al ->
  shape_iso c p q (fun a => a ∈ aspect_list 1 al) m ->
  exists m', shape_iso c q p (fun a => a ∈ aspect_list 1 al) m' /\ forall x, mhas p 0 x -> m' 0 (m 0 x) = x.
Proof.
  intros HN Hls H0 [Nb Lb F Tp Ti C]. destruct (bij_inv N _ _ _ HN Nb) as (g0 & G0 & G0l & G0r). destruct (bij_inv ls _ _ _ Hls Lb) as (g1 & G1 & G1l & G1r).
  assert (exists g1', bijective (mhas q 1) (mhas p 1) g1' /\ (forall y, mhas q 1 y -> m 1 (g1' y) = y) /\ (1 ∉ aspect_list 1 al -> forall x, g1' x = x)) as (g1' & B1 & R1 & F1).
  { destruct (decide (1 ∈ aspect_list 1 al)) as [H1|H1]; [by exists g1|]. exists (fun x => x). split; [|split; [intros y _; by apply F|done]].
    destruct Lb as (L1 & L2 & L3). assert (forall x, m 1 x = x) as Hid by (intros x; by apply F).
    split; [|split]; [|done|].
    - intros y (x & Hx & E)%L3. rewrite Hid in E. by subst y.
    - intros x Hx. exists x. split; [|done]. rewrite <- (Hid x). by apply L1. }
  exists (fun a => match a with 0 => g0 | 1 => g1' | _ => fun x => x end). split; [|done]. destruct G0 as (P1 & P2 & P3), B1 as (Q1 & Q2 & Q3). split.
  - by split.
  - by split.
  - intros [|[|a]] x Ha; [done|by apply F1|done].
  - done.
  - intros l x y Hl Hx Hy Hne. rewrite (Ti (g1' l) (g0 x) (g0 y)); [|by apply Q1|by apply P1..|intros E; by apply Hne, P2]. by rewrite R1, !G0r.
  - intros l l' Hl Hl' Hne. rewrite (C (g1' l) (g1' l')); [|by apply Q1..|intros E; by apply Hne, Q2]. by rewrite !R1.
Qed.

Section count.
Context (c : coupling) (layers : list name) (n_l : nat) (Hkind : one_kind layers) (Hfit : coupling_fits c layers).
Context (al : option (list nat)) (Hal : aspects_ok 1 al) (Hal0 : 0 ∈ aspect_list 1 al).
Notation G := (graphlet c layers n_l).
Notation A := (fun a => a ∈ aspect_list 1 al).
Notation lay_ok := (on_layers layers n_l).
Lemma elem_of_layers_of p l : l ∈ layers_of p <-> mhas p 1 l.
Proof. unfold layers_of. rewrite <- psl_mhas. unfold psl. destruct (mslices p !! 1) as [s|]; cbn; [naive_solver|]. split; [by intros ?%elem_of_nil|by intros (? & ? & _)]. Qed.
Lemma plain_ok p : plain c p -> lay_ok p -> exists h, mhist [c] false 0 true h p /\ faithful [c] true p /\ loopless p.
Proof using Hfit.
  intros [[h Hh] Hn] (t & [_ Ht] & _ & Hin). exists h. split; [done|]. split.
  - left. split; [done|]. split; [done|]. intros a (x & l & -> & _ & Hl)%(en_exists _ _ _ Hh) [|d] c'; [|done]. intros [= <-].
    apply Ht, Hin in Hl. clear - Hfit Hl. destruct c as [w|w|w|m]; try done. destruct Hfit as [? Hz]. split; [done|]. destruct (Hz l Hl) as [z ->]. by exists z.
  - intros a (x & l & -> & _ & Hl)%(en_exists _ _ _ Hh). rewrite (en_asp _ _ _ Hh). change (player_of 1 [x; l]) with (LBare l). cbn [node_of hd default].
    specialize (Hn l x). apply (en_pA _ _ _ Hh) in Hl as [m Hm]. rewrite tied_lrd in Hn. rewrite agetitem_lrd, Hm. f_equal.
    destruct (decide (lrd p (LBare l) x x = 0%Z)); [done|]. by destruct Hn.
Qed.
Lemma induced_graphlet p s q : plain c p -> lay_ok p -> NoDup s -> set_connected (tied_somewhere p) s -> induced c p s q -> G (length s) q.
Proof.
  intros [_ Hn] Hl Hs Hc (Hq & I0 & I1 & It). split.
  - done.
  - exists s. split; [|done]. split; [done|]. intros x. by rewrite I0.
  - destruct Hl as (t & [Nt Ht] & Hlen & Hin). exists t. split; [|done]. split; [done|]. intros l. by rewrite Ht, I1.
  - intros l x (Ht & _)%It. by apply (Hn l x).
  - intros x y Hx%I0 Hy%I0. eapply rtc_subrel; [|by apply Hc]. intros a b ([l Ht] & Ha & Hb). exists l. by apply It.
Qed.
(** Isomorphisms of the subnetwork on the same nodes into two graphlets. *)
Lemma two_places k k' k'' q q' g g' f f' : G k q -> G k q' -> 1 <= k -> G k' g -> G k'' g' -> (forall x, mhas q 0 x <-> mhas q' 0 x) -> (forall l, mhas q 1 l <-> mhas q' 1 l) ->
  (forall l x y, tied q l x y <-> tied q' l x y) -> misomorphism A f q g -> misomorphism A f' q' g' ->
  exists m, misomorphism A m g g' /\ forall x, mhas q 0 x -> m 0 (f 0 x) = f' 0 x.
Proof using Hfit Hal Hal0.
  intros Gq Gq' Hk Gg Gg' E0 E1 Et Hf Hf'. pose proof (fits_no_net c layers Hfit) as Hnn.
  destruct (gl_net _ _ _ _ _ Gq) as [hq Hhq], (gl_net _ _ _ _ _ Gq') as [hq' Hhq'], (gl_net _ _ _ _ _ Gg) as [hg Hhg], (gl_net _ _ _ _ _ Gg') as [hg' Hhg'].
  assert (shape_iso c q g A f) as S1.
  { eapply misomorphism_shape; [exact Hhq|exact Hhg|done|done|apply al_one|apply al_top, Hal|by eapply gl_node|done]. }
  assert (shape_iso c q' g' A f') as S2.
  { eapply misomorphism_shape; [exact Hhq'|exact Hhg'|done|done|apply al_one|apply al_top, Hal|by eapply gl_node|done]. }
  assert (shape_iso c q q' A (fun _ x => x)) as S0.
  { split; try done.
    - split; [intros x; by apply E0|]. split; [done|]. intros x Hx. exists x. by rewrite E0.
    - split; [intros x; by apply E1|]. split; [done|]. intros x Hx. exists x. by rewrite E1.
    - by apply Hal. }
  destruct (gl_nodes _ _ _ _ _ Gq) as (N & [_ HN] & _), (gl_layers _ _ _ _ _ Gq) as (ls & [_ Hls] & _).
  destruct (shape_inv c q g al f N ls HN Hls Hal0 S1) as (m' & S3 & Hm').
  exists (fun a x => f' a (m' a x)). split.
  - eapply shape_misomorphism; [exact Hhg|exact Hhg'|done|]. eapply shape_comp; [exact S3|]. exact (shape_comp _ _ _ _ _ _ _ S0 S2).
  - intros x Hx. cbn. by rewrite Hm'.
Qed.
Lemma sub_induced p s : plain c p -> (forall z, z ∈ s -> mhas p 0 z) -> exists q, msubnet p [Some s; Some (layers_of p)] false = Ok q /\ induced c p s q.
Proof using Hfit.
  intros [[h Hh] _] Hs. destruct (sub_net c h p s (layers_of p) Hh (fits_no_net c layers Hfit) (elem_of_layers_of p)) as (q & g & E & Hq & H0 & H1 & Hw).
  exists q. split; [done|]. split; [by exists g|]. split; [intros x; rewrite H0; naive_solver|]. split; [done|]. intros l x y. rewrite !tied_lrd, Hw. destruct (decide _); naive_solver.
Qed.
Lemma fixed_parts_exist p asp : msuitable p -> exists L, mfixed_parts p asp L.
Proof.
  intros Hs. destruct (mview p Hs) as [v Hv]. exists (remove_dups (fixed_part asp <$> v_nls v)). split; [apply NoDup_remove_dups|]. intros d.
  rewrite elem_of_remove_dups, elem_of_list_fmap. split; intros (a & H1 & H2); exists a; [split; [by apply (vo_nls p v Hv)|done]|split; [done|by apply (vo_nls p v Hv)]].
Qed.

Context {T : Type} `{EqDecision T} (structure : auxg -> auxg -> bool) (mapping : auxg -> auxg -> dict nat nat) (canon : dict nat nat -> list (nat * nat) -> T).
Context (n : nat) (nets : dict nat (list mpx)) (invs : @invariants T) (auts : dict orbit name) (orbits : list orbit).
Context (Hback : exact_backend structure) (Hmap : exact_mapping structure mapping) (Hcat : catalogue canon al c layers n_l n nets invs auts orbits).
Notation cls := (classify structure mapping canon al nets invs).
Lemma classify_ok p s : plain c p -> lay_ok p -> NoDup s -> 2 <= length s <= n -> (forall z, z ∈ s -> mhas p 0 z) -> set_connected (tied_somewhere p) s ->
  exists k j d q g f, cls p s = Ok (k, j, d) /\ induced c p s q /\ graphlet_at nets k j g /\ 2 <= k <= n /\ misomorphism A f q g /\ forall x, f 0 x = default x (dget d x).
Proof using Hkind Hfit Hal Hal0 Hback Hmap Hcat.
  intros Hp Hl Hs Hlen Hin Hc. destruct (sub_induced p s Hp Hin) as (q & Eq & Hq). pose proof (induced_graphlet p s q Hp Hl Hs Hc Hq) as Gq.
  destruct (cat_find _ _ _ _ _ _ _ _ _ _ Hcat (length s) q Hlen Gq) as (ci & j & g & Ei & Ed & Hg & Hiso).
  destruct (cat_net _ _ _ _ _ _ _ _ _ _ Hcat _ _ _ Hg) as [Gg _]. pose proof Hg as (l & El & Ej).
  pose proof (gl_suitable c layers n_l Hfit _ q Gq) as Sq. pose proof (gl_suitable c layers n_l Hfit _ g Gg) as Sg. pose proof (gl_asp _ _ _ _ _ Gq) as Aq. pose proof (gl_asp _ _ _ _ _ Gg) as Ag.
  destruct (fixed_parts_exist q (aspect_list (maspects q) al) Sq) as [L1 HL1]. destruct (fixed_parts_exist g (aspect_list (maspects q) al) Sg) as [L2 HL2].
  pose proof (gl_sortable c layers n_l Hkind al Hal0 _ q Gq) as Kq. pose proof (gl_sortable c layers n_l Hkind al Hal0 _ g Gg) as Kg.
  assert (maspects q = maspects g) as Ha by congruence. assert (aspects_ok (maspects q) al) as Hal' by by rewrite Aq.
  assert (length L1 = length L2) as HL.
  { destruct (decide (length L1 = length L2)) as [?|Hne]; [done|]. exfalso.
    destruct (C85_is_isomorphic structure q g al L1 L2 Hback Sq Sg Ha Hal' Kq Kg HL1 HL2) as [_ [_ Hno]]; [|done|by apply Hno]. rewrite Aq. intros E. rewrite E in Hal0. by apply elem_of_nil in Hal0. }
  destruct (C85_get_isomorphism structure mapping false q g al L1 L2 Hback Hmap Sq Sg Ha Hal' Kq Kg HL1 HL2 (or_intror HL)) as (r & Er & Hr).
  destruct r as [ms|]; [|done]. destruct Hr as [Hr _]. rewrite Aq in Hr.
  exists (length s), j, (default [] (ms !! 0)), q, g, (dict_map ms). split; [|done].
  unfold classify. rewrite Eq. cbn [rbind]. rewrite Ei. cbn [rbind]. rewrite Ed. cbn [fst snd]. rewrite El, Ej, Er. done.
Qed.
(** The orbit of [x] in the subnetwork on [s]. *)
Definition orbit_of (p : mpx) (s : list name) (x : name) : orbit :=
  match cls p s with Ok cl => (cl.1.1, cl.1.2, default x (dget auts (cl.1.1, cl.1.2, default x (dget (cl.2) x)))) | Err _ => (0, 0, x) end.
Lemma orbit_of_ok p s : plain c p -> lay_ok p -> NoDup s -> 2 <= length s <= n -> (forall z, z ∈ s -> mhas p 0 z) -> set_connected (tied_somewhere p) s ->
  exists cl, cls p s = Ok cl /\ forall x, x ∈ s ->
    orbit_of p s x ∈ orbits /\ dget auts (cl.1.1, cl.1.2, default x (dget (cl.2) x)) = Some ((orbit_of p s x).2) /\ (orbit_of p s x).1 = cl.1 /\
    forall o, occupies c al nets auts p x o s <-> o = orbit_of p s x.
Proof using Hkind Hfit Hal Hal0 Hback Hmap Hcat.
  intros Hp Hl Hs Hlen Hin Hc. destruct (classify_ok p s Hp Hl Hs Hlen Hin Hc) as (k & j & d & q & g & f & E & Hq & Hg & Hk & Hf & Hd).
  exists (k, j, d). split; [done|]. intros x Hx. unfold orbit_of. rewrite E. cbn [fst snd]. rewrite <- Hd.
  pose proof (induced_graphlet p s q Hp Hl Hs Hc Hq) as Gq. destruct (cat_net _ _ _ _ _ _ _ _ _ _ Hcat _ _ _ Hg) as [Gg _].
  assert (forall y, y ∈ s -> mhas q 0 y) as Hqn by (intros y Hy; by apply Hq).
  assert (mhas g 0 (f 0 x)) as Hfx. { destruct Hf as [Hb _]. apply (Hb 0 Hal0). by apply Hqn. }
  destruct (cat_aut _ _ _ _ _ _ _ _ _ _ Hcat k j g (f 0 x) Hg Hfx) as (a & Ea & Ho). rewrite Ea. cbn [default]. split; [by apply Ho|]. split; [done|]. split; [done|].
  intros [[k' j'] a']. split; [|].
  - intros (q' & g' & f' & Hq' & Hg' & Hf' & Ea'). cbn [fst snd] in *. pose proof (induced_graphlet p s q' Hp Hl Hs Hc Hq') as Gq'. destruct (cat_net _ _ _ _ _ _ _ _ _ _ Hcat _ _ _ Hg') as [Gg' _].
    destruct (two_places (length s) k k' q q' g g' f f' Gq Gq' ltac:(lia) Gg Gg') as (m & Hm & Hmx).
    + intros y. destruct Hq as (_ & H & _), Hq' as (_ & H' & _). by rewrite H, H'.
    + intros y. destruct Hq as (_ & _ & H & _), Hq' as (_ & _ & H' & _). by rewrite H, H'.
    + intros l y z. destruct Hq as (_ & _ & _ & H), Hq' as (_ & _ & _ & H'). by rewrite H, H'.
    + done.
    + done.
    + destruct (cat_once _ _ _ _ _ _ _ _ _ _ Hcat k j g k' j' g' Hg Hg') as [<- <-]; [exists m; by rewrite (gl_asp _ _ _ _ _ Gg)|].
      assert (g' = g) as -> by (destruct Hg as (l & H1 & H2), Hg' as (l' & H1' & H2'); congruence). f_equal.
      assert (dget auts (k, j, f 0 x) = dget auts (k, j, f' 0 x)) as Haa; [|rewrite Ea, Ea' in Haa; by injection Haa].
      apply (cat_orbit _ _ _ _ _ _ _ _ _ _ Hcat k j g); [done|done| |exists m; split; [done|by apply Hmx, Hqn]].
      destruct Hf' as [Hb _]. apply (Hb 0 Hal0). by apply Hq'.
  - intros [= -> -> ->]. exists q, g, f. done.
Qed.
End count.
