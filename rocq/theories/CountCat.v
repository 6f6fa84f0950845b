(** * The catalogue made by graphlets, automorphism_orbits and ordered_orbit_list *)
From stdpp Require Import prelude relations.
From Verif Require Import Base Net NetSpec NetHist NetIter Supra MpxSpec MpxFacts MpxHist MpxIter MpxTrans MpxBuild PropsMpx MpxRelabel MpxSub PropsMpxSub PropsMpxEq OverlapFacts MpxEdges
  Samp Graphlet GraphletSpec GraphletFacts TouchFacts PropsGraphlet Isom IsomFacts MpxIsom IsomSpec PropsIsom PropsIsomMpx SampFacts Enum EnumSpec EnumNet EnumFacts EnumRun PropsEnum OrbitCount CountSpec CountFacts CountRun.
Local Open Scope nat_scope.

Section gens.
Context (c : coupling) (layers : list name) (n_l : nat) (Hkind : EnumSpec.one_kind layers) (Hfit : coupling_fits c layers).
Context (al : option (list nat)) (Hal : aspects_ok 1 al) (Hal0 : 0 ∈ aspect_list 1 al).
Context (perms : auxg -> list (dict nat nat)) (Hperms : exact_perms perms).
Notation G := (graphlet c layers n_l).
Notation A := (fun a => a ∈ aspect_list 1 al).
(** A dictionary that lists the names moved by a bijection. *)
Lemma moved_permutes (P : name -> Prop) (f : name -> name) (d : dict name name) (nodes : list name) : (forall x, x ∈ nodes <-> P x) -> bijective P P f -> NoDup (dkeys d) ->
  (forall x, f x = default x (dget d x)) -> (forall x, x ∈ dkeys d <-> P x /\ f x <> x) -> permutes nodes d.
Proof.
  intros Hn (B1 & B2 & B3) Hnd Hf Hk. split; [done|]. split; [intros x Hx; by apply Hn, Hk|].
  assert (d.*2 = f <$> d.*1) as ->.
  { apply list_eq. intros i. rewrite !list_lookup_fmap. destruct (d !! i) as [[x y]|] eqn:E; [|done]. cbn. f_equal. rewrite Hf.
    assert (dget d x = Some y) as ->; [|done]. apply dget_elem_of; [done|]. by apply elem_of_list_lookup_2 in E. }
  change (d.*1) with (dkeys d). symmetry. apply NoDup_Permutation; [done| |].
  - apply NoDup_fmap_2_strong; [|done]. intros x y [Hx _]%Hk [Hy _]%Hk. by apply B2.
  - intros y. rewrite elem_of_list_fmap. split.
    + intros [Hy Hm]%Hk. destruct (B3 y Hy) as (x & Hx & <-). exists x. split; [done|]. apply Hk. split; [done|]. intros E. apply Hm. by rewrite E.
    + intros (x & -> & [Hx Hm]%Hk). apply Hk. split; [by apply B1|]. intros E. apply Hm. apply B2; [by apply B1|done|done].
Qed.
Lemma gens_ok k g : G k g -> 1 <= k -> exists gens, (let? gens := mautomorphism_generators perms g al false in Ok (mnodes g, (fun ms => default [] (ms !! 0)) <$> gens)) = Ok (mnodes g, gens) /\
  NoDup (mnodes g) /\ Forall (permutes (mnodes g)) gens /\
  forall x y, mhas g 0 x -> mhas g 0 y -> moved (gapply <$> gens) x y <-> exists m, misomorphism A m g g /\ m 0 x = y.
Proof using Hkind Hfit Hal Hal0 Hperms.
  intros Hg Hk. pose proof (gl_suitable c layers n_l Hfit k g Hg) as Sg. pose proof (gl_asp _ _ _ _ _ Hg) as Ag. pose proof (gl_sortable c layers n_l Hkind al Hal0 k g Hg) as Kg.
  assert (aspects_ok (maspects g) al) as Hal' by (by rewrite Ag). destruct (mgraph_ok g al Sg Hal' Kg) as (v & gr & _ & _ & Egr & Ngr). destruct (Hperms gr Ngr) as [Hv Hgen].
  destruct (C85_automorphisms perms false g al gr Sg Hal' Egr Hv) as (mss & Em & _ & Hms & Hcomp). specialize (Hcomp Hgen). rewrite Ag in Hms, Hcomp.
  destruct (gl_net _ _ _ _ _ Hg) as [h Hh]. pose proof (fits_no_net c layers Hfit) as Hnn.
  assert (NoDup (mnodes g)) as Hnd.
  { pose proof (pw_nd g (pi_wf _ _ _ _ _ _ (mhist_inv _ _ _ _ _ _ Hh))) as Hn. unfold mnodes. destruct (mslices g) as [|s0 ss]; [constructor|]. by inversion Hn. }
  assert (forall m, misomorphism A m g g -> shape_iso c g g A m) as Hsh.
  { intros m Hm. eapply misomorphism_shape; [exact Hh|exact Hh|done|done|apply al_one|apply al_top, Hal|by eapply gl_node|done]. }
  assert (forall m, shape_iso c g g A m -> misomorphism A m g g) as Hsh'. { intros m Hm. eapply shape_misomorphism; [exact Hh|exact Hh|done|done]. }
  exists ((fun ms => default [] (ms !! 0)) <$> mss). split; [by rewrite Em|]. split; [done|].
  assert (forall ms x, gapply (default [] (ms !! 0)) x = dict_map ms 0 x) as Hga by done.
  assert (forall ms, ms ∈ mss -> bijective (mhas g 0) (mhas g 0) (dict_map ms 0)) as Hbij. { intros ms Hin. destruct (Hms ms Hin) as [[Hb _] _]. by apply Hb. }
  set (gens := _ <$> mss). assert (Forall (permutes (mnodes g)) gens) as HP; [|split; [done|]].
  - apply Forall_forall. intros d (ms & -> & Hin)%elem_of_list_fmap. destruct (Hms ms Hin) as [_ [Hlen Hll]]. rewrite Ag in Hlen.
    destruct (lookup_lt_is_Some_2 ms 0) as [d Hd]; [lia|]. destruct (Hll 0 d Hd) as [Nd Kd]. assert (forall x, dict_map ms 0 x = default x (dget d x)) as Hdm by (intros x; unfold dict_map; by rewrite Hd).
    rewrite Hd. cbn [default]. apply (moved_permutes (mhas g 0) (dict_map ms 0)); [apply elem_of_mnodes|by apply Hbij|done|done|]. intros x. rewrite Kd. naive_solver.
  - intros x y Hx Hy. split.
    + clear Hy. unfold moved, rtsc. intros H. revert Hx. induction H as [x|x z y Hxz _ IH]; intros Hx.
      { exists (fun _ x => x). split; [|done]. apply Hsh'. split; try done; try (by apply Hal); (split; [done|]; split; [done|]; intros y Hy; by exists y). }
      assert (exists m, shape_iso c g g A m /\ m 0 x = z /\ mhas g 0 z) as (m1 & S1 & E1 & Hz).
      { destruct Hxz as [(f & (d & -> & Hd)%elem_of_list_fmap & ->)|(f & (d & -> & Hd)%elem_of_list_fmap & ->)]; pose proof Hd as (ms & -> & Hin)%elem_of_list_fmap; rewrite Hga in *.
        - exists (dict_map ms). split; [by apply Hsh, Hms|]. split; [done|]. by apply (Hbij ms Hin).
        - assert (mhas g 0 z) as Hz.
          { rewrite Forall_forall in HP. apply elem_of_mnodes. apply (permutes_facts (mnodes g) _ (HP _ Hd)). rewrite Hga. by apply elem_of_mnodes. }
          destruct (gl_layers _ _ _ _ _ Hg) as (ls & [_ Hls] & _).
          destruct (shape_inv c g g al (dict_map ms) (mnodes g) ls (elem_of_mnodes g) Hls Hal0) as (m' & S' & Hm'); [by apply Hsh, Hms|]. exists m'. split; [done|]. split; [by apply Hm'|done]. }
      destruct (IH Hz) as (m2 & H2 & E2). exists (fun a x => m2 a (m1 a x)). split; [|by rewrite E1]. apply Hsh'. eapply shape_comp; [exact S1|by apply Hsh].
    + intros (m & Hm & <-). specialize (Hcomp m Hm). clear Hm Hy.
      assert (forall F : nat * name -> nat * name, composed (fun r : nat * name => mhas g (r.1) (r.2)) (fun r => exists ms, ms ∈ mss /\ r = fun s => (s.1, dict_map ms (s.1) (s.2))) F ->
        forall x, mhas g 0 x -> moved (gapply <$> gens) x ((F (0, x)).2)) as Hall; [|exact (Hall _ Hcomp x Hx)].
      clear x Hx Hcomp. induction 1 as [F HF|F1 F2 F3 _ IH (ms & Hin & ->) HF]; intros x Hx; rewrite HF by done; [apply rtc_refl|]. cbn [fst snd].
      eapply moved_trans; [|apply IH; by apply (Hbij ms Hin)]. apply rtc_once. left. exists (gapply (default [] (ms !! 0))). split; [|done].
      apply elem_of_list_fmap. eexists. split; [done|]. apply elem_of_list_fmap. by exists ms.
Qed.
End gens.

(** ** The dictionaries *)
Lemma graphlets_nodup {T} `{EqDecision T} (canon : dict nat nat -> list (nat * nat) -> T) al n layers n_l cs nets invs : graphlets canon al n layers n_l cs = Ok (nets, invs) -> NoDup (dkeys nets).
Proof.
  unfold graphlets. destruct (first_size _ _ _ _ _) as [st|]; cbn [rbind]; [|done]. set (acc0 := ([(2, st.1)], st.2)). assert (NoDup (dkeys (acc0.1))) as H0 by apply NoDup_singleton. revert H0.
  generalize acc0. generalize (seq 2 (n - 2)). induction l as [|i l IH]; intros acc Hn; cbn [rfold]; [intros [= ->]; exact Hn|].
  destruct (dget (acc.1) i) as [ni|]; cbn [rbind]; [|done]. destruct (next_size _ _ _ _ _) as [st'|]; cbn [rbind]; [|done]. apply IH. cbn [fst]. by apply NoDup_dset.
Qed.
Lemma dget_fmap {V W} (f : nat -> V -> W) (d : dict nat V) k : dget (map (fun kl => (kl.1, f (kl.1) (kl.2))) d) k = f k <$> dget d k.
Proof. induction d as [|[k' v] d IH]; cbn; [done|]. destruct (decide (k = k')) as [-> |]; [done|]. exact IH. Qed.
Lemma rmapM_dget {V W} (f : V -> res W) (d : dict nat V) : (forall k v, dget d k = Some v -> exists w, f v = Ok w) -> NoDup (dkeys d) ->
  exists d', rmapM (fun kl => let? w := f (kl.2) in Ok (kl.1, w)) d = Ok d' /\ dkeys d' = dkeys d /\
    forall k w, dget d' k = Some w <-> exists v, dget d k = Some v /\ f v = Ok w.
Proof.
  intros Hf Hnd. induction d as [|[k v] d IH]; cbn [rmapM].
  - exists []. split; [done|]. split; [done|]. intros k w. split; [done|by intros (v & ? & _)].
  - cbn in Hnd. apply NoDup_cons in Hnd as [Hk Hnd]. destruct (Hf k v) as [w Hw]; [cbn; by rewrite decide_True|].
    destruct IH as (d' & E & Ek & Hd'); [|done|].
    { intros k' v' Hk'. apply (Hf k' v'). cbn. rewrite decide_False; [done|]. intros ->. apply Hk. apply elem_of_dkeys. by eexists. }
    cbn [fst snd]. rewrite Hw. cbn [rbind]. rewrite E. cbn [rbind]. exists ((k, w) :: d'). split; [done|]. split; [cbn; f_equal; exact Ek|].
    intros k' w'. cbn. destruct (decide (k' = k)) as [-> |Hne]; [|apply Hd']. split.
    + intros [= <-]. by exists v.
    + intros (v' & [= <-] & Hw'). congruence.
Qed.

Lemma all_orbits_nd nets d : all_orbits nets = Ok d -> NoDup (dkeys d).
Proof.
  unfold all_orbits. assert (NoDup (dkeys (@nil (orbit * name)))) as H0 by constructor. revert H0. generalize (@nil (orbit * name)). induction nets as [|kv nets IH]; intros e He; cbn [rfold]; [by intros [= <-]|].
  destruct (rfold _ e (imap pair (kv.2))) as [e'|] eqn:E; [|done]. apply IH. revert e He E. generalize (imap pair (kv.2)). intros l. induction l as [|x l IHl]; intros e He; cbn [rfold]; [by intros [= <-]|].
  destruct (node_orbits _ _) as [o|]; cbn [rbind]; [|done]. apply IHl. clear -He. revert e He. induction o as [|xm o IH]; intros e He; [done|]. cbn. apply IH. by apply NoDup_dset.
Qed.
Lemma catalogue_ok {T} `{EqDecision T} (canon : dict nat nat -> list (nat * nat) -> T) perms c layers al n n_l nets invs :
  exact_canon canon -> exact_perms perms -> enumerable c layers al -> graphlets canon al n layers n_l [c] = Ok (nets, invs) ->
  exists auts ol, automorphism_orbits perms al nets = Ok auts /\ orbit_list n nets auts = Ok ol /\ catalogue canon al c layers (default (length layers) n_l) n nets invs auts ol /\ NoDup ol /\
    (forall k j a, (k, j, a) ∈ ol -> 2 <= k <= n /\ exists g x, graphlet_at nets k j g /\ mhas g 0 x /\ dget auts (k, j, x) = Some a) /\
    NoDup (dkeys auts) /\ forall k j x a, dget auts (k, j, x) = Some a -> exists g, graphlet_at nets k j g /\ mhas g 0 x /\ mhas g 0 a.
Proof.
  intros Hcanon Hperms [E1 E2 E3 E4 E5] Hgr. set (N := default (length layers) n_l).
  destruct (graphlets_full canon Hcanon c layers N E1 E2 E3 al E4 E5 n n_l eq_refl) as (nets' & invs' & E' & Hfull). rewrite Hgr in E'. injection E' as <- <-.
  pose proof (graphlets_nodup canon al n layers n_l [c] nets invs Hgr) as Hnd.
  assert (forall k j g, graphlet_at nets k j g -> graphlet c layers N k g /\ standard k g /\ 2 <= k <= max 2 n /\ exists ci, mcomplete_invariant canon g al = Ok ci /\ dget invs ci = Some (k, j)) as Hat.
  { intros k j g (l & Hl & Hj). destruct (fu_net _ _ _ _ _ _ _ _ Hfull k l j g Hl Hj) as (H1 & H2 & H3). split; [done|]. split; [done|]. split; [|done].
    apply (fu_size _ _ _ _ _ _ _ _ Hfull). by eexists. }
  set (F := fun p => let? gens := mautomorphism_generators perms p al false in Ok (mnodes p, (fun ms : list (dict name name) => default [] (ms !! 0)) <$> gens)).
  assert (forall k j g, graphlet_at nets k j g -> exists gens, F g = Ok (mnodes g, gens) /\ NoDup (mnodes g) /\ Forall (permutes (mnodes g)) gens /\
    forall x y, mhas g 0 x -> mhas g 0 y -> moved (gapply <$> gens) x y <-> exists m, misomorphism (fun a => a ∈ aspect_list 1 al) m g g /\ m 0 x = y) as HF.
  { intros k j g Hg. destruct (Hat k j g Hg) as (Gg & _ & Hk & _). apply (gens_ok c layers N E2 E3 al E4 E5 perms Hperms k g Gg). lia. }
  destruct (rmapM_dget (rmapM F) nets) as (nets' & En & Ek & Hn'); [|done|].
  { intros k l Hl. apply rmapM_all_ok. intros g [j Hj]%elem_of_list_lookup. destruct (HF k j g) as (gens & Hg & _); [by exists l|]. eauto. }
  assert (forall k l' j w, dget nets' k = Some l' -> l' !! j = Some w -> exists g, graphlet_at nets k j g /\ F g = Ok w) as Hback.
  { intros k l' j w Hl Hj. apply Hn' in Hl as (l & Hl & El). destruct (rmapM_Ok_lookup F l l' j w El Hj) as (g & Hg & Eg). exists g. split; [by exists l|done]. }
  assert (forall k j g, graphlet_at nets k j g -> exists l' w, dget nets' k = Some l' /\ l' !! j = Some w /\ F g = Ok w) as Hforth.
  { intros k j g Hg. pose proof Hg as (l & Hl & Hj). destruct (rmapM_all_ok F l) as [l' El].
    { intros q [i Hi]%elem_of_list_lookup. destruct (HF k i q) as (gens & Hq & _); [by exists l|]. eauto. }
    exists l'. assert (dget nets' k = Some l') as Hl' by (apply Hn'; eauto). destruct (lookup_lt_is_Some_2 l' j) as [w Hw]; [rewrite (rmapM_Ok_length F l l' El); by eapply lookup_lt_Some|].
    exists w. split; [done|]. split; [done|]. destruct (rmapM_Ok_lookup F l l' j w El Hw) as (q & Hq & Eq). congruence. }
  destruct (C47_all_graphlets nets') as (auts & Ea & Hsome & Horb).
  { by rewrite Ek. }
  { intros k l' j w Hl Hj. destruct (Hback k l' j w Hl Hj) as (g & Hg & Eg). destruct (HF k j g Hg) as (gens & Eg' & H1 & H2 & _). rewrite Eg in Eg'. injection Eg' as ->. cbn [fst snd].
    split; [done|]. split; [done|]. destruct (Hat k j g Hg) as (_ & [Hs _] & _). intros x y Hx Hy. apply elem_of_mnodes, Hs, elem_of_nrange in Hx as (? & _ & ->). by apply elem_of_mnodes, Hs, elem_of_nrange in Hy as (? & _ & ->). }
  assert (forall k j g x, graphlet_at nets k j g -> mhas g 0 x -> exists a, dget auts (k, j, x) = Some a) as Haut.
  { intros k j g x Hg Hx. destruct (Hforth k j g Hg) as (l' & w & Hl & Hj & Ew). destruct (HF k j g Hg) as (gens & Eg & _). rewrite Ew in Eg. injection Eg as ->.
    apply Hsome. exists l', (mnodes g, gens). split; [done|]. split; [done|]. cbn. by apply elem_of_mnodes. }
  assert (forall k, dget (map (fun kl : nat * list mpx => (kl.1, map mnodes (kl.2))) nets) k = map mnodes <$> dget nets k) as Hdm by (intros k; apply (dget_fmap (fun _ l => map mnodes l))).
  destruct (C54_orbit_numbers n (map (fun kl => (kl.1, map mnodes (kl.2))) nets) auts) as (d & ol & Ed & Eo & _ & Hd & _ & _ & _ & Hol).
  { intros k Hk. destruct (proj2 (fu_size _ _ _ _ _ _ _ _ Hfull k)) as [l Hl]; [lia|]. exists (map mnodes l). rewrite Hdm, Hl. split; [done|].
    intros j nodes x Hj Hx. rewrite list_lookup_fmap in Hj. destruct (l !! j) as [g|] eqn:Eg; [|done]. injection Hj as <-. destruct (Haut k j g x) as [a Ha]; [by exists l|by apply elem_of_mnodes|by exists a]. }
  exists auts, (omap id ol). split; [unfold automorphism_orbits; fold F; rewrite En; exact Ea|]. split; [unfold orbit_list; rewrite Ed; cbn [rbind]; by rewrite Eo|].
  split; [|split; [|split; [|split]]].
  4: { by eapply all_orbits_nd. }
  4: { intros k j x a Ha. destruct (proj1 (Hsome k j x)) as (l' & w & Hl & Hj & Hx); [by eexists|]. destruct (Hback k l' j w Hl Hj) as (g & Hg & Eg). destruct (HF k j g Hg) as (gens & Eg' & H1 & H2 & _).
    rewrite Eg in Eg'. injection Eg' as ->. cbn [fst snd] in Hx. exists g. split; [done|]. split; [by apply elem_of_mnodes|]. destruct (Horb k l' j _ Hl Hj) as [H3 _]. destruct (H3 x a Hx Ha) as [Hm _]. apply elem_of_mnodes. cbn [fst snd] in Hm. by eapply moved_in. }
  2: { assert (forall i j o, ol !! i = Some (Some o) -> ol !! j = Some (Some o) -> i = j) as Hu.
    { intros i j o Hi%Hol Hj%Hol. congruence. }
    revert Hu. clear. induction ol as [|[o|] ol IH]; intros Hu; cbn; [constructor| |].
    - apply NoDup_cons. split.
      + intros (o' & Hin & E)%elem_of_list_omap. cbn in E. subst o'. apply elem_of_list_lookup in Hin as [i Hi]. by specialize (Hu 0 (S i) o eq_refl Hi).
      + apply IH. intros i j o' Hi Hj. by specialize (Hu (S i) (S j) o' Hi Hj) as [= ->].
    - apply IH. intros i j o' Hi Hj. by specialize (Hu (S i) (S j) o' Hi Hj) as [= ->]. }
  2: { intros k j a (o & Hin & E)%elem_of_list_omap. cbn in E. subst o. apply elem_of_list_lookup in Hin as [i Hi]. apply Hol in Hi.
    destruct (proj1 (Hd (k, j, a))) as (k' & g & j' & nodes & x & a' & Hk & Hg & Hj & Hx & Ha & [= -> -> ->]); [by eexists|]. split; [done|].
    rewrite Hdm in Hg. destruct (dget nets k') as [l|] eqn:El; [|done]. injection Hg as <-. rewrite list_lookup_fmap in Hj. destruct (l !! j') as [g|] eqn:Eg; [|done]. injection Hj as <-.
    exists g, x. split; [by exists l|]. split; [by apply elem_of_mnodes|done]. }
  split.
  - intros k j g Hg. destruct (Hat k j g Hg) as (? & _ & ? & _). split; [done|lia].
  - intros k q Hk Hq. destruct (full_find canon Hcanon c layers N E2 E3 al E4 E5 _ nets invs k q Hfull ltac:(lia) Hq) as (l & j & g & ci & Hl & Hj & Hiso & Hi & Hdi & _).
    exists ci, j, g. split; [done|]. split; [done|]. split; [by exists l|done].
  - intros ci k j Hi. destruct (fu_inv _ _ _ _ _ _ _ _ Hfull ci k j Hi) as (l & g & Hl & Hj & Hg). exists g. split; [by exists l|done].
  - intros k j g k' j' g' Hg Hg' Hiso. destruct (Hat k j g Hg) as (Gg & _ & _ & ci & Hi & Hdi). destruct (Hat k' j' g' Hg') as (Gg' & _ & _ & cj & Hj & Hdj).
    apply (inv_same canon Hcanon c layers N E2 E3 al E4 E5 k k' g g' ci Gg Gg' Hi) in Hiso. rewrite (EnumRun.inv_fun canon al g' ci cj Hiso Hj) in Hdi. rewrite Hdj in Hdi. by injection Hdi.
  - intros k j g x Hg Hx. destruct (Haut k j g x Hg Hx) as [a Ha]. exists a. split; [done|]. intros Hk. assert (is_Some (dget d (k, j, a))) as [i Hi].
    { apply Hd. pose proof Hg as (l & Hl & Hj). exists k, (map mnodes l), j, (mnodes g), x, a. split; [done|]. rewrite Hdm, Hl. split; [done|]. split; [rewrite list_lookup_fmap, Hj; done|]. split; [by apply elem_of_mnodes|done]. }
    apply elem_of_list_omap. exists (Some (k, j, a)). split; [|done]. apply Hol in Hi. by apply elem_of_list_lookup_2 in Hi.
  - intros k j g x y Hg Hx Hy. destruct (Hforth k j g Hg) as (l' & w & Hl & Hj & Ew). destruct (HF k j g Hg) as (gens & Eg & _ & _ & Hmv). rewrite Ew in Eg. injection Eg as ->.
    destruct (Horb k l' j (mnodes g, gens) Hl Hj) as [_ H2]. cbn [fst snd] in H2. rewrite H2 by (by apply elem_of_mnodes). by apply Hmv.
Qed.
