(** * Lemmas for the orbit equations: counting pairs of sets in two ways *)
From stdpp Require Import prelude relations.
From Coq Require Import QArith.
From Verif Require Import Base Net NetSpec NetHist NetIter Supra MpxSpec MpxFacts MpxHist MpxIter MpxTrans MpxBuild PropsMpx MpxRelabel MpxSub PropsMpxSub PropsMpxEq OverlapFacts MpxEdges
  Samp Graphlet GraphletSpec GraphletFacts TouchFacts Isom IsomFacts MpxIsom IsomSpec PropsIsom PropsIsomMpx SampFacts Enum EnumSpec EnumNet EnumFacts OrbitCount CountSpec CountFacts CountRun PropsCount OrbitEq EqSpec EqFacts EqRun.
Local Open Scope nat_scope.

Lemma filter_split_len (s t : list name) : length t = length (filter (fun z => z ∈ s) t) + length (filter (fun z => z ∉ s) t).
Proof. induction t as [|a t IH]; [done|]. rewrite !filter_cons. destruct (decide (a ∈ s)) as [H|H], (decide (a ∉ s)) as [H'|H']; try done; cbn; lia. Qed.
Lemma union_len (s t u : list name) : NoDup s -> NoDup t -> NoDup u -> (forall z, z ∈ u <-> z ∈ s \/ z ∈ t) -> length u + length (filter (fun z => z ∈ t) s) = length s + length t.
Proof.
  intros Ns Nt Nu Hu. assert (length u = length (s ++ filter (fun z => z ∉ s) t)) as ->.
  { apply nodup_len; [done| |].
    - apply NoDup_app. split; [done|]. split; [|by apply NoDup_filter]. intros z Hz [? _]%elem_of_list_filter. done.
    - intros z. rewrite Hu, elem_of_app, elem_of_list_filter. destruct (decide (z ∈ s)); tauto. }
  assert (length (filter (fun z => z ∈ t) s) = length (filter (fun z => z ∈ s) t)) as ->.
  { apply nodup_len; [by apply NoDup_filter..|]. intros z. rewrite !elem_of_list_filter. tauto. }
  rewrite app_length. pose proof (filter_split_len s t). lia.
Qed.
Lemma lists_pairs_map (F F' : list name -> list name) L (P Q : list name -> list name -> Prop) : 
  (forall s t, NoDup s -> NoDup t -> P s t -> NoDup (F s) /\ NoDup (F t) /\ Q (F s) (F t) /\ same_set s (F' (F s)) /\ same_set t (F' (F t))) ->
  (forall s t, NoDup s -> NoDup t -> Q s t -> NoDup (F' s) /\ NoDup (F' t) /\ P (F' s) (F' t) /\ same_set s (F (F' s)) /\ same_set t (F (F' t))) ->
  (forall s t, same_set s t -> same_set (F s) (F t)) -> (forall s t, same_set s t -> same_set (F' s) (F' t)) ->
  lists_pairs L P -> lists_pairs ((fun e => (F (e.1), F (e.2))) <$> L) Q.
Proof.
  intros HP HQ HF HF' (H1 & H2 & H3). split_and!.
  - intros s t ([a b] & [= -> ->] & Hin)%elem_of_list_fmap. destruct (H1 a b Hin) as (Na & Nb & Hab). destruct (HP a b Na Nb Hab) as (? & ? & ? & _). done.
  - intros s t Ns Nt Hst. destruct (HQ s t Ns Nt Hst) as (Na & Nb & Hab & Es & Et). destruct (H2 _ _ Na Nb Hab) as (a & b & Hin & Ea & Eb). exists (F a), (F b).
    split; [apply elem_of_list_fmap; by exists (a, b)|]. split; eapply same_set_trans; [exact Es|by apply HF|exact Et|by apply HF].
  - intros i j s t s' t'. rewrite !list_lookup_fmap. destruct (L !! i) as [[a b]|] eqn:Ei; [|done]. destruct (L !! j) as [[a' b']|] eqn:Ej; [|done]. cbn. intros [= <- <-] [= <- <-] Es Et.
    destruct (H1 a b (elem_of_list_lookup_2 _ _ _ Ei)) as (Na & Nb & Hab). destruct (HP a b Na Nb Hab) as (_ & _ & _ & Ea & Eb).
    destruct (H1 a' b' (elem_of_list_lookup_2 _ _ _ Ej)) as (Na' & Nb' & Hab'). destruct (HP a' b' Na' Nb' Hab') as (_ & _ & _ & Ea' & Eb'). apply (H3 i j a b a' b' Ei Ej).
    + eapply same_set_trans; [exact Ea|]. eapply same_set_trans; [by apply HF'|]. by apply same_set_sym.
    + eapply same_set_trans; [exact Eb|]. eapply same_set_trans; [by apply HF'|]. by apply same_set_sym.
Qed.
Lemma fmap_same (f : name -> name) s t : same_set s t -> same_set (f <$> s) (f <$> t).
Proof. intros [H1 H2]. split; intros z (y & -> & Hy)%elem_of_list_fmap; apply elem_of_list_fmap; eauto. Qed.
Lemma fmap_back (f g : name -> name) s : (forall z, z ∈ s -> g (f z) = z) -> same_set s (g <$> (f <$> s)).
Proof.
  intros H. split; intros z.
  - intros Hz. apply elem_of_list_fmap. exists (f z). split; [by rewrite H|]. apply elem_of_list_fmap. eauto.
  - intros (y & -> & (w & -> & Hw)%elem_of_list_fmap)%elem_of_list_fmap. by rewrite H.
Qed.

(** ** Sums *)
Fixpoint nsum {X} (f : X -> nat) (l : list X) : nat := match l with [] => 0 | a :: l => f a + nsum f l end.
Lemma nsum_ext {X} (f g : X -> nat) l : (forall a, a ∈ l -> f a = g a) -> nsum f l = nsum g l.
Proof. induction l as [|a l IH]; intros H; [done|]. cbn. rewrite (H a ltac:(left)), IH; [done|]. intros b Hb. apply H. by right. Qed.
Lemma nsum_plus {X} (f g : X -> nat) l : nsum (fun a => f a + g a) l = nsum f l + nsum g l.
Proof. induction l as [|a l IH]; [done|]. cbn. rewrite IH. lia. Qed.
Lemma nsum_zero {X} (f : X -> nat) l : (forall a, a ∈ l -> f a = 0) -> nsum f l = 0.
Proof. induction l as [|a l IH]; intros H; [done|]. cbn. rewrite (H a ltac:(left)), IH; [done|]. intros b Hb. apply H. by right. Qed.
Lemma nsum_one {X} (f : X -> nat) l i a : l !! i = Some a -> f a = 1 -> (forall j b, l !! j = Some b -> j <> i -> f b = 0) -> nsum f l = 1.
Proof.
  revert i. induction l as [|b l IH]; intros i Hi Ha Hj; [done|]. destruct i as [|i].
  - injection Hi as ->. cbn. rewrite Ha, nsum_zero; [done|]. intros e [j Hje]%elem_of_list_lookup. by apply (Hj (S j) e).
  - cbn. rewrite (Hj 0 b) by done. apply (IH i); [done..|]. intros j e Hje Hne. apply (Hj (S j)); [done|lia].
Qed.
Lemma count_two_ways {X Y} (U : X -> Y -> Prop) `{!forall x y, Decision (U x y)} (l : list X) (M : list Y) :
  (forall x, x ∈ l -> exists i y, M !! i = Some y /\ U x y /\ forall j y', M !! j = Some y' -> U x y' -> j = i) -> length l = nsum (fun y => length (filter (fun x => U x y) l)) M.
Proof.
  induction l as [|x l IH]; intros HU; [by rewrite nsum_zero|]. cbn [length].
  rewrite (nsum_ext _ (fun y => (if decide (U x y) then 1 else 0) + length (filter (fun x => U x y) l))) by (intros y _; rewrite filter_cons; by destruct (decide (U x y))).
  rewrite nsum_plus, <- IH by (intros z Hz; apply HU; by right). destruct (HU x) as (i & y & Hi & Hu & Hun); [left|]. rewrite (nsum_one _ M i y); [done|done|by rewrite decide_True|].
  intros j b Hj Hne. destruct (decide (U x b)) as [Hb|]; [|done]. by destruct (Hne (Hun j b Hj Hb)).
Qed.
Lemma sum_over_nsum f l : sum_over f l = nsum f l.
Proof. induction l as [|a l IH]; [done|]. cbn. by rewrite IH. Qed.
Lemma nsum_filter {X} (P : X -> Prop) `{!forall x, Decision (P x)} (f : X -> nat) l : nsum f (filter P l) = nsum (fun a => if decide (P a) then f a else 0) l.
Proof. induction l as [|a l IH]; [done|]. rewrite filter_cons. cbn. destruct (decide (P a)); cbn; by rewrite IH. Qed.
Lemma nsum_group {Y} `{EqDecision Y} (w : Y -> nat) (os : list Y) (orbits : list Y) : NoDup orbits -> (forall o, o ∈ os -> o ∈ orbits) ->
  nsum w os = nsum (fun o => w o * length (filter (fun o' => o' = o) os)) orbits.
Proof.
  intros Nd. induction os as [|a os IH]; intros H; [rewrite (nsum_zero _ orbits); [done|]; intros o _; apply Nat.mul_0_r|]. cbn [nsum]. rewrite IH by (intros; apply H; by right).
  rewrite (nsum_ext (fun o => w o * length (filter (fun o' => o' = o) (a :: os))) (fun o => (if decide (a = o) then w a else 0) + w o * length (filter (fun o' => o' = o) os))).
  2: { intros o _. rewrite filter_cons. destruct (decide (a = o)) as [-> |]; cbn [length]; lia. }
  rewrite nsum_plus. f_equal. assert (a ∈ orbits) as Ha by (apply H; left). clear -Nd Ha. induction orbits as [|o l IH]; [by apply elem_of_nil in Ha|]. apply NoDup_cons in Nd as [Ho Nd]. cbn.
  apply elem_of_cons in Ha as [-> |Ha]; [rewrite decide_True by done|].
  - rewrite nsum_zero; [lia|]. intros b Hb. rewrite decide_False; [done|]. by intros ->.
  - rewrite decide_False by (by intros ->). by apply IH.
Qed.

Section main.
Context (c : coupling) (layers : list name) (n_l : nat) (Hkind : EnumSpec.one_kind layers) (Hfit : coupling_fits c layers).
Context (al : option (list nat)) (Hal : aspects_ok 1 al) (Hal0 : 0 ∈ aspect_list 1 al).
Context {T : Type} `{EqDecision T} (structure : auxg -> auxg -> bool) (mapping : auxg -> auxg -> dict nat nat) (canon : dict nat nat -> list (nat * nat) -> T).
Context (n : nat) (nets : dict nat (list mpx)) (invs : @invariants T) (auts : dict orbit name) (orbits : list orbit).
Context (Hback : exact_backend structure) (Hmap : exact_mapping structure mapping) (Hcanon : exact_canon canon) (Hcat : catalogue canon al c layers n_l n nets invs auts orbits).
Notation G := (graphlet c layers n_l).
Notation A := (fun a => a ∈ aspect_list 1 al).
Notation lay_ok := (on_layers layers n_l).
Notation occ := (occupies c al nets auts).
Notation kn := (known n nets).
Notation cov := (covers c al nets auts).
(** The sets [s] and [t] have the union [u], contain [x], and [x] occupies [o1] in one and [o2] in the other. *)
Definition cover_in (p : mpx) (u : list name) (x : name) (o1 o2 : orbit) (s t : list name) : Prop :=
  (forall z, z ∈ u <-> z ∈ s \/ z ∈ t) /\ x ∈ s /\ x ∈ t /\ occ p x o1 s /\ occ p x o2 t.
Lemma covers_shape p p' m x o1 o2 b s t : plain c p -> lay_ok p -> plain c p' -> shape_iso c p p' A m -> NoDup s -> NoDup t -> cov p x o1 o2 b s t ->
  NoDup (m 0 <$> s) /\ NoDup (m 0 <$> t) /\ cov p' (m 0 x) o1 o2 b (m 0 <$> s) (m 0 <$> t).
Proof using Hfit Hal Hal0 Hcat.
  intros Pp Lp Pp' Sm Ns Nt (Hc & Hxs & Hxt & Hb & O1 & O2). destruct (si_node _ _ _ _ _ Sm) as (B1 & B2 & B3).
  assert (forall z, z ∈ s -> mhas p 0 z) as Hs by (intros z Hz; apply Hc; by left). assert (forall z, z ∈ t -> mhas p 0 z) as Ht by (intros z Hz; apply Hc; by right).
  assert (NoDup (m 0 <$> s)) as Ms by (apply NoDup_fmap_2_strong; [|done]; intros; apply B2; auto).
  assert (NoDup (m 0 <$> t)) as Mt by (apply NoDup_fmap_2_strong; [|done]; intros; apply B2; auto).
  split; [done|]. split; [done|]. split_and!.
  - intros z. rewrite !elem_of_list_fmap. split.
    + intros (y & Hy & <-)%B3. apply Hc in Hy as [Hy|Hy]; [left|right]; by exists y.
    + intros [(y & -> & Hy)|(y & -> & Hy)]; apply B1; auto.
  - apply elem_of_list_fmap. by exists x.
  - apply elem_of_list_fmap. by exists x.
  - rewrite <- Hb. transitivity (length (m 0 <$> filter (fun z => z ∈ t) s)); [|apply fmap_length]. apply nodup_len; [by apply NoDup_filter| |].
    + apply NoDup_fmap_2_strong; [|by apply NoDup_filter]. intros a a' [_ Ha]%elem_of_list_filter [_ Ha']%elem_of_list_filter. apply B2; auto.
    + intros z. rewrite elem_of_list_filter, !elem_of_list_fmap. split.
      * intros ((y & -> & Hy) & (y' & E & Hy')). exists y. split; [done|]. apply elem_of_list_filter. split; [done|]. assert (y = y') as -> by (apply B2; auto). done.
      * intros (y & -> & [? ?]%elem_of_list_filter). split; by exists y.
  - by apply (occ_shape c layers n_l Hfit al Hal Hal0 canon n nets invs auts orbits Hcat p p').
  - by apply (occ_shape c layers n_l Hfit al Hal Hal0 canon n nets invs auts orbits Hcat p p').
Qed.
(** The pairs of sets that cover a set are as many as those of the graphlet. *)
Lemma transport p x o o1 o2 u g y k b : plain c p -> lay_ok p -> NoDup u -> (forall z, z ∈ u -> mhas p 0 z) -> x ∈ u -> occ p x o u ->
  graphlet_at nets (o.1.1) (o.1.2) g -> mhas g 0 y -> dget auts (o.1, y) = Some (o.2) -> b + o.1.1 = o1.1.1 + o2.1.1 -> counts_pairs k (cov g y o1 o2 b) -> counts_pairs k (cover_in p u x o1 o2).
Proof using Hfit Hal Hal0 Hcat.
  intros Pp Lp Nu Hu Hx Ho Hg Hy Hay Hb (L & HL & <-). pose proof Ho as (r & g' & f & Hr & Hg' & Hf & Ha). assert (g' = g) as -> by (destruct Hg as (l & H1 & H2), Hg' as (l' & H1' & H2'); congruence).
  destruct (cat_net _ _ _ _ _ _ _ _ _ _ Hcat _ _ _ Hg) as [Gg _]. destruct (graphlet_plain c layers n_l _ _ Gg) as [Pg Lg]. pose proof (induced_plain c p u r Pp Hr) as Pr. pose proof (induced_lay c layers n_l p u r Lp Hr) as Lr.
  assert (mhas r 0 x) as Hxr by (by apply Hr). pose proof (iso_shape c layers Hfit al Hal Hal0 r g f x Pr Pg Hxr Hf) as Sf. destruct (si_node _ _ _ _ _ Sf) as (B1 & _ & _).
  destruct o as [[ko jo] ao]. cbn [fst snd] in *.
  destruct (proj1 (cat_orbit _ _ _ _ _ _ _ _ _ _ Hcat _ _ g (f 0 x) y Hg (B1 x Hxr) Hy)) as (h & Hh & Ehy); [congruence|].
  pose proof (iso_shape c layers Hfit al Hal Hal0 g g h (f 0 x) Pg Pg (B1 x Hxr) Hh) as Sh. assert (shape_iso c r g A (fun a z => h a (f a z))) as Sm by (by eapply shape_comp). set (m := fun a z => h a (f a z)) in *.
  assert (m 0 x = y) as Emx by done. clearbody m. clear Sf Sh Hf Hh Ha f h B1 Ehy Hg'. destruct (shape_back c layers n_l al Hal0 r g m Pr Lr Sm) as (m' & Sm' & Hi & Hi').
  assert (m' 0 y = x) as Emy by (rewrite <- Emx; by apply Hi). assert (forall z, mhas r 0 z <-> z ∈ u) as Hru by apply Hr.
  assert (lists_pairs ((fun e : list name * list name => (fmap (m' 0) (e.1), fmap (m' 0) (e.2))) <$> L) (cov r x o1 o2 b)) as HL'.
  { apply (lists_pairs_map (fmap (m' 0)) (fmap (m 0)) L (cov g y o1 o2 b)); [| |apply fmap_same|apply fmap_same|done].
    - intros s t Ns Nt Hc. destruct (covers_shape g r m' y o1 o2 b s t Pg Lg Pr Sm' Ns Nt Hc) as (? & ? & Hc'). rewrite Emy in Hc'. destruct Hc as (Hc & _).
      split_and!; [done..| |]; apply fmap_back; intros z Hz; apply Hi', Hc; auto.
    - intros s t Ns Nt Hc. destruct (covers_shape r g m x o1 o2 b s t Pr Lr Pg Sm Ns Nt Hc) as (? & ? & Hc'). rewrite Emx in Hc'. destruct Hc as (Hc & _).
      split_and!; [done..| |]; apply fmap_back; intros z Hz; apply Hi, Hc; auto. }
  exists ((fun e : list name * list name => (fmap (m' 0) (e.1), fmap (m' 0) (e.2))) <$> L). split; [|apply fmap_length]. eapply lists_pairs_iff; [|exact HL']. intros s t Ns Nt. unfold covers, cover_in. split.
  - intros (Hc & Hxs & Hxt & _ & O1 & O2). split; [intros z; by rewrite <- Hru|]. split; [done|]. split; [done|].
    split; [apply (occ_sub c al nets auts p u r x o1 s Hr)|apply (occ_sub c al nets auts p u r x o2 t Hr)]; try done; intros z Hz; apply Hru, Hc; auto.
  - intros (Hc & Hxs & Hxt & O1 & O2). assert (forall z, z ∈ s -> z ∈ u) as Hsu by (intros z Hz; apply Hc; auto). assert (forall z, z ∈ t -> z ∈ u) as Htu by (intros z Hz; apply Hc; auto).
    split; [intros z; by rewrite Hru|]. split; [done|]. split; [done|]. split.
    + pose proof (union_len s t u Ns Nt Nu Hc) as E.
      destruct (occ_conn c layers n_l Hfit al Hal Hal0 canon n nets invs auts orbits Hcat p x o1 s Pp Lp Ns ltac:(auto) Hxs O1) as (_ & E1 & _).
      destruct (occ_conn c layers n_l Hfit al Hal Hal0 canon n nets invs auts orbits Hcat p x o2 t Pp Lp Nt ltac:(auto) Hxt O2) as (_ & E2 & _).
      destruct (occ_conn c layers n_l Hfit al Hal Hal0 canon n nets invs auts orbits Hcat p x (ko, jo, ao) u Pp Lp Nu Hu Hx Ho) as (_ & E3 & _). cbn in E3. lia.
    + split; [apply (occ_sub c al nets auts p u r x o1 s Hr)|apply (occ_sub c al nets auts p u r x o2 t Hr)]; done.
Qed.
Lemma union_connected R (s t u : list name) x : set_connected R s -> set_connected R t -> x ∈ s -> x ∈ t -> (forall z, z ∈ u <-> z ∈ s \/ z ∈ t) -> set_connected R u.
Proof.
  intros Hs Ht Xs Xt Hu. assert (forall (w : list name) a b, (forall z, z ∈ w -> z ∈ u) -> rtc (fun a b => R a b /\ a ∈ w /\ b ∈ w) a b -> rtc (fun a b => R a b /\ a ∈ u /\ b ∈ u) a b) as Hmono.
  { intros w a b Hw. apply rtc_subrel. intros ? ? (? & ? & ?). auto. }
  assert (forall a, a ∈ u -> rtc (fun a b => R a b /\ a ∈ u /\ b ∈ u) a x /\ rtc (fun a b => R a b /\ a ∈ u /\ b ∈ u) x a) as Hx.
  { intros a [Ha|Ha]%Hu.
    - split; (apply (Hmono s); [intros z Hz; apply Hu; auto|apply Hs; done]).
    - split; (apply (Hmono t); [intros z Hz; apply Hu; auto|apply Ht; done]). }
  intros a b Ha Hb. etrans; [by apply Hx|by apply Hx].
Qed.
Definition unionb (e : list name * list name) (u : list name) : bool := same_setb u (e.1 ++ e.2).
Lemma unionb_iff e u : unionb e u = true <-> forall z, z ∈ u <-> z ∈ e.1 \/ z ∈ e.2.
Proof.
  unfold unionb. rewrite same_setb_iff. unfold same_set. setoid_rewrite elem_of_app. split.
  - intros [H1 H2] z. split; auto.
  - intros H. split; intros z; apply H.
Qed.
Lemma prod_pairs (L1 L2 M : list (list name)) p x o1 o2 u : lists_sets L1 (fun s => touches p n x s /\ occ p x o1 s) -> lists_sets L2 (fun s => touches p n x s /\ occ p x o2 s) ->
  kn o1 -> kn o2 -> plain c p -> lay_ok p -> NoDup u -> (forall z, z ∈ u -> mhas p 0 z) ->
  exists L, lists_pairs L (cover_in p u x o1 o2) /\ length L = length (filter (fun e => unionb e u = true) (list_prod L1 L2)).
Proof using Hfit Hal Hal0 Hcat.
  intros (A1 & A2 & A3) (B1 & B2 & B3) K1 K2 Pp Lp Nu Hu. exists (filter (fun e => unionb e u = true) (list_prod L1 L2)). split; [|done].
  assert (forall s t, (s, t) ∈ list_prod L1 L2 <-> s ∈ L1 /\ t ∈ L2) as Hprod by (intros s t; rewrite !elem_of_list_In; apply in_prod_iff).
  split_and!.
  - intros s t [Hun [Hs Ht]%Hprod]%elem_of_list_filter. pose proof (proj1 (unionb_iff _ _) Hun) as Hun'. cbn in Hun'. destruct (A1 s Hs) as (Ns & (Xs & _) & O1). destruct (B1 t Ht) as (Nt & (Xt & _) & O2). done.
  - intros s t Ns Nt (Hc & Xs & Xt & O1 & O2). assert (forall z, z ∈ s -> mhas p 0 z) as Hs by (intros z Hz; apply Hu, Hc; auto). assert (forall z, z ∈ t -> mhas p 0 z) as Ht by (intros z Hz; apply Hu, Hc; auto).
    destruct (occ_conn c layers n_l Hfit al Hal Hal0 canon n nets invs auts orbits Hcat p x o1 s Pp Lp Ns Hs Xs O1) as (C1 & E1 & E1').
    destruct (occ_conn c layers n_l Hfit al Hal Hal0 canon n nets invs auts orbits Hcat p x o2 t Pp Lp Nt Ht Xt O2) as (C2 & E2 & E2').
    destruct K1 as [K1 _], K2 as [K2 _].
    destruct (A2 s Ns) as (s' & Hs' & Es); [split; [|done]; split; [done|]; split; [lia|done]|]. destruct (B2 t Nt) as (t' & Ht' & Et); [split; [|done]; split; [done|]; split; [lia|done]|].
    exists s', t'. split; [|done]. apply elem_of_list_filter. split; [|by apply Hprod]. apply (proj2 (unionb_iff _ _)). intros z. cbn. rewrite Hc. destruct Es as [Es Es'], Et as [Et Et']. split; intros [?|?]; auto.
  - intros i j s t s' t' Hi Hj Es Et.
    assert (NoDup (list_prod L1 L2)) as Np.
    { assert (NoDup L1) as N1 by (apply NoDup_alt; intros a b s0 Ha Hb; apply (A3 a b s0 s0 Ha Hb), same_set_refl). assert (NoDup L2) as N2 by (apply NoDup_alt; intros a b s0 Ha Hb; apply (B3 a b s0 s0 Ha Hb), same_set_refl).
      clear -N1 N2. induction L1 as [|a l IH]; [constructor|]. apply NoDup_cons in N1 as [Ha N1]. cbn. apply NoDup_app. split; [|split; [|by apply IH]].
      - change (map (fun y => (a, y)) L2) with ((fun y => (a, y)) <$> L2). apply NoDup_fmap; [by intros ? ? [= ?]|done].
      - intros [a' b'] Hin. change (map (fun y => (a, y)) L2) with ((fun y => (a, y)) <$> L2) in Hin. apply elem_of_list_fmap in Hin as (? & [= -> ->] & _). rewrite elem_of_list_In, in_prod_iff, <- !elem_of_list_In. by intros [? _]. }
    assert (s = s') as <-.
    { apply elem_of_list_lookup_2, elem_of_list_filter in Hi as [_ [Hs _]%Hprod]. apply elem_of_list_lookup_2, elem_of_list_filter in Hj as [_ [Hs' _]%Hprod].
      apply elem_of_list_lookup in Hs as [a Hs]. apply elem_of_list_lookup in Hs' as [a' Hs']. assert (a = a') as -> by (by apply (A3 a a' s s')). congruence. }
    assert (t = t') as <-.
    { apply elem_of_list_lookup_2, elem_of_list_filter in Hi as [_ [_ Hs]%Hprod]. apply elem_of_list_lookup_2, elem_of_list_filter in Hj as [_ [_ Hs']%Hprod].
      apply elem_of_list_lookup in Hs as [a Hs]. apply elem_of_list_lookup in Hs' as [a' Hs']. assert (a = a') as -> by (by apply (B3 a a' t t')). congruence. }
    eapply NoDup_lookup; [|exact Hi|exact Hj]. by apply NoDup_filter.
Qed.
(** Every pair of sets, counted by its union. *)
Lemma equation p x o1 o2 (N C : orbit -> nat) : plain c p -> lay_ok p -> mhas p 0 x -> NoDup orbits -> kn o1 -> kn o2 -> o1.1.1 + o2.1.1 - 1 <= n ->
  (forall u, NoDup u -> touches p n x u -> exists o, o ∈ orbits /\ forall o', occ p x o' u <-> o' = o) ->
  o1 ∈ orbits -> o2 ∈ orbits -> (forall o, o ∈ orbits -> counts_sets (C o) (fun s => touches p n x s /\ occ p x o s)) ->
  (forall o, o ∈ orbits -> Nat.max (o1.1.1) (o2.1.1) <= o.1.1 <= o1.1.1 + o2.1.1 - 1 -> exists g y b, graphlet_at nets (o.1.1) (o.1.2) g /\ mhas g 0 y /\ dget auts (o.1, y) = Some (o.2) /\ b + o.1.1 = o1.1.1 + o2.1.1 /\ counts_pairs (N o) (cov g y o1 o2 b)) ->
  C o1 * C o2 = sum_over (fun o => N o * C o) (filter (fun o => Nat.max (o1.1.1) (o2.1.1) <= o.1.1 <= o1.1.1 + o2.1.1 - 1) orbits).
Proof using Hfit Hal Hal0 Hcat.
  intros Pp Lp Hx Nd K1 K2 Hn Hone In1 In2 HC HN. destruct (mtouching_lists c layers n_l Hfit p Pp Lp x n Hx) as (M & _ & HM).
  destruct (HC o1 In1) as (L1 & HL1 & E1). destruct (HC o2 In2) as (L2 & HL2 & E2).
  assert (forall u, u ∈ M -> exists o, o ∈ orbits /\ occ p x o u /\ forall o', occ p x o' u -> o' = o) as Horb.
  { intros u Hu. destruct (proj1 HM u Hu) as [Nu Tu]. destruct (Hone u Nu Tu) as (o & Ho & H). exists o. split; [done|]. split; [by apply H|]. intros o' Ho'. by apply H. }
  assert (exists os, Forall2 (fun u o => o ∈ orbits /\ occ p x o u /\ forall o', occ p x o' u -> o' = o) M os) as [os Hos].
  { clear -Horb. induction M as [|u M IH]; [by exists []|]. destruct IH as [os Hos]; [intros v Hv; apply Horb; by right|]. destruct (Horb u) as [o Ho]; [left|]. exists (o :: os). by constructor. }
  rewrite <- E1, <- E2. transitivity (length (list_prod L1 L2)); [by rewrite prod_length|].
  rewrite (@count_two_ways _ _ (fun e u => unionb e u = true) (fun e u => bool_eq_dec (unionb e u) true) (list_prod L1 L2) M).
  2: { intros [s t] Hin. rewrite elem_of_list_In, in_prod_iff, <- !elem_of_list_In in Hin. destruct Hin as [Hs Ht].
    destruct (proj1 HL1 s Hs) as (Ns & (Xs & Ls & Ps & Cs) & O1). destruct (proj1 HL2 t Ht) as (Nt & (Xt & Lt & Pt & Ct) & O2).
    destruct (occ_conn c layers n_l Hfit al Hal Hal0 canon n nets invs auts orbits Hcat p x o1 s Pp Lp Ns Ps Xs O1) as (_ & S1 & _).
    destruct (occ_conn c layers n_l Hfit al Hal Hal0 canon n nets invs auts orbits Hcat p x o2 t Pp Lp Nt Pt Xt O2) as (_ & S2 & _).
    set (u := sunion s t). assert (forall z, z ∈ u <-> z ∈ s \/ z ∈ t) as Hu by (intros z; apply elem_of_sunion). assert (NoDup u) as Nu by (by apply NoDup_sunion).
    pose proof (union_len s t u Ns Nt Nu Hu) as El.
    assert (1 <= length (filter (fun z => z ∈ t) s)). { assert (x ∈ filter (fun z => z ∈ t) s) as [i Hi]%elem_of_list_lookup by (by apply elem_of_list_filter). apply lookup_lt_Some in Hi. lia. }
    assert (length (filter (fun z => z ∈ t) s) <= length t).
    { apply submseteq_length, NoDup_submseteq; [by apply NoDup_filter|]. by intros z [? _]%elem_of_list_filter. }
    destruct (proj1 (proj2 HM) u Nu) as (v & [i Hi]%elem_of_list_lookup & [V1 V2]).
    { split; [apply Hu; by left|]. split; [lia|]. split; [intros z [?|?]%Hu; auto|]. by apply (union_connected _ s t u x). }
    exists i, v. split; [done|]. split.
    - apply (proj2 (unionb_iff _ _)). intros z. cbn. rewrite <- (Hu z). cbn. split; auto.
    - intros j v' Hj Hv'. apply (proj2 (proj2 HM) j i v' v Hj Hi). pose proof (proj1 (unionb_iff _ _) Hv') as Hv. cbn in Hv. split; intros z Hz.
      + apply V1, Hu, Hv, Hz.
      + apply Hv, Hu, V2, Hz. }
  set (N' := fun o : orbit => if decide (Nat.max (o1.1.1) (o2.1.1) <= o.1.1 <= o1.1.1 + o2.1.1 - 1) then N o else 0).
  transitivity (nsum N' os).
  { assert (forall M' os', Forall2 (fun u o => o ∈ orbits /\ occ p x o u /\ forall o', occ p x o' u -> o' = o) M' os' -> (forall u, u ∈ M' -> u ∈ M) ->
      nsum (fun u => length (filter (fun e => unionb e u = true) (list_prod L1 L2))) M' = nsum N' os') as H; [|by apply H].
    clear os Hos. intros M' os' Hf Hsub. induction Hf as [|u o M' os' (Ho & Hou & _) _ IH]; [done|]. cbn [nsum]. rewrite IH by (intros v Hv; apply Hsub; by right). f_equal.
    destruct (proj1 HM u (Hsub u ltac:(left))) as (Nu & Xu & Lu & Pu & Cu).
    destruct (prod_pairs L1 L2 M p x o1 o2 u HL1 HL2 K1 K2 Pp Lp Nu Pu) as (L & HL & <-).
    destruct (occ_conn c layers n_l Hfit al Hal Hal0 canon n nets invs auts orbits Hcat p x o u Pp Lp Nu Pu Xu Hou) as (_ & Eu & _). unfold N'. destruct (decide _) as [Hr|Hr].
    - destruct (HN o Ho Hr) as (g & y & b & Hg & Hy & Hay & Hb & Hcp).
      destruct (transport p x o o1 o2 u g y (N o) b Pp Lp Nu Pu Xu Hou Hg Hy Hay Hb Hcp) as (L' & HL' & <-). pose proof (lists_pairs_le _ _ _ HL HL'). pose proof (lists_pairs_le _ _ _ HL' HL). lia.
    - destruct L as [|[s t] L]; [done|]. exfalso. apply Hr. destruct (proj1 HL s t) as (Ns & Nt & Hc & Xs & Xt & O1 & O2); [left|].
      destruct (occ_conn c layers n_l Hfit al Hal Hal0 canon n nets invs auts orbits Hcat p x o1 s Pp Lp Ns ltac:(intros z Hz; apply Pu, Hc; auto) Xs O1) as (_ & S1 & _).
      destruct (occ_conn c layers n_l Hfit al Hal Hal0 canon n nets invs auts orbits Hcat p x o2 t Pp Lp Nt ltac:(intros z Hz; apply Pu, Hc; auto) Xt O2) as (_ & S2 & _).
      pose proof (union_len s t u Ns Nt Nu Hc) as El.
      assert (1 <= length (filter (fun z => z ∈ t) s)). { assert (x ∈ filter (fun z => z ∈ t) s) as [i Hi]%elem_of_list_lookup by (by apply elem_of_list_filter). apply lookup_lt_Some in Hi. lia. }
      assert (length s <= length u) by (apply submseteq_length, NoDup_submseteq; [done|]; intros z Hz; apply Hc; auto).
      assert (length t <= length u) by (apply submseteq_length, NoDup_submseteq; [done|]; intros z Hz; apply Hc; auto). lia. }
  rewrite (nsum_group N' os orbits Nd).
  2: { intros o [i Hi]%elem_of_list_lookup. destruct (Forall2_lookup_r _ _ _ _ _ Hos Hi) as (u & _ & Ho & _). done. }
  rewrite sum_over_nsum, nsum_filter. apply nsum_ext. intros o Ho. unfold N'. destruct (decide _); [|done]. f_equal.
  eapply counts_sets_fun; [|by apply HC]. exists ((filter (fun e => e.2 = o) (zip M os)).*1). split.
  - assert (forall i u o', zip M os !! i = Some (u, o') -> M !! i = Some u /\ os !! i = Some o') as Hz. { intros i u o' (? & ? & H1 & H2 & H3)%lookup_zip_with_Some. by injection H1 as -> ->. }
    split_and!.
    + intros s ([u o'] & -> & [Eo [i Hi]%elem_of_list_lookup]%elem_of_list_filter)%elem_of_list_fmap. cbn in *. subst o'. apply Hz in Hi as [Hi Hj].
      destruct (proj1 HM u (elem_of_list_lookup_2 _ _ _ Hi)) as [Nu Tu]. destruct (Forall2_lookup_lr _ _ _ _ _ _ Hos Hi Hj) as (_ & Hou & _). done.
    + intros s Ns [Ts Hos']. destruct (proj1 (proj2 HM) s Ns Ts) as (t & [i Hi]%elem_of_list_lookup & Est). exists t. split; [|done].
      destruct (Forall2_lookup_l _ _ _ _ _ Hos Hi) as (o' & Hj & _ & _ & Hun). assert (o' = o) as ->. { symmetry. apply Hun. by eapply occ_same. }
      apply elem_of_list_fmap. exists (t, o). split; [done|]. apply elem_of_list_filter. split; [done|]. apply elem_of_list_lookup. exists i. apply lookup_zip_with_Some. eauto.
    + intros i j s t Hi Hj Hst.
      assert (apart M) as HA by exact (proj2 (proj2 HM)). clear -Hi Hj Hst HA.
      assert (forall (Z : list (list name * orbit)), apart (Z.*1) -> apart ((filter (fun e => e.2 = o) Z).*1)) as Hap.
      { induction Z as [|[a b] Z IH]; intros HZ; [done|]. assert (apart (Z.*1)) as HZ'. { intros a' b' s' t' H1 H2 H3. assert (S a' = S b') by (by eapply HZ). lia. }
        rewrite filter_cons. destruct (decide _); [|by apply IH]. cbn. intros [|i'] [|j'] s' t' H1 H2 H3; [done| | |].
        - injection H1 as <-. exfalso. change ((filter (fun e => e.2 = o) Z).*1 !! j' = Some t') in H2. apply elem_of_list_lookup_2, elem_of_list_fmap in H2 as (e0 & -> & [_ [k Hk]%elem_of_list_lookup]%elem_of_list_filter).
          assert (((a, b) :: Z).*1 !! S k = Some (e0.1)) as Hk' by (change (Z.*1 !! k = Some (e0.1)); by rewrite list_lookup_fmap, Hk). pose proof (HZ 0 (S k) _ _ eq_refl Hk' H3). lia.
        - injection H2 as <-. exfalso. change ((filter (fun e => e.2 = o) Z).*1 !! i' = Some s') in H1. apply elem_of_list_lookup_2, elem_of_list_fmap in H1 as (e0 & -> & [_ [k Hk]%elem_of_list_lookup]%elem_of_list_filter).
          assert (((a, b) :: Z).*1 !! S k = Some (e0.1)) as Hk' by (change (Z.*1 !! k = Some (e0.1)); by rewrite list_lookup_fmap, Hk). pose proof (HZ (S k) 0 _ _ Hk' eq_refl H3). lia.
        - f_equal. by eapply IH. }
      eapply (Hap (zip M os)); [|exact Hi|exact Hj|exact Hst]. intros a b s' t'. rewrite !list_lookup_fmap. destruct (zip M os !! a) as [[u1 w1]|] eqn:Ea; [|done]. destruct (zip M os !! b) as [[u2 w2]|] eqn:Eb; [|done].
      cbn. intros [= <-] [= <-]. apply lookup_zip_with_Some in Ea as (? & ? & [= <- <-] & Ea & _). apply lookup_zip_with_Some in Eb as (? & ? & [= <- <-] & Eb & _). by apply HA.
  - rewrite fmap_length. clear -Hos. induction Hos as [|u o' M os _ _ IH]; [done|]. change (zip (u :: M) (o' :: os)) with ((u, o') :: zip M os). rewrite !filter_cons. cbn [snd].
    destruct (decide (o' = o)); cbn [length]; by rewrite IH.
Qed.
End main.
