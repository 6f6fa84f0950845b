(** * Lemmas for the orbit equations: occupation and isomorphisms, the coefficients *)
From stdpp Require Import prelude relations.
From Coq Require Import QArith.
From Verif Require Import Base Net NetSpec NetHist NetIter Supra MpxSpec MpxFacts MpxHist MpxIter MpxTrans MpxBuild PropsMpx MpxRelabel MpxSub PropsMpxSub PropsMpxEq OverlapFacts MpxEdges
  Samp Graphlet GraphletSpec GraphletFacts TouchFacts Isom IsomFacts MpxIsom IsomSpec PropsIsom PropsIsomMpx SampFacts Enum EnumSpec EnumNet EnumFacts OrbitCount CountSpec CountFacts CountRun OrbitEq EqSpec.
Local Open Scope nat_scope.


(** ** Lists *)
Lemma sub_in {V} (a l : list V) z : sublist a l -> z ∈ a -> z ∈ l.
Proof. intros Ha Hz. eapply elem_of_submseteq; [exact Hz|]. by apply sublist_submseteq. Qed.
Lemma sub_nodup {V} (a l : list V) : sublist a l -> NoDup l -> NoDup a.
Proof.
  intros Ha Hl. induction Ha as [|x a l Ha IH|x a l Ha IH]; [done| |]; apply NoDup_cons in Hl as [Hx Hl]; [|by apply IH].
  apply NoDup_cons. split; [|by apply IH]. intros Hi. by apply Hx, (sub_in a l).
Qed.
Lemma sub_same {V} (a b l : list V) : NoDup l -> sublist a l -> sublist b l -> (forall z, z ∈ a <-> z ∈ b) -> a = b.
Proof.
  intros Hl Ha. revert b. induction Ha as [|x a l Ha IH|x a l Ha IH]; intros b Hb Hs.
  - apply sublist_nil_r in Hb. done.
  - apply NoDup_cons in Hl as [Hx Hl]. inversion Hb as [|y b' l' Hb'|y b' l' Hb']; subst.
    + f_equal. apply IH; [done|done|]. intros z. specialize (Hs z). rewrite !elem_of_cons in Hs. split; intros Hz; (assert (z <> x) by (intros ->; apply Hx; first [exact (sub_in _ _ _ Ha Hz)|exact (sub_in _ _ _ Hb' Hz)])); tauto.
    + exfalso. apply Hx. eapply sub_in; [exact Hb'|]. apply Hs. left.
  - apply NoDup_cons in Hl as [Hx Hl]. inversion Hb as [|y b' l' Hb'|y b' l' Hb']; subst.
    + exfalso. apply Hx. eapply sub_in; [exact Ha|]. apply Hs. left.
    + by apply IH.
Qed.
Lemma nodup_len (a b : list name) : NoDup a -> NoDup b -> (forall z, z ∈ a <-> z ∈ b) -> length a = length b.
Proof. intros Ha Hb H. apply Permutation_length. by apply NoDup_Permutation. Qed.
Lemma upto_le {X} (R : X -> X -> Prop) (L L' : list X) : (forall a b e, R a e -> R b e -> R a b) -> (forall a, a ∈ L -> exists b, b ∈ L' /\ R a b) ->
  (forall i j a b, L !! i = Some a -> L !! j = Some b -> R a b -> i = j) -> length L <= length L'.
Proof.
  intros Hr HL Hu.
  assert (forall K, (forall a, a ∈ K -> a ∈ L) -> exists I, length I = length K /\ forall i m, I !! i = Some m -> exists a b, K !! i = Some a /\ L' !! m = Some b /\ R a b) as HI.
  { induction K as [|a K IH]; intros HK; [by exists []|]. destruct IH as (I & HlI & HI); [intros; apply HK; by right|]. destruct (HL a) as (b & [m Hm]%elem_of_list_lookup & Hab); [apply HK; left|].
    exists (m :: I). split; [cbn; lia|]. intros [|i] m'; [intros [= <-]; by exists a, b|]. apply HI. }
  destruct (HI L) as (I & HlI & HI'); [done|]. rewrite <- HlI, <- (seq_length (length L') 0). apply submseteq_length, NoDup_submseteq.
  - apply NoDup_alt. intros i j m Hi Hj. destruct (HI' i m Hi) as (a & b & Ha & Hb & Hab). destruct (HI' j m Hj) as (a' & b' & Ha' & Hb' & Hab'). rewrite Hb in Hb'. injection Hb' as <-.
    apply (Hu i j a a' Ha Ha'). by eapply Hr.
  - intros m [i Hi]%elem_of_list_lookup. destruct (HI' i m Hi) as (a & b & _ & Hb & _). apply elem_of_seq. apply lookup_lt_Some in Hb. lia.
Qed.
Lemma same_set_tr (a b e : list name) : same_set a e -> same_set b e -> same_set a b.
Proof. intros [H1 H2] [H3 H4]. split; auto. Qed.
Lemma lists_pairs_le L L' P : lists_pairs L P -> lists_pairs L' P -> length L <= length L'.
Proof.
  intros (A1 & _ & A3) (_ & B2 & _). apply (upto_le (fun a b => same_set (a.1) (b.1) /\ same_set (a.2) (b.2))).
  - intros a b e [? ?] [? ?]. split; by eapply same_set_tr.
  - intros [s t] Hin. destruct (A1 s t Hin) as (Hs & Ht & HP). destruct (B2 s t Hs Ht HP) as (s' & t' & ? & ? & ?). by exists (s', t').
  - intros i j [s t] [s' t'] Hi Hj [? ?]. by eapply A3.
Qed.
Lemma counts_pairs_fun k k' P : counts_pairs k P -> counts_pairs k' P -> k = k'.
Proof. intros (L & HL & <-) (L' & HL' & <-). pose proof (lists_pairs_le L L' P HL HL'). pose proof (lists_pairs_le L' L P HL' HL). lia. Qed.
Lemma lists_pairs_iff L P Q : (forall s t, NoDup s -> NoDup t -> P s t <-> Q s t) -> lists_pairs L P -> lists_pairs L Q.
Proof.
  intros HPQ (H1 & H2 & H3). split_and!.
  - intros s t Hin. destruct (H1 s t Hin) as (? & ? & ?). split; [done|]. split; [done|]. by apply HPQ.
  - intros s t Hs Ht HQ. apply H2; [done..|]. by apply HPQ.
  - done.
Qed.

(** ** Occupation and isomorphisms *)
Section occ.
Context (c : coupling) (layers : list name) (n_l : nat) (Hkind : EnumSpec.one_kind layers) (Hfit : coupling_fits c layers).
Context (al : option (list nat)) (Hal : aspects_ok 1 al) (Hal0 : 0 ∈ aspect_list 1 al).
Context {T : Type} `{EqDecision T} (canon : dict nat nat -> list (nat * nat) -> T).
Context (n : nat) (nets : dict nat (list mpx)) (invs : @invariants T) (auts : dict orbit name) (orbits : list orbit).
Context (Hcat : catalogue canon al c layers n_l n nets invs auts orbits).
Notation G := (graphlet c layers n_l).
Notation A := (fun a => a ∈ aspect_list 1 al).
Notation lay_ok := (on_layers layers n_l).
Notation occ := (occupies c al nets auts).
Lemma induced_plain p s q : plain c p -> induced c p s q -> plain c q.
Proof. intros [_ Hn] (Hq & _ & _ & It). split; [done|]. intros l x (Ht & _)%It. by apply (Hn l x). Qed.
Lemma induced_lay p s q : lay_ok p -> induced c p s q -> lay_ok q.
Proof. intros (t & [Nt Ht] & H) (_ & _ & I1 & _). exists t. split; [|done]. split; [done|]. intros l. by rewrite Ht, I1. Qed.
Lemma graphlet_plain k g : G k g -> plain c g /\ lay_ok g.
Proof. intros [H1 H2 H3 H4 H5]. done. Qed.
Lemma plain_suitable p : plain c p -> lay_ok p -> msuitable p /\ maspects p = 1.
Proof using Hfit. intros Hp Hl. destruct (plain_ok c layers n_l Hfit p Hp Hl) as (h & Hh & ? & ?). split; [by exists [c], true, h|by eapply en_asp]. Qed.
Lemma plain_sortable p : plain c p -> lay_ok p -> msortable p al.
Proof using Hkind Hfit Hal0.
  intros Hp Hl a. rewrite (proj2 (plain_suitable p Hp Hl)). intros Ha Hn. destruct a as [|[|a]]; [done| |lia]. destruct Hl as (t & [_ Ht] & _ & Hin).
  destruct Hkind as [K|K]; [left|right]; intros l Hll; apply K, Hin; by apply Ht.
Qed.
Lemma iso_shape p q f x : plain c p -> plain c q -> mhas p 0 x -> misomorphism A f p q -> shape_iso c p q A f.
Proof using Hfit Hal Hal0.
  intros [[h Hh] _] [[h' Hh'] _] Hx Hf. eapply misomorphism_shape; [exact Hh|exact Hh'|by eapply fits_no_net|done|apply al_one|apply al_top, Hal|by exists x|done].
Qed.
Lemma shape_iso' p q f : plain c p -> plain c q -> shape_iso c p q A f -> misomorphism A f p q.
Proof using Hfit. intros [[h Hh] _] [[h' Hh'] _] Hf. eapply shape_misomorphism; [exact Hh|exact Hh'|by eapply fits_no_net|done]. Qed.
Lemma shape_back p q m : plain c p -> lay_ok p -> shape_iso c p q A m ->
  exists m', shape_iso c q p A m' /\ (forall x, mhas p 0 x -> m' 0 (m 0 x) = x) /\ (forall y, mhas q 0 y -> m 0 (m' 0 y) = y).
Proof using Hal0.
  intros Hp (t & [_ Ht] & _) Hm. destruct (shape_inv c p q al m (mnodes p) t (elem_of_mnodes p) Ht Hal0 Hm) as (m' & H' & Hi). exists m'. split; [done|]. split; [done|].
  intros y Hy. destruct (si_node _ _ _ _ _ Hm) as (_ & _ & B3). destruct (B3 y Hy) as (x & Hx & <-). by rewrite Hi.
Qed.
Lemma shape_induced p p' s m q q' : shape_iso c p p' A m -> (forall z, z ∈ s -> mhas p 0 z) -> induced c p s q -> induced c p' (m 0 <$> s) q' -> shape_iso c q q' A m.
Proof.
  intros [N L F Tp Ti C] Hs (_ & I0 & I1 & It) (_ & J0 & J1 & Jt). destruct N as (N1 & N2 & N3), L as (L1 & L2 & L3). split; [split; [|split]|split; [|split]|done|done| |].
  - intros x Hx%I0. apply J0, elem_of_list_fmap. eauto.
  - intros x y Hx%I0 Hy%I0. apply N2; by apply Hs.
  - intros y (x & -> & Hx)%J0%elem_of_list_fmap. exists x. split; [by apply I0|done].
  - intros l Hl%I1. by apply J1, L1.
  - intros l l' Hl%I1 Hl'%I1. by apply L2.
  - intros l (l' & Hl' & <-)%J1%L3. exists l'. split; [by apply I1|done].
  - intros l x y Hl%I1 Hx%I0 Hy%I0 Hne. rewrite It, Jt, (Ti l x y) by (try apply Hs; done). split.
    + intros (Ht & _). split; [done|]. split; apply elem_of_list_fmap; eauto.
    + by intros (Ht & _).
  - intros l l' Hl%I1 Hl'%I1. by apply C.
Qed.
Lemma induced_self p s q r : induced c p s q -> forall t, (forall z, z ∈ t -> z ∈ s) -> induced c q t r <-> induced c p t r.
Proof.
  intros (_ & I0 & I1 & It) t Ht. unfold induced. split; intros (H0 & J0 & J1 & Jt); (split; [done|]; split; [done|]); (split; [intros l; rewrite J1; first [apply I1|symmetry; apply I1]|]); intros l x y; rewrite Jt, It.
  - naive_solver.
  - specialize (Ht x) as H1. specialize (Ht y) as H2. tauto.
Qed.
Lemma occ_sub p s q x o t : induced c p s q -> (forall z, z ∈ t -> z ∈ s) -> occ q x o t <-> occ p x o t.
Proof. intros Hq Ht. unfold occupies. split; intros (r & g & f & Hr & H); exists r, g, f; (split; [|done]); by apply (induced_self p s q r Hq t Ht). Qed.
Lemma occ_shape p p' m x o s : plain c p -> lay_ok p -> plain c p' -> shape_iso c p p' A m -> (forall z, z ∈ s -> mhas p 0 z) -> x ∈ s -> occ p x o s -> occ p' (m 0 x) o (m 0 <$> s).
Proof using Hfit Hal Hal0 Hcat.
  intros Hp Hl Hp' Hm Hs Hx (r & g & f & Hr & Hg & Hf & Ha). destruct (cat_net _ _ _ _ _ _ _ _ _ _ Hcat _ _ _ Hg) as [Gg _]. destruct (graphlet_plain _ _ Gg) as [Pg _].
  destruct (sub_induced c layers Hfit p' (m 0 <$> s) Hp') as (r' & _ & Hr').
  { intros z (y & -> & Hy)%elem_of_list_fmap. destruct (si_node _ _ _ _ _ Hm) as (B & _). by apply B, Hs. }
  pose proof (induced_plain p s r Hp Hr) as Pr. pose proof (induced_plain p' _ r' Hp' Hr') as Pr'. pose proof (induced_lay p s r Hl Hr) as Lr.
  assert (mhas r 0 x) as Hxr by (by apply Hr).
  pose proof (shape_induced p p' s m r r' Hm Hs Hr Hr') as Sr. destruct (shape_back r r' m Pr Lr Sr) as (m' & Sm & Hmi & _).
  pose proof (iso_shape r g f x Pr Pg Hxr Hf) as Sf. exists r', g, (fun a y => f a (m' a y)). split; [done|]. split; [done|]. split.
  - apply shape_iso'; [done|done|]. by eapply shape_comp.
  - by rewrite Hmi.
Qed.
(** A set in which a node occupies an orbit is connected and has the size of the graphlet. *)
Lemma occ_conn p x o s : plain c p -> lay_ok p -> NoDup s -> (forall z, z ∈ s -> mhas p 0 z) -> x ∈ s -> occ p x o s -> set_connected (tied_somewhere p) s /\ length s = o.1.1 /\ 2 <= o.1.1.
Proof using Hfit Hal Hal0 Hcat.
  intros Hp Hl Hnd Hs Hx (r & g & f & Hr & Hg & Hf & _). destruct (cat_net _ _ _ _ _ _ _ _ _ _ Hcat _ _ _ Hg) as [Gg Hk]. destruct (graphlet_plain _ _ Gg) as [Pg Lg].
  pose proof (induced_plain p s r Hp Hr) as Pr. pose proof (induced_lay p s r Hl Hr) as Lr. assert (mhas r 0 x) as Hxr by (by apply Hr).
  pose proof (iso_shape r g f x Pr Pg Hxr Hf) as Sf. destruct (shape_back r g f Pr Lr Sf) as (m' & Sm & Hmi & Hmo). split; [|split; [|done]].
  - intros a b Ha Hb. assert (mhas r 0 a) as Ha' by (by apply Hr). assert (mhas r 0 b) as Hb' by (by apply Hr). rewrite <- (Hmi a Ha'), <- (Hmi b Hb').
    destruct (si_node _ _ _ _ _ Sf) as (B & _). pose proof (gl_conn _ _ _ _ _ Gg (f 0 a) (f 0 b) (B a Ha') (B b Hb')) as Hc. clear -Hc Hr Sm Gg.
    destruct (gl_net _ _ _ _ _ Gg) as [h Hh]. induction Hc as [|u v w [l Ht] _ IH]; [apply rtc_refl|]. eapply rtc_l; [|exact IH].
    pose proof Ht as (Hu & Hv & Hl)%(en_tied _ _ _ Hh). assert (u <> v) as Huv by (intros ->; by apply (gl_loops _ _ _ _ _ Gg l v)).
    apply (si_tied _ _ _ _ _ Sm l u v Hl Hu Hv Huv), Hr in Ht as (Ht & ? & ?). split; [by exists (m' 1 l)|done].
  - destruct (gl_nodes _ _ _ _ _ Gg) as (t & [Nt Ht] & <-). rewrite <- (fmap_length (f 0)). destruct (si_node _ _ _ _ _ Sf) as (B1 & B2 & B3). apply nodup_len; [|done|].
    + apply NoDup_fmap_2_strong; [|done]. intros a b Ha Hb. apply B2; by apply Hr.
    + intros z. rewrite Ht, elem_of_list_fmap. split.
      * intros (a & -> & Ha). apply B1. by apply Hr.
      * intros (a & Ha & <-)%B3. exists a. split; [done|]. by apply Hr.
Qed.
End occ.

(** ** The coefficients *)
Lemma rfold_count {X} (F : X -> res nat) (P : X -> Prop) (l : list X) : (forall x, x ∈ l -> exists b : bool, F x = Ok (if b then 1 else 0) /\ (b = true <-> P x)) ->
  forall acc, exists l', rfold (fun k x => let? i := F x in Ok (k + i)) acc l = Ok (acc + length l') /\ sublist l' l /\ forall x, x ∈ l' <-> x ∈ l /\ P x.
Proof.
  induction l as [|x l IH]; intros HF acc; cbn [rfold].
  - exists []. rewrite Nat.add_0_r. split; [done|]. split; [constructor|]. intros x. split; [by intros ?%elem_of_nil|by intros [? _]].
  - destruct (HF x) as (b & E & Hb); [left|]. rewrite E. cbn [rbind]. destruct (IH ltac:(intros y Hy; apply HF; by right) (acc + (if b then 1 else 0))) as (l' & El & Hsub & Hl'). rewrite El.
    destruct b.
    + exists (x :: l'). split; [f_equal; cbn; lia|]. split; [by apply sublist_skip|]. intros y. rewrite !elem_of_cons, Hl'. split; [intros [-> |[? ?]]; [split; [by left|by apply Hb]|auto]|].
      intros [[-> |?] ?]; auto.
    + exists l'. split; [f_equal; cbn; lia|]. split; [by apply sublist_cons|]. intros y. rewrite elem_of_cons, Hl'. split; [intros [? ?]; auto|]. intros [[-> |?] HP]; [|done]. by apply Hb in HP.
Qed.
Section coef.
Context (c : coupling) (layers : list name) (n_l : nat) (Hkind : EnumSpec.one_kind layers) (Hfit : coupling_fits c layers).
Context (al : option (list nat)) (Hal : aspects_ok 1 al) (Hal0 : 0 ∈ aspect_list 1 al).
Context {T : Type} `{EqDecision T} (structure : auxg -> auxg -> bool) (mapping : auxg -> auxg -> dict nat nat) (canon : dict nat nat -> list (nat * nat) -> T).
Context (n : nat) (nets : dict nat (list mpx)) (invs : @invariants T) (auts : dict orbit name) (orbits : list orbit).
Context (Hback : exact_backend structure) (Hmap : exact_mapping structure mapping) (Hcanon : exact_canon canon) (Hcat : catalogue canon al c layers n_l n nets invs auts orbits).
Notation G := (graphlet c layers n_l).
Notation A := (fun a => a ∈ aspect_list 1 al).
Notation lay_ok := (on_layers layers n_l).
Notation occ := (occupies c al nets auts).
(** A listed orbit. *)
Definition known (o : orbit) : Prop := 2 <= o.1.1 <= n /\ exists g, graphlet_at nets (o.1.1) (o.1.2) g.
Lemma place_ok q o : plain c q -> lay_ok q -> known o -> exists ci, mcomplete_invariant canon q al = Ok ci /\ (dget invs ci = Some (o.1) <-> exists g, graphlet_at nets (o.1.1) (o.1.2) g /\ misomorphic al q g).
Proof using Hkind Hfit Hal Hal0 Hcanon Hcat.
  intros Pq Lq [Hk (g & Hg)]. destruct (plain_suitable c layers n_l Hfit q Pq Lq) as [Sq Aq]. pose proof (plain_sortable c layers n_l Hkind Hfit al Hal0 q Pq Lq) as Kq.
  assert (aspects_ok (maspects q) al) as Hal' by (by rewrite Aq).
  assert (forall g k, G k g -> exists i j, mcomplete_invariant canon q al = Ok i /\ mcomplete_invariant canon g al = Ok j /\ (i = j <-> misomorphic al q g)) as Hinv.
  { intros g' k Gg. destruct (graphlet_plain c layers n_l _ _ Gg) as [Pg Lg]. destruct (plain_suitable c layers n_l Hfit g' Pg Lg) as [Sg Ag].
    apply C85_complete_invariant; try done; [by rewrite Aq, Ag|by apply (plain_sortable c layers n_l Hkind Hfit al Hal0)]. }
  destruct (cat_net _ _ _ _ _ _ _ _ _ _ Hcat _ _ _ Hg) as [Gg _]. destruct (Hinv g _ Gg) as (ci & cj & Ei & Ej & Hij). exists ci. split; [done|].
  assert (dget invs cj = Some (o.1)) as Hd.
  { destruct (cat_find _ _ _ _ _ _ _ _ _ _ Hcat _ g Hk Gg) as (c' & j & g' & Ec & Hc & Hg' & Hiso). rewrite Ej in Ec. injection Ec as <-.
    destruct (cat_once _ _ _ _ _ _ _ _ _ _ Hcat _ _ _ _ _ _ Hg Hg' Hiso) as [_ <-]. rewrite Hc. by destruct o as [[? ?] ?]. }
  split.
  - intros Hi. destruct o as [[k j] a]. cbn [fst snd] in *. destruct (cat_inv _ _ _ _ _ _ _ _ _ _ Hcat ci k j Hi) as (g' & Hg' & Ei'). exists g'. split; [done|].
    destruct (cat_net _ _ _ _ _ _ _ _ _ _ Hcat _ _ _ Hg') as [Gg' _]. destruct (Hinv g' _ Gg') as (i' & j' & E1 & E2 & Hiff). apply Hiff. congruence.
  - intros (g' & Hg' & Hiso). assert (g' = g) as -> by (destruct Hg as (l & H1 & H2), Hg' as (l' & H1' & H2'); congruence). apply Hij in Hiso. by rewrite Hiso.
Qed.
Lemma misom_ok q k g (fixed : bool) : plain c q -> lay_ok q -> G k g -> misomorphic al q g ->
  exists ms, mget_isomorphism structure mapping q g al fixed = Ok (Some ms) /\ misomorphism A (dict_map ms) q g /\ mlists_layers q fixed ms.
Proof using Hkind Hfit Hal Hal0 Hback Hmap.
  intros Pq Lq Gg Hiso. destruct (plain_suitable c layers n_l Hfit q Pq Lq) as [Sq Aq]. pose proof (plain_sortable c layers n_l Hkind Hfit al Hal0 q Pq Lq) as Kq.
  destruct (graphlet_plain c layers n_l _ _ Gg) as [Pg Lg]. destruct (plain_suitable c layers n_l Hfit g Pg Lg) as [Sg Ag]. pose proof (plain_sortable c layers n_l Hkind Hfit al Hal0 g Pg Lg) as Kg.
  assert (aspects_ok (maspects q) al) as Hal' by (by rewrite Aq). assert (maspects q = maspects g) as Ha by congruence.
  destruct (fixed_parts_exist q (aspect_list (maspects q) al) Sq) as [L1 HL1]. destruct (fixed_parts_exist g (aspect_list (maspects q) al) Sg) as [L2 HL2].
  assert (length L1 = length L2) as HL.
  { destruct (decide (length L1 = length L2)) as [?|Hne]; [done|]. exfalso.
    destruct (C85_is_isomorphic structure q g al L1 L2 Hback Sq Sg Ha Hal' Kq Kg HL1 HL2) as [_ [_ Hno]]; [|done|by apply Hno]. rewrite Aq. intros E. rewrite E in Hal0. by apply elem_of_nil in Hal0. }
  destruct (C85_get_isomorphism structure mapping fixed q g al L1 L2 Hback Hmap Sq Sg Ha Hal' Kq Kg HL1 HL2 (or_intror HL)) as (r & Er & Hr).
  destruct r as [ms|]; [|done]. rewrite Aq in Hr. by exists ms.
Qed.
Lemma image_ok q k g x : plain c q -> lay_ok q -> G k g -> misomorphic al q g -> exists f, misomorphism A f q g /\ image_in structure mapping al q g x = Ok (f 0 x).
Proof using Hkind Hfit Hal Hal0 Hback Hmap.
  intros Pq Lq Gg Hiso. destruct (misom_ok q k g false Pq Lq Gg Hiso) as (ms & E & Hms & _). exists (dict_map ms). split; [done|]. unfold image_in. rewrite E. done.
Qed.
(** The test made by the code for one set. *)
Lemma occ_test p x o s : plain c p -> lay_ok p -> NoDup s -> (forall z, z ∈ s -> mhas p 0 z) -> x ∈ s -> known o ->
  exists q ci, msubnet p [Some s; Some (layers_of p)] false = Ok q /\ mcomplete_invariant canon q al = Ok ci /\ (occ p x o s -> dget invs ci = Some (o.1)) /\
    (dget invs ci = Some (o.1) -> forall g, graphlet_at nets (o.1.1) (o.1.2) g -> exists y b, image_in structure mapping al q g x = Ok y /\ in_orbit auts o y = Ok b /\ (b = true <-> occ p x o s)).
Proof using Hkind Hfit Hal Hal0 Hback Hmap Hcanon Hcat.
  intros Pp Lp Nd Hs Hx Hko. destruct (sub_induced c layers Hfit p s Pp Hs) as (q & Eq & Hq). pose proof (induced_plain c p s q Pp Hq) as Pq. pose proof (induced_lay c layers n_l p s q Lp Hq) as Lq.
  assert (mhas q 0 x) as Hxq by (by apply Hq). destruct (plain_suitable c layers n_l Hfit q Pq Lq) as [_ Aq].
  destruct (place_ok q o Pq Lq Hko) as (ci & Ei & Hci). exists q, ci. split; [done|]. split; [done|].
  assert (forall r g f, induced c p s r -> graphlet_at nets (o.1.1) (o.1.2) g -> misomorphism A f r g -> exists f', misomorphism A f' q g /\ f' 0 x = f 0 x) as Hmove.
  { intros r g f Hr Hg Hf. destruct (cat_net _ _ _ _ _ _ _ _ _ _ Hcat _ _ _ Hg) as [Gg _]. destruct (graphlet_plain c layers n_l _ _ Gg) as [Pg _]. pose proof (induced_plain c p s r Pp Hr) as Pr.
    assert (mhas r 0 x) as Hxr by (by apply Hr). pose proof (iso_shape c layers Hfit al Hal Hal0 r g f x Pr Pg Hxr Hf) as Sf. exists f. split; [|done]. apply (shape_iso' c layers Hfit al); [done|done|].
    change f with (fun a y => f a ((fun _ z => z) a y)). eapply shape_comp; [|exact Sf]. destruct Hq as (_ & I0 & I1 & It), Hr as (_ & J0 & J1 & Jt). split; try done.
    - split; [intros z Hz; by apply J0, I0|]. split; [done|]. intros z Hz. exists z. split; [by apply I0, J0|done].
    - split; [intros z Hz; by apply J1, I1|]. split; [done|]. intros z Hz. exists z. split; [by apply I1, J1|done].
    - by apply Hal.
    - intros l y z _ _ _ _. by rewrite It, Jt. }
  split.
  - intros (r & g & f & Hr & Hg & Hf & _). apply Hci. exists g. split; [done|]. destruct (Hmove r g f Hr Hg Hf) as (f' & Hf' & _). exists f'. by rewrite Aq.
  - intros Hd g Hg. apply Hci in Hd as (g' & Hg' & Hiso). assert (g' = g) as -> by (destruct Hg as (l & H1 & H2), Hg' as (l' & H1' & H2'); congruence).
    destruct (cat_net _ _ _ _ _ _ _ _ _ _ Hcat _ _ _ Hg) as [Gg Hk2]. destruct (image_ok q _ g x Pq Lq Gg Hiso) as (f & Hf & Ef). rewrite Ef. exists (f 0 x).
    destruct (graphlet_plain c layers n_l _ _ Gg) as [Pg Lg]. destruct (si_node _ _ _ _ _ (iso_shape c layers Hfit al Hal Hal0 q g f x Pq Pg Hxq Hf)) as (B & _).
    destruct (cat_aut _ _ _ _ _ _ _ _ _ _ Hcat _ _ g (f 0 x) Hg (B x Hxq)) as (a & Ea & _). exists (bool_decide (a = o.2)). split; [done|]. unfold in_orbit. rewrite Ea. split; [done|].
    rewrite bool_decide_eq_true. split.
    + intros ->. exists q, g, f. split; [done|]. split; [done|]. split; [done|]. by destruct o as [[? ?] ?].
    + intros (r & g' & f' & Hr & Hg'' & Hf' & Ha). assert (g' = g) as -> by (destruct Hg as (l & H1 & H2), Hg'' as (l' & H1' & H2'); congruence).
      destruct (Hmove r g f' Hr Hg Hf') as (f2 & Hf2 & E2). rewrite <- E2 in Ha.
      assert (dget auts (o.1.1, o.1.2, f 0 x) = dget auts (o.1.1, o.1.2, f2 0 x)) as Hsame; [|destruct o as [[k j] a']; cbn [fst snd] in *; rewrite Ea, Ha in Hsame; by injection Hsame].
      destruct (shape_back c layers n_l al Hal0 q g f Pq Lq (iso_shape c layers Hfit al Hal Hal0 q g f x Pq Pg Hxq Hf)) as (m' & Sm & Hmi & _).
      pose proof (iso_shape c layers Hfit al Hal Hal0 q g f2 x Pq Pg Hxq Hf2) as S2. destruct (si_node _ _ _ _ _ S2) as (B2 & _).
      apply (cat_orbit _ _ _ _ _ _ _ _ _ _ Hcat _ _ g); [done|by apply B|by apply B2|]. exists (fun a y => f2 a (m' a y)). split; [|by rewrite Hmi].
      apply (shape_iso' c layers Hfit al); [done|done|]. by eapply shape_comp.
Qed.
Lemma coef_step_ok p x both o1 o2 g1 g2 comb : plain c p -> lay_ok p -> known o1 -> known o2 -> graphlet_at nets (o1.1.1) (o1.1.2) g1 -> graphlet_at nets (o2.1.1) (o2.1.2) g2 ->
  mhas p 0 x -> x ∈ both -> x ∉ comb -> (forall z, z ∈ both -> mhas p 0 z) ->
  exists b : bool, coef_step structure mapping canon al invs auts x both o1 o2 p g1 g2 comb = Ok (if b then 1 else 0) /\
    (b = true <-> occ p x o1 (sunion (sdiff (mnodes p) (sdiff (mnodes p) comb)) both) /\ occ p x o2 (sdiff (mnodes p) comb)).
Proof using Hkind Hfit Hal Hal0 Hback Hmap Hcanon Hcat.
  intros Pp Lp K1 K2 Hg1 Hg2 Hx Hb Hc Hbn. set (s2 := sdiff (mnodes p) comb). set (s1 := sunion (sdiff (mnodes p) s2) both).
  assert (NoDup (mnodes p)) as Nn.
  { destruct (pl_net _ _ Pp) as [h Hh]. pose proof (pw_nd p (pi_wf _ _ _ _ _ _ (mhist_inv _ _ _ _ _ _ Hh))) as Hn. unfold mnodes. destruct (mslices p) as [|s0 ss]; [constructor|]. by inversion Hn. }
  assert (NoDup s2) as N2 by by apply NoDup_filter. assert (NoDup s1) as N1 by (apply NoDup_sunion; by apply NoDup_filter).
  assert (forall z, z ∈ s2 -> mhas p 0 z) as Hs2 by (intros z [Hz _]%elem_of_sdiff; by apply elem_of_mnodes).
  assert (forall z, z ∈ s1 -> mhas p 0 z) as Hs1 by (intros z [[Hz _]%elem_of_sdiff|Hz]%elem_of_sunion; [by apply elem_of_mnodes|by apply Hbn]).
  assert (x ∈ s1) as X1 by (apply elem_of_sunion; by right). assert (x ∈ s2) as X2 by (apply elem_of_sdiff; split; [by apply elem_of_mnodes|done]).
  destruct (occ_test p x o1 s1 Pp Lp N1 Hs1 X1 K1) as (q1 & c1 & E1 & F1 & T1 & U1). destruct (occ_test p x o2 s2 Pp Lp N2 Hs2 X2 K2) as (q2 & c2 & E2 & F2 & T2 & U2).
  unfold coef_step. fold s2. fold s1. rewrite E1. cbn [rbind]. rewrite E2. cbn [rbind]. rewrite F1. cbn [rbind]. rewrite F2. cbn [rbind].
  destruct (decide _) as [[D1 D2]|Hno].
  - destruct (U1 D1 g1 Hg1) as (y1 & b1 & I1 & O1 & B1). destruct (U2 D2 g2 Hg2) as (y2 & b2 & I2 & O2 & B2). rewrite I1. cbn [rbind]. rewrite I2. cbn [rbind]. rewrite O1. cbn [rbind].
    destruct b1; [rewrite O2; cbn [rbind]; exists b2; split; [done|]; tauto|]. exists false. split; [done|]. split; [done|]. intros [H1 _]. by apply B1 in H1.
  - exists false. split; [done|]. split; [done|]. intros [H1 H2]. exfalso. auto.
Qed.
End coef.
