(** * Facts about the enumeration of graphlets *)
From stdpp Require Import prelude relations sorting.
From Verif Require Import Base Net NetSpec NetHist NetIter Supra MpxSpec MpxFacts MpxHist MpxIter MpxTrans MpxBuild PropsMpx PropsMpxEq MpxEdges Samp SampFacts Graphlet GraphletSpec PartFacts TouchFacts
  IsomSpec PropsIsom MpxIsom PropsIsomMpx EnumSpec EnumNet Enum.
Local Open Scope nat_scope.

Lemma elem_of_nrange k x : x ∈ nrange k <-> exists i, i < k /\ x = NInt (Z.of_nat i).
Proof.
  unfold nrange. rewrite elem_of_list_fmap. setoid_rewrite elem_of_seq. split.
  - intros (i & -> & Hi). exists i. split; [lia|done].
  - intros (i & Hi & ->). exists i. split; [done|lia].
Qed.
Lemma NoDup_nrange k : NoDup (nrange k).
Proof. apply NoDup_fmap_2; [intros i j [= ?]; lia|apply NoDup_seq]. Qed.
Lemma length_nrange k : length (nrange k) = k.
Proof. unfold nrange. by rewrite fmap_length, seq_length. Qed.
Lemma nrange_new k : NInt (Z.of_nat k) ∉ nrange k.
Proof. rewrite elem_of_nrange. intros (i & Hi & [= ?]). lia. Qed.
Lemma elem_of_nrange_S k x : x ∈ nrange (S k) <-> x ∈ nrange k \/ x = NInt (Z.of_nat k).
Proof.
  rewrite !elem_of_nrange. split.
  - intros (i & Hi & ->). destruct (decide (i = k)) as [-> |]; [by right|]. left. exists i. split; [lia|done].
  - intros [(i & Hi & ->)| ->]; [exists i|exists k]; (split; [lia|done]).
Qed.
Lemma lists_length {A} (s t : list A) (P : A -> Prop) : lists_exactly s P -> lists_exactly t P -> length s = length t.
Proof. intros [H1 H2] [H3 H4]. apply Permutation_length, NoDup_same_perm; [done..|]. intros x. by rewrite H2, H4. Qed.

Lemma sublist_filter_self {A} (P : A -> Prop) `{!forall x, Decision (P x)} (l : list A) : sublist (filter P l) l.
Proof. induction l as [|x l IH]; [constructor|]. rewrite filter_cons. destruct (decide (P x)); by constructor. Qed.
Lemma elem_of_nrange2 x : x ∈ nrange 2 <-> x = NInt 0 \/ x = NInt 1.
Proof. change (nrange 2) with [NInt 0; NInt 1]. rewrite !elem_of_cons, elem_of_nil. naive_solver. Qed.
(** ** The extensions *)
Lemma elem_of_layer_combs {V} (l c : list V) : c ∈ layer_combinations l <-> sublist c l /\ c <> [].
Proof.
  unfold layer_combinations. rewrite elem_of_list_bind. split.
  - intros (k & [Hc Hk]%elem_of_combs & Hs). split; [done|]. intros ->. apply elem_of_seq in Hs. cbn in Hk. lia.
  - intros [Hc Hne]. exists (length c). split; [by apply elem_of_combs|]. apply elem_of_seq. apply sublist_length in Hc. destruct c; [done|]. cbn in *. lia.
Qed.
Lemma extensions_sound i L e : e ∈ extensions i L -> e <> [] /\ forall x ls, (x, ls) ∈ e -> x ∈ nrange i /\ ls ∈ L.
Proof.
  unfold extensions. intros (n & He & Hn)%elem_of_list_bind. apply elem_of_list_bind in He as (nc & He & [Hs Hl]%elem_of_combs).
  apply elem_of_list_fmap in He as (lc & -> & Hlc%elem_of_cart). apply elem_of_seq in Hn. pose proof (Forall2_length _ _ _ Hlc) as Hl'. rewrite replicate_length in Hl'.
  split; [destruct nc, lc; cbn in *; try lia; done|]. intros x ls Hx. split.
  - apply (sublist_elem nc); [done|]. by apply elem_of_zip_l in Hx.
  - apply elem_of_zip_r in Hx. apply elem_of_list_lookup in Hx as [j Hj]. destruct (Forall2_lookup_l _ _ _ _ _ Hlc Hj) as (u & Hu & Hin). by apply lookup_replicate in Hu as [-> _].
Qed.
Lemma extensions_complete i L (nc : list name) (f : name -> list name) : sublist nc (nrange i) -> nc <> [] -> (forall x, x ∈ nc -> f x ∈ L) ->
  ((fun x => (x, f x)) <$> nc) ∈ extensions i L.
Proof.
  intros Hs Hne Hf. unfold extensions. apply elem_of_list_bind. exists (length nc). pose proof (sublist_length _ _ Hs) as Hl. rewrite length_nrange in Hl. split.
  - apply elem_of_list_bind. exists nc. split; [|by apply elem_of_combs]. apply elem_of_list_fmap. exists (f <$> nc). split.
    + clear. induction nc as [|x nc IH]; [done|]. cbn. f_equal. apply IH.
    + apply elem_of_cart. clear Hs Hne Hl. induction nc as [|x nc IH]; [constructor|]. cbn. constructor; [apply Hf; left|]. apply IH. intros y Hy. apply Hf. by right.
  - apply elem_of_seq. destruct nc; [done|]. cbn in *. lia.
Qed.
(** ** A node that can be removed *)
Lemma removable (R : name -> name -> Prop) (s : list name) k : (forall x y, {R x y} + {~ R x y}) -> (forall x y, R x y -> R y x) -> (forall x y, R x y -> y ∈ s) ->
  NoDup s -> length s = S k -> 1 <= k -> (forall x y, x ∈ s -> y ∈ s -> rtc R x y) ->
  exists v t, NoDup t /\ length t = k /\ v ∉ t /\ (forall x, x ∈ s <-> x = v \/ x ∈ t) /\ set_connected R t.
Proof.
  intros Hdec Hsym Hin Hnd Hlen Hk Hc. set (nb := fun x => filter (fun y => sumbool_rect (fun _ => bool) (fun _ => true) (fun _ => false) (Hdec x y) = true) s).
  assert (forall x y, y ∈ nb x <-> R x y) as Hnb.
  { intros x y. unfold nb. rewrite elem_of_list_filter. destruct (Hdec x y) as [H|H]; cbn; [split; [done|intros _; split; [done|by eapply Hin]]|split; [by intros [? _]|done]]. }
  destruct s as [|x0 s]; [done|]. set (s0 := x0 :: s) in *.
  assert (want nb [] x0 (S k) s0) as Hw.
  { split_and!; [done|left|done|by intros z _ ?%elem_of_nil|]. intros x y Hx Hy. specialize (Hc x y Hx Hy). clear Hy. induction Hc as [|x z y Hxz _ IH]; [constructor|].
    assert (z ∈ s0) by (by eapply Hin). eapply rtc_l; [|by apply IH]. split; [by apply Hnb|done]. }
  destruct (want_pred nb [] x0 ltac:(intros x y; rewrite !Hnb; apply Hsym) (not_elem_of_nil x0) k s0 Hk Hw) as (t & a & v & (T1 & T2 & T3 & T4 & T5) & Ha & Hv & Hvt & _ & [S1 S2]).
  exists v, t. split_and!; try done.
  - intros x. rewrite <- elem_of_sadd. split; auto.
  - intros x y Hx Hy. eapply rtc_subrel; [|by apply T5]. intros u w (H & ? & ?). split; [by apply Hnb|done].
Qed.

(** ** Networks that are graphlets *)
Section facts.
Context (c : coupling) (layers : list name) (n_l : nat) (Hkind : one_kind layers) (Hfit : coupling_fits c layers).
Notation G := (graphlet c layers n_l).
Definition standard (k : nat) (p : mpx) : Prop := (forall x, mhas p 0 x <-> x ∈ nrange k) /\ unit_weights p.
Lemma fits_no_net : no_net c.
Proof using Hfit. by destruct c. Qed.
Lemma gl_in k p l : G k p -> mhas p 1 l -> l ∈ layers.
Proof. intros H Hl. destruct (gl_layers _ _ _ _ _ H) as (t & [_ Ht] & _ & Hin). by apply Hin, Ht. Qed.
Lemma gl_asp k p : G k p -> maspects p = 1.
Proof. intros H. destruct (gl_net _ _ _ _ _ H) as [h Hh]. by eapply en_asp. Qed.
Lemma gl_suitable k p : G k p -> msuitable p.
Proof using Hfit.
  intros H. destruct (gl_net _ _ _ _ _ H) as [h Hh]. exists [c], true, h. split; [done|]. split.
  - left. split; [done|]. split; [done|]. intros a (x & l & -> & _ & Hl)%(en_exists _ _ _ Hh) [|d] c'; [|done]. intros [= <-].
    pose proof (gl_in k p l H Hl) as Hin. clear - Hfit Hin. destruct c as [w|w|w|m]; try done. destruct Hfit as [? Hz]. split; [done|]. destruct (Hz l Hin) as [z ->]. by exists z.
  - intros a (x & l & -> & _ & Hl)%(en_exists _ _ _ Hh). rewrite (en_asp _ _ _ Hh). change (player_of 1 [x; l]) with (LBare l). cbn [node_of hd default].
    pose proof (gl_loops _ _ _ _ _ H l x) as Hn. apply (en_pA _ _ _ Hh) in Hl as [m Hm]. rewrite tied_lrd in Hn. rewrite agetitem_lrd, Hm. f_equal.
    destruct (decide (lrd p (LBare l) x x = 0%Z)); [done|]. by destruct Hn.
Qed.
Context (al : option (list nat)) (Hal : aspects_ok 1 al) (Hal0 : 0 ∈ aspect_list 1 al).
Lemma gl_sortable k p : G k p -> msortable p al.
Proof using Hkind Hal0.
  intros H a. rewrite (gl_asp k p H). intros Ha Hn. destruct a as [|[|a]]; [done| |lia].
  destruct Hkind as [K|K]; [left|right]; intros l Hl; apply K; by eapply gl_in.
Qed.
Lemma al_top a : a ∈ aspect_list 1 al -> a <= 1.
Proof using Hal. apply Hal. Qed.
Lemma al_one : 1 ∈ aspect_list 1 al \/ 1 ∉ aspect_list 1 al.
Proof. destruct (decide (1 ∈ aspect_list 1 al)); auto. Qed.
Lemma gl_node k p : G k p -> 1 <= k -> exists x, mhas p 0 x.
Proof. intros H Hk. destruct (gl_nodes _ _ _ _ _ H) as (s & [_ Hs] & Hl). destruct s as [|x s]; [cbn in Hl; lia|]. exists x. apply Hs. left. Qed.
Lemma iso_size k k' p q : G k p -> G k' q -> misomorphic al p q -> k = k'.
Proof using Hal0.
  intros Hp Hq (m & Hm & _). rewrite (gl_asp k p Hp) in Hm. destruct (Hm 0 Hal0) as (B1 & B2 & B3).
  destruct (gl_nodes _ _ _ _ _ Hp) as (s & [Ns Hs] & Hl). destruct (gl_nodes _ _ _ _ _ Hq) as (t & [Nt Ht] & Hl').
  assert (m 0 <$> s ≡ₚ t) as Hst.
  { apply NoDup_same_perm; [| done |].
    - apply NoDup_fmap_2_strong; [|done]. intros x y Hx%Hs Hy%Hs. by apply B2.
    - intros y. rewrite Ht, elem_of_list_fmap. split; [intros (x & -> & Hx%Hs); by apply B1|]. intros (x & Hx & <-)%B3. exists x. split; [done|by apply Hs]. }
  apply Permutation_length in Hst. rewrite fmap_length in Hst. lia.
Qed.
(** An isomorphism between graphlets, given by its parts. *)
Lemma iso_parts k k' p q m : G k p -> G k' q -> shape_iso c p q (fun a => a ∈ aspect_list 1 al) m -> misomorphic al p q.
Proof using Hfit.
  intros Hp Hq Hs. destruct (gl_net _ _ _ _ _ Hp) as [h Hh]. destruct (gl_net _ _ _ _ _ Hq) as [g Hg]. exists m. rewrite (gl_asp k p Hp).
  eapply shape_misomorphism; [exact Hh|exact Hg|apply fits_no_net|exact Hs].
Qed.
Lemma parts_iso k k' p q : G k p -> G k' q -> 1 <= k -> misomorphic al p q -> exists m, shape_iso c p q (fun a => a ∈ aspect_list 1 al) m.
Proof using Hfit Hal Hal0.
  intros Hp Hq Hk (m & Hm). rewrite (gl_asp k p Hp) in Hm. destruct (gl_net _ _ _ _ _ Hp) as [h Hh]. destruct (gl_net _ _ _ _ _ Hq) as [g Hg]. exists m.
  eapply misomorphism_shape; [exact Hh|exact Hg|apply fits_no_net|done|apply al_one|apply al_top|by eapply gl_node|done].
Qed.

(** ** Two nodes *)
Lemma pair_sound nls comb : NoDup layers -> sublist nls layers -> length nls = n_l -> comb ∈ layer_combinations nls ->
  exists p, pair_net [c] nls comb = Ok p /\ G 2 p /\ standard 2 p /\ (forall l, mhas p 1 l <-> l ∈ nls) /\
    forall l x y, tied p l x y <-> l ∈ comb /\ ((x = NInt 0 /\ y = NInt 1) \/ (x = NInt 1 /\ y = NInt 0)).
Proof.
  intros Hnd Hs Hl [Hc Hne]%elem_of_layer_combs. pose proof (mhist_init [c] false 0%Z true) as H0. unfold pair_net.
  set (ts := (fun l => (NInt 0, NInt 1, l)) <$> comb).
  assert (((fun l => MSet [NInt 0; NInt 1; l] 1) <$> comb) = set_ops ts) as ->. { unfold put_ops, ts. by rewrite <- list_fmap_compose. }
  assert (forall x y l, (x, y, l) ∈ ts <-> x = NInt 0 /\ y = NInt 1 /\ l ∈ comb) as Hts.
  { intros x y l. unfold ts. rewrite elem_of_list_fmap. split; [by intros (l' & [= -> -> ->] & ?)|]. intros (-> & -> & ?). by exists l. }
  destruct (add_links c [] (new_mpx [c] false 0 true) ts nls H0) as (p & g & E & Hg & M0 & M1 & Hw). { intros x y l (-> & -> & _)%Hts. done. }
  assert (forall k x, ~ mhas (new_mpx [c] false 0 true) k x) as Hno. { intros k x. rewrite (C51_nodes_layers_exact _ _ _ _ _ _ H0) by done. by intros (e & ?%elem_of_nil & _). }
  assert (forall l x y, ~ tied (new_mpx [c] false 0 true) l x y) as Hnt. { intros l x y Ht. apply (en_tied _ _ _ H0) in Ht as [? _]. by eapply Hno. }
  assert (forall l x y, tied p l x y <-> l ∈ comb /\ ((x = NInt 0 /\ y = NInt 1) \/ (x = NInt 1 /\ y = NInt 0))) as HT.
  { intros l x y. rewrite (add_tied _ _ _ _ _ _ Hw), !Hts. specialize (Hnt l x y). naive_solver. }
  assert (exists l0, l0 ∈ comb) as [l0 Hl0]. { destruct comb as [|l0 comb]; [done|]. exists l0. left. }
  assert (forall x, mhas p 0 x <-> x ∈ nrange 2) as HN.
  { intros x. rewrite M0. setoid_rewrite Hts. change (nrange 2) with [NInt 0; NInt 1]. rewrite !elem_of_cons, elem_of_nil. specialize (Hno 0 x). split; [naive_solver|].
    intros [-> |[-> |[]]]; right; [exists (NInt 1)|exists (NInt 0)]; exists l0; auto. }
  assert (forall l, mhas p 1 l <-> l ∈ nls) as HL.
  { intros l. rewrite M1. setoid_rewrite Hts. specialize (Hno 1 l). split; [|auto]. intros [?|[?|(x & y & _ & _ & ?)]]; [done|done|]. by apply (sublist_elem comb). }
  exists p. split; [done|]. split; [|split; [split; [done|]|done]].
  - split.
    + by exists g.
    + exists (nrange 2). split; [split; [apply NoDup_nrange|]|done]. intros x. by rewrite HN.
    + exists nls. split; [split; [by eapply sublist_NoDup'|]|split; [done|]]; [intros l; by rewrite HL|]. intros l. by apply sublist_elem.
    + intros l x [_ [[-> ?]|[-> ?]]]%HT; done.
    + intros x y. rewrite !HN, !elem_of_nrange2. intros [-> | ->] [-> | ->]; try apply rtc_refl; apply rtc_once; exists l0; apply HT; auto.
  - apply unit_lrd. intros l x y. rewrite Hw. destruct (decide _); [by right|]. left. destruct (decide (lrd (new_mpx [c] false 0 true) (LBare l) x y = 0%Z)) as [?|Ht]; [done|].
    exfalso. apply tied_lrd in Ht. by eapply Hnt.
Qed.
Lemma pair_complete q : NoDup layers -> G 2 q -> exists nls comb p, nls ∈ combs n_l layers /\ comb ∈ layer_combinations nls /\ pair_net [c] nls comb = Ok p /\ misomorphic al q p.
Proof using Hkind Hfit Hal Hal0.
  intros Hnd Hq. pose proof Hq as [(h & Hh) (s & [Ns Hs] & Ls) (t & [Nt Ht] & Lt & Hin) Hloop Hconn].
  destruct s as [|x [|y [|]]]; try done. clear Ls. assert (x <> y) as Hxy. { apply NoDup_cons in Ns as [Hx _]. intros ->. apply Hx. left. }
  set (nls := filter (fun l => l ∈ t) layers). set (comb := filter (fun l => tied q l x y) nls).
  assert (forall l, l ∈ nls <-> mhas q 1 l) as Hnls. { intros l. unfold nls. rewrite elem_of_list_filter, Ht. split; [by intros [? _]|]. intros Hl. split; [done|]. by apply Hin, Ht. }
  assert (forall l, l ∈ comb <-> tied q l x y) as Hcomb. { intros l. unfold comb. rewrite elem_of_list_filter, Hnls. split; [by intros [? _]|]. intros Hl. split; [done|]. by apply (en_tied _ _ _ Hh) in Hl as (_ & _ & ?). }
  assert (NoDup nls) as Nnls by (by apply NoDup_filter).
  assert (sublist nls layers) as Snls by apply sublist_filter_self.
  assert (length nls = n_l) as Lnls. { rewrite <- Lt. apply Permutation_length, NoDup_same_perm; [done..|]. intros l. by rewrite Hnls, Ht. }
  assert (comb ∈ layer_combinations nls) as Hc.
  { apply elem_of_layer_combs. split; [apply sublist_filter_self|]. intros Hnil.
    assert (rtc (fun a b => exists l, tied q l a b) x y) as Hr by (apply Hconn; apply Hs; set_solver). inversion Hr as [|? z ? (l & Hl) _]; subst; [done|].
    assert (z = y) as ->. { pose proof (en_tied _ _ _ Hh _ _ _ Hl) as (_ & Hz & _). apply Hs in Hz. rewrite !elem_of_cons, elem_of_nil in Hz. destruct Hz as [-> |[-> |[]]]; [by apply Hloop in Hl|done]. }
    apply Hcomb in Hl. rewrite Hnil in Hl. by apply elem_of_nil in Hl. }
  destruct (pair_sound nls comb Hnd Snls Lnls Hc) as (p & E & Gp & [HN _] & HL & HT). exists nls, comb, p. split; [by apply elem_of_combs|]. split; [done|]. split; [done|].
  change (nrange 2) with [NInt 0; NInt 1] in HN.
  eapply iso_parts with (m := fun a z => match a with 0 => if decide (z = x) then NInt 0 else NInt 1 | S _ => z end); [done|done|]. split.
  - cbn. split_and!.
    + intros z _. apply HN. destruct (decide (z = x)); set_solver.
    + intros z z' Hz%Hs Hz'%Hs. rewrite !elem_of_cons, elem_of_nil in Hz, Hz'. destruct Hz as [-> |[-> |[]]], Hz' as [-> |[-> |[]]]; repeat case_decide; congruence.
    + intros z Hz%HN. rewrite !elem_of_cons, elem_of_nil in Hz. destruct Hz as [-> |[-> |[]]]; [exists x|exists y]; (split; [apply Hs; set_solver|]); [by rewrite decide_True|by rewrite decide_False by congruence].
  - cbn. split_and!; [intros l; by rewrite HL, Hnls|done|]. intros l Hl. exists l. split; [|done]. by apply Hnls, HL.
  - intros [|a] z Ha; done.
  - apply al_top.
  - cbn. intros l a b Hl Ha%Hs Hb%Hs Hab. rewrite HT, Hcomb. rewrite !elem_of_cons, elem_of_nil in Ha, Hb.
    destruct Ha as [-> |[-> |[]]], Hb as [-> |[-> |[]]]; try done; (rewrite (decide_True (P := x = x)) by done; rewrite (decide_False (P := y = x)) by congruence).
    + naive_solver.
    + split; [intros Hl'; split; [by apply (en_sym _ _ _ Hh)|auto]|]. intros [Hl' _]. by apply (en_sym _ _ _ Hh).
  - done.
Qed.

(** ** One more node *)
Definition ext_links (k : nat) (e : list (name * list name)) : list (name * name * name) := e ≫= fun xl => (fun l => (xl.1, NInt (Z.of_nat k), l)) <$> xl.2.
Lemma ext_ops k e : (e ≫= fun xl => (fun l => MSet [xl.1; NInt (Z.of_nat k); l] 1) <$> xl.2) = set_ops (ext_links k e).
Proof.
  unfold put_ops, ext_links. induction e as [|[x ls] e IH]; [done|]. cbn [mbind list_bind]. rewrite fmap_app. f_equal; [|exact IH]. by rewrite <- list_fmap_compose.
Qed.
Lemma elem_of_ext_links k e x y l : (x, y, l) ∈ ext_links k e <-> y = NInt (Z.of_nat k) /\ exists ls, (x, ls) ∈ e /\ l ∈ ls.
Proof.
  unfold ext_links. rewrite elem_of_list_bind. split.
  - intros ([x' ls] & Hin & He). apply elem_of_list_fmap in Hin as (l' & [= -> -> ->] & Hl). split; [done|]. by exists ls.
  - intros (-> & ls & He & Hl). exists (x, ls). split; [|done]. apply elem_of_list_fmap. by exists l.
Qed.
Lemma ext_sound k p lay e : G k p -> standard k p -> 1 <= k -> (forall l, l ∈ lay <-> mhas p 1 l) -> e ∈ extensions k (layer_combinations lay) ->
  exists q, ext_net k p lay e = Ok q /\ G (S k) q /\ standard (S k) q /\ (forall l, mhas q 1 l <-> mhas p 1 l) /\
    forall l x y, tied q l x y <-> tied p l x y \/ (x, y, l) ∈ ext_links k e \/ (y, x, l) ∈ ext_links k e.
Proof using Hfit.
  intros Hp [HN Hu] Hk Hlay He. apply extensions_sound in He as [Hne He].
  pose proof Hp as [(h & Hh) (s & [Ns Hs] & Ls) (t & [Nt Ht] & Lt & Hin) Hloop Hconn].
  unfold ext_net. destruct (sub_net c h p (default [] (mslices p !! 0)) lay Hh fits_no_net Hlay) as (r & g & -> & Hr & R0 & R1 & Rl).
  assert (forall x, x ∈ default [] (mslices p !! 0) <-> mhas p 0 x) as Hsl.
  { intros x. unfold mhas, mget_layers. destruct (mslices p !! 0) as [u|]; cbn; [naive_solver|]. split; [by intros ?%elem_of_nil|by intros (? & ? & _)]. }
  cbn [rbind]. rewrite ext_ops.
  assert (forall x y l, (x, y, l) ∈ ext_links k e -> x ∈ nrange k /\ y = NInt (Z.of_nat k) /\ mhas p 1 l) as Hts.
  { intros x y l (-> & ls & Hx & Hl)%elem_of_ext_links. destruct (He x ls Hx) as [Hx1 [Hsub _]%elem_of_layer_combs]. split; [done|]. split; [done|]. apply Hlay. by apply (sublist_elem ls). }
  destruct (add_links c g r (ext_links k e) lay Hr) as (q & g' & E & Hq & M0 & M1 & Hw).
  { intros x y l (Hx & -> & _)%Hts ->. by apply nrange_new in Hx. }
  exists q. split; [done|].
  assert (forall l x y, lrd r (LBare l) x y = lrd p (LBare l) x y) as Hrp.
  { intros l x y. rewrite Rl. destruct (decide _) as [|Hn]; [done|]. destruct (decide (lrd p (LBare l) x y = 0%Z)) as [-> |Hz]; [done|]. exfalso. apply Hn. rewrite !Hsl.
    apply tied_lrd, (en_tied _ _ _ Hh) in Hz. tauto. }
  assert (forall l x y, tied q l x y <-> tied p l x y \/ (x, y, l) ∈ ext_links k e \/ (y, x, l) ∈ ext_links k e) as HT.
  { intros l x y. rewrite (add_tied _ _ _ _ _ _ Hw). by rewrite !tied_lrd, Hrp. }
  assert (exists x0 l0, (x0, NInt (Z.of_nat k), l0) ∈ ext_links k e) as (x0 & l0 & H0).
  { destruct e as [|[x0 ls] e']; [done|]. destruct (He x0 ls) as [_ [_ Hls]%elem_of_layer_combs]; [left|]. destruct ls as [|l0 ls]; [done|]. exists x0, l0. apply elem_of_ext_links. split; [done|]. exists (l0 :: ls). split; left. }
  assert (forall x, mhas q 0 x <-> x ∈ nrange (S k)) as HN'.
  { intros x. rewrite M0, R0, Hsl, HN, elem_of_nrange_S. split.
    - intros [[? _]|(y & l & [(? & _)%Hts|(_ & ? & _)%Hts])]; auto.
    - intros [Hx| ->]; [by left|]. right. exists x0, l0. by right. }
  assert (forall l, mhas q 1 l <-> mhas p 1 l) as HL'.
  { intros l. rewrite M1, R1, Hlay. split; [|auto]. intros [?|[?|(x & y & (_ & _ & ?)%Hts)]]; done. }
  split; [|split; [split; [done|]|done]].
  - split.
    + by exists g'.
    + exists (nrange (S k)). split; [split; [apply NoDup_nrange|]|apply length_nrange]. intros x. by rewrite HN'.
    + exists t. split; [split; [done|]|done]. intros l. by rewrite HL', Ht.
    + intros l x [?|[(Hx & -> & _)%Hts|(Hx & -> & _)%Hts]]%HT; [by eapply Hloop|by apply nrange_new in Hx..].
    + assert (forall x, x ∈ nrange (S k) -> rtc (fun a b => exists l, tied q l a b) x x0) as Hto.
      { intros x [Hx| ->]%elem_of_nrange_S.
        - apply rtc_subrel with (R1 := fun a b => exists l, tied p l a b); [intros a b (l & ?); exists l; apply HT; by left|]. apply Hconn; apply HN; [done|]. by apply (Hts _ _ _ H0).
        - apply rtc_once. exists l0. apply HT. auto. }
      assert (forall a b, (exists l, tied q l a b) -> (exists l, tied q l b a)) as Hsym. { intros a b (l & ?). exists l. by apply (en_sym _ _ _ Hq). }
      intros x y Hx%HN' Hy%HN'. etransitivity; [by apply Hto|]. apply Hto in Hy. clear -Hy Hsym. induction Hy as [|a b d Hab _ IH]; [constructor|]. eapply rtc_r; [exact IH|]. by apply Hsym.
  - apply unit_lrd. intros l x y. rewrite Hw. destruct (decide _); [by right|]. rewrite Hrp. by apply unit_lrd.
Qed.
Lemma ext_complete k q : G (S k) q -> 1 <= k -> exists r, G k r /\ forall p lay, G k p -> standard k p -> (forall l, l ∈ lay <-> mhas p 1 l) -> misomorphic al r p ->
  exists e q', e ∈ extensions k (layer_combinations lay) /\ ext_net k p lay e = Ok q' /\ misomorphic al q q'.
Proof using Hkind Hfit Hal Hal0.
  intros Hq Hk. pose proof Hq as [(h & Hh) (s & [Ns Hs] & Ls) (t & [Nt Ht] & Lt & Hin) Hloop Hconn].
  set (R := fun a b => Exists (fun l => tied q l a b) t).
  assert (forall a b, R a b <-> exists l, tied q l a b) as HR.
  { intros a b. unfold R. rewrite Exists_exists. split; [intros (l & _ & ?); by exists l|]. intros (l & Hl). exists l. split; [|done]. apply Ht. apply (en_tied _ _ _ Hh) in Hl. tauto. }
  destruct (removable R s k) as (v & u & Nu & Lu & Hv & Hsu & Hcu); try done.
  { intros x y. unfold R. apply (decide _). }
  { intros x y (l & Hl)%HR. apply HR. exists l. by apply (en_sym _ _ _ Hh). }
  { intros x y (l & Hl)%HR. apply Hs. apply (en_tied _ _ _ Hh) in Hl. tauto. }
  { intros x y Hx%Hs Hy%Hs. eapply rtc_subrel; [|by apply Hconn]. intros a b. by rewrite HR. }
  destruct (sub_net c h q u t Hh fits_no_net Ht) as (r & g & _ & Hr & R0 & R1 & Rl).
  assert (forall l x y, tied r l x y <-> tied q l x y /\ x ∈ u /\ y ∈ u) as HTr. { intros l x y. rewrite !tied_lrd, Rl. destruct (decide _); [tauto|]. tauto. }
  assert (forall x, mhas r 0 x <-> x ∈ u) as HNr. { intros x. rewrite R0, <- Hs, Hsu. tauto. }
  assert (G k r) as Gr.
  { split.
    - by exists g.
    - exists u. split; [|done]. split; [done|]. intros x. by rewrite HNr.
    - exists t. split; [|done]. split; [done|]. intros l. by rewrite R1, Ht.
    - intros l x [? _]%HTr. by eapply Hloop.
    - intros x y Hx%HNr Hy%HNr. eapply rtc_subrel; [|by apply Hcu]. intros a b (Hab & Ha & Hb). apply HR in Hab as (l & Hl). exists l. by apply HTr. }
  exists r. split; [done|]. intros p lay Gp Sp Hlay Hiso. destruct (parts_iso k k r p Gr Gp Hk Hiso) as [m [(N1 & N2 & N3) (L1 & L2 & L3) Hf Htop Hti Hcr]].
  set (lf := fun y => filter (fun l' => Exists (fun x => m 0 x = y /\ Exists (fun l => m 1 l = l' /\ tied q l v x) t) u) lay).
  assert (forall l x, mhas q 1 l -> x ∈ u -> m 1 l ∈ lf (m 0 x) <-> tied q l v x) as Hlf.
  { intros l x Hl Hx. unfold lf. rewrite elem_of_list_filter, Exists_exists. setoid_rewrite Exists_exists. split.
    - intros [(x' & Hx' & E & l' & Hl' & E' & Hti') _]. apply N2 in E; [|by apply HNr..]. apply L2 in E'; [|apply R1; by apply Ht|by apply R1]. by subst.
    - intros Hti'. split; [|apply Hlay, L1; by apply R1]. exists x. split; [done|]. split; [done|]. exists l. split; [by apply Ht|done]. }
  set (nc := filter (fun y => lf y <> []) (nrange k)). set (e := (fun y => (y, lf y)) <$> nc).
  destruct Sp as [HNp Up]. pose proof (conj HNp Up : standard k p) as Sp.
  assert (forall x, x ∈ u -> m 0 x ∈ nrange k) as Hmn. { intros x Hx. apply HNp, N1. by apply HNr. }
  assert (nc <> []) as Hnc.
  { (* the removed node has a neighbour *)
    assert (exists x l, x ∈ u /\ tied q l v x) as (x & l & Hx & Hl).
    { destruct u as [|z u']; [cbn in Lu; lia|]. assert (rtc (fun a b => exists l, tied q l a b) v z) as Hrt. { apply Hconn; apply Hs, Hsu; [by left|right; left]. }
      inversion Hrt as [|? x ? (l & Hl) _]; subst; [exfalso; apply Hv; left|]. exists x, l. split; [|done].
      pose proof (en_tied _ _ _ Hh _ _ _ Hl) as (_ & Hx & _). apply Hs, Hsu in Hx as [-> |?]; [by apply Hloop in Hl|done]. }
    pose proof (en_tied _ _ _ Hh _ _ _ Hl) as (_ & _ & Hlq). assert (m 0 x ∈ nc) as Hmc; [|intros E; rewrite E in Hmc; by apply elem_of_nil in Hmc].
    apply elem_of_list_filter. split; [|by apply Hmn]. intros E. apply (Hlf l x Hlq Hx) in Hl. rewrite E in Hl. by apply elem_of_nil in Hl. }
  assert (e ∈ extensions k (layer_combinations lay)) as He.
  { apply extensions_complete; [apply sublist_filter_self|done|]. intros y [Hy _]%elem_of_list_filter. apply elem_of_layer_combs. split; [apply sublist_filter_self|done]. }
  destruct (ext_sound k p lay e Gp Sp Hk Hlay He) as (q' & E & Gq' & [HNq' _] & HLq' & HTq'). exists e, q'. split; [done|]. split; [done|].
  assert (forall x y l, (x, y, l) ∈ ext_links k e <-> y = NInt (Z.of_nat k) /\ x ∈ nrange k /\ l ∈ lf x) as Hel.
  { intros x y l. rewrite elem_of_ext_links. unfold e. split.
    - intros (-> & ls & (z & [= -> ->] & Hz)%elem_of_list_fmap & Hl). apply elem_of_list_filter in Hz as [_ Hz]. done.
    - intros (-> & Hx & Hl). split; [done|]. exists (lf x). split; [|done]. apply elem_of_list_fmap. exists x. split; [done|]. apply elem_of_list_filter. split; [|done].
      intros E'. rewrite E' in Hl. by apply elem_of_nil in Hl. }
  pose proof Gp as [(hp & Hhp) _ _ _ _]. pose proof Gq' as [(hq & Hhq) _ _ _ _].
  assert (forall l x, ~ tied p l x (NInt (Z.of_nat k)) /\ ~ tied p l (NInt (Z.of_nat k)) x) as Hpk.
  { intros l x. split; intros Hl; pose proof (en_tied _ _ _ Hhp _ _ _ Hl) as (H1 & H2 & _); [apply HNp in H2; by apply nrange_new in H2|apply HNp in H1; by apply nrange_new in H1]. }
  set (m' := fun a x => match a with 0 => if decide (x = v) then NInt (Z.of_nat k) else m 0 x | S _ => m a x end).
  assert (m' 0 v = NInt (Z.of_nat k)) as Ev. { cbn. by rewrite decide_True. }
  assert (forall x, x ∈ u -> m' 0 x = m 0 x) as Eu. { intros x Hx. cbn. rewrite decide_False; [done|]. by intros ->. }
  eapply (iso_parts (S k) (S k) q q' m' Hq Gq'). split.
  - split_and!.
    + intros x [-> |Hx]%Hs%Hsu; apply HNq', elem_of_nrange_S; [right; done|left; rewrite Eu by done; by apply Hmn].
    + intros x y [-> |Hx]%Hs%Hsu [-> |Hy]%Hs%Hsu; [done|rewrite Ev, Eu by done|rewrite Ev, Eu by done|rewrite !Eu by done].
      * intros E'. exfalso. apply (nrange_new k). rewrite E'. by apply Hmn.
      * intros E'. exfalso. apply (nrange_new k). rewrite <- E'. by apply Hmn.
      * intros E'. apply N2; [by apply HNr..|done].
    + intros y [Hy| ->]%HNq'%elem_of_nrange_S.
      * apply HNp in Hy. apply N3 in Hy as (x & Hx & <-). exists x. apply HNr in Hx. split; [apply Hs, Hsu; by right|by apply Eu].
      * exists v. split; [apply Hs, Hsu; by left|done].
  - change (m' 1) with (m 1). split_and!.
    + intros l Hl. apply HLq', L1. by apply R1.
    + intros l l' Hl Hl'. apply L2; by apply R1.
    + intros l Hl. apply HLq', L3 in Hl as (l' & Hl' & <-). exists l'. split; [by apply R1|done].
  - intros [|a] x Ha; [done|]. by apply (Hf (S a)).
  - done.
  - change (m' 1) with (m 1). intros l x y Hl Hx%Hs%Hsu Hy%Hs%Hsu Hne. rewrite HTq', !Hel. destruct Hx as [-> |Hx], Hy as [-> |Hy]; [done|..].
    + rewrite Ev, (Eu y Hy). pose proof (Hpk (m 1 l) (m 0 y)) as [_ Hp2]. rewrite <- (Hlf l y Hl Hy). pose proof (Hmn y Hy) as Hmy. split.
      * intros Hti'. right. right. done.
      * intros [?|[(E' & _)|(_ & _ & ?)]]; [done| |done]. exfalso. apply (nrange_new k). by rewrite <- E'.
    + rewrite Ev, (Eu x Hx). pose proof (Hpk (m 1 l) (m 0 x)) as [Hp1 _]. assert (tied q l x v <-> tied q l v x) as -> by (split; apply (en_sym _ _ _ Hh)). rewrite <- (Hlf l x Hl Hx). pose proof (Hmn x Hx) as Hmx. split.
      * intros Hti'. right. left. done.
      * intros [?|[(_ & _ & ?)|(E' & _)]]; [done|done|]. exfalso. apply (nrange_new k). by rewrite <- E'.
    + rewrite !Eu by done. rewrite <- Hti; [|by apply R1|by apply HNr|by apply HNr|done]. rewrite HTr. pose proof (Hmn x Hx) as Hmx. pose proof (Hmn y Hy) as Hmy. split.
      * intros ?. by left.
      * intros [[? _]|[(E' & _)|(E' & _)]]; [done|exfalso; apply (nrange_new k); by rewrite <- E'..].
  - change (m' 1) with (m 1). intros l l' Hl Hl' Hne. apply Hcr; [by apply R1..|done].
Qed.
End facts.
