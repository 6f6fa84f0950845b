(** * Properties C95, C96: added links, and which orbit equations there are *)
From stdpp Require Import prelude.
From Coq Require Import QArith.
From Verif Require Import Base Net NetSpec NetHist NetIter Supra MpxSpec MpxFacts MpxHist MpxIter MpxTrans MpxBuild PropsMpx MpxSub PropsMpxEq MpxEdges Samp SampFacts Graphlet GraphletSpec PartFacts
  EnumSpec EnumNet Enum EnumFacts PropsGraphlet OrbitCount OrbitEq Indep IndepSpec IndepFacts PropsIndep OrbitGen.
Local Open Scope nat_scope.

(** [x] and [y] are nodes outside [both], [x] is not negative and [y] is. *)
Definition across (p : mpx) (both : list name) (x y : name) : Prop :=
  mhas p 0 x /\ mhas p 0 y /\ x ∉ both /\ y ∉ both /\ exists a b, x = NInt a /\ y = NInt b /\ (0 <= a)%Z /\ (b < 0)%Z.
(** [q] is [p] with links of weight 1 between [x] and [y] in [l] for each [(x, y, l)] in [T]. *)
Definition adds (p : mpx) (T : list (name * name * name)) (q : mpx) : Prop :=
  (exists c h, mhist [c] false 0 true h q) /\
  (forall x, mhas q 0 x <-> mhas p 0 x) /\ (forall l, mhas q 1 l <-> mhas p 1 l) /\
  forall l x y, agetitem q (LBare l) [x; y] = if decide ((x, y, l) ∈ T \/ (y, x, l) ∈ T) then Ok 1%Z else agetitem p (LBare l) [x; y].

Lemma split_ok l : (forall x, x ∈ l -> exists z, x = NInt z) -> exists s1 s2, split_sign l = Ok (s1, s2) /\
  (forall x, x ∈ s1 <-> x ∈ l /\ exists a, x = NInt a /\ (0 <= a)%Z) /\ (forall x, x ∈ s2 <-> x ∈ l /\ exists a, x = NInt a /\ (a < 0)%Z).
Proof.
  induction l as [|x l IH]; intros Hl. { exists [], []. split; [done|]. split; intros x; rewrite elem_of_nil; naive_solver. }
  destruct IH as (s1 & s2 & E & H1 & H2); [intros; apply Hl; by right|]. destruct (Hl x) as [z ->]; [left|]. cbn [split_sign]. rewrite E. cbn [rbind fst snd].
  destruct (decide (z < 0)%Z) as [Hz|Hz]; eexists _, _; (split; [done|]); split; intros y; rewrite !elem_of_cons, ?H1, ?H2.
  - split; [naive_solver|]. intros [[Ey|?] (a & E' & ?)]; [simplify_eq; lia|naive_solver].
  - split; [naive_solver|]. intros [[->|?] ?]; naive_solver.
  - split; [intros [->|?]; [split; [by left|]; exists z; split; [done|lia]|naive_solver]|]. intros [[->|?] ?]; naive_solver.
  - split; [naive_solver|]. intros [[Ey|?] (a & E' & ?)]; [simplify_eq; lia|naive_solver].
Qed.
Lemma elem_of_cross s1 s2 x y : (x, y) ∈ cross_pairs s1 s2 <-> x ∈ s1 /\ y ∈ s2.
Proof.
  unfold cross_pairs. rewrite elem_of_list_bind. split.
  - intros (a & (b & [= -> ->] & Hb)%elem_of_list_fmap & Ha). done.
  - intros [Hx Hy]. exists x. split; [|done]. apply elem_of_list_fmap. by exists y.
Qed.
Lemma choices_sound edges L e : e ∈ edge_choices edges L -> e <> [] /\ forall xy ls, (xy, ls) ∈ e -> xy ∈ edges /\ ls ∈ L.
Proof.
  unfold edge_choices. intros (n & He & Hn)%elem_of_list_bind. apply elem_of_list_bind in He as (nc & He & [Hs Hl]%elem_of_combs).
  apply elem_of_list_fmap in He as (lc & -> & Hlc%elem_of_cart). apply elem_of_seq in Hn. pose proof (Forall2_length _ _ _ Hlc) as Hl'. rewrite replicate_length in Hl'.
  split; [destruct nc, lc; cbn in *; try lia; done|]. intros x ls Hx. split.
  - apply (sublist_elem nc); [done|]. by apply elem_of_zip_l in Hx.
  - apply elem_of_zip_r in Hx. apply elem_of_list_lookup in Hx as [j Hj]. destruct (Forall2_lookup_l _ _ _ _ _ Hlc Hj) as (u & Hu & Hin). by apply lookup_replicate in Hu as [-> _].
Qed.
Lemma choices_complete edges L (nc : list (name * name)) (f : name * name -> list name) : sublist nc edges -> nc <> [] -> (forall x, x ∈ nc -> f x ∈ L) ->
  ((fun x => (x, f x)) <$> nc) ∈ edge_choices edges L.
Proof.
  intros Hs Hne Hf. unfold edge_choices. apply elem_of_list_bind. exists (length nc). pose proof (sublist_length _ _ Hs) as Hl. split.
  - apply elem_of_list_bind. exists nc. split; [|by apply elem_of_combs]. apply elem_of_list_fmap. exists (f <$> nc). split.
    + clear. induction nc as [|x nc IH]; [done|]. cbn. f_equal. apply IH.
    + apply elem_of_cart. clear Hs Hne Hl. induction nc as [|x nc IH]; [constructor|]. cbn. constructor; [apply Hf; left|]. apply IH. intros y Hy. apply Hf. by right.
  - apply elem_of_seq. destruct nc; [done|]. cbn in *. lia.
Qed.
Definition picked (e : list ((name * name) * list name)) : list (name * name * name) := e ≫= fun xl => (fun l => (xl.1.1, xl.1.2, l)) <$> xl.2.
Lemma picked_ops e : (e ≫= fun xl => (fun l => MSet [xl.1.1; xl.1.2; l] 1) <$> xl.2) = put_ops 1 (picked e).
Proof. unfold put_ops, picked. induction e as [|[x ls] e IH]; [done|]. cbn [mbind list_bind]. rewrite fmap_app. f_equal; [|exact IH]. by rewrite <- list_fmap_compose. Qed.
Lemma elem_of_picked e x y l : (x, y, l) ∈ picked e <-> exists ls, ((x, y), ls) ∈ e /\ l ∈ ls.
Proof.
  unfold picked. rewrite elem_of_list_bind. split.
  - intros ([[x' y'] ls] & Hin & He). apply elem_of_list_fmap in Hin as (l' & [= -> -> ->] & Hl). by exists ls.
  - intros (ls & He & Hl). exists ((x, y), ls). split; [|done]. apply elem_of_list_fmap. by exists l.
Qed.
Lemma nodes_mhas p x : x ∈ mnodes p <-> mhas p 0 x.
Proof. unfold mnodes, mhas, mget_layers. destruct (mslices p !! 0) as [u|]; cbn; [naive_solver|]. split; [by intros ?%elem_of_nil|by intros (? & ? & _)]. Qed.
Lemma layers_mhas p x : x ∈ layers_of p <-> mhas p 1 x.
Proof. unfold layers_of, mhas, mget_layers. destruct (mslices p !! 1) as [u|]; cbn; [naive_solver|]. split; [by intros ?%elem_of_nil|by intros (? & ? & _)]. Qed.
Lemma with_ok c h p e : mhist [c] false 0 true h p -> no_net c -> (forall x y ls, ((x, y), ls) ∈ e -> x <> y /\ mhas p 0 x /\ mhas p 0 y /\ forall l, l ∈ ls -> mhas p 1 l) ->
  exists q, with_edges p e = Ok q /\ adds p (picked e) q.
Proof.
  intros Hh Hc He. unfold with_edges. destruct (sub_net c h p (mnodes p) (layers_of p) Hh Hc) as (r & g & -> & Hr & R0 & R1 & Rl); [intros l; apply layers_mhas|]. cbn [rbind]. rewrite picked_ops.
  destruct (add_links c g r (picked e) [] Hr) as (q & g' & E & Hq & M0 & M1 & Hw). { intros x y l (ls & Hx & _)%elem_of_picked. by apply He in Hx as (? & _). }
  cbn [fmap list_fmap] in E. rewrite app_nil_r in E. exists q. split; [done|]. split; [by exists c, g'|].
  assert (forall x, mhas q 0 x <-> mhas p 0 x) as H0.
  { intros x. rewrite M0, R0, nodes_mhas. split; [|tauto]. intros [[? _]|(y & l & [H|H])]; [done|..]; apply elem_of_picked in H as (ls & H%He & _); tauto. }
  assert (forall l, mhas q 1 l <-> mhas p 1 l) as H1.
  { intros l. rewrite M1, R1. split; [|tauto]. intros [?|[H|(x & y & H)]]; [done|by apply elem_of_nil in H|]. apply elem_of_picked in H as (ls & H%He & Hl). by apply H. }
  split; [done|]. split; [done|]. intros l x y. rewrite !agetitem_lrd.
  assert (lrd r (LBare l) x y = lrd p (LBare l) x y) as Hrp.
  { rewrite Rl. destruct (decide _) as [|Hn]; [done|]. destruct (decide (lrd p (LBare l) x y = 0%Z)) as [-> |Hz]; [done|]. exfalso. apply Hn. rewrite !nodes_mhas.
    apply tied_lrd, (en_tied _ _ _ Hh) in Hz. tauto. }
  pose proof (en_pA _ _ _ Hq l) as Pq. pose proof (en_pA _ _ _ Hh l) as Pp. rewrite H1 in Pq. rewrite (Hw l x y), Hrp.
  destruct (decide _) as [Hin|Hin].
  - assert (mhas p 1 l) as Hl. { destruct Hin as [H|H]; apply elem_of_picked in H as (ls & H%He & Hl); by apply H. } apply Pq in Hl as [m ->]. done.
  - destruct (pA q (LBare l)) as [m|] eqn:E1, (pA p (LBare l)) as [m'|] eqn:E2; try done; exfalso.
    + assert (is_Some (@None mlnet)) as Hn by (apply Pp, Pq; by eexists). by destruct Hn.
    + assert (is_Some (@None mlnet)) as Hn by (apply Pq, Pp; by eexists). by destruct Hn.
Qed.

(** [add_possible_edges] returns the networks obtained by adding links between non-negative and
    negative nodes outside [both]: each is one of these, and each choice of at least one such
    link occurs. *)
Theorem C95_add_possible_edges c h p both : mhist [c] false 0 true h p -> no_net c -> (forall x, mhas p 0 x -> exists z, x = NInt z) ->
  exists qs, add_possible_edges both p = Ok qs /\
    (forall q, q ∈ qs -> exists T, T <> [] /\ (forall x y l, (x, y, l) ∈ T -> across p both x y /\ mhas p 1 l) /\ adds p T q) /\
    (forall T, T <> [] -> (forall x y l, (x, y, l) ∈ T -> across p both x y /\ mhas p 1 l) -> exists q, q ∈ qs /\ adds p T q).
Proof.
  intros Hh Hc Hint. unfold add_possible_edges. destruct (split_ok (sdiff (mnodes p) both)) as (s1 & s2 & -> & H1 & H2).
  { intros x [_ Hx]%elem_of_list_filter. apply Hint. by apply nodes_mhas. }
  cbn [rbind fst snd]. set (L := layer_combinations (layers_of p)).
  assert (forall x y, (x, y) ∈ cross_pairs s1 s2 <-> across p both x y) as Hcr.
  { intros x y. rewrite elem_of_cross, H1, H2. unfold sdiff. rewrite !elem_of_list_filter, !nodes_mhas. unfold across. naive_solver. }
  assert (forall e, e ∈ edge_choices (cross_pairs s1 s2) L -> exists q, with_edges p e = Ok q /\ adds p (picked e) q) as Hwith.
  { intros e [_ He]%choices_sound. apply (with_ok c h); [done..|]. intros x y ls Hx. apply He in Hx as [(Hx & Hy & _ & _ & a & b & -> & -> & Ha & Hb)%Hcr [Hls _]%elem_of_layer_combs].
    split; [intros [= ->]; lia|]. split; [done|]. split; [done|]. intros l Hl. apply layers_mhas. by apply (sublist_elem ls). }
  assert (forall es, (forall e, e ∈ es -> exists q, with_edges p e = Ok q /\ adds p (picked e) q) -> exists qs, rmapM (with_edges p) es = Ok qs /\
    (forall q, q ∈ qs -> exists e, e ∈ es /\ adds p (picked e) q) /\ (forall e, e ∈ es -> exists q, q ∈ qs /\ adds p (picked e) q)) as Hmap.
  { induction es as [|e es IH]; intros Hes. { exists []. split; [done|]. split; intros ? Hx; by apply elem_of_nil in Hx. }
    destruct (Hes e) as (q & E & Hq); [left|]. destruct IH as (qs & Es & A1 & A2); [intros; apply Hes; by right|]. cbn [rmapM]. rewrite E. cbn [rbind]. rewrite Es. cbn [rbind].
    exists (q :: qs). split; [done|]. split.
    - intros q' [->|Hq']%elem_of_cons; [exists e; split; [left|done]|]. apply A1 in Hq' as (e' & ? & ?). exists e'. split; [by right|done].
    - intros e' [->|He']%elem_of_cons; [exists q; split; [left|done]|]. apply A2 in He' as (q' & ? & ?). exists q'. split; [by right|done]. }
  destruct (Hmap _ Hwith) as (qs & E & A1 & A2). exists qs. split; [done|]. split.
  - intros q (e & He & Hq)%A1. apply choices_sound in He as [Hne He]. exists (picked e). split; [|split; [|done]].
    + destruct e as [|[[x y] ls] e]; [done|]. destruct (He (x, y) ls) as [_ [_ Hls]%elem_of_layer_combs]; [left|]. destruct ls; done.
    + intros x y l (ls & Hx & Hl)%elem_of_picked. apply He in Hx as [Hx%Hcr [Hls _]%elem_of_layer_combs]. split; [done|]. apply layers_mhas. by apply (sublist_elem ls).
  - intros T HT Hin. set (f := fun xy : name * name => filter (fun l => (xy.1, xy.2, l) ∈ T) (layers_of p)). set (nc := filter (fun xy => f xy <> []) (cross_pairs s1 s2)).
    assert (forall x y l, l ∈ f (x, y) <-> (x, y, l) ∈ T) as Hf. { intros x y l. unfold f. rewrite elem_of_list_filter, layers_mhas. cbn. split; [tauto|]. intros Ht. split; [done|]. by eapply Hin. }
    assert (forall x y l, (x, y, l) ∈ T -> (x, y) ∈ nc) as Hnc.
    { intros x y l Ht. unfold nc. apply elem_of_list_filter. split; [|by apply Hcr; eapply Hin]. intros E'. apply Hf in Ht. rewrite E' in Ht. by apply elem_of_nil in Ht. }
    destruct (A2 ((fun x => (x, f x)) <$> nc)) as (q & Hq & Had).
    { apply choices_complete; [apply sublist_filter_self| |].
      - destruct T as [|[[x y] l] T]; [done|]. specialize (Hnc x y l ltac:(left)). intros E'. rewrite E' in Hnc. by apply elem_of_nil in Hnc.
      - intros xy [Hxy _]%elem_of_list_filter. apply elem_of_layer_combs. split; [apply sublist_filter_self|done]. }
    assert (forall x y l, (x, y, l) ∈ picked ((fun x => (x, f x)) <$> nc) <-> (x, y, l) ∈ T) as HTe.
    { intros x y l. rewrite elem_of_picked. split.
      - intros (ls & (xy & [= <- ->] & _)%elem_of_list_fmap & Hl). by apply Hf.
      - intros Ht. exists (f (x, y)). split; [|by apply Hf]. apply elem_of_list_fmap. exists (x, y). split; [done|]. by eapply Hnc. }
    exists q. split; [done|]. destruct Had as (B1 & B2 & B3 & B4). split; [done|]. split; [done|]. split; [done|]. intros l x y. rewrite B4.
    destruct (decide _) as [Hd|Hd], (decide ((x, y, l) ∈ T \/ _)) as [Hd'|Hd']; try done; exfalso; rewrite !HTe in Hd; tauto.
Qed.
(** A node name that is not a number: TypeError. *)
Theorem C95_strings p both s : mhas p 0 (NStr s) -> NStr s ∉ both -> add_possible_edges both p = Err TypeError.
Proof.
  intros Hs Hb. unfold add_possible_edges. assert (forall l, NStr s ∈ l -> split_sign l = Err TypeError) as Hsp.
  { induction l as [|x l IH]; intros Hl; [by apply elem_of_nil in Hl|]. destruct x as [z|t]; cbn [split_sign]; [|done]. apply elem_of_cons in Hl as [|Hl]; [done|]. by rewrite IH. }
  rewrite Hsp; [done|]. apply elem_of_list_filter. split; [done|]. by apply nodes_mhas.
Qed.

(** ** C96: the equations *)
(** [o] is an orbit of the automorphism orbits [auts]. *)
Definition listed (auts : dict orbit name) (o : orbit) : Prop := exists x, ((o.1.1, o.1.2, x), o.2) ∈ auts.
(** [a] and [b] share a node in networks of at most [n] nodes; [a] has two or three nodes. *)
Definition fits (auts : dict orbit name) (n : nat) (a b : orbit) : Prop :=
  listed auts a /\ listed auts b /\ 2 <= a.1.1 <= 3 /\ a.1.1 <= n /\ a.1.1 + b.1.1 - 1 <= n.
(** The graphlets of [a] and [b] have the same layers. *)
Definition same_layers (nets : dict nat (list mpx)) (a b : orbit) : Prop :=
  exists la lb ga gb, dget nets (a.1.1) = Some la /\ la !! (a.1.2) = Some ga /\ dget nets (b.1.1) = Some lb /\ lb !! (b.1.2) = Some gb /\
    forall l, mhas ga 1 l <-> mhas gb 1 l.

Lemma rfold_app {A S} (f : S -> A -> res S) l k s : rfold f s (l ++ k) = match rfold f s l with Ok t => rfold f t k | Err e => Err e end.
Proof. revert s. induction l as [|x l IH]; intros s; [done|]. cbn. destruct (f s x); [apply IH|done]. Qed.
Lemma rfold_flat {A S P} (f : S -> P -> res S) (g : S -> A -> res S) (R : A -> P -> Prop) l :
  (forall x s t, x ∈ l -> g s x = Ok t -> exists V, rfold f s V = Ok t /\ forall p, p ∈ V <-> R x p) ->
  forall s t, rfold g s l = Ok t -> exists V, rfold f s V = Ok t /\ forall p, p ∈ V <-> exists x, x ∈ l /\ R x p.
Proof.
  induction l as [|x l IH]; intros Hg s t E.
  - exists []. split; [done|]. intros p. rewrite elem_of_nil. split; [done|]. by intros (x & ?%elem_of_nil & _).
  - cbn [rfold] in E. destruct (g s x) as [s'|] eqn:Ex; [|done]. destruct (Hg x s s') as (V & EV & HV); [left|done|].
    destruct (IH ltac:(intros; eapply Hg; [by right|done]) s' t E) as (W & EW & HW). exists (V ++ W). rewrite rfold_app, EV. split; [done|].
    intros p. rewrite elem_of_app, HV, HW. split.
    + intros [?|(y & ? & ?)]; [exists x; split; [left|done]|exists y; split; [by right|done]].
    + intros (y & [->|?]%elem_of_cons & ?); [by left|right; by exists y].
Qed.
Lemma list_orbits_nd auts : NoDup (dkeys (list_orbits auts)).
Proof.
  unfold list_orbits. assert (forall l (d : dict nat (list orbit)), NoDup (dkeys d) -> NoDup (dkeys (foldl (fun d (kv : orbit * name) => let k := kv.1.1.1 in let o : orbit := (k, kv.1.1.2, kv.2) in
    let l := default [] (dget d k) in dset d k (if decide (o ∈ l) then l else l ++ [o])) d l))) as H; [|apply H; constructor].
  induction l as [|kv l IH]; intros d Hd; [done|]. cbn [foldl]. apply IH. by apply NoDup_dset.
Qed.
Lemma listed_ok auts k o : (exists os, (k, os) ∈ list_orbits auts /\ o ∈ os) <-> listed auts o /\ o.1.1 = k.
Proof.
  destruct (C54_list_orbits auts k) as (H1 & _ & H3). split.
  - intros (os & Hos & Ho). assert (dget (list_orbits auts) k = Some os) as E by (apply dget_elem_of; [apply list_orbits_nd|done]). specialize (H1 o). rewrite E in H1. apply H1 in Ho as (j & x & a & Ha & ->).
    split; [by exists x|done].
  - intros [(x & Hx) <-]. destruct (proj2 H3) as [os E]; [by exists (o.1.2), x, (o.2)|]. exists os. split; [apply dget_elem_of; [apply list_orbits_nd|done]|]. specialize (H1 o). rewrite E in H1. apply H1.
    exists (o.1.2), x, (o.2). split; [done|]. by destruct o as [[? ?] ?].
Qed.
Section keys.
Context {T : Type} `{EqDecision T} (structure : auxg -> auxg -> bool) (mapping : auxg -> auxg -> dict nat nat)
  (canon : dict nat nat -> list (nat * nat) -> T) (al : option (list nat)).
Context (nets : dict nat (list mpx)) (invs : @invariants T) (auts : dict orbit name).
Notation rside := (right_side structure mapping canon al nets invs auts).
Notation step := (fun eqs (p : orbit * orbit) => eq_step structure mapping canon al nets invs auts (p.1) eqs (p.2)).
Lemma visits n eqs : orbit_equations structure mapping canon al nets invs auts n = Ok eqs ->
  exists V, rfold step [] V = Ok eqs /\ forall p, p ∈ V <-> fits auts n (p.1) (p.2).
Proof.
  unfold orbit_equations. intros E.
  eapply (rfold_flat step _ (fun n1 p => listed auts (p.1) /\ listed auts (p.2) /\ (p.1).1.1 = n1 /\ n1 + (p.2).1.1 - 1 <= n)) in E.
  - destruct E as (V & E & HV). exists V. split; [done|]. intros p. rewrite HV. unfold fits. split.
    + intros (n1 & Hn%elem_of_seq & H1 & H2 & <- & H4). split_and!; try done; lia.
    + intros (H1 & H2 & H3 & H4 & H5). exists ((p.1).1.1). split; [|done]. apply elem_of_seq. lia.
  - cbn beta. intros n1 s t Hn Es. destruct (dget (list_orbits auts) n1) as [os|] eqn:Eo; [|done].
    eapply (rfold_flat step _ (fun o1 p => p.1 = o1 /\ listed auts (p.2) /\ n1 + (p.2).1.1 - 1 <= n)) in Es.
    + destruct Es as (V & EV & HV). exists V. split; [done|]. intros p. rewrite HV.
      pose proof (listed_ok auts n1 (p.1)) as Hl. split.
      * intros (o1 & Ho & <- & H2 & H3). assert (listed auts (p.1) /\ (p.1).1.1 = n1) as [? ?]; [|done]. apply Hl. exists os. split; [apply dget_elem_of; [apply list_orbits_nd|done]|done].
      * intros (H1 & H2 & H3 & H4). exists (p.1). split; [|done]. destruct (proj2 Hl) as (os' & Hos' & Ho); [done|].
        apply dget_elem_of in Hos'; [|apply list_orbits_nd]. congruence.
    + cbn beta. intros o1 s1 t1 _ E1.
      eapply (rfold_flat step _ (fun (ko : nat * list orbit) p => p.1 = o1 /\ p.2 ∈ ko.2 /\ n1 + ko.1 - 1 <= n)) in E1.
      * destruct E1 as (V & EV & HV). exists V. split; [done|]. intros p. rewrite HV. split.
        -- intros ([k os'] & Hk & H1 & H2 & H3). cbn in *. destruct (proj1 (listed_ok auts k (p.2))) as [? <-]; [by exists os'|]. done.
        -- intros (H1 & H2 & H3). destruct (proj2 (listed_ok auts ((p.2).1.1) (p.2))) as (os' & Hos' & Ho); [done|]. by exists ((p.2).1.1, os').
      * cbn beta. intros [k os'] s2 t2 _ E2. cbn [fst snd] in *. destruct (decide (n1 + k - 1 <= n)) as [Hk|Hk].
        -- exists ((fun o2 => (o1, o2)) <$> os'). split.
           ++ rewrite <- E2. clear. revert s2. induction os' as [|o os' IH]; intros s2; [done|]. cbn [fmap list_fmap rfold fst snd]. destruct (eq_step _ _ _ _ _ _ _ _ _ _); [apply IH|done].
           ++ intros [a b]. rewrite elem_of_list_fmap. cbn. split; [by intros (o & [= -> ->] & ?)|]. intros (-> & ? & _). by exists b.
        -- injection E2 as <-. exists []. split; [done|]. intros p. rewrite elem_of_nil. split; [done|]. by intros (_ & _ & ?).
Qed.
Lemma side_layers a b r : rside a b = Ok r -> (r <> None <-> same_layers nets a b) /\ (a = b -> same_layers nets a b).
Proof.
  unfold right_side. intros E. destruct (combine_orbits canon al nets a b) as [c|] eqn:Ec; [|done]. cbn [rbind] in E.
  assert (r <> None <-> c <> None) as ->.
  { destruct c as [cs|]; [|injection E as <-; done]. split; [done|]. intros _ ->.
    repeat lazymatch type of E with rbind ?x _ = _ => destruct x; cbn [rbind] in E; [|done] end. done. }
  clear E. unfold combine_orbits, net_at in Ec. destruct (dget nets (a.1.1)) as [la|] eqn:Ea; [|done]. destruct (la !! a.1.2) as [ga|] eqn:Ga; [|done]. cbn [rbind] in Ec.
  destruct (dget nets (b.1.1)) as [lb|] eqn:Eb; [|done]. destruct (lb !! b.1.2) as [gb|] eqn:Gb; [|done]. cbn [rbind] in Ec.
  assert (same_layers nets a b <-> forall l, l ∈ layers_of ga <-> l ∈ layers_of gb) as ->.
  { unfold same_layers. setoid_rewrite layers_mhas. split; [intros (? & ? & ? & ? & ? & ? & ? & ? & Hl); simplify_eq; done|]. intros Hl. by exists la, lb, ga, gb. }
  split; [|intros ->; by simplify_eq].
  rewrite <- set_eqb_true. destruct (set_eqb (layers_of ga) (layers_of gb)); cbn [negb] in Ec.
  - split; [done|]. intros _ ->. repeat lazymatch type of Ec with rbind ?x _ = _ => destruct x; cbn [rbind] in Ec; [|done] end. done.
  - injection Ec as <-. done.
Qed.
Lemma keys_inv V eqs : rfold step [] V = Ok eqs ->
  NoDup (dkeys eqs) /\
  (forall k rhs, dget eqs k = Some rhs -> exists a b, (a, b) ∈ V /\ k = eq_key a b /\ rside a b = Ok (Some rhs)) /\
  (forall a b, a <> b -> KPair a b ∈ dkeys eqs -> KPair b a ∉ dkeys eqs) /\
  (forall a b, (a, b) ∈ V -> same_layers nets a b -> if decide (a = b) then KTwice a ∈ dkeys eqs else KPair a b ∈ dkeys eqs \/ KPair b a ∈ dkeys eqs) /\
  (forall a, (a, a) ∈ V -> same_layers nets a a).
Proof.
  revert eqs. induction V as [|[a b] V IH] using rev_ind; intros eqs E.
  - injection E as <-. split; [constructor|]. split; [done|]. split; [intros a b _ H; by apply elem_of_nil in H|]. split; [intros a b H|intros a H]; by apply elem_of_nil in H.
  - rewrite rfold_app in E. destruct (rfold step [] V) as [s|] eqn:Es; [|done]. destruct (IH s eq_refl) as (I1 & I2 & I3 & I4 & I5). clear IH.
    assert (forall x y, KPair x y ∈ dkeys s -> x <> y) as Hxy.
    { intros x y Hk. apply elem_of_dkeys in Hk as [rhs Hk]. apply I2 in Hk as (o1 & o2 & _ & Hk & _). unfold eq_key in Hk. destruct (decide _); [done|]. injection Hk as -> ->. congruence. }
    cbn [rfold fst snd] in E. unfold eq_step in E. destruct (din s (KPair a b)) eqn:Ed.
    + injection E as <-. apply din_true, elem_of_dkeys in Ed. split; [done|]. split; [intros k rhs Hk; destruct (I2 k rhs Hk) as (x & y & ? & ?); exists x, y; split; [apply elem_of_app; by left|done]|].
      split; [done|]. split.
      * intros x y [?|[= -> ->]%elem_of_list_singleton]%elem_of_app Hs; [by apply I4|]. rewrite decide_False by (by apply Hxy). by left.
      * intros x [?|[= -> ->]%elem_of_list_singleton]%elem_of_app; [by apply I5|]. by apply Hxy in Ed.
    + apply din_false in Ed. destruct (rside a b) as [r|] eqn:Er; [|done]. cbn [rbind] in E. injection E as <-. destruct (side_layers _ _ _ Er) as [Hl Hl'].
      assert (forall x, (x, x) ∈ V ++ [(a, b)] -> same_layers nets x x) as H5.
      { intros x [?|[= -> ->]%elem_of_list_singleton]%elem_of_app; [by apply I5|]. by apply Hl'. }
      destruct r as [rhs|].
      * split; [by apply NoDup_dset|]. split.
        { intros k v. destruct (decide (k = eq_key a b)) as [->|Hne].
          - rewrite dget_dset_eq. intros [= <-]. exists a, b. split; [apply elem_of_app; right; by left|done].
          - rewrite dget_dset_ne by done. intros Hk. destruct (I2 k v Hk) as (x & y & ? & ?). exists x, y. split; [apply elem_of_app; by left|done]. }
        split; [|split; [|done]].
        { intros x y Hne. rewrite !elem_of_dkeys_dset. unfold eq_key. destruct (decide (a = b)) as [->|Hab].
          - intros [?|Hk]; [done|]. intros [?|Hk']; [done|]. by apply (I3 x y).
          - intros [[= -> ->]|Hk]; intros [[= ? ?]|Hk'].
            + congruence.
            + apply elem_of_dkeys in Hk' as [? Hk']. congruence.
            + simplify_eq. apply elem_of_dkeys in Hk as [? Hk]. congruence.
            + by apply (I3 x y). }
        { intros x y [Hv|[= -> ->]%elem_of_list_singleton]%elem_of_app Hs.
          - specialize (I4 x y Hv Hs). destruct (decide (x = y)); rewrite !elem_of_dkeys_dset; tauto.
          - unfold eq_key. destruct (decide (a = b)) as [->|Hab]; rewrite !elem_of_dkeys_dset; auto. }
      * split; [done|]. split; [intros k v Hk; destruct (I2 k v Hk) as (x & y & ? & ?); exists x, y; split; [apply elem_of_app; by left|done]|].
        split; [done|]. split; [|done]. intros x y [Hv|[= -> ->]%elem_of_list_singleton]%elem_of_app Hs; [by apply I4|]. by apply Hl in Hs.
Qed.
End keys.
Section equations.
Context {T : Type} `{EqDecision T} (structure : auxg -> auxg -> bool) (mapping : auxg -> auxg -> dict nat nat)
  (canon : dict nat nat -> list (nat * nat) -> T) (al : option (list nat)).
Context (nets : dict nat (list mpx)) (invs : @invariants T) (auts : dict orbit name).
(** Which products have an equation: the squares of the orbits of two and three nodes, and each pair of
    different orbits on the same layers, in one of the two orders, when the combination of
    their graphlets has at most [n] nodes and the orbit named last has two or three nodes. *)
Theorem C96_keys n eqs : orbit_equations structure mapping canon al nets invs auts n = Ok eqs ->
  NoDup (dkeys eqs) /\
  (forall o, KTwice o ∈ dkeys eqs <-> fits auts n o o) /\
  (forall a b, KPair a b ∈ dkeys eqs -> a <> b /\ fits auts n b a /\ same_layers nets a b /\ KPair b a ∉ dkeys eqs) /\
  (forall a b, a <> b -> fits auts n a b -> same_layers nets a b -> KPair a b ∈ dkeys eqs \/ KPair b a ∈ dkeys eqs).
Proof.
  intros (V & E & HV)%visits. destruct (keys_inv _ _ _ _ _ _ _ _ _ E) as (I1 & I2 & I3 & I4 & I5). split; [done|].
  assert (forall k, k ∈ dkeys eqs -> exists a b, fits auts n a b /\ k = eq_key a b /\ same_layers nets a b) as Hk.
  { intros k [rhs Hk]%elem_of_dkeys. destruct (I2 k rhs Hk) as (a & b & Hab & -> & Er). apply HV in Hab. exists a, b. split; [done|]. split; [done|]. apply (proj1 (side_layers structure mapping canon al nets invs auts a b _ Er)). done. }
  split; [|split].
  - intros o. split.
    + intros (a & b & Hf & He & _)%Hk. unfold eq_key in He. destruct (decide (a = b)) as [->|]; [|done]. by injection He as ->.
    + intros Hf. assert ((o, o) ∈ V) as Ho by (by apply HV). specialize (I4 o o Ho (I5 o Ho)). by rewrite decide_True in I4.
  - intros a b Hin. destruct (Hk _ Hin) as (x & y & Hf & He & Hs). unfold eq_key in He. destruct (decide (x = y)) as [|Hne]; [done|]. injection He as -> ->.
    split; [congruence|]. split; [done|]. split; [|by apply I3; [congruence|]]. destruct Hs as (la & lb & ga & gb & ? & ? & ? & ? & Hl). exists lb, la, gb, ga. by split_and!.
  - intros a b Hne Hf Hs. assert ((a, b) ∈ V) as Hv by (by apply HV). specialize (I4 a b Hv Hs). by rewrite decide_False in I4.
Qed.
(** The right-hand sides: each orbit once, with a positive coefficient, the one that [coefficient] gives for a network
    in which the shared node has this orbit. *)
Theorem C96_coefficients n eqs k rhs : orbit_equations structure mapping canon al nets invs auts n = Ok eqs -> dget eqs k = Some rhs ->
  exists a b, fits auts n a b /\ k = (if decide (a = b) then KTwice a else KPair b a) /\ NoDup (dkeys rhs) /\
    forall o q, dget rhs o = Some q -> (0 < q)%Q /\ exists net both ci y,
      coefficient structure mapping canon al nets invs auts (a.2) both a b net = Ok q /\
      mcomplete_invariant canon net al = Ok ci /\ dget invs ci = Some (o.1) /\
      (let? g := net_at nets (o.1.1) (o.1.2) in image_in structure mapping al net g (a.2)) = Ok y /\ dget auts (o.1, y) = Some (o.2).
Proof.
  intros (V & E & HV)%visits Hk. destruct (keys_inv _ _ _ _ _ _ _ _ _ E) as (_ & I2 & _). destruct (I2 k rhs Hk) as (a & b & Hab & -> & Er). apply HV in Hab. exists a, b. split; [done|]. split; [done|].
  unfold right_side in Er. destruct (combine_orbits canon al nets a b) as [[cs|]|]; cbn [rbind] in Er; [|done..].
  destruct (merge_rounds _ _ _ _ _ _) as [merged|]; cbn [rbind] in Er; [|done]. destruct (rmapM _ merged) as [added|]; cbn [rbind] in Er; [|done].
  destruct (rfold _ [] (merged ++ concat added)) as [reps|] eqn:Erep; cbn [rbind] in Er; [|done]. destruct (rmapM _ reps) as [coefs|] eqn:Eco; cbn [rbind] in Er; [|done].
  injection Er as <-.
  assert (NoDup (dkeys reps) /\ forall o m, dget reps o = Some m -> orbit_of structure mapping canon al nets invs auts (a.2) (m.1) = Ok o) as [Hn Ho].
  { revert Erep. generalize (merged ++ concat added). intros l. assert (forall (d : dict orbit (mpx * list name)), NoDup (dkeys d) -> (forall o m, dget d o = Some m -> orbit_of structure mapping canon al nets invs auts (a.2) (m.1) = Ok o) ->
      rfold (fun (d : dict orbit (mpx * list name)) m => let? o := orbit_of structure mapping canon al nets invs auts (a.2) (m.1) in Ok (if din d o then d else dset d o m)) d l = Ok reps ->
      NoDup (dkeys reps) /\ forall o m, dget reps o = Some m -> orbit_of structure mapping canon al nets invs auts (a.2) (m.1) = Ok o) as H; [|apply H; [constructor|done]].
    induction l as [|m l IH]; intros d Hd Hdo; [by intros [= <-]|]. cbn [rfold]. destruct (orbit_of _ _ _ _ _ _ _ _ _) as [o|] eqn:Eo; cbn [rbind]; [|done]. apply IH.
    - destruct (din d o); [done|by apply NoDup_dset].
    - destruct (din d o); [done|]. intros o' m'. destruct (decide (o' = o)) as [->|Hne]; [rewrite dget_dset_eq; by intros [= <-]|rewrite dget_dset_ne by done; apply Hdo]. }
  assert (dkeys coefs = dkeys reps /\ forall o q, (o, q) ∈ coefs -> exists m, (o, m) ∈ reps /\ coefficient structure mapping canon al nets invs auts (a.2) (m.2) a b (m.1) = Ok q) as [Hc1 Hc2].
  { clear -Eco. revert coefs Eco. induction reps as [|[o m] reps IH]; intros coefs; cbn [rmapM].
    - intros [= <-]. split; [done|]. intros ? ? H. by apply elem_of_nil in H.
    - cbn [fst snd]. destruct (coefficient _ _ _ _ _ _ _ _ _ _ _ _) as [q|] eqn:Eq; cbn [rbind]; [|done]. destruct (rmapM _ reps) as [cs|]; cbn [rbind]; [|done]. intros [= <-]. destruct (IH cs eq_refl) as [H1 H2]. split; [unfold dkeys in *; cbn; by f_equal|].
      intros o' q' [[= -> ->]|H]%elem_of_cons; [exists m; split; [left|done]|]. destruct (H2 o' q' H) as (m' & ? & ?). exists m'. split; [by right|done]. }
  assert (NoDup (dkeys (filter (fun oq : orbit * Q => (0 < Qnum oq.2)%Z) coefs))) as Hnd.
  { rewrite <- Hc1 in Hn. clear -Hn. unfold dkeys in *. induction coefs as [|[o q] l IH]; [constructor|]. cbn in Hn. apply NoDup_cons in Hn as [H1 H2]. rewrite filter_cons. destruct (decide _); [|by apply IH].
    cbn. apply NoDup_cons. split; [|by apply IH]. intros (x & -> & [_ Hx]%elem_of_list_filter)%elem_of_list_fmap. apply H1. apply elem_of_list_fmap. by exists x. }
  split; [done|]. intros o q Hq. apply dget_elem_of in Hq; [|done]. apply elem_of_list_filter in Hq as [Hp Hq]. cbn in Hp. split; [unfold Qlt; cbn; lia|].
  destruct (Hc2 o q Hq) as (m & Hm & Em). apply dget_elem_of in Hm; [|done]. apply Ho in Hm. exists (m.1), (m.2).
  unfold orbit_of in Hm. destruct (mcomplete_invariant canon (m.1) al) as [ci|]; cbn [rbind] in Hm; [|done]. destruct (dget invs ci) as [[i j]|] eqn:Ei; [|done]. cbn [fst snd] in Hm.
  destruct (net_at nets i j) as [g|] eqn:Eg; cbn [rbind] in Hm; [|done]. destruct (image_in _ _ _ _ _ _) as [y|] eqn:Ey; cbn [rbind] in Hm; [|done]. destruct (dget auts (i, j, y)) as [z|] eqn:Ez; [|done].
  injection Hm as <-. exists ci, y. split; [done|]. split; [done|]. split; [done|]. cbn [fst snd]. rewrite Eg. cbn [rbind]. done.
Qed.
(** Four nodes or more, two different two-node orbits on exactly the layers of a combination: independent_equations has no result for these equations. *)
Theorem C96_independent_refuted ord ordk n eqs a b layers I : NoDup (dkeys nets) -> orbit_equations structure mapping canon al nets invs auts n = Ok eqs -> 4 <= n ->
  a <> b -> a.1.1 = 2 -> b.1.1 = 2 -> listed auts a -> listed auts b -> IndepSpec.on_layers nets layers a -> IndepSpec.on_layers nets layers b ->
  layer_part ord ordk n nets (list_orbits auts) layers ((fun kv : eqkey * dict orbit Q => (kv.1, dkeys kv.2)) <$> eqs) <> Ok I.
Proof.
  intros Hn (K1 & _ & K3 & K4)%C96_keys H4 Hab Ha Hb La Lb Oa Ob.
  assert (dkeys ((fun kv : eqkey * dict orbit Q => (kv.1, dkeys kv.2)) <$> eqs) = dkeys eqs) as Ek.
  { clear. unfold dkeys. induction eqs as [|[k r] l IH]; [done|]. cbn. by f_equal. }
  destruct (proj2 (listed_ok auts 2 b)) as (os & Hos & Hbo); [done|]. destruct (proj2 (listed_ok auts 2 a)) as (os' & Hos' & Hao); [done|].
  assert (NoDup (dkeys (list_orbits auts))) as Nl by apply list_orbits_nd. pose proof Hos as Eos. apply dget_elem_of in Eos; [|done]. apply dget_elem_of in Hos'; [|done]. assert (os' = os) as -> by congruence.
  assert (forall o, o ∈ os -> o.1.1 = 2) as Ho2. { intros o Ho. apply (listed_ok auts 2 o). by exists os. }
  destruct (K4 a b) as [Hin|Hin]; [done|split_and!; try done; lia| | |].
  - destruct Oa as (la & ga & A1 & A2 & A3), Ob as (lb & gb & B1 & B2 & B3). exists la, lb, ga, gb. split_and!; try done. intros l. rewrite <- !layers_mhas. by rewrite A3, B3.
  - eapply C91_four_nodes_refuted; rewrite ?Ek; try done. by apply K3.
  - eapply (C91_four_nodes_refuted ord ordk n nets (list_orbits auts) layers _ b a os); rewrite ?Ek; try done. by apply K3.
Qed.
End equations.

From Verif Require Import Isom MpxIsom PropsIsom PropsIsomMpx PropsEnum PropsCount PropsEq.
(** The network 0 - 1, 0 - (-1) in one layer: the only possible link is 1 - (-1). *)
Definition eg_vee : mpx := match mbuild (new_mpx [CNone None] false 0 true) [MSet [NInt 0; NInt 1; ea; ea] 1; MSet [NInt 0; NInt (-1); ea; ea] 1] with Ok p => p | Err _ => new_mpx [CNone None] false 0 true end.
Example C95_example : (exists h, mhist [CNone None] false 0 true h eg_vee) /\ (forall x, mhas eg_vee 0 x -> exists z, x = NInt z) /\
  (let? l := add_possible_edges [NInt 0] eg_vee in
   Ok ((fun q => (agetitem q (LBare ea) [NInt 1; NInt (-1)], agetitem q (LBare ea) [NInt 0; NInt 1])) <$> l)) = Ok [(Ok 1%Z, Ok 1%Z)].
Proof.
  split; [|split; [|vm_compute; done]].
  - pose proof (mhist_init [CNone None] false 0%Z true) as H0. unfold eg_vee. destruct (mbuild _ _) as [p|] eqn:E; [|by exists []]. eexists. by eapply mbuild_hist.
  - intros x Hx%nodes_mhas. vm_compute in Hx. repeat (apply elem_of_cons in Hx as [->|Hx]; [by eexists|]). by apply elem_of_nil in Hx.
Qed.
(** Up to three nodes in one layer: the links at a node make the middles of paths and the nodes of triangles. *)
Definition eqs_three : res (dict eqkey (dict orbit Q)) :=
  let? r := graphlets brute_canon (Some [0]) 3 [ea] None [CNone None] in
  let? auts := automorphism_orbits brute_perms (Some [0]) (r.1) in
  orbit_equations brute brute_mapping brute_canon (Some [0]) (r.1) (r.2) auts 3.
Example C96_three : eqs_three = Ok [(KTwice (2, 0, NInt 0), [((3, 0, NInt 0), (2 # 2)%Q); ((3, 1, NInt 0), (2 # 2)%Q)])].
Proof. vm_compute. done. Qed.
(** Four nodes, two two-node orbits on the layers x and y.  The backend is a stub that takes all networks for the graphlet (3, 0). *)
Definition eg_two (ls : list name) : mpx := match mbuild (new_mpx [CNone None] false 0 true) (((fun l => MSet [NInt 0; NInt 1; l; l] 1) <$> ls) ++ [MAddLayer (NStr "x") 1; MAddLayer (NStr "y") 1]) with Ok p => p | Err _ => new_mpx [CNone None] false 0 true end.
Definition eg_nets : dict nat (list mpx) := [(2, [eg_two [NStr "x"]; eg_two [NStr "x"; NStr "y"]]); (3, [eg_two [NStr "x"]])].
Definition eg_auts : dict orbit name := (fun o => (o, NInt 0)) <$> [(2, 0, NInt 0); (2, 0, NInt 1); (2, 1, NInt 0); (2, 1, NInt 1); (3, 0, NInt 0); (3, 0, NInt 1)].
Example C96_fails : let a : orbit := (2, 0, NInt 0) in let b : orbit := (2, 1, NInt 0) in
  (let? ci := mcomplete_invariant (fun _ _ => 0) (eg_two [NStr "x"]) (Some [0]) in
   let? eqs := orbit_equations (fun _ _ => true) (fun _ _ => (fun i => (i, 4)) <$> seq 0 40) (fun _ _ => 0) (Some [0]) eg_nets [(ci, (3, 0))] eg_auts 4 in Ok (dkeys eqs)) =
    Ok [KTwice a; KPair b a; KPair (3, 0, NInt 0) a; KTwice b; KPair (3, 0, NInt 0) b] /\
  NoDup (dkeys eg_nets) /\ listed eg_auts a /\ listed eg_auts b /\ IndepSpec.on_layers eg_nets [NStr "x"; NStr "y"] a /\ IndepSpec.on_layers eg_nets [NStr "x"; NStr "y"] b.
Proof.
  cbn zeta. split; [vm_compute; done|]. split; [apply (bool_decide_unpack _); by vm_compute|].
  split; [exists (NInt 0); by repeat (first [left|right])|]. split; [exists (NInt 0); right; right; left|].
  split; eexists _, _; (split; [reflexivity|]); (split; [reflexivity|]); by vm_compute.
Qed.

Print Assumptions C95_add_possible_edges.
Print Assumptions C95_strings.
Print Assumptions C96_keys.
Print Assumptions C96_coefficients.
Print Assumptions C96_independent_refuted.
