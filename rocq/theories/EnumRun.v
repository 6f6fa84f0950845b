(** * The loops of the enumeration of graphlets *)
From stdpp Require Import prelude sorting.
From Verif Require Import Base Net NetSpec NetHist NetIter Supra MpxSpec MpxFacts MpxHist MpxIter MpxTrans MpxBuild PropsMpx MpxRelabel MpxSub PropsMpxSub PropsMpxEq OverlapFacts MpxEdges
  Samp Graphlet GraphletFacts MpxIsom IsomSpec PropsIsomMpx SampFacts Enum EnumSpec EnumNet EnumFacts.
Local Open Scope nat_scope.

(** A loop that keeps [I], never forgets, and does [D x] at each element. *)
Lemma rfold_collects {T A} (f : T -> A -> res T) (I : T -> Prop) (M : T -> T -> Prop) (D : A -> T -> Prop) l : (forall s, M s s) -> (forall s t u, M s t -> M t u -> M s u) ->
  (forall x s t, M s t -> D x s -> D x t) -> (forall x s, x ∈ l -> I s -> exists t, f s x = Ok t /\ I t /\ M s t /\ D x t) ->
  forall s, I s -> exists t, rfold f s l = Ok t /\ I t /\ M s t /\ forall x, x ∈ l -> D x t.
Proof.
  intros Mr Mt HD. induction l as [|x l IH]; intros Hstep s Hs.
  - exists s. split; [done|]. split; [done|]. split; [apply Mr|]. by intros x ?%elem_of_nil.
  - destruct (Hstep x s) as (t & E & Ht & Mst & Dx); [left|done|]. cbn. rewrite E.
    destruct (IH ltac:(intros y u Hy; apply Hstep; by right) t Ht) as (u & E' & Hu & Mtu & Du). exists u. split; [done|]. split; [done|]. split; [by eapply Mt|].
    intros y [-> |Hy]%elem_of_cons; [by eapply HD|by apply Du].
Qed.

Section run.
Context {T : Type} `{EqDecision T} (canon : dict nat nat -> list (nat * nat) -> T) (Hcanon : exact_canon canon).
Context (c : coupling) (layers : list name) (n_l : nat) (Hnd : NoDup layers) (Hkind : one_kind layers) (Hfit : coupling_fits c layers).
Context (al : option (list nat)) (Hal : aspects_ok 1 al) (Hal0 : 0 ∈ aspect_list 1 al).
Notation G := (graphlet c layers n_l).
Definition inv (p : mpx) (ci : @invariant T) : Prop := mcomplete_invariant canon p al = Ok ci.
Lemma inv_fun p ci ci' : inv p ci -> inv p ci' -> ci = ci'.
Proof. unfold inv. congruence. Qed.
Lemma inv_iso k k' p q : G k p -> G k' q -> exists ci cj, inv p ci /\ inv q cj /\ (ci = cj <-> misomorphic al p q).
Proof using Hcanon Hkind Hfit Hal Hal0.
  intros Hp Hq. apply (C85_complete_invariant canon p q al Hcanon).
  - by eapply gl_suitable.
  - by eapply gl_suitable.
  - by rewrite (gl_asp _ _ _ k p Hp), (gl_asp _ _ _ k' q Hq).
  - by rewrite (gl_asp _ _ _ k p Hp).
  - by eapply gl_sortable.
  - by eapply gl_sortable.
Qed.
Lemma inv_same k k' p q ci : G k p -> G k' q -> inv p ci -> inv q ci <-> misomorphic al p q.
Proof using Hcanon Hkind Hfit Hal Hal0.
  intros Hp Hq Hi. destruct (inv_iso k k' p q Hp Hq) as (i & j & Hi' & Hj & Hij). rewrite <- Hij. rewrite (inv_fun p ci i Hi Hi').
  split; [intros Hj'; by apply (inv_fun q)|by intros ->].
Qed.

Record kst (k : nat) (invs0 : @invariants T) (st : list mpx * @invariants T) : Prop := {
  ks_old : forall ci e, dget invs0 ci = Some e -> dget (st.2) ci = Some e;
  ks_net : forall i p, st.1 !! i = Some p -> G k p /\ standard k p /\ exists ci, inv p ci /\ dget (st.2) ci = Some (k, i);
  ks_inv : forall ci e, dget (st.2) ci = Some e -> dget invs0 ci = Some e \/ exists i p, st.1 !! i = Some p /\ inv p ci /\ e = (k, i) }.
Definition seen (q : mpx) (st : list mpx * @invariants T) : Prop := exists ci, inv q ci /\ is_Some (dget (st.2) ci).
Definition more (st st' : list mpx * @invariants T) : Prop := forall ci, is_Some (dget (st.2) ci) -> is_Some (dget (st'.2) ci).
Lemma more_refl st : more st st.
Proof. by intros ci. Qed.
Lemma more_trans s t u : more s t -> more t u -> more s u.
Proof. intros H1 H2 ci Hc. by apply H2, H1. Qed.
Lemma seen_more q s t : more s t -> seen q s -> seen q t.
Proof. intros H (ci & Hi & Hs). exists ci. split; [done|]. by apply H. Qed.
Lemma seen_iso k k' q p st : G k q -> G k' p -> misomorphic al q p -> seen p st -> seen q st.
Proof using Hcanon Hkind Hfit Hal Hal0.
  intros Hq Hp Hiso (ci & Hi & Hs). exists ci. split; [|done]. destruct (inv_iso k k' q p Hq Hp) as (i & j & Hi' & Hj & Hij). apply Hij in Hiso as ->. by rewrite (inv_fun p ci j Hi Hj).
Qed.
Lemma keep_ok k invs0 st p : kst k invs0 st -> G k p -> standard k p -> exists st', keep canon al k st p = Ok st' /\ kst k invs0 st' /\ more st st' /\ seen p st'.
Proof using Hcanon Hkind Hfit Hal Hal0.
  intros [K1 K2 K3] Hp Sp. destruct (inv_iso k k p p Hp Hp) as (ci & _ & Hi & _ & _). unfold keep. unfold inv in Hi. rewrite Hi. cbn [rbind].
  destruct (decide _) as [Hs|Hs].
  - exists st. split; [done|]. split; [by split|]. split; [apply more_refl|]. by exists ci.
  - eexists. split; [done|]. assert (dget (st.2) ci = None) as Hn. { destruct (dget (st.2) ci); [by destruct Hs|done]. }
    assert (forall cj e, dget (st.2) cj = Some e -> dget (dset (st.2) ci (k, length (st.1))) cj = Some e) as Hold.
    { intros cj e Hj. rewrite dget_dset_ne; [done|]. intros ->. by rewrite Hn in Hj. }
    split; [split|split].
    + intros cj e Hj. apply Hold. by apply K1.
    + cbn [fst snd]. intros i q Hq. apply lookup_app_Some in Hq as [Hq|[Hle Hq]].
      * destruct (K2 i q Hq) as (? & ? & cj & Hj & Hg). split; [done|]. split; [done|]. exists cj. split; [done|]. by apply Hold.
      * destruct (i - length (st.1)) as [|d] eqn:Ed; [|done]. injection Hq as <-. split; [done|]. split; [done|]. exists ci. split; [done|]. rewrite dget_dset_eq. do 2 f_equal. lia.
    + cbn [fst snd]. intros cj e. destruct (decide (cj = ci)) as [-> |Hne].
      * rewrite dget_dset_eq. intros [= <-]. right. exists (length (st.1)), p. split; [|done]. rewrite lookup_app_r, Nat.sub_diag by done. done.
      * rewrite dget_dset_ne by done. intros [?|(i & q & Hq & ?)]%K3; [by left|]. right. exists i, q. split; [|done]. by apply lookup_app_l_Some.
    + intros cj [e He]. exists e. by apply Hold.
    + exists ci. split; [done|]. cbn [snd]. rewrite dget_dset_eq. by eexists.
Qed.
Lemma first_ok : exists st, first_size canon al [c] layers n_l = Ok st /\ kst 2 [] st /\ forall q, G 2 q -> seen q st.
Proof using Hcanon Hnd Hkind Hfit Hal Hal0.
  unfold first_size.
  assert (kst 2 [] ([], [])) as H0 by (split; cbn; [done|by intros i p|done]).
  destruct (rfold_collects (fun st nls => rfold (fun st comb => let? p := pair_net [c] nls comb in keep canon al 2 st p) st (layer_combinations nls)) (kst 2 []) more
    (fun nls st => forall comb, comb ∈ layer_combinations nls -> exists p, pair_net [c] nls comb = Ok p /\ G 2 p /\ seen p st) (combs n_l layers) more_refl more_trans) with (s := ([], []) : list mpx * @invariants T)
    as (st & E & Hk & _ & Hall); [| |exact H0|].
  - intros nls s t Hm H comb Hc. destruct (H comb Hc) as (p & ? & ? & Hs). exists p. split; [done|]. split; [done|]. by eapply seen_more.
  - intros nls s [Hsub Hlen]%elem_of_combs Hs.
    apply (rfold_collects _ (kst 2 []) more (fun comb st => exists p, pair_net [c] nls comb = Ok p /\ G 2 p /\ seen p st) _ more_refl more_trans); [| |done].
    + intros comb s' t Hm (p & ? & ? & Hp). exists p. split; [done|]. split; [done|]. by eapply seen_more.
    + intros comb s' Hc Hs'. destruct (pair_sound c layers n_l nls comb Hnd Hsub Hlen Hc) as (p & Ep & Gp & Sp & _). rewrite Ep. cbn [rbind].
      destruct (keep_ok 2 [] s' p Hs' Gp Sp) as (s'' & Es & Hs'' & Hm & Hsn). exists s''. split; [done|]. split; [done|]. split; [done|]. by exists p.
  - exists st. split; [exact E|]. split; [done|]. intros q Hq. destruct (pair_complete c layers n_l Hkind Hfit al Hal Hal0 q Hnd Hq) as (nls & comb & p & Hn & Hc & Ep & Hiso).
    destruct (Hall nls Hn comb Hc) as (p' & Ep' & Gp & Hs). assert (p' = p) as -> by congruence. by eapply seen_iso.
Qed.
Lemma layers_sorted k p : G k p -> exists lay, py_sorted (default [] (mslices p !! 1)) = Ok lay /\ forall l, l ∈ lay <-> mhas p 1 l.
Proof using Hkind.
  intros Hp. assert (forall l, l ∈ default [] (mslices p !! 1) <-> mhas p 1 l) as Hsl.
  { intros l. rewrite <- psl_mhas. unfold psl. destruct (mslices p !! 1) as [s|]; cbn; [naive_solver|]. split; [by intros ?%elem_of_nil|by intros (? & ? & _)]. }
  destruct (proj2 (py_sorted_ok (default [] (mslices p !! 1)))) as [lay Hlay].
  - intros (x & y & Hx & Hy). apply Hsl in Hx, Hy. apply (gl_in _ _ _ _ _ _ Hp) in Hx, Hy.
    destruct Hkind as [K|K]; destruct (K _ Hx) as [? ?], (K _ Hy) as [? ?]; done.
  - exists lay. split; [done|]. intros l. rewrite (py_sorted_perm _ _ Hlay). apply Hsl.
Qed.
Lemma next_ok k nets invs : 1 <= k -> (forall p, p ∈ nets -> G k p /\ standard k p) ->
  exists st, next_size canon al k nets invs = Ok st /\ kst (S k) invs st /\
    forall p lay, p ∈ nets -> py_sorted (default [] (mslices p !! 1)) = Ok lay -> forall e, e ∈ extensions k (layer_combinations lay) -> exists q, ext_net k p lay e = Ok q /\ G (S k) q /\ seen q st.
Proof using Hcanon Hkind Hfit Hal Hal0.
  intros Hk Hnets. unfold next_size. rewrite Nat.add_1_r.
  assert (kst (S k) invs ([], invs)) as H0 by (split; cbn; [done|by intros i p|by left]).
  edestruct (rfold_collects (fun st p => let? net_layers := py_sorted (default [] (mslices p !! 1)) in
    rfold (fun st e => let? q := ext_net k p net_layers e in keep canon al (S k) st q) st (extensions k (layer_combinations net_layers))) (kst (S k) invs) more
    (fun p st => forall lay, py_sorted (default [] (mslices p !! 1)) = Ok lay -> forall e, e ∈ extensions k (layer_combinations lay) -> exists q, ext_net k p lay e = Ok q /\ G (S k) q /\ seen q st) nets more_refl more_trans)
    with (s := ([], invs) : list mpx * @invariants T) as (st & E & Hks & _ & Hall); [| |exact H0|].
  - intros p s t Hm H lay El e He. destruct (H lay El e He) as (q & ? & ? & Hs). exists q. split; [done|]. split; [done|]. by eapply seen_more.
  - intros p s Hp Hs. destruct (Hnets p Hp) as [Gp Sp]. destruct (layers_sorted k p Gp) as (lay & El & Hlay). rewrite El. cbn [rbind].
    destruct (rfold_collects (fun st e => let? q := ext_net k p lay e in keep canon al (S k) st q) (kst (S k) invs) more
      (fun e st => exists q, ext_net k p lay e = Ok q /\ G (S k) q /\ seen q st) (extensions k (layer_combinations lay)) more_refl more_trans) with (s := s) as (t & Et & Ht & Mt & Dt); [| |done|].
    + intros e s' t Hm (q & ? & ? & Hq). exists q. split; [done|]. split; [done|]. by eapply seen_more.
    + intros e s' He Hs'. destruct (ext_sound c layers n_l Hfit k p lay e Gp Sp Hk Hlay He) as (q & Eq & Gq & Sq & _). rewrite Eq. cbn [rbind].
      destruct (keep_ok (S k) invs s' q Hs' Gq Sq) as (s'' & Es & Hs'' & Hm & Hsn). exists s''. split; [done|]. split; [done|]. split; [done|]. by exists q.
    + exists t. split; [done|]. split; [done|]. split; [done|]. by intros lay' [= <-].
  - exists st. split; [exact E|]. split; [done|]. intros p lay Hp. by apply Hall.
Qed.

Record full (K : nat) (nets : dict nat (list mpx)) (invs : @invariants T) : Prop := {
  fu_size : forall k, is_Some (dget nets k) <-> 2 <= k <= K;
  fu_net : forall k l i p, dget nets k = Some l -> l !! i = Some p -> G k p /\ standard k p /\ exists ci, inv p ci /\ dget invs ci = Some (k, i);
  fu_inv : forall ci k i, dget invs ci = Some (k, i) -> exists l p, dget nets k = Some l /\ l !! i = Some p /\ inv p ci;
  fu_all : forall k q, 2 <= k <= K -> G k q -> exists ci, inv q ci /\ is_Some (dget invs ci) }.
(** The graphlet in the list that a network is isomorphic to. *)
Lemma full_find K nets invs k q : full K nets invs -> 2 <= k <= K -> G k q ->
  exists l i p ci, dget nets k = Some l /\ l !! i = Some p /\ misomorphic al q p /\ inv q ci /\ dget invs ci = Some (k, i) /\ forall j p', l !! j = Some p' -> misomorphic al q p' -> j = i.
Proof using Hcanon Hkind Hfit Hal Hal0.
  intros [F1 F2 F3 F4] Hk Hq. destruct (F4 k q Hk Hq) as (ci & Hi & [[k' i] He]). destruct (F3 ci k' i He) as (l & p & Hl & Hp & Hpi).
  destruct (F2 k' l i p Hl Hp) as (Gp & _ & _). assert (misomorphic al q p) as Hiso by (by apply (inv_same k k' q p ci)).
  assert (k' = k) as ->. { symmetry. by eapply iso_size. } exists l, i, p, ci. do 5 (split; [done|]). intros j p' Hp' Hiso'.
  destruct (F2 k l j p' Hl Hp') as (Gp' & _ & cj & Hj & Hd). apply (inv_same k k q p' ci Hq Gp' Hi) in Hiso'. rewrite (inv_fun p' cj ci Hj Hiso') in Hd. rewrite He in Hd. by injection Hd.
Qed.
Lemma full_first st : kst 2 [] st -> (forall q, G 2 q -> seen q st) -> full 2 [(2, st.1)] (st.2).
Proof using.
  intros [K1 K2 K3] Hs. assert (forall k l, dget [(2, st.1)] k = Some l <-> k = 2 /\ l = st.1) as Hg.
  { intros k l. cbn. destruct (decide _) as [E|E]; [subst; split; [intros [= <-]; done|intros [_ ->]; done]|split; [done|intros [-> _]; done]]. }
  split.
  - intros k. split; [intros [l [-> _]%Hg]; lia|]. intros Hk. exists (st.1). apply Hg. split; [lia|done].
  - intros k l i p [-> ->]%Hg. apply K2.
  - intros ci k i [?|(j & p & Hp & Hi & [= -> ->])]%K3; [done|]. exists (st.1), p. split; [by apply Hg|done].
  - intros k q Hk. assert (k = 2) as -> by lia. apply Hs.
Qed.
Lemma full_next K nets invs : 2 <= K -> full K nets invs -> exists l st, dget nets K = Some l /\ next_size canon al K l invs = Ok st /\ full (S K) (dset nets (K + 1) (st.1)) (st.2).
Proof using Hcanon Hkind Hfit Hal Hal0.
  intros HK Hf. pose proof Hf as [F1 F2 F3 F4]. destruct (proj2 (F1 K)) as [l Hl]; [lia|].
  destruct (next_ok K l invs) as (st & E & [K1 K2 K3] & Hall); [lia| |].
  { intros p [i Hp]%elem_of_list_lookup. destruct (F2 K l i p Hl Hp) as (? & ? & _). done. }
  exists l, st. split; [done|]. split; [done|]. rewrite Nat.add_1_r. split.
  - intros k. destruct (decide (k = S K)) as [-> |Hne]; [rewrite dget_dset_eq; split; [lia|by eexists]|]. rewrite dget_dset_ne by done. rewrite F1. lia.
  - intros k m i p. destruct (decide (k = S K)) as [-> |Hne]; [rewrite dget_dset_eq; intros [= <-]; apply K2|]. rewrite dget_dset_ne by done. intros Hm Hp.
    destruct (F2 k m i p Hm Hp) as (? & ? & ci & Hi & Hd). split; [done|]. split; [done|]. exists ci. split; [done|]. by apply K1.
  - intros ci k i [Hd|(j & p & Hp & Hi & [= -> ->])]%K3.
    + destruct (F3 ci k i Hd) as (m & p & Hm & Hp & Hi). exists m, p. split; [|done]. rewrite dget_dset_ne; [done|]. intros ->. pose proof (proj1 (F1 (S K)) (ex_intro _ m Hm)). lia.
    + exists (st.1), p. split; [apply dget_dset_eq|done].
  - intros k q Hk Hq. destruct (decide (k = S K)) as [-> |Hne].
    + destruct (ext_complete c layers n_l Hkind Hfit al Hal Hal0 K q Hq) as (r & Gr & Hr); [lia|].
      destruct (full_find K nets invs K r Hf ltac:(lia) Gr) as (l' & i & p & _ & Hl' & Hp & Hiso & _). assert (l' = l) as -> by congruence.
      destruct (F2 K l i p Hl Hp) as (Gp & Sp & _). destruct (layers_sorted K p Gp) as (lay & El & Hlay). destruct (Hr p lay Gp Sp Hlay Hiso) as (e & q' & He & Eq & Hqq).
      destruct (Hall p lay (elem_of_list_lookup_2 _ _ _ Hp) El e He) as (q'' & Eq' & Gq & Hs). assert (q'' = q') as -> by congruence.
      exact (seen_iso _ _ _ _ _ Hq Gq Hqq Hs).
    + destruct (F4 k q ltac:(lia) Hq) as (ci & Hi & [e He]). exists ci. split; [done|]. exists e. by apply K1.
Qed.
Lemma graphlets_full n n_l' : default (length layers) n_l' = n_l -> exists nets invs, graphlets canon al n layers n_l' [c] = Ok (nets, invs) /\ full (max 2 n) nets invs.
Proof using Hcanon Hnd Hkind Hfit Hal Hal0.
  intros El. unfold graphlets. rewrite El. destruct first_ok as (st & -> & Hk & Hs). cbn [rbind]. pose proof (full_first st Hk Hs) as H0.
  assert (forall d, exists acc, rfold (fun acc i => match dget (acc.1) i with None => Err KeyError | Some nets_i => let? st := next_size canon al i nets_i (acc.2) in Ok (dset (acc.1) (i + 1) (st.1), st.2) end)
    ([(2, st.1)], st.2) (seq 2 d) = Ok acc /\ full (2 + d) (acc.1) (acc.2)) as Hd.
  { intros d. induction d as [|d IH]; [by eexists|]. destruct IH as (acc & Ea & Hf). destruct (full_next (2 + d) (acc.1) (acc.2)) as (l & st' & Hl & En & Hn); [lia|done|].
    rewrite seq_S, rfold_app, Ea. cbn [rfold rbind]. rewrite Hl, En. cbn [rbind]. eexists. split; [done|]. cbn [fst snd]. replace (2 + S d) with (S (2 + d)) by lia. done. }
  destruct (Hd (n - 2)) as ([nets invs] & -> & Hf). exists nets, invs. split; [done|]. by replace (max 2 n) with (2 + (n - 2)) by lia.
Qed.
End run.
