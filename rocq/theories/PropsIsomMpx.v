(** * Property C85: isomorphisms of multiplex networks *)
From stdpp Require Import prelude sorting.
From Verif Require Import Base Net NetSpec NetHist Supra MpxSpec MpxFacts MpxHist MpxIter MpxBuild PropsMpx MpxEdges Isom IsomSpec IsomFacts IsomIso IsomDec PropsIsom IsomView MpxIsom.
Local Open Scope nat_scope.

(** The networks considered: undirected multiplex networks built through the API whose
    couplings are iterated as they are read ([faithful]: fully interconnected with
    categorical or ordinal couplings of nonzero weight or "none", or one categorical
    coupling), without self-loops. *)
Definition msuitable (p : mpx) : Prop := exists cs fi h, mhist cs false 0 fi h p /\ faithful cs fi p /\ loopless p.
(** The maps [m] form an isomorphism from [p] to [q] with respect to the aspects [A]; compare
    [isomorphism] in IsomSpec. *)
Definition misomorphism (A : nat -> Prop) (m : nat -> name -> name) (p q : mpx) : Prop :=
  (forall a, A a -> bijective (mhas p a) (mhas q a) (m a)) /\
  (forall a x, ~ A a -> m a x = x) /\
  (forall b, mexists q b <-> exists a, mexists p a /\ b = nl_image m a) /\
  (forall a b, mexists p a -> mexists p b -> mlinked p a b <-> mlinked q (nl_image m a) (nl_image m b)).
Definition misomorphic (al : option (list nat)) (p q : mpx) : Prop :=
  exists m, misomorphism (fun a => a ∈ aspect_list (maspects p) al) m p q.
(** The names of the aspects that are not selected can be sorted. *)
Definition msortable (p : mpx) (al : option (list nat)) : Prop :=
  forall a, a <= maspects p -> a ∉ aspect_list (maspects p) al ->
    (forall x, mhas p a x -> exists z, x = NInt z) \/ (forall x, mhas p a x -> exists s, x = NStr s).
Definition mfixed_parts (p : mpx) (asp : list nat) (L : list (list name)) : Prop :=
  lists_exactly L (fun c => exists a, mexists p a /\ c = fixed_part asp a).
Definition mlists_layers (p : mpx) (fixed : bool) (ms : list (dict name name)) : Prop :=
  length ms = S (maspects p) /\
  forall a d, ms !! a = Some d -> NoDup (dkeys d) /\ forall x, x ∈ dkeys d <-> mhas p a x /\ (fixed = true \/ dict_map ms a x <> x).
(** The backend's canonical form tells graphs apart up to isomorphism. *)
Definition exact_canon {S} (canon : dict nat nat -> list (nat * nat) -> S) : Prop :=
  forall c1 l1 c2 l2, NoDup (dkeys c1) -> NoDup (dkeys c2) -> canon c1 l1 = canon c2 l2 <-> graph_isomorphic c1 l1 c2 l2.
(** The backend's vertex mappings are isomorphisms when it says that there is one. *)
Definition exact_mapping (structure : auxg -> auxg -> bool) (mapping : auxg -> auxg -> dict nat nat) : Prop :=
  forall g h, NoDup (dkeys (g_color g)) -> NoDup (dkeys (g_color h)) -> structure g h = true -> valid_mapping g h (mapping g h).

(** ** Bridges *)
Record view_of (p : mpx) (v : iview) : Prop := {
  vo_eq : mpx_view p = Ok v;
  vo_ok : vok v;
  vo_asp : v_asp v = maspects p;
  vo_in : forall k x, vin v k x <-> mhas p k x;
  vo_nls : forall a, a ∈ v_nls v <-> mexists p a;
  vo_nbr : forall a b, mexists p a -> b ∈ v_nbr v a <-> mexists p b /\ mlinked p a b }.
Lemma mview p : msuitable p -> exists v, view_of p v.
Proof.
  intros (cs & fi & h & Hh & Hf & Hl). pose proof (mhist_inv _ _ _ _ _ _ Hh) as Hi. pose proof (pi_wf _ _ _ _ _ _ Hi) as Hp.
  destruct (miter_node_layers_ok p Hp) as (L & HL & _). assert (forall a, a ∈ L <-> mexists p a) as HE.
  { intros a. split; [intros; by exists L|]. intros (L' & HL' & ?). congruence. }
  pose proof (fun a Ha => iter_any cs false fi h p Hh Hf Hl a DTot (ex_cart cs false fi h p Hh a Ha)) as Hit.
  assert (forall a b, mexists p a -> mexists p b -> mlinked p a b -> mlinked p b a) as Hsym.
  { intros a b Ha Hb (w & Hr & Hw). exists w. split; [|done]. eapply mreads_sym; try done. by eapply fa_no_net. }
  set (nbr := fun a => match mp_iter p DTot a None with Ok l => l | Err _ => [] end).
  assert (forall a b, mexists p a -> b ∈ nbr a <-> mexists p b /\ mlinked p a b) as Hn.
  { intros a b Ha. destruct (Hit a Ha) as (K & E & _ & HK). unfold nbr. rewrite E, HK. cbn [mlinked_dir]. split.
    - intros (_ & Hb & [?|?]); [done|]. split; [done|]. by apply Hsym.
    - intros [Hb ?]. split; [done|]. split; [done|]. by left. }
  exists (MkView (maspects p) false (mslices p) L nbr). split; cbn [v_asp v_nls v_nbr v_slices v_dir].
  - unfold mpx_view. rewrite (pi_dir _ _ _ _ _ _ Hi), HL. cbn [rbind]. destruct (rmapM _ L) as [K|e] eqn:E; [done|]. exfalso.
    rewrite (rmapM_Ok_iff _ nbr) in E; [done|]. intros a Ha%HE. destruct (Hit a Ha) as (K & E' & _). unfold nbr. by rewrite E'.
  - split; cbn [v_asp v_nls v_nbr v_slices v_dir].
    + done.
    + apply (pw_len p Hp).
    + intros s Hs. pose proof (pw_nd p Hp) as Hd. rewrite Forall_forall in Hd. by apply Hd.
    + eapply (nls_NoDup cs false fi h p); eassumption.
    + intros a Ha%HE. apply elem_of_cart. by apply (ex_cart cs false fi h p Hh).
    + intros a b Ha%HE Hb. apply HE. by apply Hn in Hb as [? _].
    + intros a b Ha%HE Hb. apply Hn in Hb as [Hb Hk]; [|done]. apply Hn; [done|]. split; [done|]. by apply Hsym.
  - done.
  - intros k x. rewrite <- psl_mhas. done.
  - done.
  - done.
Qed.
Section pair.
  Context (p q : mpx) (v w : iview) (Hv : view_of p v) (Hw : view_of q w).
  Lemma viso_mpx A m : viso A m v w <-> misomorphism A m p q.
  Proof.
    unfold viso, misomorphism. setoid_rewrite (vo_nls p v Hv). setoid_rewrite (vo_nls q w Hw).
    assert (forall a, bijective (vin v a) (vin w a) (m a) <-> bijective (mhas p a) (mhas q a) (m a)) as Hbij.
    { intros a. unfold bijective. setoid_rewrite (vo_in p v Hv). setoid_rewrite (vo_in q w Hw). done. }
    setoid_rewrite Hbij.
    split; intros (H1 & H2 & H3 & H4); (split; [done|]); (split; [done|]); (split; [done|]); intros a b Ha Hb; specialize (H4 a b Ha Hb).
    - rewrite (vo_nbr p v Hv) in H4 by done. rewrite (vo_nbr q w Hw) in H4 by (apply H3; eauto). split.
      + intros Hk. by apply H4.
      + intros Hk. apply H4. split; [apply H3; eauto|done].
    - rewrite (vo_nbr p v Hv) by done. rewrite (vo_nbr q w Hw) by (apply H3; eauto). rewrite H4. split; intros [_ ?]; (split; [|done]); [apply H3; eauto|done].
  Qed.
  Lemma visomorphic_mpx al : visomorphic al v w <-> misomorphic al p q.
  Proof. unfold visomorphic, misomorphic. rewrite (vo_asp p v Hv). by setoid_rewrite viso_mpx. Qed.
End pair.
Lemma vsortable_mpx p v al : view_of p v -> msortable p al -> vsortable v al.
Proof.
  intros Hv H a. rewrite (vo_asp p v Hv). intros Ha Hn. destruct (H a Ha Hn) as [K|K]; [left|right]; intros x Hx%(vo_in p v Hv); by apply K.
Qed.
Lemma vfixed_mpx p v asp L : view_of p v -> mfixed_parts p asp L -> vfixed_parts v asp L.
Proof. intros Hv. unfold mfixed_parts, vfixed_parts. apply lists_exactly_iff. intros c. by setoid_rewrite (vo_nls p v Hv). Qed.
Lemma vlists_mpx p v fixed ms : view_of p v -> vlists_layers v fixed ms <-> mlists_layers p fixed ms.
Proof. intros Hv. unfold vlists_layers, mlists_layers. rewrite (vo_asp p v Hv). by setoid_rewrite (vo_in p v Hv). Qed.
Lemma mgraph_ok p al : msuitable p -> aspects_ok (maspects p) al -> msortable p al ->
  exists v g, view_of p v /\ build v al = Ok g /\ mgraph p al = Ok g /\ NoDup (dkeys (g_color g)).
Proof.
  intros Hs Hal Hk. destruct (mview p Hs) as [v Hv]. destruct (vbuild_sortable v al (vo_ok p v Hv)) as [g Hg]; [by rewrite (vo_asp p v Hv)|by eapply vsortable_mpx|].
  exists v, g. split; [done|]. split; [done|]. split; [unfold mgraph; by rewrite (vo_eq p v Hv)|]. eapply NoDup_color; [apply Hv|apply aspects_al_ok; by rewrite (vo_asp p v Hv)|done].
Qed.

(** ** Theorems *)
(** [is_isomorphic] answers whether an isomorphism exists, or raises AssertionError when the
    numbers of distinct parts in the aspects not selected differ (then there is none). *)
Theorem C85_is_isomorphic structure p q al L1 L2 : exact_backend structure -> msuitable p -> msuitable q -> maspects p = maspects q ->
  aspects_ok (maspects p) al -> msortable p al -> msortable q al ->
  mfixed_parts p (aspect_list (maspects p) al) L1 -> mfixed_parts q (aspect_list (maspects p) al) L2 ->
  (aspect_list (maspects p) al = [] \/ length L1 = length L2 -> exists r, mis_isomorphic structure p q al = Ok r /\ (r = true <-> misomorphic al p q)) /\
  (aspect_list (maspects p) al <> [] -> length L1 <> length L2 -> mis_isomorphic structure p q al = Err AssertionError /\ ~ misomorphic al p q).
Proof.
  intros Hb Sp Sq Ha Hal Kp Kq HL1 HL2. destruct (mgraph_ok p al Sp Hal Kp) as (v & g & Hv & Hg & Eg & Ng).
  destruct (mgraph_ok q al Sq) as (w & h & Hw & Hh & Eh & Nh); [by rewrite <- Ha|done|]. unfold mis_isomorphic. rewrite Eg, Eh. cbn [rbind].
  setoid_rewrite <- (visomorphic_mpx p q v w Hv Hw). rewrite <- (vo_asp p v Hv).
  apply (vcompare_ok v w al (vo_ok p v Hv) (vo_ok q w Hw)); try done.
  - by rewrite (vo_asp p v Hv), (vo_asp q w Hw).
  - by rewrite (vo_asp p v Hv).
  - by apply Hb.
  - rewrite (vo_asp p v Hv). by eapply vfixed_mpx.
  - rewrite (vo_asp p v Hv). by eapply vfixed_mpx.
Qed.
(** [get_isomorphism]: [None] exactly when there is no isomorphism, and otherwise
    dictionaries describing one. *)
Theorem C85_get_isomorphism structure mapping fixed p q al L1 L2 : exact_backend structure -> exact_mapping structure mapping ->
  msuitable p -> msuitable q -> maspects p = maspects q -> aspects_ok (maspects p) al -> msortable p al -> msortable q al ->
  mfixed_parts p (aspect_list (maspects p) al) L1 -> mfixed_parts q (aspect_list (maspects p) al) L2 ->
  aspect_list (maspects p) al = [] \/ length L1 = length L2 ->
  exists r, mget_isomorphism structure mapping p q al fixed = Ok r /\
    match r with
    | None => ~ misomorphic al p q
    | Some ms => misomorphism (fun a => a ∈ aspect_list (maspects p) al) (dict_map ms) p q /\ mlists_layers p fixed ms
    end.
Proof.
  intros Hb Hm Sp Sq Ha Hal Kp Kq HL1 HL2 Hc. destruct (mgraph_ok p al Sp Hal Kp) as (v & g & Hv & Hg & Eg & Ng).
  destruct (mgraph_ok q al Sq) as (w & h & Hw & Hh & Eh & Nh); [by rewrite <- Ha|done|]. unfold mget_isomorphism. rewrite (vo_eq p v Hv), Eh. cbn [rbind]. rewrite Hg. cbn [rbind].
  destruct (vget_isomorphism v w al (vo_ok p v Hv) (vo_ok q w Hw)) with (g := g) (h := h) (b := structure g h) (perm := mapping g h) (fixed := fixed) (L1 := L1) (L2 := L2) as (r & Hr & Hres); try done.
  - by rewrite (vo_asp p v Hv), (vo_asp q w Hw).
  - by rewrite (vo_asp p v Hv).
  - by apply Hb.
  - by apply Hm.
  - rewrite (vo_asp p v Hv). by eapply vfixed_mpx.
  - rewrite (vo_asp p v Hv). by eapply vfixed_mpx.
  - by rewrite (vo_asp p v Hv).
  - exists r. split; [done|]. destruct r as [ms|].
    + rewrite <- (viso_mpx p q v w Hv Hw), <- (vlists_mpx p v fixed ms Hv), <- (vo_asp p v Hv). done.
    + by rewrite <- (visomorphic_mpx p q v w Hv Hw).
Qed.
(** Every generator returned is an automorphism, and if the vertex permutations generate the
    automorphisms of the auxiliary graph, those returned generate the automorphisms of the
    network. *)
Theorem C85_automorphisms perms fixed p al g : msuitable p -> aspects_ok (maspects p) al -> mgraph p al = Ok g -> Forall (valid_mapping g g) (perms g) ->
  exists mss, mautomorphism_generators perms p al fixed = Ok mss /\ length mss = length (perms g) /\
    (forall ms, ms ∈ mss -> misomorphism (fun a => a ∈ aspect_list (maspects p) al) (dict_map ms) p p /\ mlists_layers p fixed ms) /\
    ((forall f, graph_iso f (g_color g) (g_links g) (g_color g) (g_links g) ->
        composed (fun i => i ∈ dkeys (g_color g)) (fun r => exists perm, perm ∈ perms g /\ r = fun i => default i (dget perm i)) f) ->
     forall m, misomorphism (fun a => a ∈ aspect_list (maspects p) al) m p p ->
       composed (fun r : nat * name => mhas p (r.1) (r.2)) (fun r => exists ms, ms ∈ mss /\ r = fun s => (s.1, dict_map ms (s.1) (s.2))) (fun s => (s.1, m (s.1) (s.2)))).
Proof.
  intros Sp Hal Eg Hperms. destruct (mview p Sp) as [v Hv]. unfold mgraph in Eg. rewrite (vo_eq p v Hv) in Eg. cbn [rbind] in Eg. rewrite <- (vo_asp p v Hv) in Hal.
  destruct (vautomorphisms v al (vo_ok p v Hv) Hal g Eg (perms g) fixed Hperms) as (mss & Hm & Hl & Hall).
  exists mss. unfold mautomorphism_generators. rewrite (vo_eq p v Hv). cbn [rbind]. rewrite Eg. cbn [rbind]. split; [done|]. split; [done|]. rewrite <- (vo_asp p v Hv). split.
  - intros ms Hin. rewrite <- (viso_mpx p p v v Hv Hv), <- (vlists_mpx p v fixed ms Hv). by apply Hall.
  - intros Hgen m Hiso. pose proof (vgenerators v al (vo_ok p v Hv) Hal g Eg (perms g) fixed mss Hperms Hgen Hm m) as H.
    assert (forall D D' P (f : nat * name -> nat * name), (forall x, D x <-> D' x) -> composed D P f -> composed D' P f) as Hext.
    { clear. intros D D' P f HD. induction 1 as [f Hf|f1 f2 f3 H1 IH H2 H3]; [apply composed_id; intros x Hx; apply Hf; by apply HD|].
      apply (composed_step _ _ f1 f2); [done|done|]. intros x Hx. apply H3. by apply HD. }
    eapply Hext; [|apply H; by apply (viso_mpx p p v v Hv Hv)]. intros [k x]. apply (vo_in p v Hv).
Qed.
(** The complete invariants are equal exactly when there is an isomorphism. *)
Theorem C85_complete_invariant {S} (canon : dict nat nat -> list (nat * nat) -> S) p q al : exact_canon canon -> msuitable p -> msuitable q -> maspects p = maspects q ->
  aspects_ok (maspects p) al -> msortable p al -> msortable q al ->
  exists i j, mcomplete_invariant canon p al = Ok i /\ mcomplete_invariant canon q al = Ok j /\ (i = j <-> misomorphic al p q).
Proof.
  intros Hb Sp Sq Ha Hal Kp Kq. destruct (mgraph_ok p al Sp Hal Kp) as (v & g & Hv & Hg & Eg & Ng).
  destruct (mgraph_ok q al Sq) as (w & h & Hw & Hh & Eh & Nh); [by rewrite <- Ha|done|]. unfold mcomplete_invariant. rewrite Eg, Eh. cbn [rbind].
  eexists _, _. split; [done|]. split; [done|]. rewrite <- (visomorphic_mpx p q v w Hv Hw).
  apply (vcomplete_invariant v w al (vo_ok p v Hv) (vo_ok q w Hw)); try done.
  - by rewrite (vo_asp p v Hv), (vo_asp q w Hw).
  - by rewrite (vo_asp p v Hv).
  - by apply Hb.
Qed.
(** Directed networks are rejected. *)
Theorem C85_directed p al : mdir p = true -> mgraph p al = Err AssertionError.
Proof. intros H. unfold mgraph, mpx_view. by rewrite H. Qed.

(** ** Backends exist *)
(** The colours and the adjacency matrix in the order [p] of the vertices; the canonical form
    collects these for all orders. *)
Definition adj_name (l : list (nat * nat)) (i j : nat) : name := NInt (if joinedb l i j then 1 else 0).
Definition enc (c : dict nat nat) (l : list (nat * nat)) (p : list nat) : list name :=
  ((fun i => NInt (Z.of_nat (default 0 (dget c i)))) <$> p) ++ (p ≫= fun i => adj_name l i <$> p).
Definition brute_canon (c : dict nat nat) (l : list (nat * nat)) : list (list name) :=
  merge_sort tuple_le (remove_dups (enc c l <$> permutations (dkeys c))).

Lemma length_rows {A B} (p q : list A) (f : A -> A -> B) : length (p ≫= fun i => f i <$> q) = length p * length q.
Proof. induction p as [|x p IH]; [done|]. cbn [mbind list_bind]. rewrite app_length, fmap_length. cbn. f_equal. apply IH. Qed.
Lemma enc_length c l p : length (enc c l p) = length p + length p * length p.
Proof. unfold enc. by rewrite app_length, fmap_length, length_rows. Qed.
Lemma rows_eq {A B} (f g : A -> A -> B) : forall (p q p' q' : list A), length p = length p' -> length q = length q' ->
  (p ≫= fun i => f i <$> q) = (p' ≫= fun i => g i <$> q') ->
  forall i j a b a' b', p !! i = Some a -> q !! j = Some b -> p' !! i = Some a' -> q' !! j = Some b' -> f a b = g a' b'.
Proof.
  induction p as [|x p IH]; intros q [|x' p'] q' Hp Hq E i j a b a' b'; try done. cbn [mbind list_bind] in E. apply app_inj_1 in E as [E1 E2]; [|by rewrite !fmap_length].
  destruct i as [|i]; cbn.
  - intros [= ->] Hb [= ->] Hb'. assert ((f a <$> q) !! j = Some (f a b)) as H1 by (rewrite list_lookup_fmap, Hb; done). rewrite E1, list_lookup_fmap, Hb' in H1. by injection H1.
  - intros. injection Hp as Hp. eapply (IH q p' q'); eauto.
Qed.
Lemma brute_canon_exact : exact_canon brute_canon.
Proof.
  intros c1 l1 c2 l2 N1 N2. unfold brute_canon. split.
  - intros E. assert (forall x, x ∈ enc c1 l1 <$> permutations (dkeys c1) <-> x ∈ enc c2 l2 <$> permutations (dkeys c2)) as Hin.
    { intros x. rewrite <- (elem_of_remove_dups (enc c1 l1 <$> _)), <- (elem_of_remove_dups (enc c2 l2 <$> _)).
      rewrite <- (merge_sort_Permutation tuple_le (remove_dups (enc c1 l1 <$> _))), E. by rewrite merge_sort_Permutation. }
    assert (enc c1 l1 (dkeys c1) ∈ enc c2 l2 <$> permutations (dkeys c2)) as (p & Ee & Hq)%elem_of_list_fmap.
    { apply Hin, elem_of_list_fmap. exists (dkeys c1). split; [done|]. by apply permutations_Permutation. }
    apply permutations_Permutation in Hq.
    assert (length p = length (dkeys c1)) as Hlen. { apply (f_equal length) in Ee. rewrite !enc_length in Ee. nia. }
    unfold enc in Ee. apply app_inj_1 in Ee as [Ec El]; [|by rewrite !fmap_length].
    destruct (brute_exact (MkAux [] [] [] [] [] [] c1 l1) (MkAux [] [] [] [] [] [] c2 l2) N1 N2) as [Hb _]. cbn [g_color g_links] in Hb. apply Hb. clear Hb.
    unfold brute. cbn [g_color g_links]. apply existsb_exists. exists p. split; [apply elem_of_list_In; by apply permutations_Permutation|].
    unfold try_map.
    assert (forall i j, dkeys c1 !! j = Some i -> exists x, p !! j = Some x /\ default 0 (dget (zip (dkeys c1) p) i) = x) as Hf.
    { intros i j Hj. destruct (lookup_lt_is_Some_2 p j) as [x Hx]; [rewrite Hlen; by eapply lookup_lt_Some|]. exists x. split; [done|].
      assert (dget (zip (dkeys c1) p) i = Some x) as -> by (apply dget_zip; eauto). done. }
    rewrite !andb_true_iff, bool_decide_eq_true. split; [split; [done|]|].
    + apply forallb_forall. intros i Hi. apply elem_of_list_In in Hi as Hi'. apply elem_of_list_lookup in Hi' as [j Hj]. destruct (Hf i j Hj) as (x & Hx & ->).
      apply bool_decide_eq_true. apply elem_of_list_In in Hi as Hk. apply elem_of_dkeys in Hk as [u Hu]. rewrite Hu.
      assert (x ∈ dkeys c2) as [u' Hu']%elem_of_dkeys by (rewrite Hq; by eapply elem_of_list_lookup_2). rewrite Hu'. f_equal.
      apply (f_equal (fun l => l !! j)) in Ec. rewrite !list_lookup_fmap, Hj, Hx in Ec. cbn in Ec. rewrite Hu, Hu' in Ec. cbn in Ec. injection Ec as Ec. lia.
    + apply forallb_forall. intros i Hi. apply elem_of_list_In, elem_of_list_lookup in Hi as [a Ha]. apply forallb_forall. intros j Hj. apply elem_of_list_In, elem_of_list_lookup in Hj as [b Hb].
      destruct (Hf i a Ha) as (x & Hx & ->). destruct (Hf j b Hb) as (y & Hy & ->).
      pose proof (rows_eq (adj_name l1) (adj_name l2) (dkeys c1) (dkeys c1) p p (eq_sym Hlen) (eq_sym Hlen) El a b i j x y Ha Hb Hx Hy) as H. unfold adj_name in H. injection H as H.
      apply eqb_true_iff. by destruct (joinedb l1 i j), (joinedb l2 x y).
  - intros (f & (B1 & B2 & B3) & Hcol & Hadj). apply merge_sort_tuples_perm, NoDup_Permutation; [apply NoDup_remove_dups..|]. intros x. rewrite !elem_of_remove_dups, !elem_of_list_fmap.
    assert (forall p, (forall i, i ∈ p -> i ∈ dkeys c1) -> enc c2 l2 (f <$> p) = enc c1 l1 p) as He.
    { intros p Hp. unfold enc. f_equal.
      - rewrite <- list_fmap_compose. apply list_fmap_ext. intros k i Hi. cbn. rewrite Hcol; [done|]. apply Hp. by eapply elem_of_list_lookup_2.
      - assert (forall q, (forall i, i ∈ q -> i ∈ dkeys c1) -> ((f <$> q) ≫= fun i => adj_name l2 i <$> (f <$> p)) = (q ≫= fun i => adj_name l1 i <$> p)) as H; [|by apply H].
        induction q as [|i q IH]; intros Hq; [done|]. cbn [fmap list_fmap mbind list_bind]. f_equal; [|apply IH; intros; apply Hq; by right].
        change (list_fmap _ _ f p) with (f <$> p). rewrite <- list_fmap_compose. apply list_fmap_ext. intros k j Hj. cbn. unfold adj_name.
        assert (joinedb l2 (f i) (f j) = joinedb l1 i j) as ->; [|done]. apply Bool.eq_true_iff_eq. rewrite !joinedb_iff. symmetry. apply Hadj; [apply Hq; left|apply Hp; by eapply elem_of_list_lookup_2]. }
    assert (f <$> dkeys c1 ≡ₚ dkeys c2) as Hperm.
    { apply NoDup_Permutation; [|done|].
      - apply NoDup_alt. intros i j y. rewrite !list_lookup_fmap. destruct (dkeys c1 !! i) as [a|] eqn:Ei; [|done]. destruct (dkeys c1 !! j) as [b|] eqn:Ej; [|done]. cbn. intros [= <-] [= E].
        apply B2 in E; [|by eapply elem_of_list_lookup_2..]. subst b. exact (NoDup_lookup (dkeys c1) i j _ N1 Ei Ej).
      - intros y. rewrite elem_of_list_fmap. split; [intros (a & -> & Ha); by apply B1|]. intros Hy. destruct (B3 y Hy) as (a & Ha & <-). eauto. }
    split.
    + intros (p & -> & Hp%permutations_Permutation). exists (f <$> p). split; [symmetry; apply He; intros i Hi; by rewrite Hp|]. apply permutations_Permutation. by rewrite <- Hperm, Hp.
    + intros (q & -> & Hq%permutations_Permutation). rewrite <- Hperm in Hq. destruct (Permutation_map_inv f (dkeys c1) (symmetry Hq)) as (p & -> & Hp).
      exists p. split; [apply He; intros i Hi; by rewrite Hp|]. apply permutations_Permutation. done.
Qed.

Definition brute_mapping (g h : auxg) : dict nat nat :=
  match list_find (fun p => try_map (g_color g) (g_links g) (g_color h) (g_links h) p = true) (permutations (dkeys (g_color h))) with
  | Some (_, p) => zip (dkeys (g_color g)) p
  | None => []
  end.
Lemma brute_mapping_exact : exact_mapping brute brute_mapping.
Proof.
  intros g h N1 N2 Hb. unfold brute in Hb. apply existsb_exists in Hb as (p0 & Hp0%elem_of_list_In & Ht0). unfold brute_mapping.
  destruct (list_find _ _) as [[k p]|] eqn:E.
  - apply list_find_Some in E as (Hp & Ht & _). apply elem_of_list_lookup_2, permutations_Permutation in Hp.
    assert (length (dkeys (g_color g)) = length p) as Hl. { unfold try_map in Ht. rewrite !andb_true_iff, bool_decide_eq_true in Ht. by destruct Ht as [[-> _] _]. }
    apply valid_check; [done|done| | |].
    + by rewrite snd_zip by lia.
    + by rewrite fst_zip by lia.
    + rewrite snd_zip by lia. done.
  - apply list_find_None in E. rewrite Forall_forall in E. by destruct (E p0 Hp0).
Qed.

(** ** Examples *)
(** One link in one of two layers, categorical coupling: the same up to the names of the
    nodes; on the other layer; no coupling. *)
Definition x1 := NInt 1. Definition x2 := NInt 2. Definition x3 := NInt 3. Definition la := NStr "a". Definition lb := NStr "b".
Definition mx_calls (c : coupling) (x y l : name) : list call * mpx :=
  mcalls (new_mpx [c] false 0 true) [MAddLayer la 1; MAddLayer lb 1; MSet [x; y; l] 1].
Definition mx (c : coupling) (x y l : name) : mpx := (mx_calls c x y l).2.
Lemma mx_suitable c x y l : c = CCat 1 \/ c = CNone None -> (x, y, l) ∈ [(x1, x2, la); (x3, x1, la); (x1, x2, lb)] -> msuitable (mx c x y l).
Proof.
  intros Hc Hx. exists [c], true, (mx_calls c x y l).1. split; [apply mcalls_hist|]. split.
  - left. split; [done|]. split; [done|]. intros a _ d c' Hd. destruct d as [|d]; [|done]. injection Hd as <-. by destruct Hc as [-> | ->].
  - intros a (L & HL & Ha). rewrite !elem_of_cons, elem_of_nil in Hx.
    destruct Hc as [-> | ->], Hx as [[= -> -> ->]|[[= -> -> ->]|[[= -> -> ->]|[]]]]; vm_compute in HL; injection HL as <-;
      (apply list.Forall_forall with (x := a) in Ha || idtac); revert a Ha; apply Forall_forall; repeat constructor.
Qed.
Lemma mx_sortable c x y l al : c = CCat 1 \/ c = CNone None -> (x, y, l) ∈ [(x1, x2, la); (x3, x1, la); (x1, x2, lb)] -> msortable (mx c x y l) al.
Proof.
  intros Hc Hx. assert (exists s, mslices (mx c x y l) = [s; [la; lb]] /\ Forall (fun x => exists z, x = NInt z) s) as (s & E & Hs).
  { rewrite !elem_of_cons, elem_of_nil in Hx. destruct Hc as [-> | ->], Hx as [[= -> -> ->]|[[= -> -> ->]|[[= -> -> ->]|[]]]]; (eexists; split; [by vm_compute|]; repeat constructor; eexists; done). }
  intros a _ _. destruct a as [|[|a]].
  - left. intros u (t & Ht & Hu). unfold mget_layers in Ht. rewrite E in Ht. injection Ht as <-. rewrite Forall_forall in Hs. by apply Hs.
  - right. intros u (t & Ht & Hu). unfold mget_layers in Ht. rewrite E in Ht. injection Ht as <-. rewrite !elem_of_cons, elem_of_nil in Hu. destruct Hu as [->|[->|[]]]; eexists; done.
  - left. intros u (t & Ht & _). unfold mget_layers in Ht. by rewrite E in Ht.
Qed.
Example C85_backends : exact_backend brute /\ exact_mapping brute brute_mapping /\ exact_canon brute_canon.
Proof. split; [exact brute_exact|]. split; [exact brute_mapping_exact|exact brute_canon_exact]. Qed.
Example C85_suitable : msuitable (mx (CCat 1) x1 x2 la) /\ msuitable (mx (CCat 1) x3 x1 la) /\ msuitable (mx (CCat 1) x1 x2 lb) /\ msuitable (mx (CNone None) x1 x2 la) /\
  msortable (mx (CCat 1) x1 x2 la) (Some [0]) /\ msortable (mx (CCat 1) x3 x1 la) (Some [0]) /\ aspects_ok (maspects (mx (CCat 1) x1 x2 la)) (Some [0]).
Proof.
  split; [apply mx_suitable; [auto|set_solver]|]. split; [apply mx_suitable; [auto|set_solver]|]. split; [apply mx_suitable; [auto|set_solver]|].
  split; [apply mx_suitable; [auto|set_solver]|]. split; [apply mx_sortable; [auto|set_solver]|]. split; [apply mx_sortable; [auto|set_solver]|].
  split; [apply NoDup_singleton|]. intros a ->%elem_of_list_singleton. lia.
Qed.
Example C85_renamed : mis_isomorphic brute (mx (CCat 1) x1 x2 la) (mx (CCat 1) x3 x1 la) (Some [0]) = Ok true.
Proof. by vm_compute. Qed.
Example C85_other_layer : mis_isomorphic brute (mx (CCat 1) x1 x2 la) (mx (CCat 1) x1 x2 lb) (Some [0]) = Ok false.
Proof. by vm_compute. Qed.
Example C85_uncoupled : mis_isomorphic brute (mx (CCat 1) x1 x2 la) (mx (CNone None) x1 x2 la) (Some [0]) = Ok false.
Proof. by vm_compute. Qed.
Example C85_mapping : mget_isomorphism brute brute_mapping (mx (CCat 1) x1 x2 la) (mx (CCat 1) x3 x1 la) (Some [0]) true =
  Ok (Some [[(x1, x3); (x2, x1)]; [(la, la); (lb, lb)]]).
Proof. by vm_compute. Qed.

Print Assumptions C85_is_isomorphic.
Print Assumptions C85_get_isomorphism.
Print Assumptions C85_automorphisms.
Print Assumptions C85_complete_invariant.
Print Assumptions C85_directed.
