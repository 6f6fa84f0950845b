(** * Property C46: isomorphisms of multilayer networks *)
From stdpp Require Import prelude sorting.
From Verif Require Import Base Net NetSpec NetFacts NetHist NetIter NetEdges Supra TransFacts TransFacts2 EsuRun PropsSamp Isom IsomSpec IsomFacts IsomIso IsomDec.
Local Open Scope nat_scope.

(** The networks considered: undirected, built through the API, at least one
    aspect. *)
Definition suitable (n : mlnet) : Prop := reachable n /\ directed n = false /\ 1 <= aspects n.
(** The names of the aspects that are not selected can be sorted. *)
Definition sortable (n : mlnet) (al : option (list nat)) : Prop :=
  forall a, a <= aspects n -> a ∉ aspect_list (aspects n) al -> one_kind n a.
(** The backend answers correctly whether two coloured graphs are isomorphic. *)
Definition exact_backend (structure : auxg -> auxg -> bool) : Prop :=
  forall g h, NoDup (dkeys (g_color g)) -> NoDup (dkeys (g_color h)) ->
    structure g h = true <-> graph_isomorphic (g_color g) (g_links g) (g_color h) (g_links h).
Definition isomorphic (al : option (list nat)) (n1 n2 : mlnet) : Prop :=
  exists m, isomorphism (fun a => a ∈ aspect_list (aspects n1) al) m n1 n2.

(** ** Bridges *)
Lemma linked_sym n a b : suitable n -> linked n a b -> linked n b a.
Proof.
  intros (Hr & Hd & _) H. pose proof (reachable_good n Hr) as Hg. apply linked_lnk in H as [w Hw]; [|done]. apply linked_lnk; [done|].
  rewrite (wfL_sym n (proj2 Hg) Hd b a), Hw. by exists w.
Qed.
Lemma nbr_linked n a b : suitable n -> b ∈ v_nbr (net_view n) a <-> linked n a b.
Proof.
  intros Hs. pose proof Hs as (Hr & Hd & _). pose proof (reachable_good n Hr) as Hg. cbn.
  destruct (iter_total_exact n a None Hg) as [_ H]; [done|]. rewrite H. split; [intros [[?|?] _]; [done|by apply linked_sym]|]. intros ?. split; [by left|done].
Qed.
Lemma vok_net n : suitable n -> vok (net_view n).
Proof.
  intros Hs. pose proof Hs as (Hr & Hd & _). pose proof (reachable_good n Hr) as Hg. pose proof (proj1 Hg) as Hw. split; cbn.
  - done.
  - by apply Hw.
  - intros s Hin. pose proof (wfS_nodup n Hw) as H. rewrite Forall_forall in H. by apply H.
  - by apply NoDup_iter_node_layers.
  - intros a Ha. by apply elem_of_iter_node_layers in Ha as [Ha _].
  - intros a b Ha Hb. apply (nbr_linked n a b Hs) in Hb. by apply (linked_present n a b Hg).
  - intros a b Ha Hb. apply (nbr_linked n a b Hs) in Hb. apply (nbr_linked n b a Hs). by apply linked_sym.
Qed.
Lemma aspects_al_ok k al : aspects_ok k al -> al_ok k al.
Proof. unfold aspects_ok, al_ok. destruct al; [|done]. by intros [? ?]. Qed.
Lemma elem_of_asp n al a : a ∈ iasp (net_view n) al <-> a ∈ aspect_list (aspects n) al.
Proof. unfold iasp, aspect_list. destruct al; [by rewrite merge_sort_Permutation|done]. Qed.
Lemma viso_net al n1 n2 m : suitable n1 -> suitable n2 ->
  viso (.∈ iasp (net_view n1) al) m (net_view n1) (net_view n2) <-> isomorphism (fun a => a ∈ aspect_list (aspects n1) al) m n1 n2.
Proof.
  intros H1 H2. unfold viso, isomorphism, vin, in_aspect. change (v_slices (net_view n1)) with (slices n1). change (v_slices (net_view n2)) with (slices n2).
  change (v_nls (net_view n1)) with (iter_node_layers n1). change (v_nls (net_view n2)) with (iter_node_layers n2).
  split; intros (A & B & C & D); (split; [|split; [|split]]).
  - intros a Ha. apply A. by apply elem_of_asp.
  - intros a x Ha. apply B. by rewrite elem_of_asp.
  - done.
  - intros a b Ha Hb. rewrite <- !nbr_linked by done. by apply D.
  - intros a Ha. apply A. by apply elem_of_asp.
  - intros a x Ha. apply B. by rewrite <- elem_of_asp.
  - done.
  - intros a b Ha Hb. rewrite !nbr_linked by done. by apply D.
Qed.
Lemma fixed_part_slice n al a : length a = S (aspects n) -> fixed_part (aspect_list (aspects n) al) a = nl_slice (inasp (net_view n) al) a.
Proof.
  intros Hl. assert (inasp (net_view n) al = filter (fun a => a ∉ aspect_list (aspects n) al) (seq 0 (length a))) as ->.
  { unfold inasp, aspect_list. rewrite Hl. destruct al; [done|]. symmetry. apply elem_of_nil_inv. intros x [Hx Hin]%elem_of_list_filter. done. }
  generalize (aspect_list (aspects n) al). clear. intros asp. unfold fixed_part, nl_slice.
  assert (forall b, (filter (fun p => fst p ∉ asp) (imap pair a)).*2 = (fun i => default (NInt 0) ((a ++ b) !! i)) <$> filter (fun a => a ∉ asp) (seq 0 (length a))) as H.
  { induction a as [|x a IH] using rev_ind; intros b; [done|]. rewrite imap_app, filter_app, fmap_app, app_length, seq_app, filter_app, fmap_app. f_equal.
    - rewrite (IH ([x] ++ b)). by rewrite app_assoc.
    - change (imap (fun n => pair (length a + n)) [x]) with [(length a + 0, x)]. change (seq (0 + length a) (length [x])) with [length a]. rewrite Nat.add_0_r.
      rewrite (filter_cons (fun p : nat * name => fst p ∉ asp)), (filter_cons (fun i : nat => i ∉ asp)). cbn [fst]. destruct (decide (length a ∉ asp)); [|done]. cbn.
      rewrite <- app_assoc, lookup_app_r by done. by rewrite Nat.sub_diag. }
  specialize (H []). by rewrite app_nil_r in H.
Qed.
Lemma fixed_parts_colors n al L : suitable n -> fixed_parts n (aspect_list (aspects n) al) L -> length L = length (vcolors (net_view n) al).
Proof.
  intros Hs [Hnd HL]. apply Permutation_length, NoDup_Permutation; [done|apply NoDup_vcolors|]. intros c. rewrite HL, elem_of_vcolors. cbn.
  pose proof (vok_net n Hs) as Hv. split; intros (a & Ha & ->); exists a; (split; [done|]).
  - apply fixed_part_slice. by apply (nl_len (net_view n) a Hv).
  - symmetry. apply fixed_part_slice. by apply (nl_len (net_view n) a Hv).
Qed.
Lemma comparable_slices v nasp a b : (forall i, i ∈ nasp -> forall x y, a !! i = Some x -> b !! i = Some y -> is_int x = is_int y) ->
  (forall i, i ∈ nasp -> i < length a /\ i < length b) -> vok v -> comparable (nl_slice nasp a) (nl_slice nasp b) = true.
Proof.
  intros H Hl _. induction nasp as [|i nasp IH]; [done|]. cbn. destruct (decide _) as [E|E].
  - apply IH; intros; [eapply H|apply Hl]; try done; by right.
  - destruct (Hl i ltac:(by left)) as [La Lb]. destruct (lookup_lt_is_Some_2 a i La) as [x Hx]. destruct (lookup_lt_is_Some_2 b i Lb) as [y Hy]. rewrite Hx, Hy. cbn.
    apply bool_decide_eq_true. by apply (H i ltac:(by left)).
Qed.
Lemma build_sortable n al : suitable n -> aspects_ok (aspects n) al -> sortable n al -> exists g, build (net_view n) al = Ok g.
Proof.
  intros Hs Hal Hk. pose proof (vok_net n Hs) as Hv. eexists. apply build_ok; [done|by apply aspects_al_ok|]. unfold sorted_colors.
  assert (forallb (fun a => forallb (comparable a) (remove_dups (nl_slice (inasp (net_view n) al) <$> v_nls (net_view n)))) (remove_dups (nl_slice (inasp (net_view n) al) <$> v_nls (net_view n))) = true) as ->; [|done].
  apply forallb_forall. intros c1 Hc1. apply forallb_forall. intros c2 Hc2. apply elem_of_list_In, elem_of_remove_dups, elem_of_list_fmap in Hc1 as (a & -> & Ha).
  apply elem_of_list_In, elem_of_remove_dups, elem_of_list_fmap in Hc2 as (b & -> & Hb). apply (comparable_slices (net_view n)); [| |done].
  - intros i Hi x y Hx Hy. apply elem_of_inasp in Hi as [Hi Hn]. cbn in Hi.
    assert (i ∉ aspect_list (aspects n) al) as Hn'. { intros Hin. apply Hn. apply (elem_of_iasp (net_view n)). by apply elem_of_asp. }
    assert (in_aspect n i x) as Ix. { destruct (nl_lookup _ a i Hv Ha Hi) as (x' & s & Hx' & Hs' & Hin). exists s. cbn in Hs'. split; [done|congruence]. }
    assert (in_aspect n i y) as Iy. { destruct (nl_lookup _ b i Hv Hb Hi) as (x' & s & Hx' & Hs' & Hin). exists s. cbn in Hs'. split; [done|congruence]. }
    destruct (Hk i Hi Hn') as [K|K]; destruct (K x Ix) as [? ->]; destruct (K y Iy) as [? ->]; done.
  - intros i Hi. apply elem_of_inasp in Hi as [Hi Hn]. rewrite (nl_len _ a Hv Ha), (nl_len _ b Hv Hb). lia.
Qed.
Lemma NoDup_color v al g : vok v -> al_ok (v_asp v) al -> build v al = Ok g -> NoDup (dkeys (g_color g)).
Proof. intros Hv Hal H. destruct (build_inv v al g Hv Hal H) as (cs & _ & ->). cbn [g_color]. rewrite cols_keys. apply NoDup_seq. Qed.
Lemma inst_range n al a : aspects_ok (aspects n) al -> (a ∈ iasp (net_view n) al \/ a ∈ inasp (net_view n) al) <-> a <= aspects n.
Proof.
  intros Hal. pose proof (aspects_al_ok _ _ Hal) as Hal'. rewrite (inasp_asp (net_view n) al Hal'). split.
  - intros [H|[H _]]; [by apply (iasp_range (net_view n) al a Hal')|done].
  - intros H. destruct (decide (a ∈ iasp (net_view n) al)); [by left|by right].
Qed.
Lemma asp_nil n al : aspect_list (aspects n) al = [] <-> iasp (net_view n) al = [].
Proof.
  split; intros H; apply elem_of_nil_inv; intros x Hx.
  - apply elem_of_asp in Hx. rewrite H in Hx. by apply elem_of_nil in Hx.
  - apply elem_of_asp in Hx. rewrite H in Hx. by apply elem_of_nil in Hx.
Qed.
Lemma compare_ok b n1 n2 al g h : suitable n1 -> suitable n2 -> aspects n1 = aspects n2 -> aspects_ok (aspects n1) al ->
  build (net_view n1) al = Ok g -> build (net_view n2) al = Ok h -> (b = true <-> graph_isomorphic (g_color g) (g_links g) (g_color h) (g_links h)) ->
  forall L1 L2, fixed_parts n1 (aspect_list (aspects n1) al) L1 -> fixed_parts n2 (aspect_list (aspects n1) al) L2 ->
  (aspect_list (aspects n1) al = [] \/ length L1 = length L2 -> exists r, compare b g h = Ok r /\ (r = true <-> isomorphic al n1 n2)) /\
  (aspect_list (aspects n1) al <> [] -> length L1 <> length L2 -> compare b g h = Err AssertionError /\ ~ isomorphic al n1 n2).
Proof.
  intros S1 S2 Ha Hal Hg Hh Hb L1 L2 HL1 HL2. pose proof (vok_net n1 S1) as V1. pose proof (vok_net n2 S2) as V2. apply aspects_al_ok in Hal.
  pose proof (labels_ok (net_view n1) (net_view n2) al V1 V2 Ha Hal g h Hg Hh) as Hlab.
  pose proof (iso_iff (net_view n1) (net_view n2) al V1 V2 Ha Hal g h Hg Hh) as Hiso.
  destruct (two_inv (net_view n1) (net_view n2) al V1 V2 Ha Hal g h Hg Hh) as [Eg Eh].
  assert (g_asp g = g_asp h /\ g_nasp g = g_nasp h) as He by by rewrite Eg, Eh. clear Eg Eh. unfold compare. rewrite decide_True by done. rewrite Hlab.
  rewrite (fixed_parts_colors n1 al L1 S1 HL1). rewrite Ha in HL2. rewrite (fixed_parts_colors n2 al L2 S2 HL2), asp_nil.
  assert (isomorphic al n1 n2 <-> exists m, viso (.∈ iasp (net_view n1) al) m (net_view n1) (net_view n2)) as Hvi.
  { unfold isomorphic. split; intros [m Hm]; exists m; by apply (viso_net al n1 n2 m S1 S2). }
  split.
  - intros Hc. rewrite decide_True by done. cbn [rbind]. eexists. split; [done|]. rewrite andb_true_iff, bool_decide_eq_true, Hb, Hiso. by rewrite Hvi.
  - intros Hne Hn. rewrite decide_False by (intros [?|?]; done). split; [done|]. rewrite Hvi, <- Hiso. intros [Hc _]. apply Hn. by rewrite Hc.
Qed.

(** ** Theorems *)
(** When the two networks have equally many distinct parts in the aspects that
    are not selected (or no aspect is selected), [is_isomorphic] answers whether
    an isomorphism exists. *)
Theorem C46_is_isomorphic structure n1 n2 al L1 L2 : exact_backend structure -> suitable n1 -> suitable n2 -> aspects n1 = aspects n2 ->
  aspects_ok (aspects n1) al -> sortable n1 al -> sortable n2 al ->
  fixed_parts n1 (aspect_list (aspects n1) al) L1 -> fixed_parts n2 (aspect_list (aspects n1) al) L2 ->
  aspect_list (aspects n1) al = [] \/ length L1 = length L2 ->
  exists r, is_isomorphic structure (net_view n1) (net_view n2) al = Ok r /\ (r = true <-> isomorphic al n1 n2).
Proof.
  intros Hb S1 S2 Ha Hal K1 K2 HL1 HL2 Hc. destruct (build_sortable n1 al S1 Hal K1) as [g Hg].
  destruct (build_sortable n2 al S2) as [h Hh]; [by rewrite <- Ha|done|]. unfold is_isomorphic. rewrite Hg, Hh. cbn [rbind].
  apply (compare_ok _ n1 n2 al g h S1 S2 Ha Hal Hg Hh) with L1 L2; [|done|done|done]. apply Hb.
  - apply (NoDup_color (net_view n1) al g (vok_net n1 S1) (aspects_al_ok _ _ Hal) Hg).
  - apply (NoDup_color (net_view n2) al h (vok_net n2 S2)); [|done]. apply aspects_al_ok. cbn. by rewrite <- Ha.
Qed.
(** Otherwise there is no isomorphism, but the call raises AssertionError. *)
Theorem C46_different_parts structure n1 n2 al L1 L2 : exact_backend structure -> suitable n1 -> suitable n2 -> aspects n1 = aspects n2 ->
  aspects_ok (aspects n1) al -> sortable n1 al -> sortable n2 al ->
  fixed_parts n1 (aspect_list (aspects n1) al) L1 -> fixed_parts n2 (aspect_list (aspects n1) al) L2 ->
  aspect_list (aspects n1) al <> [] -> length L1 <> length L2 ->
  is_isomorphic structure (net_view n1) (net_view n2) al = Err AssertionError /\ ~ isomorphic al n1 n2.
Proof.
  intros Hb S1 S2 Ha Hal K1 K2 HL1 HL2 Hc Hn. destruct (build_sortable n1 al S1 Hal K1) as [g Hg].
  destruct (build_sortable n2 al S2) as [h Hh]; [by rewrite <- Ha|done|]. unfold is_isomorphic. rewrite Hg, Hh. cbn [rbind].
  apply (compare_ok (structure g h) n1 n2 al g h S1 S2 Ha Hal Hg Hh) with L1 L2; [|done|done|done|done]. apply Hb.
  - apply (NoDup_color (net_view n1) al g (vok_net n1 S1) (aspects_al_ok _ _ Hal) Hg).
  - apply (NoDup_color (net_view n2) al h (vok_net n2 S2)); [|done]. apply aspects_al_ok. cbn. by rewrite <- Ha.
Qed.
(** Networks with different numbers of aspects cannot be compared. *)
Theorem C46_different_aspects structure n1 n2 al : suitable n1 -> suitable n2 -> aspects n1 <> aspects n2 ->
  aspects_ok (aspects n1) al -> aspects_ok (aspects n2) al -> sortable n1 al -> sortable n2 al ->
  is_isomorphic structure (net_view n1) (net_view n2) al = Err AssertionError.
Proof.
  intros S1 S2 Ha Hal1 Hal2 K1 K2. destruct (build_sortable n1 al S1 Hal1 K1) as [g Hg]. destruct (build_sortable n2 al S2 Hal2 K2) as [h Hh].
  unfold is_isomorphic. rewrite Hg, Hh. cbn [rbind]. apply build_inv in Hg as (c1 & _ & ->); [|by apply vok_net|by apply aspects_al_ok].
  apply build_inv in Hh as (c2 & _ & ->); [|by apply vok_net|by apply aspects_al_ok]. unfold compare. cbn [g_asp g_nasp]. rewrite decide_False; [done|]. intros [E1 E2]. apply Ha.
  assert (forall a, a <= aspects n1 <-> a <= aspects n2) as H.
  { intros a. rewrite <- (inst_range n1 al a Hal1), <- (inst_range n2 al a Hal2). by rewrite E1, E2. }
  specialize (H (aspects n1)) as H1. specialize (H (aspects n2)) as H2. lia.
Qed.

(** A mapping of vertices given as a dictionary is an isomorphism of the graphs. *)
Definition valid_mapping (g h : auxg) (perm : dict nat nat) : Prop :=
  graph_iso (fun i => default i (dget perm i)) (g_color g) (g_links g) (g_color h) (g_links h) /\ forall i, i ∈ dkeys (g_color g) -> is_Some (dget perm i).

Lemma viso_ext A m m' v w : vok v -> (forall a x, vin v a x -> m' a x = m a x) -> (forall a x, ~ A a -> m' a x = x) -> viso A m v w -> viso A m' v w.
Proof.
  intros Hv He Hid (H1 & H2 & H3 & H4).
  assert (forall a, a ∈ v_nls v -> nl_image m' a = nl_image m a) as Hi.
  { intros a Ha. unfold nl_image. apply imap_ext. intros i x Hx. apply He. pose proof (vok_in v Hv a Ha) as H. destruct (Forall2_lookup_l _ _ _ _ _ H Hx) as (s & Hs & Hin). by exists s. }
  split; [|split; [done|split]].
  - intros a Ha. destruct (H1 a Ha) as (B1 & B2 & B3). split; [|split].
    + intros x Hx. rewrite He by done. by apply B1.
    + intros x y Hx Hy. rewrite !He by done. by apply B2.
    + intros y Hy. destruct (B3 y Hy) as (x & Hx & E). exists x. by rewrite He.
  - intros b. rewrite H3. split; intros (a & Ha & ->); exists a; by rewrite Hi.
  - intros a b Ha Hb. rewrite !Hi by done. by apply H4.
Qed.
Lemma decode_net n1 n2 al g h perm fixed : suitable n1 -> suitable n2 -> aspects n1 = aspects n2 -> aspects_ok (aspects n1) al ->
  build (net_view n1) al = Ok g -> build (net_view n2) al = Ok h -> vcolors (net_view n1) al = vcolors (net_view n2) al -> valid_mapping g h perm ->
  exists ms, decode (net_view n1) g h perm fixed = Ok ms /\ isomorphism (fun a => a ∈ aspect_list (aspects n1) al) (dict_map ms) n1 n2 /\ lists_layers n1 fixed ms /\
    (forall i a e, vlist (net_view n1) (iasp (net_view n1) al) !! i = Some (inr (a, e)) ->
      vlist (net_view n2) (iasp (net_view n1) al) !! default i (dget perm i) = Some (inr (a, dict_map ms a e))).
Proof.
  intros S1 S2 Ha Hal Hg Hh Hc [Hp1 Hp2]. pose proof (vok_net n1 S1) as V1. pose proof (vok_net n2 S2) as V2. apply aspects_al_ok in Hal.
  destruct (decode_ok (net_view n1) (net_view n2) al V1 V2 Ha Hal g h Hg Hh perm fixed Hc Hp1 Hp2) as (ms & m & Hd & Hiso & (Hlen & Hsh) & Hpm).
  pose proof Hiso as (_ & Hid & _).
  assert (forall a x, dict_map ms a x = if decide (is_Some (dget (row ms a) x)) then m a x else x) as Hdm.
  { intros a x. unfold dict_map. fold (row ms a). destruct (dget (row ms a) x) as [y|] eqn:E; [|by rewrite decide_False by by intros [? ?]].
    rewrite decide_True by eauto. apply Hsh in E as (_ & _ & ->). done. }
  assert (forall a x, vin (net_view n1) a x -> dict_map ms a x = m a x) as Heq.
  { intros a x Hx. rewrite Hdm. destruct (decide (is_Some _)) as [|Hn]; [done|]. destruct (decide (m a x = x)) as [->|Hne]; [done|]. exfalso. apply Hn.
    exists (m a x). apply Hsh. split; [|split; [by right|done]]. split; [|done]. destruct (decide (a ∈ iasp (net_view n1) al)) as [|Hna]; [by left|]. exfalso. apply Hne. by apply Hid. }
  assert (forall a x, ~ (a ∈ iasp (net_view n1) al) -> dict_map ms a x = x) as Hid'.
  { intros a x Hn. rewrite Hdm. destruct (decide _); [by apply Hid|done]. }
  exists ms. split; [done|]. split; [|split].
  - apply (viso_net al n1 n2 _ S1 S2). by apply (viso_ext _ m).
  - split; [done|]. intros a d Hd'. destruct (Hsh a) as [Hnd Hk]. assert (row ms a = d) as Hrow by (unfold row; by rewrite Hd'). rewrite Hrow in Hnd, Hk. split; [done|].
    intros x. rewrite elem_of_dkeys. split.
    + intros [y Hy]. apply Hk in Hy as ((Hx & Hin) & Hf & ->). split; [done|]. destruct Hf as [?|Hf]; [by left|right]. by rewrite Heq.
    + intros [Hin Hf]. exists (m a x). apply Hk. change (in_aspect n1 a x) with (vin (net_view n1) a x) in Hin. rewrite (Heq a x Hin) in Hf. split; [|by split]. split; [|done].
      destruct Hf as [->|Hf]; [by right|left]. destruct (decide (a ∈ iasp (net_view n1) al)) as [|Hn]; [done|]. exfalso. apply Hf. by apply Hid.
  - intros i a e Hi. rewrite Heq; [by apply Hpm|]. assert (inr (a, e) ∈ vlist (net_view n1) (iasp (net_view n1) al)) as Hin by by eapply elem_of_list_lookup_2. by apply elem_of_vlist_r in Hin as [_ ?].
Qed.

(** [get_isomorphism] returns [None] exactly when there is no isomorphism, and
    otherwise dictionaries that describe one, whatever valid vertex mapping the
    backend found. *)
Theorem C46_get_isomorphism b perm fixed n1 n2 al g h L1 L2 : suitable n1 -> suitable n2 -> aspects n1 = aspects n2 -> aspects_ok (aspects n1) al ->
  build (net_view n1) al = Ok g -> build (net_view n2) al = Ok h ->
  (b = true <-> graph_isomorphic (g_color g) (g_links g) (g_color h) (g_links h)) -> (b = true -> valid_mapping g h perm) ->
  fixed_parts n1 (aspect_list (aspects n1) al) L1 -> fixed_parts n2 (aspect_list (aspects n1) al) L2 ->
  aspect_list (aspects n1) al = [] \/ length L1 = length L2 ->
  exists r, get_isomorphism b perm (net_view n1) g h fixed = Ok r /\
    match r with
    | None => ~ isomorphic al n1 n2
    | Some ms => isomorphism (fun a => a ∈ aspect_list (aspects n1) al) (dict_map ms) n1 n2 /\ lists_layers n1 fixed ms
    end.
Proof.
  intros S1 S2 Ha Hal Hg Hh Hb Hp HL1 HL2 Hc. destruct (compare_ok b n1 n2 al g h S1 S2 Ha Hal Hg Hh Hb L1 L2 HL1 HL2) as [H _].
  destruct (H Hc) as (r & Hr & Hiso). unfold get_isomorphism. rewrite Hr. cbn [rbind]. destruct r.
  - assert (isomorphic al n1 n2) as Hi by by apply Hiso.
    assert (exists m, viso (.∈ iasp (net_view n1) al) m (net_view n1) (net_view n2)) as Hvi. { destruct Hi as [m Hm]. exists m. by apply (viso_net al n1 n2 m S1 S2). }
    apply (iso_iff (net_view n1) (net_view n2) al (vok_net n1 S1) (vok_net n2 S2) Ha (aspects_al_ok _ _ Hal) g h Hg Hh) in Hvi as [Hcol Hgi].
    destruct (decode_net n1 n2 al g h perm fixed S1 S2 Ha Hal Hg Hh Hcol) as (ms & -> & Hms & Hll & _); [by apply Hp, Hb|]. cbn [rbind]. exists (Some ms). by split.
  - exists None. split; [done|]. rewrite <- Hiso. done.
Qed.
(** Every generator returned is an automorphism. *)
Theorem C46_automorphisms perms fixed n al g : suitable n -> aspects_ok (aspects n) al -> build (net_view n) al = Ok g -> Forall (valid_mapping g g) perms ->
  exists mss, get_automorphism_generators perms (net_view n) g fixed = Ok mss /\ length mss = length perms /\
    forall ms, ms ∈ mss -> isomorphism (fun a => a ∈ aspect_list (aspects n) al) (dict_map ms) n n /\ lists_layers n fixed ms.
Proof.
  intros S Hal Hg. unfold get_automorphism_generators. induction 1 as [|p perms Hp _ (mss & Hm & Hl & IH)]; [exists []; split; [done|]; split; [done|]; by intros ms ?%elem_of_nil|].
  destruct (decode_net n n al g g p fixed S S eq_refl Hal Hg Hg eq_refl Hp) as (ms & Hms & Hiso & Hll & _). exists (ms :: mss). cbn [rmapM]. rewrite Hms, Hm. split; [done|]. split; [cbn; by rewrite Hl|].
  intros ms' [->|Hin]%elem_of_cons; [done|by apply IH].
Qed.
Lemma composed_ext {A} D P (f g : A -> A) : composed D P f -> (forall x, D x -> f x = g x) -> composed D P g.
Proof.
  intros [q Hq|q1 q2 q H1 H2 H3] He.
  - apply composed_id. intros x Hx. by rewrite <- He, Hq.
  - apply (composed_step _ _ q1 q2); [done|done|]. intros x Hx. by rewrite <- He, H3.
Qed.
(** If the vertex permutations generate the automorphisms of the auxiliary graph,
    the decoded ones generate the automorphisms of the network. *)
Theorem C46_generators perms fixed n al g mss : suitable n -> aspects_ok (aspects n) al -> build (net_view n) al = Ok g -> Forall (valid_mapping g g) perms ->
  (forall f, graph_iso f (g_color g) (g_links g) (g_color g) (g_links g) ->
     composed (fun i => i ∈ dkeys (g_color g)) (fun p => exists perm, perm ∈ perms /\ p = fun i => default i (dget perm i)) f) ->
  get_automorphism_generators perms (net_view n) g fixed = Ok mss ->
  forall m, isomorphism (fun a => a ∈ aspect_list (aspects n) al) m n n ->
    composed (fun p : nat * name => in_aspect n (fst p) (snd p)) (fun q => exists ms, ms ∈ mss /\ q = fun p => (fst p, dict_map ms (fst p) (snd p))) (fun p => (fst p, m (fst p) (snd p))).
Proof.
  intros S Hal Hg Hperms Hgen Hmss m Hm. pose proof (vok_net n S) as V1. pose proof (aspects_al_ok _ _ Hal) as Hal'. set (v := net_view n) in *. set (asp := iasp v al).
  assert (forall perm, perm ∈ perms -> exists ms, ms ∈ mss /\ isomorphism (fun a => a ∈ aspect_list (aspects n) al) (dict_map ms) n n /\
    forall i a e, vlist v asp !! i = Some (inr (a, e)) -> vlist v asp !! default i (dget perm i) = Some (inr (a, dict_map ms a e))) as Hdec.
  { clear Hgen. revert mss Hmss. unfold get_automorphism_generators. induction Hperms as [|p perms Hp _ IH]; intros mss Hmss perm Hin; [by apply elem_of_nil in Hin|].
    destruct (decode_net n n al g g p fixed S S eq_refl Hal Hg Hg eq_refl Hp) as (ms & Hms & Hiso & Hll & Hpm). cbn [rmapM] in Hmss. fold v in Hms. rewrite Hms in Hmss.
    destruct (rmapM _ perms) as [mss'|] eqn:E; [|done]. injection Hmss as <-. apply elem_of_cons in Hin as [->|Hin].
    - exists ms. split; [by left|]. by split.
    - destruct (IH mss' eq_refl perm Hin) as (ms' & H1 & H2 & H3). exists ms'. split; [by right|]. by split. }
  assert (forall a, a ∉ aspect_list (aspects n) al <-> a ∉ asp) as Hasp by (intros a; by rewrite <- elem_of_asp).
  assert (forall f, composed (fun i => i ∈ dkeys (g_color g)) (fun p => exists perm, perm ∈ perms /\ p = fun i => default i (dget perm i)) f ->
    exists m', (forall i a e, vlist v asp !! i = Some (inr (a, e)) -> vlist v asp !! f i = Some (inr (a, m' a e))) /\ (forall a e, a ∉ asp -> m' a e = e) /\
      composed (fun p : nat * name => in_aspect n (fst p) (snd p)) (fun q => exists ms, ms ∈ mss /\ q = fun p => (fst p, dict_map ms (fst p) (snd p))) (fun p => (fst p, m' (fst p) (snd p)))) as Hcomp.
  { assert (forall i u, vlist v asp !! i = Some u -> i ∈ dkeys (g_color g)) as Hkeys.
    { intros i u Hi. destruct (build_inv v al g V1 Hal' Hg) as (cs & _ & ->). cbn [g_color]. apply (key_lookup v v asp _ _ eq_refl). eauto. }
    intros f Hf. induction Hf as [f Hf|f p h Hf (m' & I1 & I2 & I3) (perm & Hin & ->) Hh].
    - exists (fun _ e => e). split; [|split; [done|]].
      + intros i a e Hi. rewrite Hf; [done|]. by eapply Hkeys.
      + apply composed_id. by intros [a x] _.
    - destruct (Hdec perm Hin) as (ms & Hms & Hiso & Hpm). exists (fun a e => m' a (dict_map ms a e)). split; [|split].
      + intros i a e Hi. rewrite Hh by by eapply Hkeys. apply I1. by apply Hpm.
      + intros a e Hn. destruct Hiso as (_ & Hid & _). rewrite Hid by by apply Hasp. by apply I2.
      + apply (composed_step _ _ (fun p => (fst p, m' (fst p) (snd p))) (fun p => (fst p, dict_map ms (fst p) (snd p)))); [done|eauto|done]. }
  assert (viso (.∈ asp) m v v) as Hviso by by apply viso_net.
  pose proof (net_to_vert v v asp (inasp v al)) as Hnv.
  assert (exists f, graph_iso f (g_color g) (g_links g) (g_color g) (g_links g) /\ forall i a e, vlist v asp !! i = Some (inr (a, e)) -> vlist v asp !! f i = Some (inr (a, m a e))) as (f & Hf & Hfm).
  { destruct (build_inv v al g V1 Hal' Hg) as (cs & _ & ->). cbn [g_color g_links].
    destruct (vert_to_graph' v v asp (inasp v al) cs V1 V1 eq_refl (NoDup_iasp v al Hal')) with (g := fun u : vx => match u with inl a => @inl nl (nat * name) (nl_image m a) | inr (k, e) => inr (k, m k e) end) as (f & Hf & Hfm).
    - intros a. by apply iasp_range.
    - eapply Hnv; try done. + by intros a; apply iasp_range. + by apply inasp_asp.
    - exists f. split; [done|]. intros i a e Hi. by apply (Hfm i _ Hi). }
  destruct (Hcomp f (Hgen f Hf)) as (m' & I1 & I2 & I3).
  assert (forall p : nat * name, in_aspect n (fst p) (snd p) -> (fst p, m' (fst p) (snd p)) = (fst p, m (fst p) (snd p))) as Heq.
  { intros [a e] Hin. cbn [fst snd] in *. f_equal. destruct (decide (a ∈ asp)) as [Ha|Ha].
    - assert (inr (a, e) ∈ vlist v asp) as [i Hi]%elem_of_list_lookup by (by apply elem_of_vlist_r). pose proof (I1 i a e Hi) as E1. pose proof (Hfm i a e Hi) as E2. congruence.
    - destruct Hm as (_ & Hid & _). rewrite Hid by by apply Hasp. by apply I2. }
  by apply (composed_ext _ _ _ _ I3).
Qed.
(** The complete invariant tells isomorphic networks from others, provided the
    canonical form of the backend does so for graphs. *)
Theorem C46_complete_invariant {S} (canon : dict nat nat -> list (nat * nat) -> S) n1 n2 al g h : suitable n1 -> suitable n2 -> aspects n1 = aspects n2 -> aspects_ok (aspects n1) al ->
  build (net_view n1) al = Ok g -> build (net_view n2) al = Ok h ->
  (canon (g_color g) (g_links g) = canon (g_color h) (g_links h) <-> graph_isomorphic (g_color g) (g_links g) (g_color h) (g_links h)) ->
  get_complete_invariant canon g = get_complete_invariant canon h <-> isomorphic al n1 n2.
Proof.
  intros S1 S2 Ha Hal Hg Hh Hb. apply aspects_al_ok in Hal.
  pose proof (iso_iff (net_view n1) (net_view n2) al (vok_net n1 S1) (vok_net n2 S2) Ha Hal g h Hg Hh) as Hiso.
  assert (isomorphic al n1 n2 <-> exists m, viso (.∈ iasp (net_view n1) al) m (net_view n1) (net_view n2)) as Hvi.
  { unfold isomorphic. split; intros [m Hm]; exists m; by apply (viso_net al n1 n2 m S1 S2). }
  rewrite Hvi, <- Hiso, <- Hb. unfold get_complete_invariant.
  destruct (two_inv (net_view n1) (net_view n2) al (vok_net n1 S1) (vok_net n2 S2) Ha Hal g h Hg Hh) as [Eg Eh].
  assert (g_colormap g = numb 0 (vcolors (net_view n1) al)) as -> by by rewrite Eg. assert (g_colormap h = numb 0 (vcolors (net_view n2) al)) as -> by by rewrite Eh. split.
  - intros E. injection E as E1 E2. split; [|done].
    assert (forall c i, (c, i) ∈ numb 0 (vcolors (net_view n1) al) <-> (c, i) ∈ numb 0 (vcolors (net_view n2) al)) as Hin.
    { intros c i. rewrite <- (merge_sort_Permutation item_le (numb 0 (vcolors (net_view n1) al))), E1. by rewrite merge_sort_Permutation. }
    apply list_eq. intros i. apply option_eq. intros c. specialize (Hin c i). rewrite !elem_of_numb in Hin. split; intros Hi.
    + destruct (proj1 Hin) as (j & Hj & ->); [eauto|done].
    + destruct (proj2 Hin) as (j & Hj & ->); [eauto|done].
  - intros [-> ->]. done.
Qed.

(** ** A backend exists *)
Definition joinedb (ls : list (nat * nat)) (i j : nat) : bool := bool_decide ((i, j) ∈ ls) || bool_decide ((j, i) ∈ ls).
Definition try_map (c1 : dict nat nat) l1 (c2 : dict nat nat) l2 (p : list nat) : bool :=
  let f := fun i => default 0 (dget (zip (dkeys c1) p) i) in
  bool_decide (length p = length (dkeys c1)) && forallb (fun i => bool_decide (dget c2 (f i) = dget c1 i)) (dkeys c1) &&
  forallb (fun i => forallb (fun j => eqb (joinedb l1 i j) (joinedb l2 (f i) (f j))) (dkeys c1)) (dkeys c1).
(** All bijections are tried. *)
Definition brute (g h : auxg) : bool := existsb (try_map (g_color g) (g_links g) (g_color h) (g_links h)) (permutations (dkeys (g_color h))).
Lemma joinedb_iff ls i j : joinedb ls i j = true <-> joined ls i j.
Proof. unfold joinedb, joined. by rewrite orb_true_iff, !bool_decide_eq_true. Qed.
Lemma dget_zip (ks p : list nat) i x : NoDup ks -> length p = length ks -> dget (zip ks p) i = Some x <-> exists j, ks !! j = Some i /\ p !! j = Some x.
Proof.
  intros Hnd. revert p. induction Hnd as [|k ks Hk Hnd IH]; intros [|y p] Hl; try done; [split; [done|by intros (? & ? & _)]|]. cbn. destruct (decide (i = k)) as [->|Hik].
  - split; [intros [= ->]; by exists 0|]. intros ([|j] & Hj & Hp); [done|]. cbn in Hj. exfalso. apply Hk. by eapply elem_of_list_lookup_2.
  - rewrite IH by (cbn in Hl; lia). split; [intros (j & ?); by exists (S j)|]. intros ([|j] & Hj & Hp); [|by exists j]. cbn in Hj. congruence.
Qed.
Lemma brute_exact : exact_backend brute.
Proof.
  intros g h. unfold brute. generalize (g_color g) (g_links g) (g_color h) (g_links h). clear. intros c1 l1 c2 l2 N1 N2. rewrite existsb_exists. unfold try_map. split.
  - intros (p & Hp & Hc). apply elem_of_list_In, permutations_Permutation in Hp. rewrite !andb_true_iff in Hc. destruct Hc as [[Hl%bool_decide_eq_true Hcol] Hadj].
    rewrite forallb_forall in Hcol. rewrite forallb_forall in Hadj. exists (fun i => default 0 (dget (zip (dkeys c1) p) i)).
    assert (forall i, i ∈ dkeys c1 -> exists j x, dkeys c1 !! j = Some i /\ p !! j = Some x /\ default 0 (dget (zip (dkeys c1) p) i) = x) as Hf.
    { intros i [j Hj]%elem_of_list_lookup. destruct (lookup_lt_is_Some_2 p j) as [x Hx]; [rewrite Hl; by eapply lookup_lt_Some|]. exists j, x. split; [done|]. split; [done|].
      assert (dget (zip (dkeys c1) p) i = Some x) as -> by (apply dget_zip; eauto). done. }
    assert (NoDup p) as Np by by rewrite <- Hp.
    split; [split; [|split]|split].
    + intros i Hi. destruct (Hf i Hi) as (j & x & _ & Hx & ->). rewrite Hp. by eapply elem_of_list_lookup_2.
    + intros i i' Hi Hi'. destruct (Hf i Hi) as (j & x & Hj & Hx & ->). destruct (Hf i' Hi') as (j' & x' & Hj' & Hx' & ->). intros ->.
      assert (j = j') as -> by (eapply NoDup_lookup; eauto). congruence.
    + intros y Hy. rewrite Hp in Hy. apply elem_of_list_lookup in Hy as [j Hj]. destruct (lookup_lt_is_Some_2 (dkeys c1) j) as [i Hi]; [rewrite <- Hl; by eapply lookup_lt_Some|].
      exists i. split; [by eapply elem_of_list_lookup_2|]. assert (dget (zip (dkeys c1) p) i = Some y) as -> by (apply dget_zip; eauto). done.
    + intros i Hi. apply elem_of_list_In, Hcol in Hi. by apply bool_decide_eq_true in Hi.
    + intros i j Hi Hj. apply elem_of_list_In, Hadj in Hi. rewrite forallb_forall in Hi. apply elem_of_list_In, Hi, eqb_prop in Hj. by rewrite <- !joinedb_iff, Hj.
  - intros (f & (B1 & B2 & B3) & Hcol & Hadj). exists (f <$> dkeys c1).
    assert (forall i, i ∈ dkeys c1 -> default 0 (dget (zip (dkeys c1) (f <$> dkeys c1)) i) = f i) as Hf.
    { intros i [j Hj]%elem_of_list_lookup. assert (dget (zip (dkeys c1) (f <$> dkeys c1)) i = Some (f i)) as ->; [|done]. apply dget_zip; [done|by rewrite fmap_length|]. exists j. by rewrite list_lookup_fmap, Hj. }
    split.
    + apply elem_of_list_In, permutations_Permutation, NoDup_Permutation; [done| |].
      * apply NoDup_alt. intros i j x. rewrite !list_lookup_fmap. destruct (dkeys c1 !! i) as [a|] eqn:Ei; [|done]. destruct (dkeys c1 !! j) as [b|] eqn:Ej; [|done]. cbn. intros [= <-] [= E].
        apply B2 in E; [|by eapply elem_of_list_lookup_2..]. subst b. exact (NoDup_lookup (dkeys c1) i j _ N1 Ei Ej).
      * intros y. rewrite elem_of_list_fmap. split; [intros Hy; destruct (B3 y Hy) as (x & Hx & <-); eauto|]. intros (x & -> & Hx). by apply B1.
    + rewrite !andb_true_iff, bool_decide_eq_true, fmap_length. split; [split; [done|]|].
      * apply forallb_forall. intros i Hi. apply elem_of_list_In in Hi. rewrite Hf by done. apply bool_decide_eq_true. by apply Hcol.
      * apply forallb_forall. intros i Hi. apply elem_of_list_In in Hi. apply forallb_forall. intros j Hj. apply elem_of_list_In in Hj. rewrite !Hf by done.
        apply eqb_true_iff. apply Bool.eq_true_iff_eq. rewrite !joinedb_iff. by apply Hadj.
Qed.

(** ** Examples *)
(** A path 1-2-3 in layer a of which 3 is also in layer b, and a path whose
    middle node is called 3. *)
Definition i_n1 : mlnet := run (new_net 1 0 false false) [OpNodeSet [x1; la] [x2; la] 1; OpNodeSet [x2; la] [x3; lb] 1].
Definition i_n2 : mlnet := run (new_net 1 0 false false) [OpNodeSet [x2; la] [x3; la] 1; OpNodeSet [x3; la] [x1; lb] 4].
Definition i_n3 : mlnet := run (new_net 1 0 false false) [OpNodeSet [x1; la] [x2; la] 1; OpAddNode x3 (Some (LBare lb))].
Definition i_n4 : mlnet := run (new_net 1 0 false false) [OpNodeSet [x1; la] [x2; la] 1; OpAddNode x3 (Some (LBare la))].
Lemma i_suitable h : suitable (run (new_net 1 0 false false) h) <-> directed (run (new_net 1 0 false false) h) = false /\ 1 <= aspects (run (new_net 1 0 false false) h).
Proof. unfold suitable. split; [by intros [_ ?]|]. intros H. split; [apply run_reachable|done]. Qed.
Lemma i_ok : suitable i_n1 /\ suitable i_n2 /\ suitable i_n3 /\ suitable i_n4.
Proof. split_and!; apply i_suitable; split; vm_compute; (done || lia). Qed.
Lemma i_sortable n al : aspects n = 1 -> forallb (fun x => negb (is_int x)) (default [] (slices n !! 1)) = true -> forallb is_int (default [] (slices n !! 0)) = true -> sortable n al.
Proof.
  intros Ha H1 H0 a Hle _. rewrite Ha in Hle. rewrite forallb_forall in H1. rewrite forallb_forall in H0. assert (a = 0 \/ a = 1) as [->| ->] by lia.
  - left. intros x (s & Hs & Hx). rewrite Hs in H0. apply elem_of_list_In, H0 in Hx. destruct x; [eauto|done].
  - right. intros x (s & Hs & Hx). rewrite Hs in H1. apply elem_of_list_In, H1 in Hx. destruct x; [done|eauto].
Qed.
Lemma i_parts n al L : aspects n = 1 -> L = remove_dups (fixed_part (aspect_list 1 al) <$> iter_node_layers n) -> fixed_parts n (aspect_list (aspects n) al) L.
Proof.
  intros -> ->. split; [apply NoDup_remove_dups|]. intros c. rewrite elem_of_remove_dups, elem_of_list_fmap. split; intros (a & ? & ?); eauto.
Qed.
Lemma i_kinds al : sortable i_n1 al /\ sortable i_n2 al /\ sortable i_n3 al /\ sortable i_n4 al.
Proof. split_and!; (apply i_sortable; by vm_compute). Qed.
Example C46_example : is_isomorphic brute (net_view i_n1) (net_view i_n2) (Some [0]) = Ok true /\ is_isomorphic brute (net_view i_n1) (net_view i_n3) (Some [0]) = Ok false /\
  aspects_ok (aspects i_n1) (Some [0]) /\ isomorphic (Some [0]) i_n1 i_n2 /\ ~ isomorphic (Some [0]) i_n1 i_n3.
Proof.
  destruct i_ok as (S1 & S2 & S3 & _). destruct (i_kinds (Some [0])) as (K1 & K2 & K3 & K4).
  assert (aspects_ok (aspects i_n1) (Some [0])) as Hal.
  { split; [apply NoDup_singleton|]. intros a ->%elem_of_list_singleton. lia. }
  assert (is_isomorphic brute (net_view i_n1) (net_view i_n2) (Some [0]) = Ok true) as E1 by by vm_compute.
  assert (is_isomorphic brute (net_view i_n1) (net_view i_n3) (Some [0]) = Ok false) as E2 by by vm_compute.
  split; [done|]. split; [done|]. split; [done|]. split.
  - destruct (C46_is_isomorphic brute i_n1 i_n2 (Some [0]) _ _ brute_exact S1 S2 eq_refl Hal K1 K2 (i_parts i_n1 (Some [0]) _ eq_refl eq_refl) (i_parts i_n2 (Some [0]) _ eq_refl eq_refl)) as (r & Hr & Hi);
      [right; by vm_compute|]. rewrite E1 in Hr. injection Hr as <-. by apply Hi.
  - destruct (C46_is_isomorphic brute i_n1 i_n3 (Some [0]) _ _ brute_exact S1 S3 eq_refl Hal K1 K3 (i_parts i_n1 (Some [0]) _ eq_refl eq_refl) (i_parts i_n3 (Some [0]) _ eq_refl eq_refl)) as (r & Hr & Hi);
      [right; by vm_compute|]. rewrite E2 in Hr. injection Hr as <-. intros H. by apply Hi in H.
Qed.
(** [get_isomorphism], [get_automorphism_generators]. *)
Definition built (n : mlnet) (al : option (list nat)) : auxg := match build (net_view n) al with Ok g => g | Err _ => MkAux [] [] [] [] [] [] [] [] end.
Lemma valid_check g h (perm : dict nat nat) : NoDup (dkeys (g_color g)) -> NoDup (dkeys (g_color h)) ->
  try_map (g_color g) (g_links g) (g_color h) (g_links h) (perm.*2) = true -> perm.*1 = dkeys (g_color g) -> perm.*2 ≡ₚ dkeys (g_color h) -> valid_mapping g h perm.
Proof.
  destruct g as [? ? ? ? ? ? c1 l1], h as [? ? ? ? ? ? c2 l2]. unfold valid_mapping. cbn [g_color g_links]. intros N1 N2 H E P. unfold try_map in H. rewrite <- E in H.
  replace (zip perm.*1 perm.*2) with perm in H by (clear; induction perm as [|[? ?] perm IH]; [done|]; cbn; by rewrite <- IH).
  rewrite !andb_true_iff in H. destruct H as [[_ Hcol] Hadj]. rewrite forallb_forall in Hcol. rewrite forallb_forall in Hadj.
  assert (forall i, i ∈ dkeys c1 -> exists y, dget perm i = Some y) as Hs by (intros i Hi; apply elem_of_dkeys; unfold dkeys; by rewrite E).
  assert (forall i, i ∈ dkeys c1 -> default i (dget perm i) = default 0 (dget perm i)) as Hd by (intros i Hi; by destruct (Hs i Hi) as [y ->]).
  assert (NoDup (dkeys perm)) as Nk by (unfold dkeys; by rewrite E). assert (NoDup (perm.*2)) as N3 by by rewrite P.
  split; [|intros i Hi; by apply Hs]. split; [split; [|split]|split].
  - intros i Hi. destruct (Hs i Hi) as [y Hy]. rewrite Hy. cbn. rewrite <- P. apply elem_of_list_fmap. exists (i, y). split; [done|]. by apply dget_elem_of.
  - intros i j Hi Hj. destruct (Hs i Hi) as [y Hy]. destruct (Hs j Hj) as [z Hz]. rewrite Hy, Hz. cbn. intros ->.
    apply dget_elem_of in Hy; [|done]. apply dget_elem_of in Hz; [|done]. apply elem_of_list_lookup in Hy as [k Hk]. apply elem_of_list_lookup in Hz as [k' Hk'].
    assert (k = k') as ->; [|congruence]. eapply (NoDup_lookup _ k k' z N3); rewrite list_lookup_fmap; [by rewrite Hk|by rewrite Hk'].
  - intros y Hy. rewrite <- P in Hy. apply elem_of_list_fmap in Hy as ([i y'] & -> & Hin). exists i. cbn. apply dget_elem_of in Hin; [|done]. split; [|by rewrite Hin].
    rewrite <- E. apply dget_Some_key in Hin. done.
  - intros i Hi. rewrite Hd by done. rewrite <- E in Hi. apply elem_of_list_In, Hcol in Hi. by apply bool_decide_eq_true in Hi.
  - intros i j Hi Hj. rewrite !Hd by done. rewrite <- E in Hi, Hj. apply elem_of_list_In, Hadj in Hi. rewrite forallb_forall in Hi. apply elem_of_list_In, Hi, eqb_prop in Hj. by rewrite <- !joinedb_iff, Hj.
Qed.
Example C46_example_mapping : let g := built i_n1 (Some [0]) in let h := built i_n2 (Some [0]) in
  build (net_view i_n1) (Some [0]) = Ok g /\ build (net_view i_n2) (Some [0]) = Ok h /\
  exists perm, valid_mapping g h perm /\
    get_isomorphism true perm (net_view i_n1) g h false = Ok (Some [[(x1, x2); (x2, x3); (x3, x1)]; []]) /\
    get_isomorphism true perm (net_view i_n1) g h true = Ok (Some [[(x1, x2); (x2, x3); (x3, x1)]; [(la, la); (lb, lb)]]) /\
    get_isomorphism false perm (net_view i_n1) g h true = Ok None.
Proof.
  intros g h. split; [by vm_compute|]. split; [by vm_compute|].
  destruct (list_find (fun p => try_map (g_color g) (g_links g) (g_color h) (g_links h) p = true) (permutations (dkeys (g_color h)))) as [[k p]|] eqn:E; [|by vm_compute in E].
  exists (zip (dkeys (g_color g)) p). vm_compute in E. injection E as <- <-. split_and!; [|by vm_compute..].
  apply valid_check; [apply (bool_decide_unpack _); by vm_compute|apply (bool_decide_unpack _); by vm_compute|by vm_compute|by vm_compute|].
  apply permutations_Permutation. apply (bool_decide_unpack _). by vm_compute.
Qed.
(** A network with two aspects allowed to move: the square of two nodes and two
    layers has automorphisms swapping nodes and layers. *)
Definition i_sq : mlnet := run (new_net 1 0 false true) [OpNodeSet [x1; la] [x2; la] 1; OpNodeSet [x1; lb] [x2; lb] 1].
Example C46_example_automorphisms : let g := built i_sq None in
  suitable i_sq /\ aspects_ok (aspects i_sq) None /\ build (net_view i_sq) None = Ok g /\
  exists perms, Forall (valid_mapping g g) perms /\
    get_automorphism_generators perms (net_view i_sq) g false = Ok [[[]; []]; [[]; [(la, lb); (lb, la)]]; [[(x1, x2); (x2, x1)]; []]; [[(x1, x2); (x2, x1)]; [(la, lb); (lb, la)]]].
Proof.
  intros g. split; [split; [apply run_reachable|split; vm_compute; (done || lia)]|]. split.
  { split; [apply NoDup_seq|]. intros a Ha. apply elem_of_seq in Ha. lia. }
  split; [by vm_compute|].
  exists ((fun p => zip (dkeys (g_color g)) p) <$> [[0;1;2;3;4;5;6;7]; [1;0;3;2;4;5;7;6]; [2;3;0;1;5;4;6;7]; [3;2;1;0;5;4;7;6]]).
  split; [|by vm_compute].
  apply Forall_fmap. repeat apply Forall_cons_2; [..|by apply Forall_nil_2]; unfold compose;
    (apply valid_check; [apply (bool_decide_unpack _); by vm_compute|apply (bool_decide_unpack _); by vm_compute|by vm_compute|by vm_compute|
     match goal with |- ?a ≡ₚ ?b => let x := eval vm_compute in a in let y := eval vm_compute in b in change (x ≡ₚ y) end;
     apply NoDup_Permutation; [apply (bool_decide_unpack _); by vm_compute|apply (bool_decide_unpack _); by vm_compute|]; intros i; rewrite !elem_of_cons, elem_of_nil; tauto]).
Qed.
(** One link, nodes may be exchanged: the hypotheses of [C46_generators] hold with
    one generator. *)
Definition i_two : mlnet := run (new_net 1 0 false true) [OpNodeSet [x1; la] [x2; la] 1].
Example C46_example_generators : let g := built i_two (Some [0]) in let perms := [[(0, 1); (1, 0); (2, 3); (3, 2)]] in
  suitable i_two /\ build (net_view i_two) (Some [0]) = Ok g /\ Forall (valid_mapping g g) perms /\
  (forall f, graph_iso f (g_color g) (g_links g) (g_color g) (g_links g) ->
     composed (fun i => i ∈ dkeys (g_color g)) (fun p => exists perm, perm ∈ perms /\ p = fun i => default i (dget perm i)) f) /\
  get_automorphism_generators perms (net_view i_two) g false = Ok [[[(x1, x2); (x2, x1)]; []]].
Proof.
  intros g perms. split; [split; [apply run_reachable|split; vm_compute; (done || lia)]|]. split; [by vm_compute|]. split; [|split; [|by vm_compute]].
  - repeat apply Forall_cons_2; [..|by apply Forall_nil_2].
    apply valid_check; [apply (bool_decide_unpack _); by vm_compute|apply (bool_decide_unpack _); by vm_compute|by vm_compute|by vm_compute|].
    change ([1; 0; 3; 2] ≡ₚ [0; 1; 2; 3]). apply NoDup_Permutation; [apply (bool_decide_unpack _); by vm_compute|apply (bool_decide_unpack _); by vm_compute|]; intros i; rewrite !elem_of_cons, elem_of_nil; tauto.
  - assert (dkeys (g_color g) = [0; 1; 2; 3]) as Hk by by vm_compute. assert (g_color g = [(0, 0); (1, 0); (2, 1); (3, 1)]) as Ec by by vm_compute.
    assert (g_links g = [(0, 1); (1, 0); (0, 2); (1, 3)]) as El by by vm_compute. intros f (_ & Hcol & Hadj). rewrite Ec, El in *. cbn [dkeys fmap list_fmap fst] in *.
    assert (forall i, i ∈ [0; 1; 2; 3] -> (i < 2 -> f i = 0 \/ f i = 1) /\ (2 <= i -> f i = 2 \/ f i = 3)) as Hr.
    { intros i Hi. specialize (Hcol i Hi). rewrite !elem_of_cons, elem_of_nil in Hi. destruct Hi as [->|[->|[->|[->|[]]]]]; cbn [dget] in Hcol;
        repeat case_decide; split; intros ?; (lia || congruence). }
    assert (0 ∈ [0; 1; 2; 3] /\ 1 ∈ [0; 1; 2; 3] /\ 2 ∈ [0; 1; 2; 3] /\ 3 ∈ [0; 1; 2; 3]) as (I0 & I1 & I2 & I3) by (split_and!; apply (bool_decide_unpack _); by vm_compute).
    destruct (Hr 0 I0) as [R0 _], (Hr 1 I1) as [R1 _], (Hr 2 I2) as [_ R2], (Hr 3 I3) as [_ R3]. specialize (R0 ltac:(lia)). specialize (R1 ltac:(lia)). specialize (R2 ltac:(lia)). specialize (R3 ltac:(lia)).
    pose proof (proj1 (Hadj 0 1 I0 I1)) as A1. pose proof (proj1 (Hadj 0 2 I0 I2)) as A2. pose proof (proj1 (Hadj 1 3 I1 I3)) as A3.
    rewrite <- !joinedb_iff in A1, A2, A3. specialize (A1 eq_refl). specialize (A2 eq_refl). specialize (A3 eq_refl).
    assert ((f 0 = 0 /\ f 1 = 1 /\ f 2 = 2 /\ f 3 = 3) \/ (f 0 = 1 /\ f 1 = 0 /\ f 2 = 3 /\ f 3 = 2)) as [(F0 & F1 & F2 & F3)|(F0 & F1 & F2 & F3)].
    { destruct R0 as [E0|E0], R1 as [E1|E1], R2 as [E2|E2], R3 as [E3|E3]; rewrite E0, E1, E2, E3 in *; first [by left|by right|by vm_compute in A1|by vm_compute in A2|by vm_compute in A3]. }
    + apply composed_id. intros i Hi. rewrite !elem_of_cons, elem_of_nil in Hi. destruct Hi as [->|[->|[->|[->|[]]]]]; done.
    + eapply (composed_step _ _ (fun i => i)); [by apply composed_id|eexists; split; [by left|done]|]. intros i Hi. cbn beta. rewrite !elem_of_cons, elem_of_nil in Hi.
      destruct Hi as [->|[->|[->|[->|[]]]]]; done.
Qed.

(** Networks that differ in the number of layers make the comparison fail instead
    of answering that they are not isomorphic. *)
Theorem C46_assertion_refuted : exists n1 n2, suitable n1 /\ suitable n2 /\ aspects n1 = aspects n2 /\ sortable n1 (Some [0]) /\ sortable n2 (Some [0]) /\
  (forall structure, is_isomorphic structure (net_view n1) (net_view n2) (Some [0]) = Err AssertionError) /\ ~ isomorphic (Some [0]) n1 n2.
Proof.
  exists i_n1, i_n4. destruct i_ok as (S1 & _ & _ & S4). destruct (i_kinds (Some [0])) as (K1 & _ & _ & K4). split_and!; try done.
  apply (C46_different_parts brute i_n1 i_n4 (Some [0]) (remove_dups (fixed_part [0] <$> iter_node_layers i_n1)) (remove_dups (fixed_part [0] <$> iter_node_layers i_n4)) brute_exact S1 S4 eq_refl); try done.
  - split; [apply NoDup_singleton|]. intros a ->%elem_of_list_singleton. lia.
  - by apply (i_parts i_n1 (Some [0])).
  - by apply (i_parts i_n4 (Some [0])).
Qed.
(** Layer names that cannot be sorted make it fail even for identical networks. *)
Definition i_mixed : mlnet := run (new_net 1 0 false false) [OpNodeSet [x1; la] [x2; la] 1; OpAddNode x1 (Some (LBare (NInt 7)))].
Theorem C46_mixed_names_refuted : exists n, suitable n /\ (forall structure, is_isomorphic structure (net_view n) (net_view n) (Some [0]) = Err TypeError) /\
  exists m, isomorphism (fun a => a ∈ [0]) m n n.
Proof.
  exists i_mixed. split; [apply i_suitable; split; vm_compute; (done || lia)|]. split; [intros s; by vm_compute|].
  exists (fun _ x => x). assert (forall a : nl, nl_image (fun _ x => x) a = a) as Hi by (intros a; unfold nl_image; induction a as [|x a IH] using rev_ind; [done|]; by rewrite imap_app, IH).
  split; [|split; [done|split]].
  - intros a _. split; [done|]. split; [done|]. intros y Hy. by exists y.
  - intros b. split; [intros Hb; exists b; by rewrite Hi|]. intros (a & Ha & ->). by rewrite Hi.
  - intros a b _ _. by rewrite !Hi.
Qed.
Print Assumptions C46_is_isomorphic.
Print Assumptions C46_different_parts.
Print Assumptions C46_different_aspects.
Print Assumptions C46_get_isomorphism.
Print Assumptions C46_automorphisms.
Print Assumptions C46_generators.
Print Assumptions C46_complete_invariant.
Print Assumptions C46_assertion_refuted.
Print Assumptions C46_mixed_names_refuted.
