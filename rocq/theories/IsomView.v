(** * The isomorphism functions on arbitrary views (used for multiplex networks) *)
From stdpp Require Import prelude sorting.
From Verif Require Import Base Net NetSpec Supra Isom IsomSpec IsomFacts IsomIso IsomDec PropsIsom.
Local Open Scope nat_scope.

Definition vsortable (v : iview) (al : option (list nat)) : Prop :=
  forall a, a <= v_asp v -> a ∉ aspect_list (v_asp v) al ->
    (forall x, vin v a x -> exists z, x = NInt z) \/ (forall x, vin v a x -> exists s, x = NStr s).
Definition vfixed_parts (v : iview) (asp : list nat) (L : list (list name)) : Prop :=
  lists_exactly L (fun c => exists a, a ∈ v_nls v /\ c = fixed_part asp a).
Definition visomorphic (al : option (list nat)) (v w : iview) : Prop := exists m, viso (fun a => a ∈ aspect_list (v_asp v) al) m v w.

Lemma elem_of_vasp v al a : a ∈ iasp v al <-> a ∈ aspect_list (v_asp v) al.
Proof. unfold iasp, aspect_list. destruct al; [by rewrite merge_sort_Permutation|done]. Qed.
Lemma viso_pred (A B : nat -> Prop) m v w : (forall a, A a <-> B a) -> viso A m v w <-> viso B m v w.
Proof. intros H. unfold viso. setoid_rewrite H. done. Qed.
Lemma viso_asp al m v w : viso (.∈ iasp v al) m v w <-> viso (fun a => a ∈ aspect_list (v_asp v) al) m v w.
Proof. apply viso_pred. intros a. apply elem_of_vasp. Qed.
Lemma vfixed_slice v al a : length a = S (v_asp v) -> fixed_part (aspect_list (v_asp v) al) a = nl_slice (inasp v al) a.
Proof.
  intros Hl. assert (inasp v al = filter (fun a => a ∉ aspect_list (v_asp v) al) (seq 0 (length a))) as ->.
  { unfold inasp, aspect_list. rewrite Hl. destruct al; [done|]. symmetry. apply elem_of_nil_inv. intros x [Hx Hin]%elem_of_list_filter. done. }
  generalize (aspect_list (v_asp v) al). clear. intros asp. unfold fixed_part, nl_slice.
  assert (forall b, (filter (fun p => fst p ∉ asp) (imap pair a)).*2 = (fun i => default (NInt 0) ((a ++ b) !! i)) <$> filter (fun a => a ∉ asp) (seq 0 (length a))) as H.
  { induction a as [|x a IH] using rev_ind; intros b; [done|]. rewrite imap_app, filter_app, fmap_app, app_length, seq_app, filter_app, fmap_app. f_equal.
    - rewrite (IH ([x] ++ b)). by rewrite app_assoc.
    - change (imap (fun n => pair (length a + n)) [x]) with [(length a + 0, x)]. change (seq (0 + length a) (length [x])) with [length a]. rewrite Nat.add_0_r.
      rewrite (filter_cons (fun p : nat * name => fst p ∉ asp)), (filter_cons (fun i : nat => i ∉ asp)). cbn [fst]. destruct (decide (length a ∉ asp)); [|done]. cbn.
      rewrite <- app_assoc, lookup_app_r by done. by rewrite Nat.sub_diag. }
  specialize (H []). by rewrite app_nil_r in H.
Qed.
Lemma vfixed_parts_colors v al L : vok v -> vfixed_parts v (aspect_list (v_asp v) al) L -> length L = length (vcolors v al).
Proof.
  intros Hv [Hnd HL]. apply Permutation_length, NoDup_Permutation; [done|apply NoDup_vcolors|]. intros c. rewrite HL, elem_of_vcolors.
  split; intros (a & Ha & ->); exists a; (split; [done|]).
  - apply vfixed_slice. by apply (nl_len v a Hv).
  - symmetry. apply vfixed_slice. by apply (nl_len v a Hv).
Qed.
Lemma vbuild_sortable v al : vok v -> aspects_ok (v_asp v) al -> vsortable v al -> exists g, build v al = Ok g.
Proof.
  intros Hv Hal Hk. eexists. apply build_ok; [done|by apply aspects_al_ok|]. unfold sorted_colors.
  assert (forallb (fun a => forallb (comparable a) (remove_dups (nl_slice (inasp v al) <$> v_nls v))) (remove_dups (nl_slice (inasp v al) <$> v_nls v)) = true) as ->; [|done].
  apply forallb_forall. intros c1 Hc1. apply forallb_forall. intros c2 Hc2. apply elem_of_list_In, elem_of_remove_dups, elem_of_list_fmap in Hc1 as (a & -> & Ha).
  apply elem_of_list_In, elem_of_remove_dups, elem_of_list_fmap in Hc2 as (b & -> & Hb). apply (comparable_slices v); [| |done].
  - intros i Hi x y Hx Hy. apply elem_of_inasp in Hi as [Hi Hn].
    assert (i ∉ aspect_list (v_asp v) al) as Hn'. { intros Hin. apply Hn. apply elem_of_iasp. by apply elem_of_vasp. }
    assert (vin v i x) as Ix. { destruct (nl_lookup _ a i Hv Ha Hi) as (x' & s & Hx' & Hs' & Hin). exists s. split; [done|congruence]. }
    assert (vin v i y) as Iy. { destruct (nl_lookup _ b i Hv Hb Hi) as (x' & s & Hx' & Hs' & Hin). exists s. split; [done|congruence]. }
    destruct (Hk i Hi Hn') as [K|K]; destruct (K x Ix) as [? ->]; destruct (K y Iy) as [? ->]; done.
  - intros i Hi. apply elem_of_inasp in Hi as [Hi Hn]. rewrite (nl_len _ a Hv Ha), (nl_len _ b Hv Hb). lia.
Qed.
Lemma vasp_nil v al : aspect_list (v_asp v) al = [] <-> iasp v al = [].
Proof.
  split; intros H; apply elem_of_nil_inv; intros x Hx; apply elem_of_vasp in Hx; rewrite H in Hx; by apply elem_of_nil in Hx.
Qed.

Section two.
  Context (v w : iview) (al : option (list nat)) (Hv : vok v) (Hw : vok w) (Hk : v_asp v = v_asp w) (Hal : aspects_ok (v_asp v) al).
  Context (g h : auxg) (Hg : build v al = Ok g) (Hh : build w al = Ok h).
  Notation A := (fun a => a ∈ aspect_list (v_asp v) al).
  Let Hal' : al_ok (v_asp v) al := aspects_al_ok _ _ Hal.
  Lemma viso_iff : (vcolors v al = vcolors w al /\ graph_isomorphic (g_color g) (g_links g) (g_color h) (g_links h)) <-> visomorphic al v w.
  Proof. rewrite (iso_iff v w al Hv Hw Hk Hal' g h Hg Hh). unfold visomorphic. by setoid_rewrite viso_asp. Qed.
  Lemma vcompare_ok b : (b = true <-> graph_isomorphic (g_color g) (g_links g) (g_color h) (g_links h)) ->
    forall L1 L2, vfixed_parts v (aspect_list (v_asp v) al) L1 -> vfixed_parts w (aspect_list (v_asp v) al) L2 ->
    (aspect_list (v_asp v) al = [] \/ length L1 = length L2 -> exists r, compare b g h = Ok r /\ (r = true <-> visomorphic al v w)) /\
    (aspect_list (v_asp v) al <> [] -> length L1 <> length L2 -> compare b g h = Err AssertionError /\ ~ visomorphic al v w).
  Proof.
    intros Hb L1 L2 HL1 HL2. pose proof (labels_ok v w al Hv Hw Hk Hal' g h Hg Hh) as Hlab. pose proof viso_iff as Hiso.
    destruct (two_inv v w al Hv Hw Hk Hal' g h Hg Hh) as [Eg Eh].
    assert (g_asp g = g_asp h /\ g_nasp g = g_nasp h) as He by by rewrite Eg, Eh. clear Eg Eh. unfold compare. rewrite decide_True by done. rewrite Hlab.
    rewrite (vfixed_parts_colors v al L1 Hv HL1). rewrite Hk in HL2. rewrite (vfixed_parts_colors w al L2 Hw HL2), vasp_nil.
    split.
    - intros Hc. rewrite decide_True by done. cbn [rbind]. eexists. split; [done|]. by rewrite andb_true_iff, bool_decide_eq_true, Hb, Hiso.
    - intros Hne Hn. rewrite decide_False by (intros [?|?]; done). split; [done|]. rewrite <- Hiso. intros [Hc _]. apply Hn. by rewrite Hc.
  Qed.
  (** The dictionaries list exactly the elementary layers in use: all, or those that move. *)
  Definition vlists_layers (fixed : bool) (ms : list (dict name name)) : Prop :=
    length ms = S (v_asp v) /\
    forall a d, ms !! a = Some d -> NoDup (dkeys d) /\ forall x, x ∈ dkeys d <-> vin v a x /\ (fixed = true \/ dict_map ms a x <> x).
  Lemma vdecode perm fixed : vcolors v al = vcolors w al -> valid_mapping g h perm ->
    exists ms, decode v g h perm fixed = Ok ms /\ viso A (dict_map ms) v w /\ vlists_layers fixed ms /\
      (forall i a e, vlist v (iasp v al) !! i = Some (inr (a, e)) -> vlist w (iasp v al) !! default i (dget perm i) = Some (inr (a, dict_map ms a e))).
  Proof.
    intros Hc [Hp1 Hp2].
    destruct (decode_ok v w al Hv Hw Hk Hal' g h Hg Hh perm fixed Hc Hp1 Hp2) as (ms & m & Hd & Hiso & (Hlen & Hsh) & Hpm).
    pose proof Hiso as (_ & Hid & _).
    assert (forall a x, dict_map ms a x = if decide (is_Some (dget (row ms a) x)) then m a x else x) as Hdm.
    { intros a x. unfold dict_map. fold (row ms a). destruct (dget (row ms a) x) as [y|] eqn:E; [|by rewrite decide_False by by intros [? ?]].
      rewrite decide_True by eauto. apply Hsh in E as (_ & _ & ->). done. }
    assert (forall a x, vin v a x -> dict_map ms a x = m a x) as Heq.
    { intros a x Hx. rewrite Hdm. destruct (decide (is_Some _)) as [|Hn]; [done|]. destruct (decide (m a x = x)) as [->|Hne]; [done|]. exfalso. apply Hn.
      exists (m a x). apply Hsh. split; [|split; [by right|done]]. split; [|done]. destruct (decide (a ∈ iasp v al)) as [|Hna]; [by left|]. exfalso. apply Hne. by apply Hid. }
    assert (forall a x, ~ (a ∈ iasp v al) -> dict_map ms a x = x) as Hid'.
    { intros a x Hn. rewrite Hdm. destruct (decide _); [by apply Hid|done]. }
    exists ms. split; [done|]. split; [|split].
    - apply viso_asp. by apply (viso_ext _ m).
    - split; [done|]. intros a d Hd'. destruct (Hsh a) as [Hnd Hkk]. assert (row ms a = d) as Hrow by (unfold row; by rewrite Hd'). rewrite Hrow in Hnd, Hkk. split; [done|].
      intros x. rewrite elem_of_dkeys. split.
      + intros [y Hy]. apply Hkk in Hy as ((Hx & Hin) & Hf & ->). split; [done|]. destruct Hf as [?|Hf]; [by left|right]. by rewrite Heq.
      + intros [Hin Hf]. exists (m a x). apply Hkk. rewrite (Heq a x Hin) in Hf. split; [|by split]. split; [|done].
        destruct Hf as [->|Hf]; [by right|left]. destruct (decide (a ∈ iasp v al)) as [|Hn]; [done|]. exfalso. apply Hf. by apply Hid.
    - intros i a e Hi. rewrite Heq; [by apply Hpm|]. assert (inr (a, e) ∈ vlist v (iasp v al)) as Hin by by eapply elem_of_list_lookup_2. by apply elem_of_vlist_r in Hin as [_ ?].
  Qed.
  Lemma vget_isomorphism b perm fixed L1 L2 :
    (b = true <-> graph_isomorphic (g_color g) (g_links g) (g_color h) (g_links h)) -> (b = true -> valid_mapping g h perm) ->
    vfixed_parts v (aspect_list (v_asp v) al) L1 -> vfixed_parts w (aspect_list (v_asp v) al) L2 -> aspect_list (v_asp v) al = [] \/ length L1 = length L2 ->
    exists r, get_isomorphism b perm v g h fixed = Ok r /\
      match r with None => ~ visomorphic al v w | Some ms => viso A (dict_map ms) v w /\ vlists_layers fixed ms end.
  Proof.
    intros Hb Hp HL1 HL2 Hc. destruct (vcompare_ok b Hb L1 L2 HL1 HL2) as [H _].
    destruct (H Hc) as (r & Hr & Hiso). unfold get_isomorphism. rewrite Hr. cbn [rbind]. destruct r.
    - assert (visomorphic al v w) as Hi by by apply Hiso. apply viso_iff in Hi as [Hcol Hgi].
      destruct (vdecode perm fixed Hcol) as (ms & -> & Hms & Hll & _); [by apply Hp, Hb|]. cbn [rbind]. exists (Some ms). by split.
    - exists None. split; [done|]. rewrite <- Hiso. done.
  Qed.
  Lemma vcomplete_invariant {S} (canon : dict nat nat -> list (nat * nat) -> S) :
    (canon (g_color g) (g_links g) = canon (g_color h) (g_links h) <-> graph_isomorphic (g_color g) (g_links g) (g_color h) (g_links h)) ->
    get_complete_invariant canon g = get_complete_invariant canon h <-> visomorphic al v w.
  Proof.
    intros Hb. rewrite <- viso_iff, <- Hb. unfold get_complete_invariant.
    destruct (two_inv v w al Hv Hw Hk Hal' g h Hg Hh) as [Eg Eh].
    assert (g_colormap g = numb 0 (vcolors v al)) as -> by by rewrite Eg. assert (g_colormap h = numb 0 (vcolors w al)) as -> by by rewrite Eh. split.
    - intros E. injection E as E1 E2. split; [|done].
      assert (forall c i, (c, i) ∈ numb 0 (vcolors v al) <-> (c, i) ∈ numb 0 (vcolors w al)) as Hin.
      { intros c i. rewrite <- (merge_sort_Permutation item_le (numb 0 (vcolors v al))), E1. by rewrite merge_sort_Permutation. }
      apply list_eq. intros i. apply option_eq. intros c. specialize (Hin c i). rewrite !elem_of_numb in Hin. split; intros Hi.
      + destruct (proj1 Hin) as (j & Hj & ->); [eauto|done].
      + destruct (proj2 Hin) as (j & Hj & ->); [eauto|done].
    - intros [-> ->]. done.
  Qed.
End two.
Section aut.
  Context (v : iview) (al : option (list nat)) (Hv : vok v) (Hal : aspects_ok (v_asp v) al) (g : auxg) (Hg : build v al = Ok g).
  Notation A := (fun a => a ∈ aspect_list (v_asp v) al).
  Lemma vautomorphisms perms fixed : Forall (valid_mapping g g) perms ->
    exists mss, get_automorphism_generators perms v g fixed = Ok mss /\ length mss = length perms /\
      forall ms, ms ∈ mss -> viso A (dict_map ms) v v /\ vlists_layers v fixed ms.
  Proof.
    unfold get_automorphism_generators. induction 1 as [|p perms Hp _ (mss & Hm & Hl & IH)]; [exists []; split; [done|]; split; [done|]; by intros ms ?%elem_of_nil|].
    destruct (vdecode v v al Hv Hv eq_refl Hal g g Hg Hg p fixed eq_refl Hp) as (ms & Hms & Hiso & Hll & _). exists (ms :: mss). cbn [rmapM]. rewrite Hms, Hm. split; [done|]. split; [cbn; by rewrite Hl|].
    intros ms' [->|Hin]%elem_of_cons; [done|by apply IH].
  Qed.
  Lemma vgenerators perms fixed mss : Forall (valid_mapping g g) perms ->
    (forall f, graph_iso f (g_color g) (g_links g) (g_color g) (g_links g) ->
       composed (fun i => i ∈ dkeys (g_color g)) (fun p => exists perm, perm ∈ perms /\ p = fun i => default i (dget perm i)) f) ->
    get_automorphism_generators perms v g fixed = Ok mss ->
    forall m, viso A m v v ->
      composed (fun p : nat * name => vin v (fst p) (snd p)) (fun q => exists ms, ms ∈ mss /\ q = fun p => (fst p, dict_map ms (fst p) (snd p))) (fun p => (fst p, m (fst p) (snd p))).
  Proof.
    intros Hperms Hgen Hmss m Hm. pose proof (aspects_al_ok _ _ Hal) as Hal'. set (asp := iasp v al).
    assert (forall perm, perm ∈ perms -> exists ms, ms ∈ mss /\ viso A (dict_map ms) v v /\
      forall i a e, vlist v asp !! i = Some (inr (a, e)) -> vlist v asp !! default i (dget perm i) = Some (inr (a, dict_map ms a e))) as Hdec.
    { clear Hgen. revert mss Hmss. unfold get_automorphism_generators. induction Hperms as [|p perms Hp _ IH]; intros mss Hmss perm Hin; [by apply elem_of_nil in Hin|].
      destruct (vdecode v v al Hv Hv eq_refl Hal g g Hg Hg p fixed eq_refl Hp) as (ms & Hms & Hiso & Hll & Hpm). cbn [rmapM] in Hmss. rewrite Hms in Hmss.
      destruct (rmapM _ perms) as [mss'|] eqn:E; [|done]. injection Hmss as <-. apply elem_of_cons in Hin as [->|Hin].
      - exists ms. split; [by left|]. by split.
      - destruct (IH mss' eq_refl perm Hin) as (ms' & H1 & H2 & H3). exists ms'. split; [by right|]. by split. }
    assert (forall a, a ∉ aspect_list (v_asp v) al <-> a ∉ asp) as Hasp by (intros a; unfold asp; by rewrite elem_of_vasp).
    assert (forall f, composed (fun i => i ∈ dkeys (g_color g)) (fun p => exists perm, perm ∈ perms /\ p = fun i => default i (dget perm i)) f ->
      exists m', (forall i a e, vlist v asp !! i = Some (inr (a, e)) -> vlist v asp !! f i = Some (inr (a, m' a e))) /\ (forall a e, a ∉ asp -> m' a e = e) /\
        composed (fun p : nat * name => vin v (fst p) (snd p)) (fun q => exists ms, ms ∈ mss /\ q = fun p => (fst p, dict_map ms (fst p) (snd p))) (fun p => (fst p, m' (fst p) (snd p)))) as Hcomp.
    { assert (forall i u, vlist v asp !! i = Some u -> i ∈ dkeys (g_color g)) as Hkeys.
      { intros i u Hi. destruct (build_inv v al g Hv Hal' Hg) as (cs & _ & ->). cbn [g_color]. apply (key_lookup v v asp _ _ eq_refl). eauto. }
      intros f Hf. induction Hf as [f Hf|f p h Hf (m' & I1 & I2 & I3) (perm & Hin & ->) Hh].
      - exists (fun _ e => e). split; [|split; [done|]].
        + intros i a e Hi. rewrite Hf; [done|]. by eapply Hkeys.
        + apply composed_id. by intros [a x] _.
      - destruct (Hdec perm Hin) as (ms & Hms & Hiso & Hpm). exists (fun a e => m' a (dict_map ms a e)). split; [|split].
        + intros i a e Hi. rewrite Hh by by eapply Hkeys. apply I1. by apply Hpm.
        + intros a e Hn. destruct Hiso as (_ & Hid & _). rewrite Hid by by apply Hasp. by apply I2.
        + apply (composed_step _ _ (fun p => (fst p, m' (fst p) (snd p))) (fun p => (fst p, dict_map ms (fst p) (snd p)))); [done|eauto|done]. }
    assert (viso (.∈ asp) m v v) as Hviso by by apply viso_asp.
    pose proof (net_to_vert v v asp (inasp v al)) as Hnv.
    assert (exists f, graph_iso f (g_color g) (g_links g) (g_color g) (g_links g) /\ forall i a e, vlist v asp !! i = Some (inr (a, e)) -> vlist v asp !! f i = Some (inr (a, m a e))) as (f & Hf & Hfm).
    { destruct (build_inv v al g Hv Hal' Hg) as (cs & _ & ->). cbn [g_color g_links].
      destruct (vert_to_graph' v v asp (inasp v al) cs Hv Hv eq_refl (NoDup_iasp v al Hal')) with (g := fun u : vx => match u with inl a => @inl nl (nat * name) (nl_image m a) | inr (k, e) => inr (k, m k e) end) as (f & Hf & Hfm).
      - intros a. by apply iasp_range.
      - eapply Hnv; try done. + by intros a; apply iasp_range. + by apply inasp_asp.
      - exists f. split; [done|]. intros i a e Hi. by apply (Hfm i _ Hi). }
    destruct (Hcomp f (Hgen f Hf)) as (m' & I1 & I2 & I3).
    assert (forall p : nat * name, vin v (fst p) (snd p) -> (fst p, m' (fst p) (snd p)) = (fst p, m (fst p) (snd p))) as Heq.
    { intros [a e] Hin. cbn [fst snd] in *. f_equal. destruct (decide (a ∈ asp)) as [Ha|Ha].
      - assert (inr (a, e) ∈ vlist v asp) as [i Hi]%elem_of_list_lookup by (by apply elem_of_vlist_r). pose proof (I1 i a e Hi) as E1. pose proof (Hfm i a e Hi) as E2. congruence.
      - destruct Hm as (_ & Hid & _). rewrite Hid by by apply Hasp. by apply I2. }
    by apply (composed_ext _ _ _ _ I3).
  Qed.
End aut.
