(** * Comparing labels and reading vertex maps *)
From stdpp Require Import prelude sorting.
From Verif Require Import Base Net NetSpec NetFacts NetHist NetIter NetEdges TransFacts TransFacts2 EsuRun Supra Isom IsomSpec IsomFacts IsomIso.
Local Open Scope nat_scope.

(** ** Labels *)
Lemma dict_eqb_get {K V} `{EqDecision K, EqDecision V} (d e : dict K V) :
  dict_eqb d e = true <-> length d = length e /\ forall k x, (k, x) ∈ d -> dget e k = Some x.
Proof.
  unfold dict_eqb. rewrite andb_true_iff, bool_decide_eq_true, forallb_forall. split; intros [H1 H2]; (split; [done|]).
  - intros k x H. apply elem_of_list_In, H2 in H. by rewrite bool_decide_eq_true in H.
  - intros [k x] H. apply elem_of_list_In in H. rewrite bool_decide_eq_true. by apply H2.
Qed.
Lemma elem_of_numb {K} `{EqDecision K} base (l : list K) k i : (k, i) ∈ numb base l <-> exists j, l !! j = Some k /\ i = base + j.
Proof.
  unfold numb. rewrite elem_of_lookup_imap. split.
  - intros (j & y & [= -> ->] & Hj). eauto.
  - intros (j & Hj & ->). eauto.
Qed.
Lemma eqb_numb0 {K} `{EqDecision K} (l l' : list K) : NoDup l -> NoDup l' -> dict_eqb (numb 0 l) (numb 0 l') = true <-> l = l'.
Proof.
  intros Hl Hl'. rewrite dict_eqb_get, !numb_length. split.
  - intros [Hlen H]. apply list_eq_same_length with (length l); [done|done|]. intros j x y _ Hj Hj'.
    assert (dget (numb 0 l') x = Some j) as E by (apply H, elem_of_numb; eauto). apply dget_numb in E as (j' & Hx & Ej); [|done]. cbn in Ej. subst j'. congruence.
  - intros ->. split; [done|]. intros k x (j & Hj & ->)%elem_of_numb. by apply id_numb.
Qed.
Lemma eqb_numb_base {K} `{EqDecision K} b b' (l : list K) : NoDup l -> dict_eqb (numb b l) (numb b' l) = true <-> l = [] \/ b = b'.
Proof.
  intros Hl. rewrite dict_eqb_get, !numb_length. split.
  - intros [_ H]. destruct l as [|x l]; [by left|right]. assert (dget (numb b' (x :: l)) x = Some (b + 0)) as E by (apply H, elem_of_numb; by exists 0).
    rewrite (id_numb b' (x :: l) Hl x 0) in E by done. injection E. lia.
  - intros [->|<-]; (split; [done|]); intros k x (j & Hj & ->)%elem_of_numb; [done|by apply id_numb].
Qed.
Lemma viso_colors (asp nasp : list nat) m v w : vok v -> vok w -> v_asp v = v_asp w -> (forall a, a ∈ nasp <-> a <= v_asp v /\ a ∉ asp) -> viso (.∈ asp) m v w ->
  merge_sort tuple_le (remove_dups (nl_slice nasp <$> v_nls v)) = merge_sort tuple_le (remove_dups (nl_slice nasp <$> v_nls w)).
Proof.
  intros Hv Hw Hk Hna (_ & Hid & Hn & _). apply merge_sort_tuples_perm, NoDup_Permutation; [apply NoDup_remove_dups|apply NoDup_remove_dups|].
  assert (forall a, a ∈ v_nls v -> nl_slice nasp (nl_image m a) = nl_slice nasp a) as Hsl.
  { intros a Ha. pose proof (nl_len v a Hv Ha) as La. symmetry.
    apply (slice_eq v w asp nasp Hk Hna); [done|by unfold nl_image; rewrite imap_length|]. intros i Hi Hni. unfold nl_image. rewrite list_lookup_imap. destruct (a !! i); [|done]. cbn. by rewrite Hid. }
  intros c. rewrite !elem_of_remove_dups, !elem_of_list_fmap. split.
  - intros (a & -> & Ha). exists (nl_image m a). rewrite Hsl by done. split; [done|]. apply Hn. eauto.
  - intros (b & -> & Hb). apply Hn in Hb as (a & Ha & ->). exists a. by rewrite Hsl.
Qed.

(** ** The two graphs of a comparison *)
Definition vcolors (v : iview) (al : option (list nat)) : list (list name) := merge_sort tuple_le (remove_dups (nl_slice (inasp v al) <$> v_nls v)).
Lemma NoDup_vcolors v al : NoDup (vcolors v al).
Proof. unfold vcolors. rewrite merge_sort_Permutation. apply NoDup_remove_dups. Qed.
Lemma elem_of_vcolors v al c : c ∈ vcolors v al <-> exists a, a ∈ v_nls v /\ c = nl_slice (inasp v al) a.
Proof. unfold vcolors. rewrite merge_sort_Permutation, elem_of_remove_dups, elem_of_list_fmap. split; intros (a & ? & ?); eauto. Qed.
Lemma inasp_asp v al : al_ok (v_asp v) al -> forall a, a ∈ inasp v al <-> a <= v_asp v /\ a ∉ iasp v al.
Proof. intros Hal a. by rewrite elem_of_inasp, elem_of_iasp. Qed.
Lemma asp_same v w al : v_asp v = v_asp w -> iasp v al = iasp w al /\ inasp v al = inasp w al.
Proof. intros E. unfold iasp, inasp. by rewrite E. Qed.

Section two.
  Context (v w : iview) (al : option (list nat)) (Hv : vok v) (Hw : vok w) (Hk : v_asp v = v_asp w) (Hal : al_ok (v_asp v) al).
  Context (g h : auxg) (Hg : build v al = Ok g) (Hh : build w al = Ok h).
  Notation asp := (iasp v al).
  Lemma two_inv : g = MkAux asp (inasp v al) (numb 0 (v_nls v)) (numb (length (v_nls v)) (auxl v asp)) (numb 0 (vcolors v al)) (numb (length (vcolors v al)) asp)
      (cols 0 (vcol asp (inasp v al) (vcolors v al)) (vlist v asp)) (net_links v ++ aux_links v asp) /\
    h = MkAux asp (inasp v al) (numb 0 (v_nls w)) (numb (length (v_nls w)) (auxl w asp)) (numb 0 (vcolors w al)) (numb (length (vcolors w al)) asp)
      (cols 0 (vcol asp (inasp v al) (vcolors w al)) (vlist w asp)) (net_links w ++ aux_links w asp).
  Proof.
    destruct (build_inv v al g Hv Hal Hg) as (cs & -> & ->). split; [done|]. destruct (build_inv w al h Hw) as (cs & -> & ->); [by rewrite <- Hk|done|].
    fold (vcolors w al). destruct (asp_same v w al Hk) as [-> ->]. done.
  Qed.
  Lemma labels_ok : compare_labels g h =
    (if decide (asp = [] \/ length (vcolors v al) = length (vcolors w al)) then Ok (bool_decide (vcolors v al = vcolors w al)) else Err AssertionError).
  Proof.
    destruct two_inv as [-> ->]. unfold compare_labels. cbn. pose proof (eqb_numb_base (length (vcolors v al)) (length (vcolors w al)) asp (NoDup_iasp v al Hal)) as H.
    destruct (dict_eqb (numb (length (vcolors v al)) asp) _) eqn:E.
    - rewrite decide_True by by apply H. f_equal. apply Bool.eq_true_iff_eq. rewrite bool_decide_eq_true. apply eqb_numb0; apply NoDup_vcolors.
    - rewrite decide_False; [done|]. intros Hc. apply H in Hc. congruence.
  Qed.
  Lemma iso_iff : (vcolors v al = vcolors w al /\ graph_isomorphic (g_color g) (g_links g) (g_color h) (g_links h)) <-> exists m, viso (.∈ asp) m v w.
  Proof.
    assert (forall a, a ∈ asp -> a <= v_asp v) as Hr by (intros a; by apply iasp_range).
    pose proof (graph_iff_net v w asp (inasp v al) (vcolors v al) Hv Hw Hk (NoDup_iasp v al Hal) Hr (inasp_asp v al Hal) (NoDup_vcolors v al)) as H.
    destruct two_inv as [-> ->]. cbn. unfold graph_isomorphic. split.
    - intros [Hc Hgi]. apply H; [| |by rewrite <- Hc in Hgi].
      + intros a Ha. apply elem_of_vcolors. eauto.
      + intros a Ha. rewrite Hc. apply elem_of_vcolors. destruct (asp_same v w al Hk) as [_ ->]. eauto.
    - intros [m Hm]. pose proof (viso_colors asp (inasp v al) m v w Hv Hw Hk (inasp_asp v al Hal) Hm) as Hc. fold (vcolors v al) in Hc.
      assert (vcolors w al = vcolors v al) as Hc' by (unfold vcolors at 1; destruct (asp_same v w al Hk) as [_ <-]; done). rewrite Hc'. split; [done|]. apply H; [| |by exists m].
      + intros a Ha. apply elem_of_vcolors. eauto.
      + intros a Ha. rewrite <- Hc'. apply elem_of_vcolors. destruct (asp_same v w al Hk) as [_ ->]. eauto.
  Qed.

  (** ** Reading a vertex map *)
  Lemma inv_numb {K} `{EqDecision K} base (l : list K) j k :
    dget (foldl (fun d kv => dset d (snd kv) (fst kv)) [] (numb base l)) j = Some k <-> exists i, j = base + i /\ l !! i = Some k.
  Proof.
    revert j k. induction l as [|x l IH] using rev_ind; intros j k; [split; [done|by intros (? & _ & ?)]|].
    rewrite numb_snoc, foldl_app. cbn. rewrite dget_dset. destruct (decide (j = base + length l)) as [->|Hj].
    - split.
      + intros [= ->]. exists (length l). split; [done|]. apply lookup_snoc_Some. by right.
      + intros (i & Ei & Hi). assert (i = length l) as -> by lia. apply lookup_snoc_Some in Hi as [[? ?]|[_ ->]]; [lia|done].
    - rewrite IH. split; intros (i & -> & Hi); exists i; (split; [done|]).
      + apply lookup_snoc_Some. left. split; [by eapply lookup_lt_Some|done].
      + apply lookup_snoc_Some in Hi as [[? ?]|[-> _]]; [done|lia].
  Qed.
  Lemma alter_dicts {A} (f : A -> A) a (mp : list A) (d0 : A) i : a < length mp -> default d0 (alter f a mp !! i) = if decide (i = a) then f (default d0 (mp !! a)) else default d0 (mp !! i).
  Proof.
    intros Hl. destruct (decide (i = a)) as [->|Hi]; [|by rewrite list_lookup_alter_ne]. rewrite list_lookup_alter. destruct (lookup_lt_is_Some_2 mp a Hl) as [x ->]. done.
  Qed.

  Definition row (mp : list (dict name name)) (a : nat) : dict name name := default [] (mp !! a).
  Definition dec_step (perm : dict nat nat) (inv : dict nat (nat * name)) (fixed : bool) (mp : list (dict name name)) (kv : nat * name * nat) : res (list (dict name name)) :=
    match dget perm (snd kv) with
    | None => Err KeyError
    | Some j =>
      match dget inv j with
      | None => Err KeyError
      | Some k' =>
        let '(a, e) := fst kv in
        let mp := if negb (bool_decide (e = snd k')) || fixed then alter (fun d => dset d e (snd k')) a mp else mp in
        if decide (a = fst k') then Ok mp else Err AssertionError
      end
    end.
  Definition shown (fixed : bool) (m : nat -> name -> name) (D : nat -> name -> Prop) (mp : list (dict name name)) : Prop :=
    length mp = S (v_asp v) /\ forall a, NoDup (dkeys (row mp a)) /\ forall e e', dget (row mp a) e = Some e' <-> D a e /\ (fixed = true \/ m a e <> e) /\ e' = m a e.
  Lemma shown_ext fixed m D D' mp : (forall a e, D a e <-> D' a e) -> shown fixed m D mp -> shown fixed m D' mp.
  Proof. intros H (H1 & H2). split; [done|]. intros a. destruct (H2 a) as [H3 H4]. split; [done|]. intros e e'. by rewrite H4, H. Qed.
  Lemma shown_set fixed m D mp a e : a <= v_asp v -> (fixed = true \/ m a e <> e) -> shown fixed m D mp ->
    shown fixed m (fun a' e' => D a' e' \/ (a' = a /\ e' = e)) (alter (fun d => dset d e (m a e)) a mp).
  Proof.
    intros Ha Hs (H1 & H2). split; [by rewrite alter_length|]. intros a'. unfold row. rewrite alter_dicts by lia.
    destruct (H2 a') as [H3 H4]. unfold row in H3, H4. destruct (decide (a' = a)) as [->|Hn].
    - split.
      + by apply NoDup_dset.
      + intros x e'. rewrite dget_dset. destruct (decide (x = e)) as [->|Hx].
        * split; [intros [= <-]; eauto|]. by intros (_ & _ & ->).
        * rewrite H4. naive_solver.
    - split; [done|]. intros x e'. rewrite H4. naive_solver.
  Qed.
  Lemma shown_skip fixed m D mp a e : ~ (fixed = true \/ m a e <> e) -> shown fixed m D mp -> shown fixed m (fun a' e' => D a' e' \/ (a' = a /\ e' = e)) mp.
  Proof.
    intros Hs (H1 & H2). split; [done|]. intros a'. destruct (H2 a') as [H3 H4]. split; [done|]. intros x e'. rewrite H4. split; [naive_solver|].
    intros ([HD|[-> ->]] & Hx & ->); [naive_solver|]. done.
  Qed.
  Lemma dec_fold perm inv fixed m : forall l D mp, (forall a e i, (a, e, i) ∈ l -> a <= v_asp v /\ exists j, dget perm i = Some j /\ dget inv j = Some (a, m a e)) ->
    shown fixed m D mp -> exists mp', rfold (dec_step perm inv fixed) mp l = Ok mp' /\ shown fixed m (fun a e => D a e \/ (a, e) ∈ l.*1) mp'.
  Proof.
    induction l as [|[[a e] i] l IH]; intros D mp Hl Hsh.
    - exists mp. split; [done|]. eapply shown_ext; [|done]. intros a e. cbn. rewrite elem_of_nil. naive_solver.
    - destruct (Hl a e i ltac:(by left)) as (Ha & j & Hj & Hij). cbn [rfold]. unfold dec_step at 1. cbn [fst snd]. rewrite Hj, Hij. cbn [fst snd]. rewrite decide_True by done.
      edestruct (IH (fun a' e' => D a' e' \/ (a' = a /\ e' = e))) as (mp' & Hmp' & Hsh').
      { intros a' e' i' Hin. apply Hl. by right. }
      { destruct (decide (fixed = true \/ m a e <> e)) as [Hy|Hn].
        - instantiate (1 := if negb (bool_decide (e = m a e)) || fixed then alter (fun d => dset d e (m a e)) a mp else mp).
          replace (negb (bool_decide (e = m a e)) || fixed) with true; [by apply shown_set|].
          destruct Hy as [->|Hy]; [by destruct (negb _)|]. rewrite bool_decide_eq_false_2 by congruence. done.
        - replace (negb (bool_decide (e = m a e)) || fixed) with false; [by apply shown_skip|].
          destruct fixed; [exfalso; apply Hn; by left|]. rewrite bool_decide_eq_true_2; [done|]. destruct (decide (m a e = e)) as [->|He]; [done|]. exfalso. apply Hn. by right. }
      exists mp'. split; [exact Hmp'|]. eapply shown_ext; [|exact Hsh']. intros a' e'. cbn [fmap list_fmap fst]. rewrite elem_of_cons. naive_solver.
  Qed.
  Lemma fix_fold m : forall l D mp, (forall a, a ∈ l -> a <= v_asp v /\ forall e, m a e = e) -> shown true m D mp ->
    shown true m (fun a e => D a e \/ (a ∈ l /\ vin v a e)) (foldl (fun mp a => alter (fun d => foldl (fun d e => dset d e e) d (default [] (v_slices v !! a))) a mp) mp l).
  Proof.
    induction l as [|a l IH]; intros D mp Hl Hsh.
    - cbn. eapply shown_ext; [|done]. intros a e. rewrite elem_of_nil. naive_solver.
    - cbn [foldl]. destruct (Hl a ltac:(by left)) as [Ha Hm]. eapply shown_ext; [|apply (IH (fun a' e' => D a' e' \/ (a' = a /\ vin v a e')))].
      + intros a' e'. rewrite elem_of_cons. naive_solver.
      + intros a' Hin. apply Hl. by right.
      + destruct Hsh as (H1 & H2). split; [by rewrite alter_length|]. intros a'. unfold row. rewrite alter_dicts by lia.
        destruct (H2 a') as [H3 H4]. unfold row in H3, H4. destruct (decide (a' = a)) as [->|Hn].
        * assert (forall s (d : dict name name), NoDup (dkeys d) -> NoDup (dkeys (foldl (fun d e => dset d e e) d s)) /\
            forall x, dget (foldl (fun d e => dset d e e) d s) x = if decide (x ∈ s) then Some x else dget d x) as Hs.
          { induction s as [|y s IHs]; intros d Hd; [done|]. cbn [foldl]. destruct (IHs (dset d y y)) as [I1 I2]; [by apply NoDup_dset|]. split; [done|].
            intros x. rewrite I2, dget_dset. destruct (decide (x ∈ s)) as [Hx|Hx]; [by rewrite decide_True by by right|].
            destruct (decide (x = y)) as [->|Hxy]; [by rewrite decide_True by by left|]. rewrite decide_False; [done|]. intros [?|?]%elem_of_cons; done. }
          destruct (Hs (default [] (v_slices v !! a)) _ H3) as [I1 I2]. split; [done|]. intros x e'. rewrite I2.
          assert (vin v a x <-> x ∈ default [] (v_slices v !! a)) as Hvin.
          { unfold vin. destruct (v_slices v !! a) as [s|]; cbn; [|rewrite elem_of_nil]; naive_solver. }
          destruct (decide (x ∈ default [] (v_slices v !! a))) as [Hx|Hx].
          -- rewrite Hm. split; [intros [= <-]|by intros (_ & _ & ->)]. split; [right; split; [done|by apply Hvin]|]. by split; [left|].
          -- rewrite H4, Hm. split; [naive_solver|]. intros ([HD|[_ HD]] & _ & ->); [naive_solver|]. by apply Hvin in HD.
        * split; [done|]. intros x e'. rewrite H4. naive_solver.
  Qed.
  Lemma decode_ok perm fixed : vcolors v al = vcolors w al -> graph_iso (fun i => default i (dget perm i)) (g_color g) (g_links g) (g_color h) (g_links h) ->
    (forall i, i ∈ dkeys (g_color g) -> is_Some (dget perm i)) ->
    exists ms m, decode v g h perm fixed = Ok ms /\ viso (.∈ asp) m v w /\
      shown fixed m (fun a e => (a ∈ asp \/ fixed = true) /\ vin v a e) ms /\
      (forall i a e, vlist v asp !! i = Some (inr (a, e)) -> vlist w asp !! default i (dget perm i) = Some (inr (a, m a e))).
  Proof.
    intros Hc Hiso Hperm. assert (forall a, a ∈ asp -> a <= v_asp v) as Hr by (intros a; by apply iasp_range).
    destruct two_inv as [Eg Eh]. rewrite Eg, Eh in Hiso. rewrite <- Hc in Hiso. cbn in Hiso. rewrite Eg in Hperm. cbn in Hperm.
    assert (forall a, a ∈ v_nls v -> nl_slice (inasp v al) a ∈ vcolors v al) as Hcv by (intros a Ha; apply elem_of_vcolors; eauto).
    assert (forall a, a ∈ v_nls w -> nl_slice (inasp v al) a ∈ vcolors v al) as Hcw.
    { intros a Ha. rewrite Hc. apply elem_of_vcolors. destruct (asp_same v w al Hk) as [_ ->]. eauto. }
    pose proof (NoDup_iasp v al Hal) as Hnd.
    destruct (graph_vert_map v w asp (inasp v al) (vcolors v al) Hv Hw Hk Hnd Hr _ Hiso) as (f & Hf & Hvi).
    destruct (vert_kind v w asp (inasp v al) (vcolors v al) Hk Hnd (NoDup_vcolors v al) Hcv Hcw f Hvi) as [_ Hkr].
    set (m := fun k e => if decide (k ∈ asp) then match f (inr (k, e)) with inr (_, e') => e' | inl _ => e end else e).
    assert (forall k e, inr (k, e) ∈ vlist v asp -> f (inr (k, e)) = inr (k, m k e)) as Hm.
    { intros k e Hin. destruct (Hkr k e Hin) as (e' & E & _). unfold m. rewrite E. apply elem_of_vlist_r in Hin as [Hin _]. by rewrite decide_True. }
    assert (forall i a e, vlist v asp !! i = Some (inr (a, e)) -> vlist w asp !! default i (dget perm i) = Some (inr (a, m a e))) as Hpm.
    { intros i a e Hi. rewrite <- (Hm a e) by by eapply elem_of_list_lookup_2. by apply Hf. }
    set (inv := foldl (fun d kv => dset d (snd kv) (fst kv)) [] (numb (length (v_nls w)) (auxl w asp))).
    destruct (dec_fold perm inv fixed m (numb (length (v_nls v)) (auxl v asp)) (fun _ _ => False) (replicate (S (v_asp v)) [])) as (mp & Hmp & Hsh).
    { intros a e i (j & Hj & ->)%elem_of_numb. assert ((a, e) ∈ auxl v asp) as Hin by by eapply elem_of_list_lookup_2. apply elem_of_auxl in Hin as [Hin _]. split; [by apply Hr|].
      assert (vlist v asp !! (length (v_nls v) + j) = Some (inr (a, e))) as Hi by (apply vlist_r; eauto).
      destruct (Hperm (length (v_nls v) + j)) as [i' Hi']; [apply (key_lookup v w asp _ _ Hk); eauto|]. exists i'. split; [done|]. apply inv_numb. specialize (Hpm _ _ _ Hi). rewrite Hi' in Hpm. cbn in Hpm. by apply vlist_r in Hpm. }
    { split; [apply replicate_length|]. intros a. unfold row. assert (default [] (replicate (S (v_asp v)) ([] : dict name name) !! a) = []) as ->.
      { destruct (replicate _ _ !! a) eqn:E; [|done]. by apply lookup_replicate in E as [-> _]. }
      split; [constructor|]. intros e e'. split; [done|]. by intros ([] & _). }
    assert (viso (.∈ asp) m v w) as Hviso.
    { apply (vert_to_net v w asp (inasp v al) (vcolors v al) Hv Hw Hk Hnd (inasp_asp v al Hal) (NoDup_vcolors v al) Hcv Hcw f m Hvi); [done|]. intros k e Hn. unfold m. by rewrite decide_False. }
    assert (shown fixed m (fun a e => a ∈ asp /\ vin v a e) mp) as Hsh'.
    { eapply shown_ext; [|exact Hsh]. intros a e. cbn beta. fold (dkeys (numb (length (v_nls v)) (auxl v asp))). rewrite numb_keys, elem_of_auxl. unfold vin. naive_solver. }
    unfold decode. rewrite Eg, Eh. cbn [g_auxmap g_nasp]. fold inv. change (rfold _ (replicate _ _) _) with (rfold (dec_step perm inv fixed) (replicate (S (v_asp v)) []) (numb (length (v_nls v)) (auxl v asp))).
    rewrite Hmp. cbn [rbind]. eexists _, m. split; [done|]. split; [done|]. split; [|done]. destruct fixed.
    - eapply shown_ext; [|eapply (fix_fold m (inasp v al)); [|exact Hsh']].
      + intros a e. cbn beta. rewrite (inasp_asp v al Hal). split; [naive_solver|]. intros [_ He]. destruct (decide (a ∈ asp)) as [Ha|Ha]; [by left|right]. split; [|done]. split; [|done].
        destruct He as (s & Hs & _). apply lookup_lt_Some in Hs. rewrite (vok_len v Hv) in Hs. lia.
      + intros a Ha. apply (inasp_asp v al Hal) in Ha as [Ha Hn]. split; [done|]. intros e. unfold m. by rewrite decide_False.
    - eapply shown_ext; [|exact Hsh']. intros a e. naive_solver.
  Qed.
End two.
