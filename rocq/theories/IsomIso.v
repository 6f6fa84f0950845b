(** * Isomorphisms of auxiliary graphs are isomorphisms of networks *)
From stdpp Require Import prelude sorting.
From Verif Require Import Base Net NetSpec NetFacts TransFacts TransFacts2 Supra Isom IsomSpec IsomFacts.
Local Open Scope nat_scope.

Lemma vlist_l v asp i a : vlist v asp !! i = Some (inl a) <-> v_nls v !! i = Some a.
Proof.
  unfold vlist. rewrite lookup_app_Some, !list_lookup_fmap. split.
  - intros [H|[_ H]]; [destruct (v_nls v !! i)|destruct (auxl v asp !! _)]; cbn in H; congruence.
  - intros H. left. by rewrite H.
Qed.
Lemma vlist_r v asp i k : vlist v asp !! i = Some (inr k) <-> exists j, i = length (v_nls v) + j /\ auxl v asp !! j = Some k.
Proof.
  unfold vlist. rewrite lookup_app_Some, !list_lookup_fmap, fmap_length. split.
  - intros [H|[Hl H]]; [destruct (v_nls v !! i); cbn in H; congruence|]. exists (i - length (v_nls v)). split; [lia|].
    destruct (auxl v asp !! _); cbn in H; congruence.
  - intros (j & -> & Hj). right. split; [lia|]. by replace (length (v_nls v) + j - length (v_nls v)) with j by lia; rewrite Hj.
Qed.

Section built.
  Context (v : iview) (asp : list nat) (Hv : vok v) (Hnd : NoDup asp) (Hr : forall a, a ∈ asp -> a <= v_asp v).
  Lemma id_l i a : v_nls v !! i = Some a -> id_of (numb 0 (v_nls v)) a = i.
  Proof. intros H. by rewrite (id_of_numb 0 (v_nls v) (vok_nls v Hv) _ i H). Qed.
  Lemma id_r j k : auxl v asp !! j = Some k -> id_of (numb (length (v_nls v)) (auxl v asp)) k = length (v_nls v) + j.
  Proof. intros H. by rewrite (id_of_numb _ _ (NoDup_auxl v asp Hv Hnd) _ j H). Qed.
  Lemma net_links_in i j : (i, j) ∈ net_links v <-> exists a b, v_nls v !! i = Some a /\ v_nls v !! j = Some b /\ b ∈ v_nbr v a.
  Proof.
    unfold net_links. rewrite elem_of_list_bind. split.
    - intros (a & Hin & Ha). apply elem_of_list_fmap in Hin as (b & [= -> ->] & Hb).
      pose proof (vok_nbr v Hv a b Ha Hb) as Hb'. apply elem_of_list_lookup in Ha as [i Hi]. apply elem_of_list_lookup in Hb' as [j Hj].
      exists a, b. by rewrite (id_l i a Hi), (id_l j b Hj).
    - intros (a & b & Hi & Hj & Hb). exists a. split; [|by eapply elem_of_list_lookup_2]. apply elem_of_list_fmap. exists b. by rewrite (id_l i a Hi), (id_l j b Hj).
  Qed.
  Lemma aux_links_in i j : (i, j) ∈ aux_links v asp <-> exists a k e, v_nls v !! i = Some a /\ vlist v asp !! j = Some (inr (k, e)) /\ k ∈ asp /\ a !! k = Some e.
  Proof.
    unfold aux_links. rewrite elem_of_list_bind. split.
    - intros (a & Hin & Ha). apply elem_of_list_fmap in Hin as (k & [= -> ->] & Hk).
      destruct (nl_lookup v a k Hv Ha) as (x & s & Hx & Hs & Hxs); [by apply Hr|]. rewrite Hx. cbn.
      assert ((k, x) ∈ auxl v asp) as [j Hj]%elem_of_list_lookup by (apply elem_of_auxl; eauto). apply elem_of_list_lookup in Ha as [i Hi].
      exists a, k, x. rewrite (id_l i a Hi), (id_r j _ Hj). split; [done|]. split; [|done]. apply vlist_r. eauto.
    - intros (a & k & e & Hi & Hj & Hk & He). apply vlist_r in Hj as (j' & -> & Hj). exists a. split; [|by eapply elem_of_list_lookup_2].
      apply elem_of_list_fmap. exists k. rewrite He. cbn. by rewrite (id_l i a Hi), (id_r j' _ Hj).
  Qed.
  Lemma joined_links i j : joined (net_links v ++ aux_links v asp) i j <-> exists u w, vlist v asp !! i = Some u /\ vlist v asp !! j = Some w /\ vadj v asp u w.
  Proof.
    unfold joined. rewrite !elem_of_app, !net_links_in, !aux_links_in. split.
    - intros [[(a & b & Hi & Hj & Hb)|(a & k & e & Hi & Hj & Hk & He)]|[(a & b & Hi & Hj & Hb)|(a & k & e & Hi & Hj & Hk & He)]].
      + exists (inl a), (inl b). by rewrite !vlist_l.
      + exists (inl a), (inr (k, e)). by rewrite !vlist_l.
      + exists (inl b), (inl a). rewrite !vlist_l. split; [done|]. split; [done|]. cbn. apply Hv; [by eapply elem_of_list_lookup_2|done].
      + exists (inr (k, e)), (inl a). by rewrite !vlist_l.
    - intros (u & w & Hi & Hj & H). destruct u as [a|[k e]], w as [b|[k' e']]; cbn in H; try done; rewrite ?vlist_l in Hi; rewrite ?vlist_l in Hj.
      + left. left. by exists a, b.
      + left. right. by exists a, k', e'.
      + right. right. by exists b, k, e.
  Qed.
End built.

(** Isomorphisms between views. *)
Definition vin (v : iview) (a : nat) (x : name) : Prop := exists s, v_slices v !! a = Some s /\ x ∈ s.
Definition viso (A : nat -> Prop) (m : nat -> name -> name) (v w : iview) : Prop :=
  (forall a, A a -> bijective (vin v a) (vin w a) (m a)) /\
  (forall a x, ~ A a -> m a x = x) /\
  (forall b, b ∈ v_nls w <-> exists a, a ∈ v_nls v /\ b = nl_image m a) /\
  (forall a b, a ∈ v_nls v -> b ∈ v_nls v -> b ∈ v_nbr v a <-> nl_image m b ∈ v_nbr w (nl_image m a)).

(** Isomorphism of the vertices. *)
Definition vert_iso (asp nasp : list nat) (cs : list (list name)) (v w : iview) (f : vx -> vx) : Prop :=
  bijective (.∈ vlist v asp) (.∈ vlist w asp) f /\
  (forall u, u ∈ vlist v asp -> vcol asp nasp cs (f u) = vcol asp nasp cs u) /\
  (forall u u', u ∈ vlist v asp -> u' ∈ vlist v asp -> vadj v asp u u' <-> vadj w asp (f u) (f u')).

Section iso.
  Context (v w : iview) (asp nasp : list nat) (cs : list (list name)).
  Context (Hv : vok v) (Hw : vok w) (Hk : v_asp v = v_asp w).
  Context (Hnd : NoDup asp) (Hr : forall a, a ∈ asp -> a <= v_asp v).
  Context (Hna : forall a, a ∈ nasp <-> a <= v_asp v /\ a ∉ asp).
  Context (Hcs : NoDup cs) (Hcv : forall a, a ∈ v_nls v -> nl_slice nasp a ∈ cs) (Hcw : forall a, a ∈ v_nls w -> nl_slice nasp a ∈ cs).
  Notation V := (vlist v asp). Notation W := (vlist w asp).
  Notation giso f := (graph_iso f (cols 0 (vcol asp nasp cs) V) (net_links v ++ aux_links v asp) (cols 0 (vcol asp nasp cs) W) (net_links w ++ aux_links w asp)).

  Lemma Hrw a : a ∈ asp -> a <= v_asp w. Proof. rewrite <- Hk. apply Hr. Qed.
  Lemma NoDup_V : NoDup V. Proof. by apply NoDup_vlist. Qed.
  Lemma NoDup_W : NoDup W. Proof. by apply NoDup_vlist. Qed.
  Lemma key_lookup (U : list vx) i : i ∈ dkeys (cols 0 (vcol asp nasp cs) U) <-> exists u, U !! i = Some u.
  Proof.
    rewrite cols_keys, elem_of_seq. split.
    - intros [_ H]. by apply lookup_lt_is_Some_2.
    - intros [u Hu]. apply lookup_lt_Some in Hu. lia.
  Qed.
  Lemma get_col (U : list vx) i : dget (cols 0 (vcol asp nasp cs) U) i = vcol asp nasp cs <$> (U !! i).
  Proof. apply (dget_cols 0). Qed.

  Lemma graph_to_vert f g : giso f -> (forall i u, V !! i = Some u -> W !! f i = Some (g u)) -> vert_iso asp nasp cs v w g.
  Proof.
    intros ((Hf & Hinj & Hsur) & Hcol & Hadj) Hg.
    assert (forall u, u ∈ V -> exists i, V !! i = Some u /\ i ∈ dkeys (cols 0 (vcol asp nasp cs) V)) as Hix.
    { intros u [i Hi]%elem_of_list_lookup. exists i. split; [done|]. apply key_lookup. eauto. }
    split; [split; [|split]|split].
    - intros u Hu. destruct (Hix u Hu) as (i & Hi & _). apply Hg in Hi. by eapply elem_of_list_lookup_2.
    - intros u u' Hu Hu' E. destruct (Hix u Hu) as (i & Hi & Hik). destruct (Hix u' Hu') as (j & Hj & Hjk).
      assert (f i = f j) as Eij. { eapply NoDup_lookup; [apply NoDup_W|by apply Hg|]. rewrite E. by apply Hg. }
      apply Hinj in Eij; [|done|done]. congruence.
    - intros u' [j Hj]%elem_of_list_lookup. destruct (Hsur j) as (i & Hi & <-); [apply key_lookup; eauto|].
      apply key_lookup in Hi as [u Hu]. exists u. split; [by eapply elem_of_list_lookup_2|]. apply Hg in Hu. congruence.
    - intros u Hu. destruct (Hix u Hu) as (i & Hi & Hik). specialize (Hcol i Hik). rewrite !get_col, Hi, (Hg i u Hi) in Hcol. by injection Hcol.
    - intros u u' Hu Hu'. destruct (Hix u Hu) as (i & Hi & Hik). destruct (Hix u' Hu') as (j & Hj & Hjk).
      specialize (Hadj i j Hik Hjk). rewrite (joined_links v asp Hv Hnd Hr), (joined_links w asp Hw Hnd Hrw) in Hadj.
      rewrite Hi, Hj, (Hg i u Hi), (Hg j u' Hj) in Hadj. split.
      + intros H. destruct (proj1 Hadj) as (x & y & [= <-] & [= <-] & H'); [eauto|done].
      + intros H. destruct (proj2 Hadj) as (x & y & [= <-] & [= <-] & H'); [eauto|done].
  Qed.
  Lemma vert_to_graph' g : vert_iso asp nasp cs v w g -> exists f, giso f /\ forall i u, V !! i = Some u -> W !! f i = Some (g u).
  Proof.
    intros ((Hf & Hinj & Hsur) & Hcol & Hadj). exists (fun i => match V !! i with Some u => id_of (numb 0 W) (g u) | None => 0 end).
    assert (forall u j, W !! j = Some u -> id_of (numb 0 W) u = j) as Hid by (intros u j Hj; by rewrite (id_of_numb 0 W NoDup_W u j Hj)).
    assert (forall i u, V !! i = Some u -> exists j, W !! j = Some (g u) /\ id_of (numb 0 W) (g u) = j) as Hix.
    { intros i u Hi. assert (g u ∈ W) as [j Hj]%elem_of_list_lookup by (apply Hf; by eapply elem_of_list_lookup_2). eauto. }
    split; [split; [split; [|split]|split]|].
    - intros i [u Hu]%key_lookup. rewrite Hu. destruct (Hix i u Hu) as (j & Hj & ->). apply key_lookup. eauto.
    - intros i i' [u Hu]%key_lookup [u' Hu']%key_lookup. rewrite Hu, Hu'. destruct (Hix i u Hu) as (j & Hj & ->). destruct (Hix i' u' Hu') as (j' & Hj' & ->).
      intros ->. assert (g u = g u') as E by congruence. apply Hinj in E; [|by eapply elem_of_list_lookup_2..]. subst u'. by eapply NoDup_lookup; [apply NoDup_V| |].
    - intros j [y Hy]%key_lookup. destruct (Hsur y) as (u & Hu & E); [by eapply elem_of_list_lookup_2|]. apply elem_of_list_lookup in Hu as [i Hi].
      exists i. split; [apply key_lookup; eauto|]. rewrite Hi, E. by apply Hid.
    - intros i [u Hu]%key_lookup. rewrite !get_col, Hu. destruct (Hix i u Hu) as (j & Hj & ->). rewrite Hj. cbn. f_equal. apply Hcol. by eapply elem_of_list_lookup_2.
    - intros i i' [u Hu]%key_lookup [u' Hu']%key_lookup. rewrite (joined_links v asp Hv Hnd Hr), (joined_links w asp Hw Hnd Hrw).
      rewrite Hu, Hu'. destruct (Hix i u Hu) as (j & Hj & ->). destruct (Hix i' u' Hu') as (j' & Hj' & ->). rewrite Hj, Hj'.
      specialize (Hadj u u' ltac:(by eapply elem_of_list_lookup_2) ltac:(by eapply elem_of_list_lookup_2)). split.
      + intros (x & y & [= <-] & [= <-] & H). exists (g u), (g u'). split; [done|]. split; [done|]. by apply Hadj.
      + intros (x & y & [= <-] & [= <-] & H). exists u, u'. split; [done|]. split; [done|]. by apply Hadj.
    - intros i u Hu. rewrite Hu. destruct (Hix i u Hu) as (j & Hj & ->). done.
  Qed.
  Lemma vert_to_graph g : vert_iso asp nasp cs v w g -> exists f, giso f.
  Proof. intros H. destruct (vert_to_graph' g H) as (f & Hf & _). eauto. Qed.

  (** Colours tell the kinds of vertices, and the aspects, apart. *)
  Lemma vcol_l a : nl_slice nasp a ∈ cs -> vcol asp nasp cs (inl a) < length cs.
  Proof. intros [j Hj]%elem_of_list_lookup. cbn. rewrite (id_of_numb 0 cs Hcs _ j Hj). by apply lookup_lt_Some in Hj. Qed.
  Lemma vcol_r k e : k ∈ asp -> exists j, asp !! j = Some k /\ vcol asp nasp cs (inr (k, e)) = length cs + j.
  Proof. intros [j Hj]%elem_of_list_lookup. exists j. split; [done|]. cbn. by rewrite (id_of_numb (length cs) asp Hnd _ j Hj). Qed.
  Lemma vcol_l_inj a b : nl_slice nasp a ∈ cs -> nl_slice nasp b ∈ cs -> vcol asp nasp cs (inl a) = vcol asp nasp cs (inl b) -> nl_slice nasp a = nl_slice nasp b.
  Proof.
    intros [i Hi]%elem_of_list_lookup [j Hj]%elem_of_list_lookup. cbn. rewrite (id_of_numb 0 cs Hcs _ i Hi), (id_of_numb 0 cs Hcs _ j Hj). cbn. intros <-. congruence.
  Qed.

  Lemma vert_kind g : vert_iso asp nasp cs v w g ->
    (forall a, a ∈ v_nls v -> exists b, g (inl a) = inl b /\ b ∈ v_nls w /\ nl_slice nasp a = nl_slice nasp b) /\
    (forall k e, inr (k, e) ∈ V -> exists e', g (inr (k, e)) = inr (k, e') /\ inr (k, e') ∈ W).
  Proof.
    intros ((Hf & Hinj & Hsur) & Hcol & Hadj). split.
    - intros a Ha. assert (inl a ∈ V) as Hin by by apply elem_of_vlist_l. specialize (Hcol _ Hin). specialize (Hf _ Hin). cbn beta in Hf.
      pose proof (vcol_l a (Hcv a Ha)) as Hlt. destruct (g (inl a)) as [b|[k e]].
      + exists b. apply elem_of_vlist_l in Hf. split; [done|]. split; [done|]. symmetry in Hcol. apply vcol_l_inj in Hcol; [done|by apply Hcv|by apply Hcw].
      + apply elem_of_vlist_r in Hf as [Hf _]. destruct (vcol_r k e Hf) as (j & _ & E). lia.
    - intros k e Hin. pose proof Hin as Hin'. apply elem_of_vlist_r in Hin' as [Hk' _]. specialize (Hcol _ Hin). specialize (Hf _ Hin). cbn beta in Hf.
      destruct (vcol_r k e Hk') as (j & Hj & E). destruct (g (inr (k, e))) as [b|[k' e']].
      + apply elem_of_vlist_l in Hf. pose proof (vcol_l b (Hcw b Hf)). lia.
      + pose proof Hf as Hf'. apply elem_of_vlist_r in Hf' as [Hf' _]. destruct (vcol_r k' e' Hf') as (j' & Hj' & E').
        assert (j = j') as <- by lia. assert (k' = k) as -> by congruence. eauto.
  Qed.

  Lemma slice_eq a b : length a = S (v_asp v) -> length b = S (v_asp v) -> nl_slice nasp a = nl_slice nasp b <-> (forall i, i <= v_asp v -> i ∉ asp -> a !! i = b !! i).
  Proof.
    intros Ha Hb. unfold nl_slice. split.
    - intros E i Hi Hn. assert (i ∈ nasp) as [j Hj]%elem_of_list_lookup by by apply Hna.
      assert ((((fun i => default (NInt 0) (a !! i)) <$> nasp) : list name) !! j = ((fun i => default (NInt 0) (b !! i)) <$> nasp) !! j) as Ej by by rewrite E.
      rewrite !list_lookup_fmap, Hj in Ej. cbn in Ej.
      destruct (lookup_lt_is_Some_2 a i) as [x Hx]; [lia|]. destruct (lookup_lt_is_Some_2 b i) as [y Hy]; [lia|]. rewrite Hx, Hy in Ej |- *. cbn in Ej. congruence.
    - intros H. apply list_fmap_ext. intros j i Hi. f_equal. assert (i ∈ nasp) as Hin by by eapply elem_of_list_lookup_2. apply Hna in Hin as [? ?]. by apply H.
  Qed.

  Lemma vert_to_net g m : vert_iso asp nasp cs v w g -> (forall k e, inr (k, e) ∈ V -> g (inr (k, e)) = inr (k, m k e)) ->
    (forall k e, k ∉ asp -> m k e = e) -> viso (.∈ asp) m v w.
  Proof.
    intros Hg Hm Hid. destruct (vert_kind g Hg) as [Hkl Hkr]. destruct Hg as ((Hf & Hinj & Hsur) & Hcol & Hadj).
    assert (forall a, a ∈ v_nls v -> g (inl a) = inl (nl_image m a) /\ nl_image m a ∈ v_nls w) as Himg.
    { intros a Ha. destruct (Hkl a Ha) as (b & Hb & Hbw & Hsl). assert (b = nl_image m a) as ->; [|done].
      pose proof (nl_len v a Hv Ha) as La. pose proof (nl_len w b Hw Hbw) as Lb. rewrite <- Hk in Lb.
      apply list_eq. intros i. unfold nl_image. rewrite list_lookup_imap. destruct (decide (i <= v_asp v)) as [Hi|Hi].
      - destruct (decide (i ∈ asp)) as [Hia|Hia].
        + destruct (nl_lookup v a i Hv Ha Hi) as (x & s & Hx & Hs & Hxs). rewrite Hx. cbn.
          assert (inr (i, x) ∈ V) as Hin by (apply elem_of_vlist_r; eauto).
          assert (vadj w asp (g (inl a)) (g (inr (i, x)))) as Hwa. { apply Hadj; [by apply elem_of_vlist_l|done|]. done. }
          rewrite Hb, (Hm i x Hin) in Hwa. cbn in Hwa. by destruct Hwa as [_ ->].
        + rewrite (proj1 (slice_eq a b La Lb) Hsl i Hi Hia) in *. destruct (b !! i); [|done]. cbn. by rewrite Hid.
      - rewrite (lookup_ge_None_2 b) by lia. by rewrite (lookup_ge_None_2 a) by lia. }
    split; [|split; [|split]].
    - intros k Hka. split; [|split].
      + intros x Hx. assert (inr (k, x) ∈ V) as Hin by (by apply elem_of_vlist_r). specialize (Hf _ Hin). rewrite (Hm k x Hin) in Hf. by apply elem_of_vlist_r in Hf as [_ ?].
      + intros x y Hx Hy E. assert (inr (k, x) ∈ V) as Hix by (by apply elem_of_vlist_r). assert (inr (k, y) ∈ V) as Hiy by (by apply elem_of_vlist_r).
        assert (g (inr (k, x)) = g (inr (k, y))) as E' by (rewrite (Hm k x Hix), (Hm k y Hiy); congruence). apply Hinj in E'; [|done|done]. congruence.
      + intros y Hy. destruct (Hsur (inr (k, y))) as (u & Hu & E); [by apply elem_of_vlist_r|]. cbn beta in Hu. destruct u as [a|[k' x]].
        * apply elem_of_vlist_l in Hu. destruct (Himg a Hu) as [E' _]. congruence.
        * rewrite (Hm k' x Hu) in E. injection E as -> <-. exists x. apply elem_of_vlist_r in Hu as [_ ?]. done.
    - intros k x Hn. by apply Hid.
    - intros b. split.
      + intros Hb. destruct (Hsur (inl b)) as (u & Hu & E); [by apply elem_of_vlist_l|]. cbn beta in Hu. destruct u as [a|[k x]].
        * apply elem_of_vlist_l in Hu. exists a. split; [done|]. destruct (Himg a Hu) as [E' _]. congruence.
        * rewrite (Hm k x Hu) in E. done.
      + intros (a & Ha & ->). by apply Himg.
    - intros a b Ha Hb. pose proof (Hadj (inl a) (inl b) ltac:(by apply elem_of_vlist_l) ltac:(by apply elem_of_vlist_l)) as H.
      rewrite (proj1 (Himg a Ha)), (proj1 (Himg b Hb)) in H. done.
  Qed.

  Lemma image_inj m a b : viso (.∈ asp) m v w -> a ∈ v_nls v -> b ∈ v_nls v -> nl_image m a = nl_image m b -> a = b.
  Proof.
    intros (Hb1 & Hb2 & _) Ha Hb E. pose proof (nl_len v a Hv Ha) as La. pose proof (nl_len v b Hv Hb) as Lb. apply list_eq. intros i.
    destruct (decide (i <= v_asp v)) as [Hi|Hi]; [|by rewrite !lookup_ge_None_2 by lia].
    destruct (nl_lookup v a i Hv Ha Hi) as (x & s & Hx & Hs & Hxs). destruct (nl_lookup v b i Hv Hb Hi) as (y & s' & Hy & Hs' & Hys).
    assert (nl_image m a !! i = nl_image m b !! i) as Ei by by rewrite E. unfold nl_image in Ei. rewrite !list_lookup_imap, Hx, Hy in Ei. cbn in Ei. injection Ei as Ei.
    rewrite Hx, Hy. f_equal. destruct (decide (i ∈ asp)) as [Hia|Hia].
    - destruct (Hb1 i Hia) as (_ & Hinj & _). apply Hinj; [by exists s|by exists s'|done].
    - by rewrite !Hb2 in Ei.
  Qed.
  Lemma net_to_vert m : viso (.∈ asp) m v w ->
    vert_iso asp nasp cs v w (fun u => match u with inl a => inl (nl_image m a) | inr (k, e) => inr (k, m k e) end).
  Proof.
    intros Hm. pose proof Hm as (Hb1 & Hb2 & Hb3 & Hb4). split; [split; [|split]|split].
    - intros [a|[k e]] Hu.
      + apply elem_of_vlist_l in Hu. apply elem_of_vlist_l, Hb3. eauto.
      + apply elem_of_vlist_r in Hu as [Hka He]. apply elem_of_vlist_r. split; [done|]. by apply (Hb1 k Hka).
    - intros [a|[k e]] [b|[k' e']] Hu Hu' E; try done; injection E as E.
      + f_equal. apply (image_inj m a b); [done|by apply elem_of_vlist_l in Hu|by apply elem_of_vlist_l in Hu'|done].
      + subst k'. apply elem_of_vlist_r in Hu as [Hka He]. apply elem_of_vlist_r in Hu' as [_ He']. do 2 f_equal. by apply (Hb1 k Hka).
    - intros [b|[k y]] Hu.
      + apply elem_of_vlist_l in Hu. apply Hb3 in Hu as (a & Ha & ->). exists (inl a). split; [by apply elem_of_vlist_l|done].
      + apply elem_of_vlist_r in Hu as [Hka Hy]. destruct (Hb1 k Hka) as (_ & _ & Hs). destruct (Hs y Hy) as (x & Hx & <-). exists (inr (k, x)). split; [by apply elem_of_vlist_r|done].
    - intros [a|[k e]] Hu; [|done]. cbn [vcol]. f_equal. apply elem_of_vlist_l in Hu. pose proof (nl_len v a Hv Hu) as La. symmetry.
      apply slice_eq; [done|by unfold nl_image; rewrite imap_length|]. intros i Hi Hn. unfold nl_image. rewrite list_lookup_imap. destruct (a !! i); [|done]. cbn. by rewrite Hb2.
    - intros [a|[k e]] [b|[k' e']] Hu Hu'; cbn [vadj]; [| | |done].
      + apply elem_of_vlist_l in Hu. apply elem_of_vlist_l in Hu'. by apply Hb4.
      + apply elem_of_vlist_l in Hu. apply elem_of_vlist_r in Hu' as [Hka He']. unfold nl_image. rewrite list_lookup_imap.
        destruct (nl_lookup v a k' Hv Hu) as (x & s & Hx & Hs & Hxs); [by apply Hr|]. rewrite Hx. cbn. split; intros [_ H]; (split; [done|]); injection H as H; [by rewrite H|].
        f_equal. apply (Hb1 k' Hka); [by exists s|done|done].
      + apply elem_of_vlist_l in Hu'. apply elem_of_vlist_r in Hu as [Hka He']. unfold nl_image. rewrite list_lookup_imap.
        destruct (nl_lookup v b k Hv Hu') as (x & s & Hx & Hs & Hxs); [by apply Hr|]. rewrite Hx. cbn. split; intros [_ H]; (split; [done|]); injection H as H; [by rewrite H|].
        f_equal. apply (Hb1 k Hka); [by exists s|done|done].
  Qed.
  (** The vertex map of a graph isomorphism. *)
  Lemma graph_vert_map f : giso f -> exists g, (forall i u, V !! i = Some u -> W !! f i = Some (g u)) /\ vert_iso asp nasp cs v w g.
  Proof.
    intros Hf. exists (fun u => default u (W !! f (id_of (numb 0 V) u))).
    assert (forall i u, V !! i = Some u -> W !! f i = Some (default u (W !! f (id_of (numb 0 V) u)))) as Hg.
    { intros i u Hi. rewrite (id_of_numb 0 V NoDup_V u i Hi). cbn. destruct Hf as ((Hf & _) & _). specialize (Hf i ltac:(apply key_lookup; eauto)).
      apply key_lookup in Hf as [x ->]. done. }
    split; [done|]. by eapply graph_to_vert.
  Qed.
  Lemma graph_iff_net : (exists f, giso f) <-> exists m, viso (.∈ asp) m v w.
  Proof.
    split.
    - intros [f Hf]. destruct (graph_vert_map f Hf) as (g & _ & Hg). destruct (vert_kind g Hg) as [_ Hkr].
      exists (fun k e => if decide (k ∈ asp) then match g (inr (k, e)) with inr (_, e') => e' | inl _ => e end else e).
      apply (vert_to_net g); [done| |].
      + intros k e Hin. destruct (Hkr k e Hin) as (e' & E & _). rewrite E. apply elem_of_vlist_r in Hin as [Hin _]. by rewrite decide_True.
      + intros k e Hn. by rewrite decide_False.
    - intros [m Hm]. eapply vert_to_graph. by apply (net_to_vert m).
  Qed.
End iso.
