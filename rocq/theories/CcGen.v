(** * Reads, neighbours and node sets of a one-aspect multiplex network, for any coupling
    and any directedness *)
From Verif Require Import CcMore MpxIter NetIter MpxSpec CcSpec CcFacts.
Open Scope Z_scope.

(** There is a link between [x] and [y] on layer [l] that [net[x,y,l]] shows. *)
Definition lkb (p : mpx) (l x y : name) : bool := negb (bool_decide (x = y)) && negb (bool_decide (wt p l x y = 0)).
(** What [net[x,y,l]] returns. *)
Definition rdw (p : mpx) (l x y : name) : Z := if decide (x = y) then 0 else wt p l x y.

Section Gen.
  Context (cs : list coupling) (dir fi : bool) (h : list call) (p : mpx) (Hi : pinv cs dir 0 fi h p) (Hcs : length cs = 1%nat).
  Let Hp : pwf p := pi_wf _ _ _ _ _ _ Hi.
  Lemma g_asp : maspects p = 1%nat.
  Proof. unfold maspects. by rewrite (pi_coup _ _ _ _ _ _ Hi). Qed.
  Lemma g_noe : mnoe p = 0. Proof. apply Hi. Qed.
  Lemma g_dir : mdir p = dir. Proof. apply Hi. Qed.
  Lemma g_lays_eq : mslices p !! 1%nat = Some (lays p).
  Proof.
    unfold lays. destruct (mslices p !! 1%nat) eqn:E; [done|]. apply lookup_ge_None in E. rewrite (pw_len p Hp), g_asp in E. lia.
  Qed.
  Lemma g_layers1_eq : layers1 p = Ok (lays p).
  Proof. unfold layers1, mget_layers. by rewrite g_lays_eq. Qed.
  Lemma g_NoDup_lays : NoDup (lays p).
  Proof. eapply (Forall_lookup_1 _ _ 1%nat); [apply (pw_nd p Hp)|apply g_lays_eq]. Qed.
  Lemma g_NoDup_mnodes : NoDup (mnodes p).
  Proof. eapply (Forall_lookup_1 _ _ 0%nat); [apply (pw_nd p Hp)|by apply slice0]. Qed.
  Lemma g_lays_psl l : l ∈ lays p <-> psl p 1 l.
  Proof. unfold psl. rewrite g_lays_eq. split; [eauto|]. by intros (s & [= <-] & ?). Qed.
  Lemma g_lays_mhas l : l ∈ lays p <-> mhas p 1 l.
  Proof. unfold mhas, mget_layers. rewrite g_lays_eq. split; [eauto|]. by intros (s & [= <-] & ?). Qed.
  Lemma g_nodes_mhas x : x ∈ mnodes p <-> mhas p 0 x.
  Proof. unfold mhas, mget_layers. rewrite slice0 by done. split; [eauto|]. by intros (s & [= <-] & ?). Qed.
  Lemma g_lay_view l : l ∈ lays p <-> exists m, pA p (LBare l) = Some m.
  Proof.
    rewrite g_lays_psl. split.
    - intros Hl. apply lay_pA; [done| |]; simpl; [split; [apply g_asp|done]|apply g_asp].
    - intros [m Hm]. destruct (pA_lay p _ _ Hp Hm) as [[_ Hd] _]. done.
  Qed.
  Lemma g_view_good l m : pA p (LBare l) = Some m -> good m /\ aspects m = 0%nat /\ noEdge m = 0 /\ directed m = dir.
  Proof.
    intros Hm. destruct (pi_view _ _ _ _ _ _ Hi _ _ Hm) as (g & Hh & _). pose proof (hist_good _ _ _ _ _ _ Hh) as Hgd.
    destruct (hist_inv _ _ _ _ _ _ Hh) as [_ HL Ha Hn Hd _]. done.
  Qed.
  Lemma g_wt_view l m x y : pA p (LBare l) = Some m -> wt p l x y = w0 m x y.
  Proof. intros Hm. unfold wt. by rewrite Hm. Qed.
  Lemma g_w0_linked m x y : good m -> aspects m = 0%nat -> noEdge m = 0 -> w0 m x y <> 0 <-> linked m [x] [y].
  Proof.
    intros Hg Ha Hn. rewrite linked_lnk, <- rd_noEdge by done. unfold w0. rewrite weight_rd by done. by rewrite Hn.
  Qed.
  Lemma g_wt_sym l x y : dir = false -> wt p l x y = wt p l y x.
  Proof.
    intros Hdir. unfold wt. destruct (pA p (LBare l)) as [m|] eqn:Hm; [|done]. destruct (g_view_good _ _ Hm) as ([HS HL] & Ha & Hn & Hd).
    rewrite Hdir in Hd. unfold w0. rewrite !weight_rd by done. unfold rd. by rewrite (wfL_sym m HL Hd).
  Qed.
  Lemma g_aget l x y : l ∈ lays p -> agetitem p (LBare l) [x; y] = Ok (wt p l x y).
  Proof. intros [m Hm]%g_lay_view. unfold agetitem, wt. by rewrite Hm. Qed.
  Lemma g_wt_loops l x : no_loops p -> wt p l x x = 0.
  Proof.
    intros Hs. unfold wt. destruct (pA p (LBare l)) as [m|] eqn:Hm; [|done]. apply (Hs l x). unfold agetitem. by rewrite Hm.
  Qed.
  Lemma g_wt_lays l x y : wt p l x y <> 0 -> l ∈ lays p.
  Proof. unfold wt. destruct (pA p (LBare l)) as [m|] eqn:Hm; [|done]. intros _. apply g_lay_view. eauto. Qed.
  Lemma g_wt_present l m x y : pA p (LBare l) = Some m -> wt p l x y <> 0 -> x ∈ net_nodes m /\ y ∈ net_nodes m.
  Proof.
    intros Hm. unfold wt. rewrite Hm. destruct (g_view_good _ _ Hm) as (Hg & Ha & Hn & Hd). intros Hb.
    apply g_w0_linked, linked_lnk in Hb as [v Hv]; [|done..]. destruct (wfL_present m (proj2 Hg) _ _ _ Hv) as [H1 H2].
    assert (forall z, [z] ∈ iter_node_layers m -> z ∈ net_nodes m) as Hz.
    { intros z Hz. apply elem_of_iter_node_layers in Hz as [Hz _]; [|apply Hg].
      unfold nl_in_slices in Hz. pose proof (wfS_len m (proj1 Hg)) as Hl. rewrite Ha in Hl. unfold net_nodes.
      destruct (slices m) as [|s [|]]; [done| |done]. by inversion Hz. }
    split; by apply Hz.
  Qed.
  (** The nodes of a layer. *)
  Lemma g_view_nodes l m x : pA p (LBare l) = Some m -> x ∈ net_nodes m <-> mexists p [x; l].
  Proof.
    intros Hm. destruct (mfic p) eqn:Hf.
    - rewrite (pA_nodes_fic _ _ _ Hm Hf), mexists_iff, Hf, mnodes_psl by done. split.
      + intros Hx. split; [by rewrite g_asp|]. intros [|[|k]] y; cbn; [by intros [= <-]|intros [= <-]|by destruct k].
        apply g_lays_psl, g_lay_view. eauto.
      + intros [_ Hc]. by apply (Hc 0%nat).
    - rewrite mexists_nf by (done || rewrite ?g_asp; done || lia). unfold pA in Hm. rewrite Hf in Hm.
      destruct (dget (mA p) (LBare l)) as [m'|] eqn:E; [|done]. injection Hm as ->.
      rewrite g_asp. simpl. by rewrite (pw_node p Hp Hf _ _ x E).
  Qed.
  Lemma g_ex_in x l : mexists p [x; l] -> x ∈ mnodes p /\ l ∈ lays p.
  Proof.
    intros (_ & Hc & _)%(mexists_psl p _ Hp). split; [apply mnodes_psl; by apply (Hc 0%nat)|apply g_lays_psl; by apply (Hc 1%nat)].
  Qed.
  Lemma g_wt_ex l x y : wt p l x y <> 0 -> mexists p [x; l] /\ mexists p [y; l].
  Proof.
    intros Hz. pose proof (g_wt_lays _ _ _ Hz) as [m Hm]%g_lay_view. rewrite <- !(g_view_nodes l m) by done. by apply (g_wt_present l m).
  Qed.
  (** Reading. *)
  Lemma g_read_intra x y l : pget_pair p [x; l] [y; l] = Ok (rdw p l x y).
  Proof.
    unfold rdw. destruct (decide (x = y)) as [->|Hne].
    - rewrite pget_pair_none, g_noe; [done|done|]. intros d (_ & Hd & Hk). by apply (proj1 (Hk d)).
    - rewrite pget_pair_intra by by apply differ_at_0. rewrite g_asp. unfold wt. change (lkey 1 (tail [x; l])) with (LBare l). rewrite g_noe. by destruct (pA p (LBare l)).
  Qed.
  Lemma g_read3 x y l : pgetitem p [x; y; l] = Ok (rdw p l x y).
  Proof. rewrite (pgetitem_pair p _ [x; l] [y; l]); [apply g_read_intra|]. rewrite g_asp. by apply names_short. Qed.
  Lemma g_mreads x y l v : mreads p [x; l] [y; l] v <-> v = rdw p l x y.
  Proof. rewrite mreads_pair by (by rewrite g_asp). rewrite g_read_intra. split; [by intros [=]|by intros ->]. Qed.
  Lemma lkb_rdw l x y : lkb p l x y = true <-> rdw p l x y <> 0.
  Proof.
    unfold lkb, rdw. rewrite andb_true_iff, !negb_true_iff, !bool_decide_eq_false. destruct (decide (x = y)); tauto.
  Qed.
  Lemma lkb_wt l x y : lkb p l x y = true <-> x <> y /\ wt p l x y <> 0.
  Proof. unfold lkb. by rewrite andb_true_iff, !negb_true_iff, !bool_decide_eq_false. Qed.
  Lemma g_mlinked x y l : mlinked p [x; l] [y; l] <-> lkb p l x y = true.
  Proof.
    rewrite lkb_rdw. unfold mlinked. setoid_rewrite g_mreads. rewrite g_noe. split; [by intros (v & -> & ?)|eauto].
  Qed.
  Lemma g_lnkb x y l : lnkb p x y l = Ok (lkb p l x y).
  Proof.
    unfold lnkb. rewrite g_read3. cbn [rbind]. rewrite g_noe. f_equal. apply eq_true_iff_eq.
    by rewrite negb_true_iff, bool_decide_eq_false, lkb_rdw.
  Qed.
  Lemma lkb_in l x y : lkb p l x y = true -> x <> y /\ x ∈ mnodes p /\ y ∈ mnodes p /\ l ∈ lays p.
  Proof.
    intros [Hne Hz]%lkb_wt. destruct (g_wt_ex _ _ _ Hz) as [[??]%g_ex_in [??]%g_ex_in]. done.
  Qed.
  (** Neighbours on a layer, in either direction. *)
  Lemma g_nbs0_NoDup l m x : pA p (LBare l) = Some m -> NoDup (nbs0 m x).
  Proof.
    intros Hm. destruct (g_view_good _ _ Hm) as (Hg & Ha & Hn & Hd). destruct (iter_total_exact m [x] None Hg I) as [HN HE].
    unfold nbs0. apply NoDup_fmap_2_strong; [|done]. intros a b Ha' Hb' He.
    assert (forall c, c ∈ iter_total m [x] None -> length c = 1%nat) as Hl.
    { intros c Hc. apply HE in Hc as [[(_ & Hc & _)|(Hc & _)] _]; by rewrite Ha in Hc. }
    pose proof (Hl a Ha') as La. pose proof (Hl b Hb') as Lb.
    destruct a as [|a []]; try done. destruct b as [|b []]; try done. simpl in He. unfold node_of in He. simpl in He. congruence.
  Qed.
  Lemma g_elem_of_nbs0 l m x y : pA p (LBare l) = Some m -> y ∈ nbs0 m x <-> wt p l x y <> 0 \/ wt p l y x <> 0.
  Proof.
    intros Hm. destruct (g_view_good _ _ Hm) as (Hg & Ha & Hn & Hd). destruct (iter_total_exact m [x] None Hg I) as [HN HE].
    rewrite !(g_wt_view _ _ _ _ Hm), !g_w0_linked by done. unfold nbs0. rewrite elem_of_list_fmap. split.
    - intros (c & -> & Hc). apply HE in Hc as [Hc _]. assert (length c = 1%nat) as Hl.
      { destruct Hc as [(_ & Hc & _)|(Hc & _)]; by rewrite Ha in Hc. }
      destruct c as [|c []]; done.
    - intros Hl. exists [y]. split; [done|]. by apply HE.
  Qed.
  Lemma g_intra l : l ∈ lays p -> exists m, intra p (LBare l) = Ok m /\ pA p (LBare l) = Some m.
  Proof. intros [m Hm]%g_lay_view. exists m. unfold intra. by rewrite Hm. Qed.
End Gen.

(** ** Counting *)
Definition b2z (b : bool) : Z := if b then 1 else 0.
Lemma b2z_andb a b : b2z (a && b) = b2z a * b2z b.
Proof. by destruct a, b. Qed.
Lemma b2z_01 b : b2z b = 0 \/ b2z b = 1.
Proof. destruct b; auto. Qed.
Definition bfilter {A} (f : A -> bool) (L : list A) : list A := List.filter f L.
Lemma elem_of_bfilter {A} (f : A -> bool) L x : x ∈ bfilter f L <-> f x = true /\ x ∈ L.
Proof. unfold bfilter. rewrite !elem_of_list_In, filter_In. tauto. Qed.
Lemma NoDup_bfilter {A} (f : A -> bool) L : NoDup L -> NoDup (bfilter f L).
Proof. intros H. apply NoDup_ListNoDup, List.NoDup_filter. by apply NoDup_ListNoDup. Qed.
Lemma length_bfilter {A} (f : A -> bool) L : Z.of_nat (length (bfilter f L)) = zsumf (fun x => b2z (f x)) L.
Proof. unfold bfilter. induction L as [|x L IH]; [done|]. cbn [List.filter]. rewrite zsumf_cons, <- IH. destruct (f x); cbn [length b2z]; lia. Qed.
Definition prodl {A B} (L : list A) (M : list B) : list (A * B) := L ≫= fun x => pair x <$> M.
Lemma elem_of_prodl {A B} (L : list A) (M : list B) q : q ∈ prodl L M <-> q.1 ∈ L /\ q.2 ∈ M.
Proof.
  destruct q as [x y]. unfold prodl. rewrite elem_of_list_bind. split.
  - intros (z & (w & [= -> ->] & ?)%elem_of_list_fmap & ?). done.
  - intros [? ?]. exists x. split; [|done]. apply elem_of_list_fmap. eauto.
Qed.
Lemma NoDup_prodl {A B} (L : list A) (M : list B) : NoDup L -> NoDup M -> NoDup (prodl L M).
Proof.
  intros HL HM. apply NoDup_bind; [done| |].
  - intros x _. apply NoDup_fmap; [by intros ?? [=]|done].
  - intros x y q _ _ (? & -> & _)%elem_of_list_fmap (? & [= -> ->] & _)%elem_of_list_fmap. done.
Qed.
Lemma zsumf_prodl {A B} (f : A * B -> Z) (L : list A) (M : list B) : zsumf f (prodl L M) = zsumf (fun x => zsumf (fun y => f (x, y)) M) L.
Proof. unfold prodl. rewrite zsumf_bind. apply zsumf_ext. intros x _. by rewrite zsumf_fmap. Qed.
Lemma zsumf_filter_b {A} (P : A -> Prop) `{!forall x, Decision (P x)} (f : A -> Z) l :
  zsumf f (filter P l) = zsumf (fun x => b2z (bool_decide (P x)) * f x) l.
Proof.
  rewrite zsumf_filter. apply zsumf_ext. intros x _. destruct (decide (P x)).
  - rewrite bool_decide_true by done. unfold b2z. lia.
  - rewrite bool_decide_false by done. unfold b2z. lia.
Qed.
