(** * Property C78: the configuration model for multiplex networks *)
From Verif Require Import MpxConf MpxConfFacts ConfFacts ModelsSpec ModelsFacts MpxHist MpxIter MpxRelabel PropsNet PropsMpx PropsTrans TransFacts PropsConf PropsPrune PropsModels.
Local Open Scope nat_scope.

(** ** Specification *)
(** [m], the intra-layer network [p.A[l]], is a simple network with the degrees [degs]
    (see [realises]); the node-layers of [p] on layer [l] are the keys of [degs] and the
    links of [p] between different nodes of the layer are those of [m]. *)
Definition layer_realises (p : mpx) (l : name) (degs : list (name * nat)) : Prop :=
  exists m, pA p (LBare l) = Some m /\ realises degs m /\
    (forall x, mexists p [x; l] <-> x ∈ degs.*1) /\
    (forall x y w, x <> y -> mreads p [x; l] [y; l] w <-> reads m [x] [y] w).

(** ** Proofs *)
Definition hl (l : name) (os : list lop) : list call := okc (MAddLayer l 1) :: (okc <$> (lop_mop l <$> os)).
Fixpoint hlog {B} (ls : list (name * B)) (logs : list (list lop)) : list call :=
  match ls, logs with t :: ls', os :: logs' => hl (t.1) os ++ hlog ls' logs' | _, _ => [] end.
Lemma mspec_addlayer l l' h x y : mspec 1 false (LBare l') (h ++ [okc (MAddLayer l 1)]) x y = mspec 1 false (LBare l') h x y.
Proof. by rewrite mspec_app. Qed.
Lemma mspec_hl l l' os h x y : l' <> l -> mspec 1 false (LBare l') (h ++ hl l os) x y = mspec 1 false (LBare l') h x y.
Proof.
  intros Hne. unfold hl. change (okc (MAddLayer l 1) :: ?r) with ([okc (MAddLayer l 1)] ++ r). rewrite app_assoc.
  rewrite mspec_other by done. apply mspec_addlayer.
Qed.
Lemma mspec_hlog_other {B} (ls : list (name * B)) l : forall logs h x y, l ∉ ls.*1 -> mspec 1 false (LBare l) (h ++ hlog ls logs) x y = mspec 1 false (LBare l) h x y.
Proof.
  induction ls as [|t ls IH]; intros [|os logs] h x y Hl; cbn [hlog]; rewrite ?app_nil_r; try done.
  rewrite fmap_cons in Hl. apply not_elem_of_cons in Hl as [H1 H2]. rewrite app_assoc, IH by done. by apply mspec_hl.
Qed.
Lemma mspec_hlog {B} (ls : list (name * B)) : forall logs h, NoDup (ls.*1) -> (forall l x y, l ∈ ls.*1 -> mspec 1 false (LBare l) h x y = 0%Z) ->
  forall i t os x y, ls !! i = Some t -> logs !! i = Some os -> mspec 1 false (LBare (t.1)) (h ++ hlog ls logs) x y = lrun os x y.
Proof.
  induction ls as [|t ls IH]; intros [|os logs] h Hnd Hf i t' os' x y Ht Ho; try done. rewrite fmap_cons in Hnd, Hf. apply NoDup_cons in Hnd as [Hn Hnd].
  cbn [hlog]. rewrite app_assoc. destruct i as [|i]; cbn in Ht, Ho.
  - injection Ht as <-. injection Ho as <-. rewrite mspec_hlog_other by done. unfold hl. change (okc (MAddLayer (t.1) 1) :: ?r) with ([okc (MAddLayer (t.1) 1)] ++ r). rewrite app_assoc.
    apply mspec_lrun. intros. rewrite mspec_addlayer. apply Hf. by left.
  - apply (IH logs _ Hnd) with (i := i); [|done..]. intros l a b Hl. rewrite mspec_hl by (intros ->; done). apply Hf. by right.
Qed.
Definition sconf (t : name * (list (name * nat) * outcomes)) : res mlnet :=
  single_layer_conf (t.2.1) (o_sh (t.2.2)) (o_order (t.2.2)) (o_rnd (t.2.2)).
Lemma conf_loop c fi ls : forall h p, mhist [c] false 0 fi h p -> NoDup (ls.*1) -> (forall l x y, l ∈ ls.*1 -> mspec 1 false (LBare l) h x y = 0%Z) ->
  match rfold conf_layer p ls with
  | Ok p' => exists logs, Forall2 (fun t os => exists n, sconf t = Ok n /\ hist 0 0 false true (lop_op <$> os) n) ls logs /\ mhist [c] false 0 fi (h ++ hlog ls logs) p'
  | Err e => exists t, t ∈ ls /\ sconf t = Err e
  end.
Proof.
  induction ls as [|[l [degs o]] ls IH]; intros h p H Hnd Hf; cbn [rfold]; [exists []; split; [constructor|]; cbn; by rewrite app_nil_r|].
  rewrite fmap_cons in Hnd, Hf. cbn [fst] in *. apply NoDup_cons in Hnd as [Hn Hnd]. unfold conf_layer at 1.
  destruct (do_mop_safe _ _ _ _ _ _ (MAddLayer l 1) H eq_refl) as (p1 & E1 & H1). rewrite E1. cbn [rbind].
  assert (mhas p1 1 l) as Hl.
  { apply (C51_nodes_layers_exact _ _ _ _ _ _ H1); [done|]. exists (okc (MAddLayer l 1)). split; [apply elem_of_app; right; by left|]. cbn. auto. }
  assert (forall x y, mspec 1 false (LBare l) (h ++ [okc (MAddLayer l 1)]) x y = 0%Z) as Hf1 by (intros; rewrite mspec_addlayer; apply Hf; by left).
  pose proof (layer_conf_sim c fi _ p1 l H1 Hl Hf1 degs (o_sh o) (o_order o) (o_rnd o)) as Hsim.
  destruct (single_layer_conf degs _ _ _) as [n|e] eqn:Es, (layer_conf l p1 degs _ _ _) as [p2|e'] eqn:El; try done; cbn [rbind].
  2: { cbn in Hsim. subst e'. exists (l, (degs, o)). split; [by left|exact Es]. }
  destruct Hsim as [os HL]. destruct (logged_hist c fi _ p1 l H1 Hl _ _ _ HL) as [Hh Hm]. rewrite <- app_assoc in Hm. change ([okc (MAddLayer l 1)] ++ ?r) with (okc (MAddLayer l 1) :: r) in Hm. fold (hl l os) in Hm.
  specialize (IH _ _ Hm Hnd). destruct (rfold conf_layer p2 ls) as [p'|e].
  - destruct IH as (logs & HF & Hp').
    { intros l' x y Hl'. rewrite mspec_hl by (intros ->; done). apply Hf. by right. }
    exists (os :: logs). split; [constructor; [|done]; exists n; split; [exact Es|done]|]. cbn [hlog fst]. by rewrite app_assoc.
  - destruct IH as (t & Ht & He).
    { intros l' x y Hl'. rewrite mspec_hl by (intros ->; done). apply Hf. by right. }
    exists t. split; [by right|done].
Qed.
Lemma elem_of_hlog {B} (ls : list (name * B)) : forall logs e, length ls = length logs -> e ∈ hlog ls logs <->
  exists i t os, ls !! i = Some t /\ logs !! i = Some os /\ (e = okc (MAddLayer (t.1) 1) \/ exists o, o ∈ os /\ e = okc (lop_mop (t.1) o)).
Proof.
  induction ls as [|t ls IH]; intros [|os logs] e Hl; try done; cbn [hlog].
  - split; [by intros ?%elem_of_nil|]. intros (i & t & os & Ht & _). by rewrite lookup_nil in Ht.
  - injection Hl as Hl. rewrite elem_of_app, (IH logs e Hl). unfold hl. rewrite elem_of_cons, <- list_fmap_compose, elem_of_list_fmap. split.
    + intros [[->|(o & -> & Ho)]|(i & t' & os' & Ht & Ho & H)].
      * exists 0, t, os. auto.
      * exists 0, t, os. eauto 6.
      * exists (S i), t', os'. auto.
    + intros ([|i] & t' & os' & Ht & Ho & H).
      * injection Ht as <-. injection Ho as <-. left. destruct H as [->|(o & Ho & ->)]; [by left|right]. by exists o.
      * right. exists i, t', os'. auto.
Qed.
Lemma lop_names os n x : hist 0 0 false true (lop_op <$> os) n -> has_elem n 0 x <-> exists o, o ∈ os /\ lnames o x.
Proof.
  intros H. rewrite (C12_nodes_and_layers_exact _ _ _ _ _ _ H). rewrite decide_True by done.
  assert (forall o, mentions 0 true (lop_op o) 0 x <-> lnames o x) as Hm.
  { intros [y|a b w]; cbn [lop_op lnames mentions].
    - split; [intros [[_ ?]|[[? _]|[? _]]]; done|auto].
    - split.
      + intros (u & v & w' & [_ Hn] & Hx). destruct (names_link_inv _ _ _ _ Hn) as (Hu & Hv & Hi). destruct u as [|u []], v as [|v []]; try done.
        assert (a = u /\ b = v) as [-> ->]. { destruct Hi as [[_ Hi]|[_ Hi]]; [by injection Hi|]. unfold short_link_to_link in Hi. cbn in Hi. by injection Hi. } cbn in Hx. destruct Hx as [[= ->]|[= ->]]; auto.
      + intros Hx. exists [a], [b], w. split; [split; [done|exact (names_short 0 a b [] eq_refl)]|]. destruct Hx as [-> | ->]; auto. }
  split.
  - intros (o & (o' & -> & Ho)%elem_of_list_fmap & Hx). exists o'. split; [done|]. by apply Hm.
  - intros (o & Ho & Hx). exists (lop_op o). split; [apply elem_of_list_fmap; eauto|]. by apply Hm.
Qed.
Lemma layer_elem cs0 dir noe fi h p l m x : mhist [cs0] dir noe fi h p -> mhas p 1 l -> pA p (LBare l) = Some m -> has_elem m 0 x <-> mexists p [x; l].
Proof.
  intros Hi%mhist_inv Hl Hm. pose proof (pi_wf _ _ _ _ _ _ Hi) as Hw. rewrite has_elem_sl, <- net_nodes_sl, mexists_iff by done.
  rewrite (pinv_asp _ _ _ _ _ _ Hi). cbn [length]. destruct (mfic p) eqn:Hf.
  - rewrite (pA_nodes_fic _ _ _ Hm Hf). apply psl_mhas in Hl. assert (x ∈ mnodes p <-> psl p 0 x) as ->.
    { unfold mnodes, psl. destruct (mslices p !! 0) as [s|]; cbn; [naive_solver|]. rewrite elem_of_nil. naive_solver. }
    split; [intros Hx; split; [done|]; intros [|[|k]] y; cbn; [by intros [= <-]|by intros [= <-]|done]|].
    intros [_ H]. by apply (H 0).
  - assert (dget (mA p) (LBare l) = Some m) as Hm'. { unfold pA in Hm. destruct (dget (mA p) (LBare l)); [|done]. by rewrite Hf in Hm. }
    rewrite (pw_node p Hw Hf _ _ x Hm'). split.
    + intros Hx. exists x, (LBare l). done.
    + intros (y & [l'|ls] & Hl' & E & Hx); cbn in E; [by injection E as -> ->|]. destruct Hl' as [? _]. lia.
Qed.
(** The layer [l] of [p] is the network [n]. *)
Definition layer_is (p : mpx) (l : name) (m n : mlnet) : Prop :=
  pA p (LBare l) = Some m /\ reachable m /\ aspects m = 0 /\ directed m = false /\ noEdge m = 0%Z /\
  reachable n /\ aspects n = 0 /\ noEdge n = 0%Z /\
  (forall x, mexists p [x; l] <-> has_elem n 0 x) /\
  (forall x, has_elem m 0 x <-> has_elem n 0 x) /\ (forall x y, rd m [x] [y] = rd n [x] [y]) /\
  (forall x y w, x <> y -> mreads p [x; l] [y; l] w <-> reads m [x] [y] w).
Lemma layer_is_linked p l m n x y : layer_is p l m n -> linked m [x] [y] <-> linked n [x] [y].
Proof.
  intros (_ & Hr & Ha & _ & Hn & Hr' & Ha' & Hn' & _ & _ & Hrd & _). rewrite !linked_rd by by apply reachable_good. by rewrite Hn, Hn', Hrd.
Qed.
Lemma layer_is_reads p l m n x y w : layer_is p l m n -> reads m [x] [y] w <-> reads n [x] [y] w.
Proof.
  intros (_ & _ & Ha & _ & Hn & _ & Ha' & Hn' & _ & _ & Hrd & _). rewrite !reads_rd by (by rewrite ?Ha, ?Ha'). by rewrite Hrd.
Qed.
Lemma layer_is_realises p l m n degs : layer_is p l m n -> realises degs n -> layer_realises p l degs.
Proof.
  intros HI (R1 & R2 & R3 & R4 & R5 & R6 & R7). pose proof HI as (Hm & Hr & Ha & Hd & _ & _ & _ & _ & Hex & Hel & _ & Hrd).
  exists m. split; [done|]. split; [|split; [|done]].
  - split; [done|]. split; [done|]. split; [done|]. split_and!.
    + intros x. by rewrite Hel.
    + intros x. by rewrite (layer_is_linked _ _ _ _ _ _ HI).
    + intros x y. rewrite (layer_is_linked _ _ _ _ _ _ HI), (layer_is_reads _ _ _ _ _ _ _ HI). apply R6.
    + intros x k Hk. destruct (R7 x k Hk) as (L & HL & Hlen). exists L. split; [|done]. eapply lists_exactly_iff; [|exact HL]. intros y. simpl. by rewrite (layer_is_linked _ _ _ _ _ _ HI).
  - intros x. by rewrite Hex.
Qed.
Lemma conf_core c fi ls p : NoDup (ls.*1) -> (forall t, t ∈ ls -> NoDup (t.2.1.*1)) ->
  (fi = true -> forall t t' x, t ∈ ls -> t' ∈ ls -> x ∈ t.2.1.*1 -> x ∈ t'.2.1.*1) ->
  rfold conf_layer (new_mpx [c] false 0 fi) ls = Ok p ->
  exists h, mhist [c] false 0 fi h p /\ (forall l, mhas p 1 l <-> l ∈ ls.*1) /\
    forall t, t ∈ ls -> exists n m, sconf t = Ok n /\ layer_is p (t.1) m n.
Proof.
  intros Hnd Hk Hal E. pose proof (conf_loop c fi ls [] (new_mpx [c] false 0 fi) (mhist_init _ _ _ _) Hnd ltac:(done)) as Hloop. rewrite E in Hloop.
  destruct Hloop as (logs & HF & H). cbn [app] in H. exists (hlog ls logs). pose proof (Forall2_length _ _ _ HF) as Hlen. split; [done|].
  assert (forall l, mhas p 1 l <-> l ∈ ls.*1) as Hlay.
  { intros l. rewrite (C51_nodes_layers_exact _ _ _ _ _ _ H) by done. split.
    - intros (e & (i & t & os & Ht & Ho & [->|(o & Hin & ->)])%elem_of_hlog & He); [| |done].
      + cbn in He. destruct He as (_ & -> & _). apply elem_of_list_fmap. exists t. split; [done|]. by eapply elem_of_list_lookup_2.
      + destruct o; cbn in He; destruct He as (_ & ? & _); done.
    - intros (t & -> & Ht)%elem_of_list_fmap. apply elem_of_list_lookup in Ht as [i Ht].
      destruct (lookup_lt_is_Some_2 logs i) as [os Ho]; [rewrite <- Hlen; by eapply lookup_lt_Some|].
      exists (okc (MAddLayer (t.1) 1)). split; [apply elem_of_hlog; [done|]; exists i, t, os; auto|]. cbn. auto. }
  split; [done|]. intros t Ht. apply elem_of_list_lookup in Ht as [i Ht].
  destruct (Forall2_lookup_l _ _ _ _ _ HF Ht) as (os & Ho & n & Es & Hn). exists n.
  assert (mhas p 1 (t.1)) as Hl. { apply Hlay, elem_of_list_fmap. exists t. split; [done|]. by eapply elem_of_list_lookup_2. }
  destruct (mhas_pA _ _ _ _ _ _ _ H Hl) as [m Hm]. exists m. split; [done|].
  pose proof (mhist_inv _ _ _ _ _ _ H) as Hi. destruct (hist_inv _ _ _ _ _ _ Hn) as [HSn _ Han Hnn Hdn _].
  destruct (pi_view _ _ _ _ _ _ Hi _ _ Hm) as (g & Hg & _). destruct (hist_inv _ _ _ _ _ _ Hg) as [HS _ Ha Hnm Hd _].
  assert (forall x y, rd m [x] [y] = mspec 1 false (LBare (t.1)) (hlog ls logs) x y) as Hrd.
  { intros x y. change 1 with (length [c]). rewrite <- (view_get _ _ _ _ _ _ _ _ _ _ Hi Hm). change (get_link m [x; y]) with (weight m [x] [y]). by rewrite weight_rd. }
  assert (forall x y, rd m [x] [y] = rd n [x] [y]) as Hrdn.
  { intros x y. rewrite Hrd. change (hlog ls logs) with ([] ++ hlog ls logs). rewrite (mspec_hlog ls logs [] Hnd ltac:(done) i t os x y Ht Ho).
    rewrite (hist_refines _ _ _ _ _ _ Hn). symmetry. apply spec_lrun. }
  assert (forall x, mexists p [x; t.1] <-> has_elem n 0 x) as Hex.
  { intros x. rewrite (C51_node_layers_exact _ _ _ _ _ _ H) by done. destruct fi.
    - cbn [length]. assert (forall l' os', (exists j, exists t', ls !! j = Some t' /\ logs !! j = Some os' /\ l' = t'.1) -> (exists o, o ∈ os' /\ lnames o x) -> has_elem n 0 x) as Hall.
      { intros l' os' (j & t' & Ht' & Ho' & ->) Hx. destruct (Forall2_lookup_lr _ _ _ _ _ _ HF Ht' Ho') as (n' & Es' & Hn'). apply (lop_names _ _ _ Hn') in Hx.
        assert (t' ∈ ls) as Hin' by by eapply elem_of_list_lookup_2. assert (t ∈ ls) as Hin by by eapply elem_of_list_lookup_2.
        destruct (C36_degrees _ _ _ _ _ (Hk _ Hin') Es') as (_ & _ & _ & R & _). destruct (C36_degrees _ _ _ _ _ (Hk _ Hin) Es) as (_ & _ & _ & R' & _).
        apply R', (Hal eq_refl t' t x Hin' Hin), R, Hx. }
      split.
      + intros [_ Hx]. destruct (Hx 0 x eq_refl) as (e & (j & t' & os' & Ht' & Ho' & [->|(o & Hin & ->)])%elem_of_hlog & He); [| |done].
        * cbn in He. by destruct He as (? & _).
        * apply (Hall (t'.1) os'); [eauto|]. exists o. split; [done|]. destruct o as [y|a b w]; cbn in He; destruct He as (_ & _ & He); cbn; [done|].
          apply elem_of_cons in He as [->|He]; [by left|]. apply elem_of_list_singleton in He. by right.
      + intros Hx. split; [done|]. intros [|[|k]] y; cbn; [intros [= <-]|intros [= <-]|done].
        * apply (lop_names _ _ _ Hn) in Hx as (o & Hin & Hx). exists (okc (lop_mop (t.1) o)). split; [apply elem_of_hlog; [done|]; exists i, t, os; eauto 8|].
          destruct o as [y|a b w]; cbn in *; [done|]. split; [done|]. split; [done|]. destruct Hx as [-> | ->]; [by left|right; by left].
        * exists (okc (MAddLayer (t.1) 1)). split; [apply elem_of_hlog; [done|]; exists i, t, os; auto|]. cbn. auto.
    - rewrite (lop_names _ _ _ Hn). split.
      + intros (e & y & l' & (j & t' & os' & Ht' & Ho' & [->|(o & Hin & ->)])%elem_of_hlog & [Hl' Hc] & Exl); [done| |done].
        assert (LBare (t'.1) = l' /\ lnames o y) as [<- Hy].
        { destruct o as [z|a b w]; cbn in Hc; destruct Hc as (_ & -> & Hc); (split; [done|]); cbn; [done|]. apply elem_of_cons in Hc as [->|Hc]; [by left|]. apply elem_of_list_singleton in Hc. by right. }
        cbn in Exl. injection Exl as -> Et. assert (i = j) as <-. { apply (NoDup_lookup (ls.*1) i j (t.1)); [done| |]; rewrite list_lookup_fmap; [by rewrite Ht|by rewrite Ht', Et]. }
        assert (os' = os) as -> by congruence. eauto.
      + intros (o & Hin & Hx). exists (okc (lop_mop (t.1) o)), x, (LBare (t.1)). split; [apply elem_of_hlog; [done|]; exists i, t, os; eauto 8|]. split; [|done]. split; [done|].
        destruct o as [y|a b w]; cbn in *; [done|]. split; [done|]. split; [done|]. destruct Hx as [-> | ->]; [by left|right; by left]. }
  split; [done|]. split; [by repeat eexists|]. split; [done|]. split; [done|]. split; [done|]. split; [by repeat eexists|]. split; [done|]. split; [done|]. split; [done|]. split; [|split; [done|]].
  - intros x. by rewrite (layer_elem _ _ _ _ _ _ _ _ x H Hl Hm).
  - intros x y w Hne. change ([x; t.1]) with (nl_of x (LBare (t.1))). change ([y; t.1]) with (nl_of y (LBare (t.1))).
    rewrite (mreads_intra _ _ _ _ _ _ (LBare (t.1)) x y w Hi) by done. rewrite Hm. rewrite reads_rd by by rewrite Ha. by rewrite Hrd.
Qed.
Lemma consec_head {A} (R : A -> A -> bool) : (forall x y z, R x y = true -> R y z = true -> R x z = true) ->
  forall l x, consec R (x :: l) = true -> forall y, y ∈ l -> R x y = true.
Proof.
  intros Ht. induction l as [|z l IH]; intros x H y Hy; [by apply elem_of_nil in Hy|]. cbn [consec] in H. apply andb_prop in H as [H1 H2].
  apply elem_of_cons in Hy as [->|Hy]; [done|]. eapply Ht; [exact H1|]. by apply IH.
Qed.
Lemma consec_all {A} (R : A -> A -> bool) : (forall x, R x x = true) -> (forall x y, R x y = true -> R y x = true) ->
  (forall x y z, R x y = true -> R y z = true -> R x z = true) -> forall l, consec R l = true -> forall x y, x ∈ l -> y ∈ l -> R x y = true.
Proof.
  intros Hr Hs Ht [|z l] H x y Hx Hy; [by apply elem_of_nil in Hx|]. pose proof (consec_head R Ht l z H) as Hh.
  assert (forall u, u ∈ z :: l -> R z u = true) as Hz by (intros u [->|Hu]%elem_of_cons; auto). eapply Ht; [apply Hs; by apply Hz|by apply Hz].
Qed.
Lemma aligned_nodes_same ds a b x : aligned_nodes ds = true -> a ∈ ds -> b ∈ ds -> x ∈ a.*1 -> x ∈ b.*1.
Proof.
  intros H Ha Hb. assert (same_set (a.*1) (b.*1) = true) as Hs.
  { apply (consec_all (fun a b => same_set (a.*1) (b.*1))) with (l := ds); try done; clear; unfold same_set.
    - intros. by apply bool_decide_eq_true.
    - intros x y []%bool_decide_eq_true. by apply bool_decide_eq_true.
    - intros x y z [H1 H2]%bool_decide_eq_true [H3 H4]%bool_decide_eq_true. apply bool_decide_eq_true. split; by etrans. }
  apply bool_decide_eq_true in Hs as [Hs _]. by apply Hs.
Qed.
Lemma aligned_dist_same ds a b : aligned_dist ds = true -> a ∈ ds -> b ∈ ds -> sum_list (a.*2) = sum_list (b.*2).
Proof.
  intros H Ha Hb. apply Nat.eqb_eq. apply (consec_all (fun a b => sum_list (a.*2) =? sum_list (b.*2))) with (l := ds); try done; clear.
  - intros. apply Nat.eqb_refl.
  - intros x y ->%Nat.eqb_eq. apply Nat.eqb_refl.
  - intros x y z ->%Nat.eqb_eq ->%Nat.eqb_eq. apply Nat.eqb_refl.
Qed.
Lemma conf_nodes_core c ls p : NoDup (ls.*1) -> (forall l degs o, (l, (degs, o)) ∈ ls -> NoDup (degs.*1)) -> conf_nodes c ls = Ok p ->
  exists fi h, mhist [c] false 0 fi h p /\ (forall l, mhas p 1 l <-> l ∈ ls.*1) /\
    forall t, t ∈ ls -> exists n m, sconf t = Ok n /\ layer_is p (t.1) m n.
Proof.
  intros Hnd Hk E. unfold conf_nodes in E. exists (aligned_nodes (fst <$> ls.*2)). apply conf_core; [done| | |done].
  - intros [l [degs o]] Ht. by eapply Hk.
  - intros Hal t t' x Ht Ht'. apply (aligned_nodes_same _ (t.2.1) (t'.2.1) x Hal); rewrite <- list_fmap_compose; apply elem_of_list_fmap; eauto.
Qed.

(** ** Theorems *)
(** degstype "nodes": the layers of the result are those asked for, with the couplings
    asked for, and each of them is a simple network with exactly the prescribed degrees,
    whatever the random outcomes.  (The keys of a dict are pairwise different.) *)
Theorem C78_degrees c ls p : NoDup (ls.*1) -> (forall l degs o, (l, (degs, o)) ∈ ls -> NoDup (degs.*1)) -> conf_nodes c ls = Ok p ->
  (exists fi h, mhist [c] false 0 fi h p) /\ (forall l, mhas p 1 l <-> l ∈ ls.*1) /\
  forall l degs o, (l, (degs, o)) ∈ ls -> layer_realises p l degs.
Proof.
  intros Hnd Hk E. destruct (conf_nodes_core c ls p Hnd Hk E) as (fi & h & H & Hl & Hall). split; [eauto|]. split; [done|].
  intros l degs o Ht. destruct (Hall _ Ht) as (n & m & Es & HI). eapply layer_is_realises; [exact HI|]. eapply C36_degrees; [by eapply Hk|exact Es].
Qed.
(** It fails only if one of the layers fails. *)
Theorem C78_failures c ls e : NoDup (ls.*1) -> conf_nodes c ls = Err e -> exists l degs o, (l, (degs, o)) ∈ ls /\ conf_failure degs e.
Proof.
  intros Hnd E. unfold conf_nodes in E. pose proof (conf_loop c (aligned_nodes (fst <$> ls.*2)) ls [] _ (mhist_init _ _ _ _) Hnd ltac:(done)) as H. rewrite E in H.
  destruct H as ([l [degs o]] & Ht & Es). exists l, degs, o. split; [done|]. by eapply C36_failures.
Qed.
(** degstype "distribution": the nodes of a layer are 0..N-1, where N is the number of
    nodes of its distribution, and for every pair (k,c) of it exactly c of them have k
    neighbours. *)
Definition layer_distributed (p : mpx) (l : name) (dist : list (nat * nat)) : Prop :=
  exists m, pA p (LBare l) = Some m /\ reachable m /\ aspects m = 0 /\ directed m = false /\
    (forall x, mexists p [x; l] <-> exists i, i < sum_list (dist.*2) /\ x = NInt (Z.of_nat i)) /\
    (forall x, ~ linked m [x] [x]) /\ (forall x y, linked m [x] [y] -> reads m [x] [y] 1) /\
    (forall x y w, x <> y -> mreads p [x; l] [y; l] w <-> reads m [x] [y] w) /\
    forall k c, (k, c) ∈ dist -> exists X, length X = c /\
      lists_exactly X (fun x => mexists p [x; l] /\ exists L, lists_exactly L (fun y => linked m [x] [y]) /\ length L = k).
Definition to_nodes (t : name * (list (nat * nat) * list nat * outcomes)) : name * (list (name * nat) * outcomes) :=
  (t.1, (dist_degs (t.2.1.1) (t.2.1.2), t.2.2)).
Lemma dist_fold ls : forall p, 
  match rfold conf_layer_dist p ls with
  | Ok p' => rfold conf_layer p (to_nodes <$> ls) = Ok p' /\ Forall (fun t => t.2.1.2 ≡ₚ seq 0 (sum_list (t.2.1.1.*2))) ls
  | Err e => rfold conf_layer p (to_nodes <$> ls) = Err e \/ e = OutOfFuel
  end.
Proof.
  induction ls as [|[l [[dist perm] o]] ls IH]; intros p; [done|]. cbn [rfold fmap list_fmap]. unfold conf_layer_dist, conf_layer. cbn [to_nodes fst snd].
  fold conf_layer. fold conf_layer_dist. destruct (do_mop p (MAddLayer l 1)) as [p1|e]; cbn [rbind]; [|by left].
  destruct (decide (perm ≡ₚ seq 0 (sum_list (dist.*2)))) as [Hp|Hp]; [|by right].
  destruct (layer_conf l p1 _ _ _ _) as [p2|e]; cbn [rbind]; [|by left]. specialize (IH p2). destruct (rfold conf_layer_dist p2 ls) as [p'|e]; [|done].
  destruct IH as [IH1 IH2]. split; [done|]. by constructor.
Qed.
Lemma dist_keys dist perm : perm ≡ₚ seq 0 (sum_list (dist.*2)) ->
  NoDup ((dist_degs dist perm).*1) /\ forall x, x ∈ (dist_degs dist perm).*1 <-> exists i, i < sum_list (dist.*2) /\ x = NInt (Z.of_nat i).
Proof.
  intros Hp. assert ((dist_degs dist perm).*1 = (fun i => NInt (Z.of_nat i)) <$> perm) as ->.
  { apply fst_zip. rewrite fmap_length, Hp, seq_length. apply Nat.eq_le_incl. clear. induction dist as [|[k c] d IH]; [done|]. rewrite bind_cons, app_length, replicate_length, <- IH. done. }
  split; [apply NoDup_fmap_2; [by intros ?? [= ?%Nat2Z.inj]|]; rewrite Hp; apply NoDup_seq|].
  intros x. rewrite elem_of_list_fmap. setoid_rewrite Hp. setoid_rewrite elem_of_seq. split; intros (i & H1 & H2); exists i; (split; [first [done|lia]|first [done|lia]]).
Qed.
Theorem C78_distribution c ls p : NoDup (ls.*1) -> (forall l dist perm o, (l, (dist, perm, o)) ∈ ls -> NoDup (dist.*1)) -> conf_dist c ls = Ok p ->
  (exists fi h, mhist [c] false 0 fi h p) /\ (forall l, mhas p 1 l <-> l ∈ ls.*1) /\
  forall l dist perm o, (l, (dist, perm, o)) ∈ ls -> layer_distributed p l dist.
Proof.
  intros Hnd Hk E. unfold conf_dist in E. pose proof (dist_fold ls (new_mpx [c] false 0 (aligned_dist ((fun t => t.2.1.1) <$> ls)))) as H. rewrite E in H.
  destruct H as [E' Hp]. rewrite Forall_forall in Hp.
  assert ((to_nodes <$> ls).*1 = ls.*1) as Hfst by (rewrite <- list_fmap_compose; by apply list_fmap_ext).
  edestruct (conf_core c) as (h & H & Hl & Hall); [by rewrite Hfst| | |exact E'|].
  - intros t (t0 & -> & Ht)%elem_of_list_fmap. cbn. by apply dist_keys, Hp.
  - intros Hal t t' x (t0 & -> & Ht)%elem_of_list_fmap (t0' & -> & Ht')%elem_of_list_fmap. cbn. rewrite (proj2 (dist_keys _ _ (Hp _ Ht))), (proj2 (dist_keys _ _ (Hp _ Ht'))).
    rewrite (aligned_dist_same _ (t0.2.1.1) (t0'.2.1.1) Hal); [done| |]; apply elem_of_list_fmap; eauto.
  - split; [eauto|]. split; [intros l; by rewrite Hl, Hfst|]. intros l dist perm o Ht.
    destruct (Hall (to_nodes (l, (dist, perm, o)))) as (n & m & Es & HI); [apply elem_of_list_fmap; eauto|]. cbn in Es.
    assert (single_layer_conf_dist dist perm (o_sh o) (o_order o) (o_rnd o) = Ok n) as Es'. { unfold single_layer_conf_dist. rewrite decide_True by exact (Hp _ Ht). exact Es. }
    destruct (C36_distribution _ _ _ _ _ _ (Hk _ _ _ _ Ht) Es') as (R1 & R2 & R3 & R4 & R5 & R6 & R7).
    pose proof HI as (Hm & Hr & Ha & Hd & _ & _ & _ & _ & Hex & Hel & _ & Hrd). cbn [to_nodes fst] in *.
    exists m. split; [done|]. split; [done|]. split; [done|]. split; [done|]. split_and!.
    + intros x. by rewrite Hex.
    + intros x. by rewrite (layer_is_linked _ _ _ _ _ _ HI).
    + intros x y. rewrite (layer_is_linked _ _ _ _ _ _ HI), (layer_is_reads _ _ _ _ _ _ _ HI). apply R6.
    + done.
    + intros k c' Hkc. destruct (R7 k c' Hkc) as (X & HX & HL). exists X. split; [done|]. eapply lists_exactly_iff; [|exact HL]. intros x. simpl. rewrite Hex.
      split; intros [H1 (L & HL1 & HL2)]; (split; [done|]); exists L; (split; [|done]); (eapply lists_exactly_iff; [|exact HL1]); intros y; simpl; by rewrite (layer_is_linked _ _ _ _ _ _ HI).
Qed.
Theorem C78_distribution_failures c ls e : NoDup (ls.*1) -> conf_dist c ls = Err e ->
  e = OutOfFuel \/ exists l dist perm o, (l, (dist, perm, o)) ∈ ls /\ conf_failure (dist_degs dist perm) e.
Proof.
  intros Hnd E. unfold conf_dist in E. pose proof (dist_fold ls (new_mpx [c] false 0 (aligned_dist ((fun t => t.2.1.1) <$> ls)))) as H. rewrite E in H.
  destruct H as [H| ->]; [|by left]. right.
  assert ((to_nodes <$> ls).*1 = ls.*1) as Hfst by (rewrite <- list_fmap_compose; by apply list_fmap_ext).
  pose proof (conf_loop c (aligned_dist ((fun t => t.2.1.1) <$> ls)) (to_nodes <$> ls) [] _ (mhist_init _ _ _ _) ltac:(by rewrite Hfst) ltac:(done)) as Hc. rewrite H in Hc.
  destruct Hc as (t & ([l [[dist perm] o]] & -> & Ht)%elem_of_list_fmap & Es). exists l, dist, perm, o. split; [done|]. eapply C36_failures. exact Es.
Qed.
(** conf of a multiplex network: the same layers and node-layers, and every node has the
    same degree on every layer.  The coupling is always ("categorical",1.0). *)
Lemma realises_degree degs n x k : realises degs n -> (x, k) ∈ degs -> degree n [x] None = Z.of_nat k.
Proof.
  intros (H1 & H2 & H3 & H4 & H5 & H6 & H7) Hx. destruct (H7 x k Hx) as (L & [HL1 HL2] & Hl).
  destruct H1 as (asp' & noe' & dir' & fi' & h' & H'). destruct (hist_inv _ _ _ _ _ _ H') as [_ _ _ _ Hd' _].
  destruct (C08_total_degree_exact _ _ _ _ _ _ H' [x] None I ltac:(left; congruence)) as (L' & [HL1' HL2'] & ->). f_equal. rewrite <- Hl.
  assert (forall b, linked n b [x] -> linked n [x] b) as Hsym. { intros b Hb. assert (good n) as Hg by by eapply hist_good. rewrite linked_rd in Hb by done. rewrite linked_rd by done. by rewrite rd_sym. }
  rewrite <- (fmap_length (fun y => [y]) L). apply Permutation_length, NoDup_same_perm; [done|by apply NoDup_fmap_2; [intros ?? [=]|]|].
  intros b. rewrite HL2', elem_of_list_fmap. split.
  + intros [[Hb|Hb%Hsym] _]; (assert (length b = 1) as Hlb; [destruct (C12_links_between_node_layers _ _ _ _ _ _ H' _ _ Hb) as (_ & Hp & _);
      destruct (present_slices n b (proj1 (hist_good _ _ _ _ _ _ H')) Hp) as [-> _]; by rewrite H2|]); destruct b as [|y [|]]; try done; exists y; (split; [done|]); by apply HL2.
  + intros (y & -> & Hy%HL2). split; [by left|done].
Qed.
Lemma degree_nonneg m x : reachable m -> (0 <= degree m [x] None)%Z.
Proof.
  intros (asp & noe & dir & fi & h & H). destruct dir.
  - destruct (C08_directed_degree_drift _ _ _ _ _ H [x]) as (L & R & _ & _ & ->). lia.
  - destruct (C08_total_degree_exact _ _ _ _ _ _ H [x] None I ltac:(by left)) as (L & _ & ->). lia.
Qed.
Lemma mlayers_nodup p : pwf p -> NoDup (mlayers p).
Proof.
  intros Hp. unfold mlayers. pose proof (pw_nd p Hp) as Hnd. case_decide.
  - apply NoDup_fmap; [by intros ?? [= ?]|]. apply NoDup_cart. by apply Forall_drop.
  - case_decide; [|constructor]. apply NoDup_fmap; [by intros ?? [= ?]|]. destruct (mslices p !! 1%nat) as [s|] eqn:E; [|constructor].
    simpl. rewrite Forall_lookup in Hnd. by apply (Hnd 1%nat).
Qed.
Lemma zip_fst {A B} (ds : list (name * A)) : forall os : list B, length os = length ds -> (zip_with (fun d o => (d.1, (d.2, o))) ds os).*1 = ds.*1.
Proof. induction ds as [|d ds IH]; intros [|o os] H; try done. cbn. f_equal. apply IH. cbn in H. lia. Qed.
Theorem C78_same_degrees c0 dir noe fi h p os q : mhist [c0] dir noe fi h p -> conf_of_mpx p os = Ok q ->
  (exists fi' h', mhist [CCat 1] false 0 fi' h' q) /\
  (forall l, mhas q 1 l <-> mhas p 1 l) /\
  (forall x l, mexists q [x; l] <-> mexists p [x; l]) /\
  forall l, mhas p 1 l -> exists m m', pA p (LBare l) = Some m /\ pA q (LBare l) = Some m' /\
    (forall x, ~ linked m' [x] [x]) /\ (forall x y, linked m' [x] [y] -> reads m' [x] [y] 1) /\
    forall x, mexists p [x; l] -> degree m' [x] None = degree m [x] None.
Proof.
  intros H E. pose proof (mhist_inv _ _ _ _ _ _ H) as Hi. unfold conf_of_mpx in E. destruct (decide (maspects p = 1)) as [Ha|]; [|done].
  destruct (rmapM (layer_degs p) (mlayers p)) as [ds|] eqn:Er; [|done]. cbn [rbind] in E. apply Supra.rmapM_Forall2 in Er.
  assert (ds = [] \/ (length os = length ds /\ conf_nodes (CCat 1) (zip_with (fun d o => (d.1, (d.2, o))) ds os) = Ok q)) as E'.
  { destruct ds; [by left|]. right. destruct (decide _); [split; [done|exact E]|done]. }
  destruct E' as [->|[Hlen Eq]]; [done|]. clear E.
  assert (NoDup (mlayers p)) as Hndl by by apply mlayers_nodup, Hi.
  assert (forall l, LBare l ∈ mlayers p <-> mhas p 1 l) as Hlay.
  { intros l. rewrite elem_of_mlayers by apply Hi. rewrite Ha. rewrite <- psl_mhas. unfold lay_in, full_form. rewrite Ha. naive_solver. }
  assert (Forall2 (fun l d => l = LBare (d.1) /\ exists m, pA p (LBare (d.1)) = Some m /\ d.2 = (fun y => (y, Z.to_nat (degree m [y] None))) <$> iter_nodes m None) (mlayers p) ds) as HF.
  { eapply Forall2_impl; [exact Er|]. intros [l|ts] d Hd; unfold layer_degs in Hd; [|done]. destruct (pA p (LBare l)) as [m|] eqn:Em; [|done]. injection Hd as <-. cbn. eauto. }
  assert (forall l, l ∈ ds.*1 <-> mhas p 1 l) as Hds.
  { intros l. rewrite <- Hlay. split.
    - intros (d & -> & Hd)%elem_of_list_fmap. apply elem_of_list_lookup in Hd as [i Hd]. destruct (Forall2_lookup_r _ _ _ _ _ HF Hd) as (l & Hl & -> & _). by eapply elem_of_list_lookup_2.
    - intros Hl. apply elem_of_list_lookup in Hl as [i Hl]. destruct (Forall2_lookup_l _ _ _ _ _ HF Hl) as (d & Hd & [= ->] & _). apply elem_of_list_fmap. exists d. split; [done|]. by eapply elem_of_list_lookup_2. }
  assert (NoDup (ds.*1)) as Hndd.
  { assert (mlayers p = LBare <$> ds.*1) as Eml.
    { apply list_eq. intros i. rewrite !list_lookup_fmap. destruct (mlayers p !! i) as [l|] eqn:El.
      - destruct (Forall2_lookup_l _ _ _ _ _ HF El) as (d & -> & -> & _). done.
      - destruct (ds !! i) as [d|] eqn:Ed; [|done]. destruct (Forall2_lookup_r _ _ _ _ _ HF Ed) as (l & Hl & _). congruence. }
    rewrite Eml in Hndl. by apply NoDup_fmap_1 in Hndl. }
  assert (forall l degs o, (l, (degs, o)) ∈ zip_with (fun d o => (d.1, (d.2, o))) ds os ->
    mhas p 1 l /\ exists m, pA p (LBare l) = Some m /\ reachable m /\ degs = (fun y => (y, Z.to_nat (degree m [y] None))) <$> iter_nodes m None /\ degs.*1 = iter_nodes m None /\ NoDup (iter_nodes m None) /\ forall x, x ∈ iter_nodes m None <-> mexists p [x; l]) as Hin.
  { intros l degs o Hz. apply elem_of_lookup_zip_with in Hz as (i & d & o' & [= -> -> ->] & Hd & Ho). destruct (Forall2_lookup_r _ _ _ _ _ HF Hd) as (l' & Hl' & -> & m & Hm & Edd).
    assert (mhas p 1 (d.1)) as Hl. { apply Hlay. by eapply elem_of_list_lookup_2. } split; [done|]. exists m. split; [done|].
    destruct (layer_view _ _ _ _ _ _ _ _ H Hm) as (Hr & _). split; [done|]. split; [done|]. split; [rewrite Edd, <- list_fmap_compose; apply list_fmap_id|].
    destruct (pi_view _ _ _ _ _ _ Hi _ _ Hm) as (g & Hg & _). destruct (C13_nodes_of_layer _ _ _ _ _ _ Hg) as (Hnd & Hx & _). split; [done|].
    intros x. rewrite Hx. by eapply layer_elem. }
  assert ((zip_with (fun d o => (d.1, (d.2, o))) ds os).*1 = ds.*1) as Hfst by by apply zip_fst.
  destruct (C78_degrees _ _ _ ltac:(by rewrite Hfst) ltac:(intros l degs o (_ & m & _ & _ & _ & -> & ? & _)%Hin; done) Eq) as ((fi' & h' & Hq) & Hlq & Hall).
  assert (forall l, mhas q 1 l <-> mhas p 1 l) as Hlqp by (intros l; by rewrite Hlq, Hfst, Hds).
  assert (forall l, mhas p 1 l -> exists degs o, (l, (degs, o)) ∈ zip_with (fun d o => (d.1, (d.2, o))) ds os) as Hsome.
  { intros l Hl%Hlqp%Hlq. apply elem_of_list_fmap in Hl as ([l' [degs o]] & -> & Ht). eauto. }
  split; [eauto|]. split; [done|]. split.
  - intros x l. assert (mhas p 1 l -> mexists q [x; l] <-> mexists p [x; l]) as Hgo.
    { intros Hl. destruct (Hsome l Hl) as (degs & o & Ht). destruct (Hall _ _ _ Ht) as (m & _ & _ & Hex & _). destruct (Hin _ _ _ Ht) as (_ & m' & _ & _ & _ & E1 & _ & Hx). rewrite Hex, E1. apply Hx. }
    assert (forall cs dir noe fi h p, mhist [cs] dir noe fi h p -> mexists p [x; l] -> mhas p 1 l) as Hhas.
    { clear. intros cs dir noe fi h p H Hx. apply psl_mhas. destruct (mexists_psl p [x; l]) as (_ & Hp & _); [by apply (mhist_inv _ _ _ _ _ _ H)|done|]. by apply (Hp 1). }
    split; intros Hx; apply Hgo; try done; [by apply Hlqp, (Hhas _ _ _ _ _ _ Hq)|by apply (Hhas _ _ _ _ _ _ H)].
  - intros l Hl. destruct (Hsome l Hl) as (degs & o & Ht). destruct (Hall _ _ _ Ht) as (m' & Hm' & HR & Hex & _). destruct (Hin _ _ _ Ht) as (_ & m & Hm & Hr & Ed & E1 & _ & Hx).
    exists m, m'. split; [done|]. split; [done|]. pose proof HR as (_ & _ & _ & _ & R5 & R6 & _). split; [done|]. split; [done|]. intros x Hxl%Hx.
    rewrite (realises_degree degs m' x (Z.to_nat (degree m [x] None)) HR); [apply Z2Nat.id; by apply degree_nonneg|]. rewrite Ed. apply elem_of_list_fmap. eauto.
Qed.
Theorem C78_more_aspects p os : maspects p <> 1 -> conf_of_mpx p os = Err AssertionError.
Proof. intros H. unfold conf_of_mpx. by rewrite decide_False. Qed.
Theorem C78_no_layers p os : maspects p = 1 -> mlayers p = [] -> conf_of_mpx p os = Err StopIter.
Proof. intros H E. unfold conf_of_mpx. by rewrite decide_True, E. Qed.
(** Every family of simple graphs with the prescribed degrees, one for each layer, is a
    possible result. *)
Theorem C78_every_family c ds G : NoDup (ds.*1) ->
  (forall l degs, (l, degs) ∈ ds -> NoDup (degs.*1) /\ (forall x y, x ∈ degs.*1 -> y ∈ degs.*1 -> is_int x = is_int y) /\
    (exists L, lists_pairs L (G l)) /\ (forall x y, G l x y -> x ∈ degs.*1 /\ y ∈ degs.*1) /\
    forall x k, (x, k) ∈ degs -> exists N, lists_exactly N (G l x) /\ length N = k) ->
  exists os p, length os = length ds /\ conf_nodes c (zip_with (fun d o => (d.1, (d.2, o))) ds os) = Ok p /\
    forall l degs, (l, degs) ∈ ds -> exists m, pA p (LBare l) = Some m /\ simple_net m (fun x => x ∈ degs.*1) (G l).
Proof.
  intros Hnd Hall.
  assert (exists os, Forall2 (fun d o => exists n, sconf (d.1, (d.2, o)) = Ok n /\ simple_net n (fun x => x ∈ d.2.*1) (G (d.1))) ds os) as [os HF].
  { clear Hnd. induction ds as [|[l degs] ds IH]; [by exists []|]. destruct IH as [os HF]; [intros; apply Hall; by right|].
    destruct (Hall l degs ltac:(by left)) as (H1 & H2 & (L & H3) & H4 & H5). destruct (C36_every_graph degs L (G l) H1 H2 H3 H4 H5) as (sh & n & E & Hn).
    exists (Outc sh [] [] :: os). constructor; [|done]. exists n. done. }
  exists os. pose proof (Forall2_length _ _ _ HF) as Hlen. set (ls := zip_with _ ds os).
  assert (ls.*1 = ds.*1) as Hfst by by apply zip_fst.
  assert (forall t, t ∈ ls -> exists n, sconf t = Ok n /\ simple_net n (fun x => x ∈ t.2.1.*1) (G (t.1))) as Hs.
  { intros t Ht. unfold ls in Ht. apply elem_of_lookup_zip_with in Ht as (i & d & o & -> & Hd & Ho). exact (Forall2_lookup_lr _ _ _ _ _ _ HF Hd Ho). }
  assert (forall l degs o, (l, (degs, o)) ∈ ls -> (l, degs) ∈ ds) as Hin.
  { intros l degs o Ht. unfold ls in Ht. apply elem_of_lookup_zip_with in Ht as (i & [l' d'] & o' & [= -> -> ->] & Hd & Ho). by eapply elem_of_list_lookup_2. }
  destruct (conf_nodes c ls) as [p|e] eqn:E.
  - exists p. split; [done|]. split; [done|]. intros l degs Hd.
    assert (exists o, (l, (degs, o)) ∈ ls) as [o Ht].
    { apply elem_of_list_lookup in Hd as [i Hd]. destruct (Forall2_lookup_l _ _ _ _ _ HF Hd) as (o & Ho & _). exists o. unfold ls. apply elem_of_lookup_zip_with. exists i, (l, degs), o. done. }
    destruct (conf_nodes_core c ls p ltac:(by rewrite Hfst) ltac:(intros l' d' o' Ht'%Hin; by apply Hall in Ht' as [? _]) E) as (fi & h & H & _ & Hcore).
    destruct (Hcore _ Ht) as (n & m & Es & HI). destruct (Hs _ Ht) as (n' & Es' & Hn). assert (n' = n) as -> by congruence. cbn [fst snd] in *.
    destruct Hn as (_ & _ & _ & _ & N1 & N2 & N3). pose proof HI as (Hm & Hr & Ha & Hd' & Hne & _ & _ & _ & _ & Hel & _). exists m. split; [done|].
    split; [done|]. split; [done|]. split; [done|]. split; [done|]. split; [intros x; by rewrite Hel|]. split.
    + intros x y. by rewrite (layer_is_linked _ _ _ _ _ _ HI).
    + intros x y. rewrite (layer_is_linked _ _ _ _ _ _ HI), (layer_is_reads _ _ _ _ _ _ _ HI). apply N3.
  - exfalso. unfold conf_nodes in E. pose proof (conf_loop c (aligned_nodes (fst <$> ls.*2)) ls [] _ (mhist_init _ _ _ _) ltac:(by rewrite Hfst) ltac:(done)) as H. rewrite E in H.
    destruct H as (t & Ht & Es). destruct (Hs _ Ht) as (n & En & _). congruence.
Qed.

(** ** Concrete runs *)
Definition c78_o1 : outcomes := Outc (NInt <$> [0; 0; 2; 3; 4; 5; 1; 1]%Z) [] [(1, 0); (1, 2); (0, 1)].
Definition c78_o2 : outcomes := Outc (NInt <$> [0; 1; 2; 3; 1; 0; 5; 4]%Z) [(NInt 0, NInt 1)] [(1, 3)].
Definition c78_show (ls : list name) (r : res mpx) : res (list (list Z)) :=
  let? p := r in Ok ((fun l => match pA p (LBare l) with Some m => (fun x => degree m [NInt x] None) <$> [0; 1; 2; 3; 4; 5; 6]%Z | None => [] end) <$> ls).
(** The first layer needs the rewiring of self-links and the second that of a multiple
    link; they have the same nodes.  The third layer of the second list has fewer nodes. *)
Definition c78_ls : list (name * (list (name * nat) * outcomes)) := [(NStr "a", (c36_degs, c78_o1)); (NStr "b", (c36_degs, c78_o2))].
Definition c78_ls3 : list (name * (list (name * nat) * outcomes)) := c78_ls ++ [(NStr "c", ([(NInt 1, 1); (NInt 3, 1)], Outc [NInt 3; NInt 1] [] []))].
Example C78_example : aligned_nodes (fst <$> c78_ls.*2) = true /\ aligned_nodes (fst <$> c78_ls3.*2) = false /\
  c78_show [NStr "a"; NStr "b"] (conf_nodes (CCat 1) c78_ls) = Ok [[2; 2; 1; 1; 1; 1; 0]; [2; 2; 1; 1; 1; 1; 0]]%Z /\
  c78_show [NStr "a"; NStr "b"; NStr "c"] (conf_nodes (CNone None) c78_ls3) = Ok [[2; 2; 1; 1; 1; 1; 0]; [2; 2; 1; 1; 1; 1; 0]; [0; 1; 0; 1; 0; 0; 0]]%Z.
Proof. by vm_compute. Qed.
Example C78_example_keys : NoDup (c78_ls3.*1) /\ forall l degs o, (l, (degs, o)) ∈ c78_ls3 -> NoDup (degs.*1).
Proof.
  split; [by apply (bool_decide_unpack _); vm_compute|]. intros l degs o H. repeat (apply elem_of_cons in H as [[= -> -> ->]|H]; [by apply (bool_decide_unpack _); vm_compute|]). by apply elem_of_nil in H.
Qed.
Example C78_example_dist : c78_show [NInt 0; NInt 1] (conf_dist (COrd 2) [(NInt 0, ([(0, 1); (1, 4); (2, 2)], [6; 2; 3; 4; 5; 1; 0], c78_o2)); (NInt 1, ([(1, 2)], [1; 0], Outc [NInt 0; NInt 1] [] []))]) =
  Ok [[2; 2; 1; 1; 1; 1; 0]; [1; 1; 0; 0; 0; 0; 0]]%Z.
Proof. by vm_compute. Qed.
(** conf of a multiplex network with ordinal couplings: the couplings are lost. *)
Definition c78_ops : list mop :=
  ((fun q => MSet [NInt (q.1); NInt (q.2); NStr "a"] 3) <$> [(0, 1); (1, 2); (0, 3); (4, 5)]%Z) ++ [MSet [NInt 0; NInt 1; NStr "b"] 1; MSet [NInt 2; NInt 3; NStr "b"] 1].
Definition c78_net : res mpx := Models.mbuild (new_mpx [COrd 2] false 0 true) c78_ops.
Lemma c78_safe p : Forall (msafe p) c78_ops.
Proof. unfold c78_ops. repeat (apply Forall_cons; split; [done|]). constructor. Qed.
Lemma c78_run : match c78_net with Ok p => c78_show [NStr "a"; NStr "b"] (conf_of_mpx p [c78_o2; Outc (NInt <$> [0; 3; 2; 1]%Z) [] []]) | Err e => Err e end = Ok [[2; 2; 1; 1; 1; 1; 0]; [1; 1; 1; 1; 0; 0; 0]]%Z.
Proof. by vm_compute. Qed.
Lemma run_ok {A B} (r : res A) (f : A -> res B) v (P : A -> Prop) : (exists p, r = Ok p /\ P p) -> match r with Ok p => f p | Err e => Err e end = Ok v -> exists p, r = Ok p /\ P p /\ f p = Ok v.
Proof. intros (p & -> & Hp) H. eauto. Qed.
Example C78_example_same : exists p, c78_net = Ok p /\ (exists h, mhist [COrd 2] false 0 true h p) /\
  c78_show [NStr "a"; NStr "b"] (conf_of_mpx p [c78_o2; Outc (NInt <$> [0; 3; 2; 1]%Z) [] []]) = Ok [[2; 2; 1; 1; 1; 1; 0]; [1; 1; 1; 1; 0; 0; 0]]%Z.
Proof.
  apply (run_ok c78_net (fun p => c78_show [NStr "a"; NStr "b"] (conf_of_mpx p [c78_o2; Outc (NInt <$> [0; 3; 2; 1]%Z) [] []])) [[2; 2; 1; 1; 1; 1; 0]; [1; 1; 1; 1; 0; 0; 0]]%Z
    (fun p => exists h, mhist [COrd 2] false 0 true h p)); [|exact c78_run]. unfold c78_net.
  destruct (mbuild_safe (COrd 2) false 0 true c78_ops [] _ (mhist_init _ _ _ _) (c78_safe _)) as (p & E & H). exists p. split; [exact E|]. by eexists.
Qed.
(** Failures of a layer, of a network with two aspects and of one without layers. *)
Example C78_example_failures :
  conf_nodes (CCat 1) (c78_ls ++ [(NStr "c", ([(NInt 0, 1)], Outc [NInt 0] [] []))]) = Err AssertionError /\
  conf_of_mpx (new_mpx [CCat 1; CCat 1] false 0 true) [] = Err AssertionError /\ conf_of_mpx (new_mpx [CCat 1] false 0 true) [] = Err StopIter.
Proof. by vm_compute. Qed.
(** The hypotheses of [C78_every_family]. *)
Example C78_example_family : let ds := [(NStr "a", [(NInt 0, 1); (NInt 1, 1)]); (NStr "b", [(NInt 0, 0)])] in
  let G l x y := l = NStr "a" /\ (x = NInt 0 /\ y = NInt 1 \/ x = NInt 1 /\ y = NInt 0) in
  NoDup (ds.*1) /\
  (forall l degs, (l, degs) ∈ ds -> NoDup (degs.*1) /\ (forall x y, x ∈ degs.*1 -> y ∈ degs.*1 -> is_int x = is_int y) /\
    (exists L, lists_pairs L (G l)) /\ (forall x y, G l x y -> x ∈ degs.*1 /\ y ∈ degs.*1) /\
    forall x k, (x, k) ∈ degs -> exists N, lists_exactly N (G l x) /\ length N = k).
Proof.
  cbv zeta. split; [by apply (bool_decide_unpack _); vm_compute|]. intros l degs H. apply elem_of_cons in H as [[= -> ->]|H].
  - split; [by apply (bool_decide_unpack _); vm_compute|]. cbn [fmap list_fmap fst]. split_and!.
    + intros x y Hx Hy. set_solver.
    + exists [(NInt 0, NInt 1)]. split; [apply NoDup_singleton|]. split; [set_solver|]. intros x y. rewrite !elem_of_list_singleton. naive_solver.
    + set_solver.
    + intros x k Hx. apply elem_of_cons in Hx as [[= -> ->]|Hx]; [exists [NInt 1]|apply elem_of_list_singleton in Hx as [= -> ->]; exists [NInt 0]]; (split; [|done]);
        (split; [apply NoDup_singleton|]); intros y; rewrite elem_of_list_singleton; naive_solver.
  - apply elem_of_list_singleton in H as [= -> ->]. split; [by apply (bool_decide_unpack _); vm_compute|]. cbn [fmap list_fmap fst]. split_and!.
    + intros x y Hx Hy. set_solver.
    + exists []. split; [constructor|]. split; [set_solver|]. intros x y. rewrite !elem_of_nil. naive_solver.
    + naive_solver.
    + intros x k Hx. apply elem_of_list_singleton in Hx as [= -> ->]. exists []. split; [|done]. split; [constructor|]. intros y. rewrite elem_of_nil. naive_solver.
Qed.
Print Assumptions C78_degrees.
Print Assumptions C78_failures.
Print Assumptions C78_distribution.
Print Assumptions C78_distribution_failures.
Print Assumptions C78_same_degrees.
Print Assumptions C78_more_aspects.
Print Assumptions C78_no_layers.
Print Assumptions C78_every_family.
