(** * Multiplex networks built by library code: facts *)
From Verif Require Export MpxTrans MpxIter TransFacts2.

(** Calls that returned normally. *)
Definition went (os : list mop) : list call := (fun o => (o, Ok tt)) <$> os.
Lemma went_app os os' : went (os ++ os') = went os ++ went os'.
Proof. apply fmap_app. Qed.
Lemma elem_of_went e os : e ∈ went os <-> exists o, o ∈ os /\ e = (o, Ok tt).
Proof. unfold went. rewrite elem_of_list_fmap. naive_solver. Qed.

Lemma mdo_hist cs dir noe fi h p o p' : mhist cs dir noe fi h p -> mdo p o = Ok p' -> mhist cs dir noe fi (h ++ went [o]) p'.
Proof.
  intros H. unfold mdo. destruct (mstep p o) as [q [[]|e]] eqn:E; [|done]. intros [= <-]. by eapply mhist_op.
Qed.
Lemma mbuild_hist cs dir noe fi os : forall h p p', mhist cs dir noe fi h p -> mbuild p os = Ok p' -> mhist cs dir noe fi (h ++ went os) p'.
Proof.
  induction os as [|o os IH]; intros h p p' H; cbn; [intros [= <-]; by rewrite app_nil_r|].
  destruct (mdo p o) as [q|e] eqn:E; [|done]. intros Hb. apply (mdo_hist _ _ _ _ _ _ _ _ H) in E.
  specialize (IH _ _ _ E Hb). by rewrite <- app_assoc in IH.
Qed.
Lemma mbuild_app p os os' : mbuild p (os ++ os') = let? q := mbuild p os in mbuild q os'.
Proof. apply rfold_app. Qed.

Lemma pinv_hviews cs dir noe fi h p : pinv cs dir noe fi h p -> hviews p.
Proof. intros H l m Hm. destruct (pi_view _ _ _ _ _ _ H l m Hm) as (g & Hg & _). rewrite (pi_dir _ _ _ _ _ _ H). eauto. Qed.
Lemma pinv_masp cs dir noe fi h p : pinv cs dir noe fi h p -> maspects p = length cs.
Proof. intros H. unfold maspects. by rewrite (pi_coup _ _ _ _ _ _ H). Qed.
(** Layers are never removed. *)
Lemma mstep_layer cs dir noe fi h p o p' r l : mhist cs dir noe fi h p -> mstep p o = (p', r) -> is_Some (pA p l) -> is_Some (pA p' l).
Proof.
  intros H%mhist_inv E [m Hm]. destruct (mstep_meff p o p' r (pi_wf _ _ _ _ _ _ H) (pinv_hviews _ _ _ _ _ _ H) E) as (S & N & He & _).
  destruct (me_old _ _ _ _ _ He l m Hm) as (m' & -> & _). by eexists.
Qed.
Lemma mbuild_layer cs dir noe fi h p os p' l : mhist cs dir noe fi h p -> mbuild p os = Ok p' -> is_Some (pA p l) -> is_Some (pA p' l).
Proof.
  revert h p. induction os as [|o os IH]; intros h p H; cbn; [by intros [= <-]|].
  destruct (mdo p o) as [q|e] eqn:E; [|done]. intros Hb Hl. pose proof (mdo_hist _ _ _ _ _ _ _ _ H E) as H'.
  eapply IH; [done|done|]. unfold mdo in E. destruct (mstep p o) as [q' [[]|e]] eqn:E'; [|done]. injection E as ->.
  by apply (mstep_layer cs dir noe fi h p o q (Ok tt) l).
Qed.

(** Calls that cannot raise. *)
Definition mop_safe (asp : nat) (dir : bool) (p : mpx) (o : mop) : Prop :=
  match o with
  | MAddNode _ None => True
  | MAddNode _ (Some l) => mlayer_form asp l
  | MAddLayer _ k => k <= asp
  | MSet item w => exists a b, names_link asp item a b /\ intra_pair asp a b
  | MNodeSet a b w => length a = S asp /\ length b = S asp /\ intra_pair asp a b
  | MASet l item w => is_Some (pA p l) /\ exists i j, item = [i; j] /\ (i <> j \/ w <> 0%Z \/ dir = true)
  | MAAddNode l x => is_Some (pA p l)
  end.
Lemma mdo_ok cs dir noe fi h p o : mhist cs dir noe fi h p -> 1 <= length cs -> mop_safe (length cs) dir p o -> exists p', mdo p o = Ok p'.
Proof.
  intros H H1 Ho. apply mhist_inv in H. pose proof (pi_wf _ _ _ _ _ _ H) as Hw. pose proof (pinv_hviews _ _ _ _ _ _ H) as Hh.
  pose proof (pinv_masp _ _ _ _ _ _ H) as Has.
  assert (exists p', mstep p o = (p', Ok tt)) as [p' E]; [|exists p'; unfold mdo; by rewrite E].
  assert (Hpa : forall a b w, length a = S (length cs) -> length b = S (length cs) -> intra_pair (length cs) a b ->
                exists p', passign p a b w = (p', Ok tt)).
  { intros a b w Ha Hb Hi. destruct (passign p a b w) as [p' r] eqn:E. exists p'.
    destruct (passign_meff p a b w p' r Hw Hh) as [_ ->]; [congruence..|done|]. rewrite Has.
    rewrite decide_False by lia. by rewrite decide_True. }
  destruct o as [item w|a b w|l item w|x [l|]|l k|l x]; cbn [mop_safe] in Ho.
  - destruct Ho as (a & b & Hn & Hi). rewrite mstep_set, Has.
    rewrite (proj1 (writes_spec (length cs) (OpSet item w) a b w) (conj eq_refl Hn)).
    destruct (names_link_inv _ _ _ _ Hn) as (Ha & Hb & _). by apply Hpa.
  - destruct Ho as (Ha & Hb & Hi). rewrite mstep_nodeset, Has. cbn [write_of]. rewrite decide_True by done. by apply Hpa.
  - destruct Ho as ([m Hm] & i & j & -> & Hc). cbn [mstep]. destruct (Hh l m Hm) as [g Hg].
    destruct (ASet_meff p l i j w m g Hw Hm Hg) as (p' & r & E & _ & [->|(_ & -> & -> & Hd & _)]); [by exists p'|].
    rewrite (pi_dir _ _ _ _ _ _ H) in Hd. exfalso. destruct Hc as [?|[?|?]]; congruence.
  - cbn [mstep]. destruct (padd_node_spec 0 p x (Some l) Hw) as (p' & E & _). exists p'. etransitivity; [exact E|]. f_equal. rewrite Has. unfold add_node_out.
    destruct (mfic p); [done|]. destruct l as [y|ls]; simpl in Ho; [by rewrite decide_True|]. destruct Ho. rewrite !decide_True by lia. done.
  - cbn [mstep]. destruct (padd_node_spec 0 p x None Hw) as (p' & E & _). by exists p'.
  - cbn [mstep]. destruct (eff_add_layer p l k Hw) as (p' & E & _); [lia|]. by exists p'.
  - cbn [mstep]. destruct Ho as [m Hm]. eexists. by apply (A_add_node_eq p l m x).
Qed.
Lemma mbuild_ok cs dir noe fi os : forall h p, mhist cs dir noe fi h p -> 1 <= length cs -> Forall (mop_safe (length cs) dir p) os ->
  exists p', mbuild p os = Ok p' /\ mhist cs dir noe fi (h ++ went os) p'.
Proof.
  induction os as [|o os IH]; intros h p H H1 Hs; cbn; [exists p; by rewrite app_nil_r|].
  apply Forall_cons in Hs as [Ho Hs]. destruct (mdo_ok _ _ _ _ _ _ o H H1 Ho) as [q E]. rewrite E.
  pose proof (mdo_hist _ _ _ _ _ _ _ _ H E) as H'. destruct (IH _ _ H' H1) as (p' & Hb & Hh).
  { eapply Forall_impl; [exact Hs|]. intros o' Ho'. unfold mdo in E. destruct (mstep p o) as [q' [[]|e]] eqn:E'; [|done]. injection E as ->.
    destruct o'; try done; cbn [mop_safe] in *; [destruct Ho' as [Ho' ?]; split; [|done]|]; by apply (mstep_layer _ _ _ _ _ _ _ _ _ _ H E'). }
  exists p'. split; [done|]. by rewrite <- app_assoc in Hh.
Qed.

(** ** What is read after a list of calls *)
Lemma mspec_fold_agree asp dir l h x y v s :
  (forall e i j w, e ∈ h -> mwrite asp dir l e = Some (i, j, w) -> nhit dir i j x y -> w = v) ->
  ((exists e i j w, e ∈ h /\ mwrite asp dir l e = Some (i, j, w) /\ nhit dir i j x y) \/ s x y = v) ->
  fold_left (mspec_step asp dir l) h s x y = v.
Proof.
  revert s. induction h as [|e h IH]; intros s Hag Hex; cbn [fold_left].
  - destruct Hex as [(e & i & j & w & He & _)|?]; [by apply elem_of_nil in He|done].
  - apply IH; [intros e' i j w He; apply Hag; by right|].
    destruct (mwrite asp dir l e) as [[[i j] w]|] eqn:E.
    + destruct (decide (nhit dir i j x y)) as [Hh|Hh].
      * right. unfold mspec_step. rewrite E, decide_True by done. eapply Hag; [left|done|done].
      * destruct Hex as [(e' & i' & j' & w' & He & Hw & Hh')|Hv].
        -- apply elem_of_cons in He as [->|He]; [exfalso; rewrite E in Hw; by injection Hw as -> -> ->|].
           left. by exists e', i', j', w'.
        -- right. unfold mspec_step. rewrite E, decide_False by done. done.
    + destruct Hex as [(e' & i' & j' & w' & He & Hw & Hh')|Hv].
      * apply elem_of_cons in He as [->|He]; [congruence|]. left. by exists e', i', j', w'.
      * right. unfold mspec_step. by rewrite E.
Qed.
Lemma mspec_agree asp dir l h x y v :
  (forall e i j w, e ∈ h -> mwrite asp dir l e = Some (i, j, w) -> nhit dir i j x y -> w = v) ->
  ((exists e i j w, e ∈ h /\ mwrite asp dir l e = Some (i, j, w) /\ nhit dir i j x y) \/ v = 0%Z) ->
  mspec asp dir l h x y = v.
Proof. intros H1 H2. apply mspec_fold_agree; [done|]. destruct H2; [by left|by right]. Qed.

(** ** The intra-layer weight, 0 if there is no such layer *)
Definition lrd (p : mpx) (l : layer) (x y : name) : Z :=
  match pA p l with Some m => get_link m [x; y] | None => 0%Z end.
Lemma lrd_spec cs dir noe fi h p l x y : pinv cs dir noe fi h p -> lrd p l x y = mspec (length cs) dir l h x y.
Proof.
  intros H. unfold lrd. destruct (pA p l) as [m|] eqn:E; [by eapply view_get|]. symmetry. by apply (pi_none _ _ _ _ _ _ H).
Qed.
Lemma lrd_rd p l m x y : pA p l = Some m -> lrd p l x y = rd m [x] [y].
Proof. intros Hm. unfold lrd. rewrite Hm. change (get_link m [x; y]) with (weight m [x] [y]). by apply weight_rd. Qed.
(** What is known of the intra-layer network of an existing layer. *)
Lemma pinv_layer cs dir noe fi h p l m : pinv cs dir noe fi h p -> pA p l = Some m ->
  good m /\ aspects m = 0 /\ noEdge m = 0%Z /\ directed m = dir /\ fic m = true.
Proof.
  intros H Hm. destruct (pi_view _ _ _ _ _ _ H l m Hm) as (g & Hg & _). pose proof (hist_good _ _ _ _ _ _ Hg).
  destruct (hist_inv _ _ _ _ _ _ Hg) as [_ _ Ha Hn Hd Hf]. done.
Qed.
Lemma layer_present m x : good m -> aspects m = 0 -> fic m = true -> present m [x] <-> x ∈ net_nodes m.
Proof.
  intros [HS HL] Ha Hf. rewrite elem_of_iter_node_layers by done. rewrite nl_in_slices_sl, net_nodes_sl, (wfS_len _ HS), Ha. split.
  - intros [[_ H] _]. by apply (H 0).
  - intros Hx. split; [|congruence]. split; [done|]. intros [|k] y Hk; [by injection Hk as <-|done].
Qed.
Lemma lrd_nodes cs dir noe fi h p l m x y : pinv cs dir noe fi h p -> pA p l = Some m -> lrd p l x y <> 0%Z ->
  x ∈ net_nodes m /\ y ∈ net_nodes m.
Proof.
  intros H Hm. rewrite (lrd_rd p l m) by done. destruct (pinv_layer _ _ _ _ _ _ _ _ H Hm) as (Hg & Ha & Hn & _ & Hf).
  rewrite <- Hn, rd_noEdge by done. intros [w Hw]. destruct (wfL_present _ (proj2 Hg) _ _ _ Hw) as [Hx Hy].
  split; by apply layer_present.
Qed.
Lemma layer_neigh cs dir noe fi h p l m x b : pinv cs dir noe fi h p -> pA p l = Some m ->
  b ∈ iter_total m [x] None <-> exists y, b = [y] /\ (lrd p l x y <> 0%Z \/ lrd p l y x <> 0%Z).
Proof.
  intros H Hm. destruct (pinv_layer _ _ _ _ _ _ _ _ H Hm) as (Hg & Ha & Hn & _ & Hf).
  rewrite (proj2 (iter_total_exact m [x] None Hg I) b). setoid_rewrite (lrd_rd p l m _ _ Hm). split.
  - intros [Hl _]. assert (exists y, b = [y]) as [y ->].
    { assert (length b = 1) as Hb. { destruct Hl as [Hl|Hl]; apply linked_lnk in Hl; try done; apply lnk_lengths in Hl; try done; rewrite Ha in Hl; tauto. }
      destruct b as [|y [|]]; try done. by exists y. }
    exists y. split; [done|]. rewrite <- Hn. destruct Hl as [Hl|Hl]; [left|right]; apply linked_lnk in Hl; try done; by apply rd_noEdge.
  - intros (y & -> & Hl). split; [|done]. rewrite <- Hn in Hl. destruct Hl as [Hl|Hl]; [left|right]; apply linked_lnk; try done; by apply rd_noEdge.
Qed.
