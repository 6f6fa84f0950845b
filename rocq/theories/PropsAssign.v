(** * Property C100: assigning a network to a layer of a multiplex network *)
From Verif Require Import MpxAssign MpxSub PropsNet PropsMpx PropsTrans PropsMpxEq PropsMpxRelabel.

Lemma adds_rd dir g m m' x y : hist 0 0 dir true g m -> adds m m' -> rd m' [x] [y] = rd m [x] [y].
Proof.
  intros Hg (hs & Hf & ->). rewrite (hist_refines _ _ _ _ _ _ (hist_run _ _ _ _ _ _ hs Hg)), (hist_refines _ _ _ _ _ _ Hg). by rewrite spec_run_adds.
Qed.

Section Loop.
  Context (p0 : mpx) (l : layer) (dir : bool) (W : name -> name -> Z).
  Context (Wsym : dir = false -> forall x y, W x y = W y x).
  Record J (N : name -> Prop) (D : name -> name -> Prop) (q : mpx) : Prop := {
    j_wf : pwf q;
    j_coup : mcoup q = mcoup p0;
    j_dir : mdir q = dir;
    j_noe : mnoe q = mnoe p0;
    j_fic : mfic q = mfic p0;
    j_lay : exists m g, pA q l = Some m /\ hist 0 0 dir true g m /\ (forall x y, rd m [x] [y] = 0%Z \/ rd m [x] [y] = W x y) /\
              forall x y, D x y -> rd m [x] [y] = W x y;
    j_old : forall t m0, t <> l -> pA p0 t = Some m0 -> exists m', pA q t = Some m' /\ adds m0 m';
    j_sl : forall k x, psl q k x <-> psl p0 k x \/ k = 0 /\ N x;
    j_n2l : forall x t, t ∈ mn2lv q x <-> t ∈ mn2lv p0 x \/ (mfic p0 = false /\ t = l /\ N x);
  }.
  Lemma J_node N D q x : J N D q -> exists q', mstep q (MAAddNode l x) = (q', Ok tt) /\ J (fun y => N y \/ y = x) D q'.
  Proof.
    intros [Hw Hc Hd Hn Hf (m & g & Hm & Hg & Hr & HD) Ho Hs Hl]. cbn [mstep]. rewrite (A_add_node_eq q l m x Hw Hm).
    destruct (eff_add1 q l m x Hw Hm) as [He Hm']. exists (padd1 q l m x). split; [done|]. pose proof (eff_adds _ _ _ _ He) as Ha.
    pose proof (adds_slice_add m x) as Hadd. split.
    - by eapply eff_wf.
    - by rewrite (pa_coup _ _ Ha).
    - by rewrite (pa_dir _ _ Ha).
    - by rewrite (pa_noe _ _ Ha).
    - by rewrite (pa_fic _ _ Ha).
    - pose proof Hadd as (hs & _ & Erun). exists (slice_add m 0 x), (g ++ hs). split; [done|]. split; [rewrite Erun; by apply hist_run|].
      split; intros a b; rewrite (adds_rd dir g m _ a b Hg Hadd); auto.
    - intros t m0 Ht Hm0. destruct (Ho t m0 Ht Hm0) as (m1 & Hm1 & Ha1). destruct (pa_old _ _ Ha t m1 Hm1) as (m2 & Hm2 & Ha2).
      exists m2. split; [done|]. by eapply adds_trans.
    - intros k y. rewrite (eff_sl _ _ _ _ He), Hs. tauto.
    - intros y t. rewrite (eff_n2l _ _ _ _ He), Hl, Hf. tauto.
  Qed.
  Lemma J_set N D q i j : J N D q -> (i = j -> W i j <> 0%Z) ->
    exists q', mstep q (MASet l [i; j] (W i j)) = (q', Ok tt) /\
      J (fun y => N y \/ y = i \/ y = j) (fun x y => D x y \/ x = i /\ y = j) q'.
  Proof using Wsym.
    intros [Hw Hc Hd Hn Hf (m & g & Hm & Hg & Hr & HD) Ho Hs Hl] Hij. cbn [mstep]. rewrite <- Hd in Hg.
    destruct (A_setitem_spec q l i j (W i j) m g Hw Hm Hg) as (q' & r & m1 & E & Hw' & Hc' & Hd' & Hn' & Hf' & Hs' & Hl' & Hadd & _ & Hm' & Ho' & _ & Hres).
    assert (r = Ok tt) as -> by (destruct Hres as [?|(_ & ? & ? & _)]; [done|exfalso; by apply Hij]).
    exists q'. split; [exact E|]. rewrite Hd in *.
    destruct (evolves_hist dir g m (Some (i, j, W i j)) ((step m1 (OpSet [i; j] (W i j))).1) (fun x y => rd m [x] [y]) Hg) as (g' & Hg' & Hr').
    { intros x y. by rewrite (hist_refines _ _ _ _ _ _ Hg). }
    { exists m1. split; [done|]. reflexivity. }
    assert (Hrd : forall x y, rd (step m1 (OpSet [i; j] (W i j))).1 [x] [y] = if decide (nhit dir i j x y) then W i j else rd m [x] [y]).
    { intros x y. by rewrite (hist_refines _ _ _ _ _ _ Hg'), Hr'. }
    assert (Hhit : forall x y, nhit dir i j x y -> W i j = W x y).
    { intros x y [[-> ->]|(Hdir & -> & ->)]; [done|by apply Wsym]. }
    split; try congruence.
    - exists (step m1 (OpSet [i; j] (W i j))).1, g'. split; [exact Hm'|]. split; [exact Hg'|]. split; intros x y; rewrite Hrd; destruct (decide (nhit dir i j x y)) as [Hh|Hh]; auto.
      intros [?|[-> ->]]; [auto|]. exfalso. apply Hh. by left.
    - intros t m0 Ht Hm0. destruct (Ho t m0 Ht Hm0) as (m2 & Hm2 & Ha1). destruct (Ho' t m2 Ht Hm2) as (m3 & Hm3 & Ha2).
      exists m3. split; [done|]. by eapply adds_trans.
    - intros k y. rewrite Hs', Hs. tauto.
    - intros y t. rewrite Hl', Hl, Hf. tauto.
  Qed.
  Definition onames (o : mop) (x : name) : Prop :=
    match o with MAAddNode _ y => x = y | MASet _ it _ => x ∈ it | _ => False end.
  Definition osafe (o : mop) : Prop :=
    (exists x, o = MAAddNode l x) \/ (exists i j, o = MASet l [i; j] (W i j) /\ (i = j -> W i j <> 0%Z)).
  Lemma J_iff N D N' D' q : (forall x, N x <-> N' x) -> (forall x y, D x y <-> D' x y) -> J N D q -> J N' D' q.
  Proof.
    intros HN HD [? ? ? ? ? (m & g & Hm & Hg & Hr & Hd) ? Hs Hl]. split; try done.
    - exists m, g. split; [done|]. split; [done|]. split; [done|]. intros x y Hx. apply Hd. by apply HD.
    - intros k x. rewrite Hs. by rewrite (HN x).
    - intros x t. rewrite Hl. by rewrite (HN x).
  Qed.
  Lemma J_loop os : forall N D q, J N D q -> Forall osafe os ->
    exists q', ofold mstep q os = (q', Ok tt) /\
      J (fun x => N x \/ exists o, o ∈ os /\ onames o x) (fun x y => D x y \/ MASet l [x; y] (W x y) ∈ os) q'.
  Proof using Wsym.
    induction os as [|o os IH]; intros N D q Hj Hs.
    - exists q. split; [done|]. eapply J_iff; [| |exact Hj].
      + intros x. split; [by left|]. intros [?|(o & Ho & _)]; [done|]. by apply elem_of_nil in Ho.
      + intros x y. split; [by left|]. intros [?|Ho]; [done|]. by apply elem_of_nil in Ho.
    - apply Forall_cons in Hs as [Ho Hs]. cbn [ofold].
      assert (exists q1, mstep q o = (q1, Ok tt) /\ J (fun x => N x \/ onames o x) (fun x y => D x y \/ o = MASet l [x; y] (W x y)) q1) as (q1 & E1 & Hj1).
      { destruct Ho as [[x ->]|(i & j & -> & Hij)].
        - destruct (J_node N D q x Hj) as (q1 & E1 & Hj1). exists q1. split; [done|]. eapply J_iff; [| |exact Hj1]; [done|]. intros a b. split; [by left|]. by intros [?|?].
        - destruct (J_set N D q i j Hj Hij) as (q1 & E1 & Hj1). exists q1. split; [done|]. eapply J_iff; [| |exact Hj1].
          + intros x. cbn [onames]. rewrite !elem_of_cons, elem_of_nil. tauto.
          + intros x y. split; (intros [?|H]; [by left|right]); [by destruct H as [-> ->]|by simplify_eq]. }
      rewrite E1. destruct (IH _ _ _ Hj1 Hs) as (q2 & E2 & Hj2). exists q2. split; [done|]. eapply J_iff; [| |exact Hj2].
      + intros x. split.
        * intros [[?|?]|(o' & ? & ?)]; [by left|right; exists o; split; [left|done]|right; exists o'; split; [by right|done]].
        * intros [?|(o' & Ho' & ?)]; [by left; left|]. apply elem_of_cons in Ho' as [->|Ho']; [by left; right|]. right. eauto.
      + intros x y. rewrite elem_of_cons. naive_solver.
  Qed.
End Loop.

(** ** The emptied layer *)
Lemma empty_view p l : pwf p -> exists m, pA (add_empty p l) l = Some m /\ adds (new_net 0 0 (mdir p) true) m.
Proof.
  intros Hw. unfold pA, add_empty, pset_A. cbn [mA mfic]. rewrite dget_dset_eq. eexists. split; [done|].
  destruct (mfic p); [|apply adds_refl]. exists ((fun x => OpAddNode x None) <$> mnodes p). split; [apply Forall_fmap, Forall_true; done|].
  unfold run. rewrite fold_left_fmap. simpl.
  assert (Hnd : NoDup (mnodes p)). { eapply Forall_lookup_1; [apply (pw_nd p Hw)|by apply slice0]. }
  assert (Hgen : forall xs acc, NoDup (acc ++ xs) ->
    fold_left (fun a x => slice_add a 0 x) xs (set_slices (empty_intra p) [acc]) = set_slices (empty_intra p) [acc ++ xs]).
  { induction xs as [|x xs IH]; intros acc Hd; simpl; [by rewrite app_nil_r|].
    unfold slice_add at 2. simpl. unfold sadd. rewrite decide_False.
    - transitivity (set_slices (empty_intra p) [(acc ++ [x]) ++ xs]); [|by rewrite <- app_assoc].
      apply IH. by rewrite <- app_assoc.
    - intros Hx. apply NoDup_app in Hd as (_ & Hd & _). apply (Hd x Hx). left. }
  symmetry. apply (Hgen (mnodes p) [] Hnd).
Qed.
Lemma empty_other p l t : t <> l -> pA (add_empty p l) t = pA p t.
Proof. intros Ht. unfold pA, add_empty, pset_A. cbn [mA mfic]. rewrite dget_dset_ne by done. done. Qed.

(** ** The table of layers per node does not matter for the calls on a layer *)
Section Sim.
Context (lc : layer) (B : name -> Prop).
(** The first table lists [lc] for the nodes in [B] too. *)
Definition tabs (t1 t2 : dict name (list layer)) : Prop :=
  NoDup (dkeys t1) /\ (forall x, NoDup (default [] (dget t1 x))) /\
  forall x t, t ∈ default [] (dget t1 x) <-> t ∈ default [] (dget t2 x) \/ (t = lc /\ B x).
Definition sim (q1 q2 : mpx) : Prop := pset_n2l q1 [] = pset_n2l q2 [] /\ tabs (mn2l q1) (mn2l q2).
Lemma tabs_add t1 t2 x l : tabs t1 t2 -> tabs (dset t1 x (sadd l (default [] (dget t1 x)))) (dset t2 x (sadd l (default [] (dget t2 x)))).
Proof.
  intros (H1 & H2 & H3). split; [by apply NoDup_dset|]. split.
  - intros y. rewrite dget_dset. destruct (decide (y = x)); [by apply NoDup_sadd|done].
  - intros y t. rewrite !dget_dset. destruct (decide (y = x)) as [->|]; [|done]. change (t ∈ sadd l (default [] (dget t1 x)) <-> t ∈ sadd l (default [] (dget t2 x)) \/ (t = lc /\ B x)). rewrite !elem_of_sadd, H3. tauto.
Qed.
Definition osim (o1 o2 : mpx * res unit) : Prop := sim (o1.1) (o2.1) /\ o1.2 = o2.2.
Lemma sim_form q1 q2 : sim q1 q2 -> exists c d n f s A t1 t2, q1 = MkMpx c d n f s A t1 /\ q2 = MkMpx c d n f s A t2 /\ tabs t1 t2.
Proof. destruct q1, q2. unfold sim, pset_n2l. cbn. intros [[= -> -> -> -> -> ->] Ht]. eauto 20. Qed.
Lemma sim_ofold {X} (f : mpx -> X -> mpx * res unit) xs : (forall q1 q2 x, sim q1 q2 -> osim (f q1 x) (f q2 x)) ->
  forall q1 q2, sim q1 q2 -> osim (ofold f q1 xs) (ofold f q2 xs).
Proof.
  intros Hf. induction xs as [|x xs IH]; intros q1 q2 Hq; [done|]. cbn [ofold]. destruct (Hf q1 q2 x Hq) as [H1 H2].
  destruct (f q1 x) as [p1 r1], (f q2 x) as [p2 r2]. cbn in H1, H2. subst r2. destruct r1; [by apply IH|done].
Qed.
Lemma sim_obind (o1 o2 : mpx * res unit) f1 f2 : osim o1 o2 -> (forall q1 q2, sim q1 q2 -> osim (f1 q1 tt) (f2 q2 tt)) -> osim (obind o1 f1) (obind o2 f2).
Proof. destruct o1 as [q1 r1], o2 as [q2 r2]. intros [H1 H2] Hf. cbn in H1, H2. subst r2. destruct r1 as [[]|]; [by apply Hf|done]. Qed.
Lemma sim_pA q1 q2 l : sim q1 q2 -> pA q1 l = pA q2 l.
Proof. intros (c & d & n & f & s & A & t1 & t2 & -> & -> & Ht)%sim_form. done. Qed.
Lemma sim_put q1 q2 l m : sim q1 q2 -> sim (put_A q1 l m) (put_A q2 l m).
Proof. intros (c & d & n & f & s & A & t1 & t2 & -> & -> & Ht)%sim_form. unfold put_A. cbn. by destruct f. Qed.
Lemma sim_n2l q1 q2 x l : sim q1 q2 -> sim (n2l_add q1 x l) (n2l_add q2 x l).
Proof. intros (c & d & n & f & s & A & t1 & t2 & -> & -> & Ht)%sim_form. split; [done|by apply tabs_add]. Qed.
Lemma sim_slice q1 q2 k x : sim q1 q2 -> sim (pslice_add q1 k x) (pslice_add q2 k x).
Proof. intros (c & d & n & f & s & A & t1 & t2 & -> & -> & Ht)%sim_form. done. Qed.
Lemma sim_empty q1 q2 l : sim q1 q2 -> sim (add_empty q1 l) (add_empty q2 l).
Proof. intros (c & d & n & f & s & A & t1 & t2 & -> & -> & Ht)%sim_form. done. Qed.
Lemma sim_fields q1 q2 : sim q1 q2 -> mcoup q1 = mcoup q2 /\ mdir q1 = mdir q2 /\ mnoe q1 = mnoe q2 /\ mfic q1 = mfic q2 /\ mslices q1 = mslices q2 /\ maspects q1 = maspects q2.
Proof. intros (c & d & n & f & s & A & t1 & t2 & -> & -> & Ht)%sim_form. done. Qed.
Lemma sim_empties ts : forall q1 q2, sim q1 q2 -> sim (fold_left (fun q t => add_empty q (LTup t)) ts q1) (fold_left (fun q t => add_empty q (LTup t)) ts q2).
Proof. induction ts as [|t ts IH]; intros q1 q2 Hq; [done|]. cbn [fold_left]. by apply IH, sim_empty. Qed.
Lemma sim_add_layer q1 q2 y k : sim q1 q2 -> osim (padd_layer q1 y k) (padd_layer q2 y k).
Proof.
  intros Hq. pose proof (sim_fields _ _ Hq) as (_ & _ & _ & _ & Es & Ea). unfold padd_layer. rewrite Es, Ea. destruct (mslices q2 !! k) as [s|]; [|done].
  destruct (lin y s); [done|]. destruct (decide _); [split; [by apply sim_slice|done]|]. split; [|done]. cbn [fst]. apply sim_slice.
  destruct (decide _); [by apply sim_empties|by apply sim_empty].
Qed.
Definition rsim (rec : mpx -> name -> option layer -> mpx * res unit) : Prop :=
  forall q1 q2 x lay, sim q1 q2 -> osim (rec q1 x lay) (rec q2 x lay).
Lemma sim_intra rec q1 q2 l x : rsim rec -> sim q1 q2 -> osim (intra_add_node rec q1 l x) (intra_add_node rec q2 l x).
Proof.
  intros Hr Hq. pose proof (sim_fields _ _ Hq) as (_ & _ & _ & Ef & _). unfold intra_add_node. rewrite (sim_pA q1 q2 l Hq), Ef. destruct (pA q2 l) as [m|]; [|done].
  pose proof (sim_put q1 q2 l (slice_add m 0 x) Hq) as Hp. destruct (mfic q2); [by apply Hr|].
  apply sim_obind; [by apply Hr|]. intros a b Hab. split; [by apply sim_n2l|done].
Qed.
Lemma sim_to_layer rec q1 q2 x l : rsim rec -> sim q1 q2 -> osim (padd_node_to_layer rec q1 x l) (padd_node_to_layer rec q2 x l).
Proof.
  intros Hr Hq. pose proof (sim_n2l q1 q2 x l Hq) as Hp. unfold padd_node_to_layer. rewrite (sim_pA _ _ l Hp).
  destruct (pA (n2l_add q2 x l) l) as [m|]; [|done]. destruct (lin x (net_nodes m)); [done|by apply sim_intra].
Qed.
Lemma sim_body rec : rsim rec -> rsim (padd_node_body rec).
Proof.
  intros Hr q1 q2 x lay Hq. pose proof (sim_fields _ _ Hq) as (_ & _ & _ & Ef & _ & Ea). pose proof (sim_slice q1 q2 0 x Hq) as Hp.
  unfold padd_node_body. rewrite Ef, Ea. destruct lay as [l|]; [|done]. destruct (mfic q2); [done|]. destruct l as [y|ls].
  - destruct (decide _); [|done]. pose proof (sim_fields _ _ Hp) as (_ & _ & _ & _ & Es & _). rewrite Es. destruct (mslices (pslice_add q2 0 x) !! 1) as [s|]; [|done].
    apply sim_obind; [|intros a b Hab; by apply sim_to_layer]. destruct (lin y s); [done|by apply sim_add_layer].
  - destruct (decide _); [|done]. apply sim_obind; [|intros a b Hab; by apply sim_to_layer]. apply sim_ofold; [|done].
    intros a b kx Hab. pose proof (sim_fields _ _ Hab) as (_ & _ & _ & _ & Es & _). rewrite Es. destruct (mslices b !! S kx.1) as [s|]; [|done].
    destruct (lin kx.2 s); [done|by apply sim_add_layer].
Qed.
Lemma sim_node q1 q2 l x : sim q1 q2 -> osim (A_add_node q1 l x) (A_add_node q2 l x).
Proof.
  apply sim_intra. unfold padd_node. assert (forall n, rsim (padd_node_fuel n)) as H; [|apply H].
  induction n as [|n IH]; [by intros ? ? ? ? ?|]. by apply sim_body.
Qed.
Lemma sim_set q1 q2 l item w : sim q1 q2 -> osim (A_setitem q1 l item w) (A_setitem q2 l item w).
Proof.
  intros Hq. unfold A_setitem. rewrite (sim_pA q1 q2 l Hq). destruct (pA q2 l) as [m|]; [|done]. destruct (decide _); [|done].
  apply sim_obind; [apply sim_ofold; [|done]; intros a b x Hab; by apply sim_node|]. intros a b Hab. rewrite (sim_pA a b l Hab).
  destruct (pA b l) as [n|]; [|done]. destruct (set_link n item w) as [n' r]. split; [by apply sim_put|done].
Qed.
Lemma sim_loop l W os : Forall (osafe l W) os -> forall q1 q2, sim q1 q2 -> osim (ofold mstep q1 os) (ofold mstep q2 os).
Proof.
  induction 1 as [|o os Ho Hos IH]; intros q1 q2 Hq; [done|]. cbn [ofold].
  assert (osim (mstep q1 o) (mstep q2 o)) as [H1 H2] by (destruct Ho as [[x ->]|(i & j & -> & _)]; [by apply sim_node|by apply sim_set]).
  destruct (mstep q1 o) as [p1 r1], (mstep q2 o) as [p2 r2]. cbn in H1, H2. subst r2. destruct r1; [by apply IH|done].
Qed.
Lemma sim_exists q1 q2 a : sim q1 q2 -> mexists q1 a <-> mexists q2 a.
Proof. intros (c & d & n & f & s & A & t1 & t2 & -> & -> & Ht)%sim_form. done. Qed.
Lemma sim_has q1 q2 k x : sim q1 q2 -> mhas q1 k x <-> mhas q2 k x.
Proof. intros (c & d & n & f & s & A & t1 & t2 & -> & -> & Ht)%sim_form. done. Qed.
Lemma sim_get q1 q2 l item : sim q1 q2 -> agetitem q1 l item = agetitem q2 l item.
Proof. intros H. unfold agetitem. by rewrite (sim_pA q1 q2 l H). Qed.
Lemma sim_pwf q1 q2 : sim q1 q2 -> pwf q2 -> mfic q2 = false -> (forall x, B x -> lc ∈ mn2lv q2 x) -> pwf q1.
Proof.
  intros (c & d & n & f & s & A & t1 & t2 & -> & -> & T1 & T2 & T3)%sim_form Hw Hf HB.
  assert (Ht : forall x t, t ∈ mn2lv (MkMpx c d n f s A t1) x <-> t ∈ mn2lv (MkMpx c d n f s A t2) x).
  { intros x t. specialize (HB x). unfold mn2lv in *. cbn [mn2l] in *. rewrite T3. naive_solver. }
  split.
  - apply (pw_len _ Hw).
  - apply (pw_nd _ Hw).
  - apply (pw_keys _ Hw).
  - apply (pw_dom _ Hw).
  - apply (pw_raw _ Hw).
  - exact T1.
  - exact T2.
  - cbn in Hf |- *. congruence.
  - intros _ l m x Hm. rewrite Ht. by apply (pw_node _ Hw Hf).
  - intros x l. rewrite Ht. apply (pw_n2l _ Hw).
Qed.
End Sim.

(** The emptied layer, with a table that fits it. *)
Definition fitted (p : mpx) (l : layer) : mpx :=
  pset_n2l (add_empty p l) ((fun e : name * list layer => (e.1, filter (fun t => t <> l) (e.2))) <$> mn2l p).
Lemma fitted_mn2lv p l x : mn2lv (fitted p l) x = filter (fun t => t <> l) (mn2lv p x).
Proof.
  unfold mn2lv, fitted, pset_n2l. cbn [mn2l]. induction (mn2l p) as [|[y ts] d IH]; [done|]. cbn. case_decide; [done|]. apply IH.
Qed.
Lemma fitted_sim p l : pwf p -> sim l (fun x => l ∈ mn2lv p x) (add_empty p l) (fitted p l).
Proof.
  intros Hw. split; [done|]. split; [apply (pw_n2l_keys p Hw)|]. split; [apply (pw_n2l_nd p Hw)|]. intros x t.
  pose proof (fitted_mn2lv p l x) as E. unfold mn2lv in E at 1. rewrite E, elem_of_list_filter.
  change (default [] (dget (mn2l (add_empty p l)) x)) with (mn2lv p x). destruct (decide (t = l)) as [->|]; naive_solver.
Qed.
Lemma fitted_pwf p l m : pwf p -> pA p l = Some m -> pwf (fitted p l).
Proof.
  intros Hw Hm. destruct (pA_raw _ _ _ Hm) as [m0 Hm0]. split.
  - apply (pw_len p Hw).
  - apply (pw_nd p Hw).
  - unfold fitted, add_empty, pset_n2l, pset_A. cbn [mA]. rewrite dkeys_dset_old by eauto. apply (pw_keys p Hw).
  - intros t. unfold fitted, add_empty, pset_n2l, pset_A. cbn [mA]. rewrite dkeys_dset_old by eauto. apply (pw_dom p Hw).
  - intros t n. unfold fitted, add_empty, pset_n2l, pset_A. cbn [mA]. rewrite dget_dset. destruct (decide (t = l)); [by intros [= <-]|apply (pw_raw p Hw)].
  - unfold fitted, pset_n2l. cbn [mn2l]. unfold dkeys. rewrite <- list_fmap_compose. apply (pw_n2l_keys p Hw).
  - intros x. rewrite fitted_mn2lv. apply NoDup_filter, (pw_n2l_nd p Hw).
  - intros Hf. unfold fitted, pset_n2l. cbn [mn2l]. by rewrite (pw_fic p Hw Hf).
  - intros Hf t n x. rewrite fitted_mn2lv, elem_of_list_filter. unfold fitted, add_empty, pset_n2l, pset_A. cbn [mA]. rewrite dget_dset. destruct (decide (t = l)) as [->|].
    + intros [= <-]. split; [by intros ?%elem_of_nil|]. by intros [? _].
    + intros Hn. rewrite (pw_node p Hw Hf t n x Hn). tauto.
  - intros x t. rewrite fitted_mn2lv, elem_of_list_filter. intros [_ Ht]. by apply (pw_n2l p Hw).
Qed.

(** ** The calls that copy the network *)
Section Copy.
  Context (dv : bool) (fv : bool) (g : list op) (v : mlnet) (s : list name).
  Context (Hv : hist 0 0 dv fv g v) (Hs : s ≡ₚ net_nodes v).
  Notation W := (fun x y => rd v [x] [y]).
  Lemma copy_facts : good v /\ aspects v = 0 /\ noEdge v = 0%Z /\ directed v = dv /\ fic v = true.
  Proof using Hv. pose proof (hist_good _ _ _ _ _ _ Hv). destruct (hist_inv _ _ _ _ _ _ Hv) as [_ _ Ha Hn Hd Hf]. done. Qed.
  Lemma copy_nodes x y : rd v [x] [y] <> 0%Z -> x ∈ s /\ y ∈ s.
  Proof using Hv Hs.
    destruct copy_facts as (Hg & Ha & Hn & _ & Hf). rewrite Hs. rewrite <- Hn, rd_noEdge by done. intros [w Hw].
    destruct (wfL_present _ (proj2 Hg) _ _ _ Hw) as [Hx Hy]. split; by apply layer_present.
  Qed.
  Lemma copy_neigh x b : b ∈ iter_total v [x] None <-> exists y, b = [y] /\ (rd v [x] [y] <> 0%Z \/ rd v [y] [x] <> 0%Z).
  Proof using Hv.
    destruct copy_facts as (Hg & Ha & Hn & _ & Hf). rewrite (proj2 (iter_total_exact v [x] None Hg I) b). split.
    - intros [Hl _]. assert (exists y, b = [y]) as [y ->].
      { assert (length b = 1) as Hb. { destruct Hl as [Hl|Hl]; apply linked_lnk in Hl; try done; apply lnk_lengths in Hl; try done; rewrite Ha in Hl; tauto. }
        destruct b as [|y [|]]; try done. by exists y. }
      exists y. split; [done|]. rewrite <- Hn. destruct Hl as [Hl|Hl]; [left|right]; apply linked_lnk in Hl; try done; by apply rd_noEdge.
    - intros (y & -> & Hl). split; [|done]. rewrite <- Hn in Hl. destruct Hl as [Hl|Hl]; [left|right]; apply linked_lnk; try done; by apply rd_noEdge.
  Qed.
  Lemma copy_elem l o : o ∈ msub_layer_ops l v s ->
    (exists x, x ∈ s /\ o = MAAddNode l x) \/
    (exists x y, x ∈ s /\ y ∈ s /\ (rd v [x] [y] <> 0 \/ rd v [y] [x] <> 0)%Z /\ o = MASet l [x; y] (rd v [x] [y])).
  Proof using Hv Hs.
    destruct copy_facts as (Hg & Ha & Hn & _ & Hf). unfold msub_layer_ops. rewrite elem_of_app. intros [Ho|Ho].
    - left. apply elem_of_list_fmap in Ho as (x & -> & Hx). apply elem_of_list_filter in Hx as [? ?]. eauto.
    - right. apply elem_of_list_bind in Ho as (x & Ho & Hx). apply elem_of_list_fmap in Ho as (y & -> & Hy).
      rewrite weight_rd by done. exists x, y. split; [done|].
      destruct (decide _) in Hy; apply elem_of_list_filter in Hy as [Hy1 Hy2].
      + rewrite Hn, weight_rd in Hy1 by done. auto.
      + split; [done|]. apply elem_of_list_fmap in Hy2 as (b & -> & Hb). apply copy_neigh in Hb as (y' & -> & Hy'). auto.
  Qed.
  Lemma copy_link l x y : rd v [x] [y] <> 0%Z -> MASet l [x; y] (rd v [x] [y]) ∈ msub_layer_ops l v s.
  Proof using Hv Hs.
    intros Hne. destruct (copy_nodes x y Hne) as [Hx Hy]. destruct copy_facts as (Hg & Ha & Hn & _ & Hf).
    unfold msub_layer_ops. apply elem_of_app. right. apply elem_of_list_bind. exists x. split; [|done]. apply elem_of_list_fmap. exists y.
    rewrite weight_rd by done. split; [done|].
    destruct (decide _); apply elem_of_list_filter.
    - split; [by rewrite Hn, weight_rd by done|done].
    - split; [done|]. apply elem_of_list_fmap. exists [y]. split; [done|]. apply copy_neigh. eauto.
  Qed.
  Lemma copy_names l x : (exists o, o ∈ msub_layer_ops l v s /\ onames o x) <-> x ∈ s.
  Proof using Hv Hs.
    split.
    - intros (o & Ho & Hx). apply copy_elem in Ho as [(y & Hy & ->)|(y & z & Hy & Hz & _ & ->)]; cbn [onames] in Hx; [by subst|].
      rewrite !elem_of_cons, elem_of_nil in Hx. by destruct Hx as [->|[->|?]].
    - intros Hx. exists (MAAddNode l x). split; [|done]. unfold msub_layer_ops. apply elem_of_app. left. apply elem_of_list_fmap.
      exists x. split; [done|]. apply elem_of_list_filter. split; [by rewrite <- Hs|done].
  Qed.
  Lemma copy_safe l : Forall (osafe l W) (msub_layer_ops l v s).
  Proof using Hv Hs.
    apply Forall_forall. intros o Ho. apply copy_elem in Ho as [(x & _ & ->)|(x & y & _ & _ & Hne & ->)]; [left; eauto|].
    right. exists x, y. split; [done|]. intros ->. tauto.
  Qed.
End Copy.

(** ** C100 *)
(** [net.A[l]=val]: the layer then has the links of [val] and no others, the other layers and
    the couplings are as before, the nodes of [val] have become nodes of the network, and the
    layer has exactly the nodes of [val] (all nodes if the network is fully interconnected). *)
Theorem C100_assign cs dir noe fi h p l dv fv g v s :
  mhist cs dir noe fi h p -> 1 <= length cs -> l ∈ mlayers p ->
  hist 0 0 dv fv g v -> (dv = true -> dir = true) -> s ≡ₚ net_nodes v ->
  exists q, aset_net p l v s = (q, Ok tt) /\
    (forall i j w, reads v [i] [j] w -> agetitem q l [i; j] = Ok w) /\
    (forall t i j, t <> l -> agetitem q t [i; j] = agetitem p t [i; j]) /\
    (forall k x, mhas q k x <-> mhas p k x \/ k = 0 /\ has_elem v 0 x) /\
    (forall x t, t ∈ mlayers p -> mexists q (nl_of x t) <->
       if fi then mhas p 0 x \/ has_elem v 0 x else if decide (t = l) then has_elem v 0 x else mexists p (nl_of x t)) /\
    (forall a, mexists q a -> exists x t, a = nl_of x t /\ t ∈ mlayers p) /\
    mcoup q = cs /\ mdir q = dir /\ mnoe q = noe /\ mfic q = fi.
Proof.
  intros Hh H1 Hlay Hv Hdir Hs. pose proof (mhist_inv _ _ _ _ _ _ Hh) as Hp. pose proof (pi_wf _ _ _ _ _ _ Hp) as Wp.
  pose proof (pinv_masp _ _ _ _ _ _ Hp) as Ap. pose proof (pi_fic _ _ _ _ _ _ Hp) as Fp. pose proof (pi_dir _ _ _ _ _ _ Hp) as Dp.
  destruct (copy_facts dv fv g v Hv) as (Gv & Av & Nv & Dv & Fv).
  apply mlayers_form in Hlay as [m Hm]; [|done]. destruct (pA_raw _ _ _ Hm) as [m0 Hm0]. destruct (pA_lay p l m Wp Hm) as [_ Hform].
  set (p0 := fitted p l).
  assert (W0 : pwf p0) by (by apply (fitted_pwf p l m)).
  set (W := fun x y => rd v [x] [y]).
  assert (Wsym : dir = false -> forall x y, W x y = W y x).
  { intros E x y. apply rd_sym; [done|]. rewrite Dv. destruct dv; [|done]. rewrite Hdir in E; done. }
  assert (Hj0 : J p0 l dir W (fun _ => False) (fun _ _ => False) p0).
  { split; try done.
    - destruct (empty_view p l Wp) as (m1 & Hm1 & hs & Hf & E1). rewrite Dp in E1. exists m1, ([] ++ hs). split; [done|].
      assert (Hg1 : hist 0 0 dir true ([] ++ hs) m1). { rewrite E1. apply hist_run. constructor. }
      split; [done|]. split; [|done]. intros x y. left. rewrite (hist_refines _ _ _ _ _ _ Hg1), spec_run_adds by done. done.
    - intros t n _ Hn. exists n. split; [done|apply adds_refl].
    - tauto.
    - tauto. }
  pose proof (copy_safe dv fv g v s Hv Hs l) as Hsafe.
  destruct (J_loop p0 l dir W Wsym (msub_layer_ops l v s) _ _ _ Hj0 Hsafe) as (q & E & Hj).
  destruct (sim_loop l _ l _ _ Hsafe _ _ (fitted_sim p l Wp)) as [Hsim Hres]. fold p0 in Hsim, Hres. rewrite E in Hsim, Hres. cbn [fst snd] in Hsim, Hres.
  destruct (ofold mstep (add_empty p l) (msub_layer_ops l v s)) as [q0 r0] eqn:E0. cbn [fst snd] in Hsim, Hres. subst r0.
  destruct Hj as [Wq Cq Dq Nq Fq (mq & gq & Hmq & Hgq & Hrd0 & Hrd) Ho Hsl Hn2].
  assert (Hnames : forall x, (False \/ exists o, o ∈ msub_layer_ops l v s /\ onames o x) <-> has_elem v 0 x).
  { intros x. rewrite (copy_names dv fv g v s Hv Hs l x), Hs, net_nodes_sl, has_elem_sl. tauto. }
  change (mcoup p0) with (mcoup p) in Cq. change (mnoe p0) with (mnoe p) in Nq. change (mfic p0) with (mfic p) in Fq, Hn2.
  assert (Aq : maspects q = length cs). { unfold maspects. rewrite Cq. exact Ap. }
  assert (Hlays : forall t, lay_in q t -> lay_in p t).
  { intros [y|ls]; simpl; rewrite Ap, Aq; intros [Hl0 Hl1]; (split; [done|]).
    - by apply Hsl in Hl1 as [?|[? _]].
    - intros i y Hy. specialize (Hl1 i y Hy). by apply Hsl in Hl1 as [?|[? _]]. }
  assert (HnoneN : forall t, pA p t = None -> pA q t = None).
  { intros t Hn. destruct (pA q t) as [n|] eqn:En; [|done]. exfalso. destruct (pA_lay q t n Wq En) as [Hl1 Hf1]. rewrite Aq in Hf1.
    destruct (lay_pA p t) as [? ?]; [done|by apply Hlays|by rewrite Ap|congruence]. }
  exists q0. split.
  { unfold aset_net. rewrite decide_True by done. by rewrite Hm0. }
  split.
  { intros i j w Hw. apply reads_rd in Hw; [|by rewrite Av..]. subst w. rewrite (sim_get _ _ _ _ _ _ Hsim), agetitem_lrd, Hmq. f_equal. rewrite (lrd_rd q l mq) by done.
    destruct (decide (W i j = 0%Z)) as [Ez|Ez].
    - destruct (Hrd0 i j) as [E1|E1]; rewrite E1; [by rewrite <- Ez|done].
    - apply Hrd. right. by apply (copy_link dv fv g v s). }
  split.
  { intros t i j Ht. rewrite (sim_get _ _ _ _ _ _ Hsim), !agetitem_lrd. destruct (pA p t) as [n|] eqn:En; [|by rewrite HnoneN].
    assert (En0 : pA p0 t = Some n) by (change (pA p0 t) with (pA (add_empty p l) t); by rewrite empty_other). destruct (Ho t n Ht En0) as (n' & En' & Ha). rewrite En'. f_equal.
    rewrite (lrd_rd q t n'), (lrd_rd p t n) by done. destruct (pi_view _ _ _ _ _ _ Hp t n En) as (gn & Hgn & _). by apply (adds_rd dir gn). }
  split.
  { intros k x. rewrite (sim_has _ _ _ _ _ _ Hsim), <- !psl_mhas, Hsl, Hnames. done. }
  split.
  { intros x t Ht. apply mlayers_form in Ht as [n En]; [|done]. destruct (pA_lay p t n Wp En) as [Hl1 Hf1].
    rewrite (sim_exists _ _ _ _ _ Hsim), (mexists_iff q _ Wq), Fq, Fp, Aq. rewrite Ap in Hf1. destruct (nl_of_form _ x t Hf1) as (F1 & F2 & F3 & F4). destruct fi.
    - rewrite <- psl_mhas, <- Hnames. split.
      + intros [_ Ha]. destruct (proj1 (Hsl 0 x)) as [?|[_ ?]]; [|by left|by right]. apply Ha. by destruct t.
      + intros Hx. split; [done|]. intros [|k] y Hy; apply Hsl.
        * assert (y = x) as -> by (destruct t; by injection Hy). destruct Hx as [?|?]; [by left|by right].
        * left. destruct t as [z|ls]; simpl in Hy, Hl1; [|by apply Hl1]. destruct k; [|done]. injection Hy as <-. by apply Hl1.
    - assert (Hq : (exists x0 l0, full_form (length cs) l0 /\ nl_of x t = nl_of x0 l0 /\ l0 ∈ mn2lv q x0) <-> t ∈ mn2lv q x).
      { split; [|by eauto]. intros (y & t' & Hf' & E' & Hy). destruct (nl_of_form _ y t' Hf') as (_ & _ & G3 & G4). rewrite <- E' in G3, G4. congruence. }
      rewrite Hq, Hn2, Hnames. unfold p0. rewrite fitted_mn2lv, elem_of_list_filter. destruct (decide (t = l)) as [->|Hne]; [naive_solver congruence|].
      rewrite (n2l_mexists cs dir noe h p t x Hp) by (by rewrite Ap). naive_solver. }
  split.
  { intros a. rewrite (sim_exists _ _ _ _ _ Hsim). intros Ha. destruct (mexists_psl q a Wq Ha) as (La & _ & Ma & _). rewrite Aq in *.
    destruct (Ma H1) as (n & En & _). exists (node_of a), (lkey (length cs) (tail a)).
    destruct a as [|x ls]; [done|]. cbn [tail node_of] in *. split.
    - simpl in La. unfold lkey. destruct (decide (length cs = 1)) as [E1|E1]; [|done]. destruct ls as [|y [|]]; simpl in La; [lia|done|lia].
    - apply mlayers_form; [done|]. destruct (pA_lay q _ n Wq En) as [Hl1 Hf1]. rewrite Aq in Hf1. apply lay_pA; [done|by apply Hlays|by rewrite Ap]. }
  destruct (sim_fields _ _ _ _ Hsim) as (-> & -> & -> & -> & _). rewrite Cq, Nq, Fq, (pi_coup _ _ _ _ _ _ Hp), (pi_noe _ _ _ _ _ _ Hp). done.
Qed.
(** ** Neighbours after the assignment *)
Record ginv (cs : list coupling) (dir : bool) (noe : Z) (p : mpx) : Prop := {
  gi_wf : pwf p;
  gi_coup : mcoup p = cs;
  gi_dir : mdir p = dir;
  gi_noe : mnoe p = noe;
  gi_view : forall t m, pA p t = Some m -> exists g, hist 0 0 dir true g m;
}.
Lemma ginv_asp cs dir noe p : ginv cs dir noe p -> maspects p = length cs.
Proof. intros Hi. unfold maspects. by rewrite (gi_coup _ _ _ _ Hi). Qed.
Lemma gi_mreads_sym cs noe p a b w : ginv cs false noe p -> Forall no_net cs ->
  mexists p a -> mexists p b -> mreads p a b w -> mreads p b a w.
Proof.
  intros H Hn Ha Hb. pose proof (gi_wf _ _ _ _ H) as Hw. pose proof (ginv_asp _ _ _ _ H) as Has.
  destruct (mexists_psl p a Hw Ha) as (Hla & _). destruct (mexists_psl p b Hw Hb) as (Hlb & _).
  intros Hr. assert ((exists d, inter_aspects a b = [d]) \/ ~ exists d, inter_aspects a b = [d]) as [[d Hd]|Hno].
  { destruct (inter_aspects a b) as [|d [|e l]]; [right; by intros [? ?]|left; eauto|right; by intros [? ?]]. }
  - apply inter_aspects_single in Hd; [|congruence]. destruct d as [|d].
    + apply mreads_pair in Hr; [|done..]. apply mreads_pair; [done..|].
      rewrite pget_pair_intra in Hr by done. rewrite pget_pair_intra by by apply differ_at_sym.
      destruct a as [|x a]; [done|]. destruct b as [|y b]; [done|]. apply differ_at_0 in Hd as [Hne <-]. simpl in *.
      destruct (pA p (lkey (maspects p) a)) as [m|] eqn:Hm; [|done].
      destruct (gi_view _ _ _ _ H _ _ Hm) as (g & Hg). destruct (hist_inv _ _ _ _ _ _ Hg) as [_ HL _ _ Hdir _].
      rewrite <- Hr. f_equal. change (weight m [y] [x] = weight m [x] [y]).
      rewrite !weight_rd by done. unfold rd. by rewrite (wfL_sym m HL Hdir).
    + assert (forall c, mcoup p !! d = Some c -> no_net c) as Hnn.
      { intros c Hc. rewrite (gi_coup _ _ _ _ H) in Hc. rewrite Forall_lookup in Hn. by eapply Hn. }
      apply (coup_reads p DIn d a b w Hw Ha Hb Hd Hnn). by apply (coup_reads p DOut d a b w Hw Ha Hb Hd Hnn).
  - assert (forall d, ~ differ_at d a b) as Hnd. { intros d Hd. apply Hno. exists d. apply inter_aspects_single; [congruence|done]. }
    apply mreads_pair in Hr; [|done..]. apply mreads_pair; [done..|]. rewrite pget_pair_none in Hr; [|congruence|done].
    rewrite pget_pair_none; [done|congruence|]. intros d Hd. by apply (Hnd d), differ_at_sym.
Qed.
Lemma gi_no_self cs dir noe p a m : ginv cs dir noe p -> 1 <= length cs -> length a = S (length cs) ->
  pA p (lkey (maspects p) (tail a)) = Some m -> agetitem p (player_of (length cs) a) [node_of a; node_of a] = Ok 0%Z ->
  good m /\ aspects m = 0 /\ noEdge m = 0%Z /\ ~ linked m [node_of a] [node_of a].
Proof.
  intros H H1 Hl Hm Hg. pose proof (ginv_asp _ _ _ _ H) as Has. rewrite <- Has in Hl, Hg, H1. rewrite lkey_player in Hm by done.
  destruct (gi_view _ _ _ _ H _ _ Hm) as (g & Hh). pose proof (hist_good _ _ _ _ _ _ Hh) as Hgd.
  destruct (hist_inv _ _ _ _ _ _ Hh) as [_ HL Ha Hn _ _]. split; [done|]. split; [done|]. split; [done|].
  intros Hk. apply linked_lnk in Hk; [|done]. apply rd_noEdge in Hk; [|done]. apply Hk. rewrite Hn.
  unfold agetitem in Hg. rewrite Hm in Hg. simpl in Hg.
  change (get_link m [node_of a; node_of a]) with (weight m [node_of a] [node_of a]) in Hg. rewrite weight_rd in Hg by done.
  congruence.
Qed.
Lemma gi_lift cs dir noe p dr a ds : ginv cs dir noe p -> Forall no_net cs -> mexists p a ->
  dims_of (length cs) ds a -> (forall dr d, d <= maspects p -> exists L, dim_good p dr a d L) ->
  exists L, neighbours_exact p dr a ds L.
Proof.
  intros H Hnn Ha Hds Hg. pose proof (ginv_asp _ _ _ _ H) as Has. rewrite <- Has in Hds.
  destruct (dims_good p (pdir p dr) a ds (gi_wf _ _ _ _ H) Ha Hds (Hg _)) as (L & H1 & H2 & H3 & H4).
  assert (Hrs : mdir p = false -> forall b, mexists p b -> forall w, mreads p a b w <-> mreads p b a w).
  { intros Hd b Hb w. rewrite (gi_dir _ _ _ _ H) in Hd. subst dir. split; by eapply gi_mreads_sym. }
  assert (Hls : mdir p = false -> forall b, mexists p b -> mlinked p a b <-> mlinked p b a).
  { intros Hd b Hb. unfold mlinked. setoid_rewrite (Hrs Hd b Hb). done. }
  assert (H2' : lists_exactly L (fun b => mexists p b /\ mlinked_dir p dr a b /\ matches ds b)).
  { eapply lists_exactly_iff; [|exact H2]. intros b. simpl. unfold pdir. destruct (mdir p) eqn:Hd; [done|].
    split; intros (Hb & Hlk & Hm); (split; [done|]); (split; [|done]); specialize (Hls eq_refl b Hb);
      destruct dr; simpl in *; tauto. }
  exists L. split; [done|]. split; [done|]. split.
  - intros Hd. apply H3. unfold pdir. destruct (mdir p); [|done]. by destruct Hd.
  - intros Hd Hw f Hf. apply H4.
    + unfold pdir. destruct (mdir p); [|done]. by destruct Hd.
    + done.
    + intros b Hb. specialize (Hf b Hb). apply H2 in Hb as (Hb & _). unfold pdir. destruct (mdir p) eqn:Hd'; [done|].
      specialize (Hrs eq_refl b Hb). destruct dr; simpl in *; try done. by apply Hrs.
Qed.
Lemma fitted_same p l : pwf p -> mfic p = true -> fitted p l = add_empty p l.
Proof. intros Hw Hl. unfold fitted. rewrite (pw_fic p Hw Hl). pose proof (pw_fic p Hw Hl) as E. destruct p. cbn in *. by subst. Qed.
Lemma assign_ginv cs dir noe fi h p l dv fv g v s q :
  mhist cs dir noe fi h p -> 1 <= length cs -> l ∈ mlayers p ->
  fi = true \/ (forall x, mexists p (nl_of x l) -> has_elem v 0 x) ->
  hist 0 0 dv fv g v -> (dv = true -> dir = true) -> s ≡ₚ net_nodes v ->
  aset_net p l v s = (q, Ok tt) -> ginv cs dir noe q.
Proof.
  intros Hh H1 Hlay Hemp Hv Hdir Hs Hq. pose proof (mhist_inv _ _ _ _ _ _ Hh) as Hp. pose proof (pi_wf _ _ _ _ _ _ Hp) as Wp.
  pose proof (pinv_masp _ _ _ _ _ _ Hp) as Ap. pose proof (pi_fic _ _ _ _ _ _ Hp) as Fp. pose proof (pi_dir _ _ _ _ _ _ Hp) as Dp.
  destruct (copy_facts dv fv g v Hv) as (Gv & Av & Nv & Dv & Fv).
  apply mlayers_form in Hlay as [m Hm]; [|done]. destruct (pA_raw _ _ _ Hm) as [m0 Hm0]. destruct (pA_lay p l m Wp Hm) as [_ Hform].
  set (p0 := fitted p l).
  assert (W0 : pwf p0) by (by apply (fitted_pwf p l m)).
  set (W := fun x y => rd v [x] [y]).
  assert (Wsym : dir = false -> forall x y, W x y = W y x).
  { intros E x y. apply rd_sym; [done|]. rewrite Dv. destruct dv; [|done]. rewrite Hdir in E; done. }
  assert (Hj0 : J p0 l dir W (fun _ => False) (fun _ _ => False) p0).
  { split; try done.
    - destruct (empty_view p l Wp) as (m1 & Hm1 & hs & Hf & E1). rewrite Dp in E1. exists m1, ([] ++ hs). split; [done|].
      assert (Hg1 : hist 0 0 dir true ([] ++ hs) m1). { rewrite E1. apply hist_run. constructor. }
      split; [done|]. split; [|done]. intros x y. left. rewrite (hist_refines _ _ _ _ _ _ Hg1), spec_run_adds by done. done.
    - intros t n _ Hn. exists n. split; [done|apply adds_refl].
    - tauto.
    - tauto. }
  pose proof (copy_safe dv fv g v s Hv Hs l) as Hsafe.
  destruct (J_loop p0 l dir W Wsym (msub_layer_ops l v s) _ _ _ Hj0 Hsafe) as (q' & E & Hj).
  destruct (sim_loop l _ l _ _ Hsafe _ _ (fitted_sim p l Wp)) as [Hsim _]. fold p0 in Hsim. rewrite E in Hsim. cbn [fst] in Hsim.
  unfold aset_net in Hq. rewrite decide_True in Hq by done. rewrite Hm0 in Hq.
  destruct Hj as [Wq' Cq Dq Nq Fq (mq & gq & Hmq & Hgq & _ & _) Ho Hsl Hn2].
  assert (Wq : pwf q).
  { destruct fi.
    - unfold p0 in E. rewrite fitted_same in E by done. rewrite Hq in E. by injection E as ->.
    - destruct Hemp as [?|Hemp]; [done|]. rewrite Hq in Hsim. apply (sim_pwf _ _ _ _ Hsim); [done|by rewrite Fq|]. intros x Hx. apply Hn2. right.
      split; [done|]. split; [done|]. right. apply (copy_names dv fv g v s Hv Hs l x). rewrite Hs, net_nodes_sl, <- has_elem_sl. apply Hemp.
      by apply (n2l_mexists cs dir noe h p l x Hp). }
  rewrite Hq in Hsim. cbn [fst] in Hsim. destruct (sim_fields _ _ _ _ Hsim) as (Ec & Ed & En & Ef & Esl & Ea).
  assert (Hpsl : forall k x, psl q k x <-> psl q' k x) by (intros k x; unfold psl; by rewrite Esl).
  setoid_rewrite <- Hpsl in Hsl. rewrite <- (sim_pA _ _ _ _ l Hsim) in Hmq. rewrite <- Ec in Cq. rewrite <- Ed in Dq. rewrite <- En in Nq.
  change (mcoup p0) with (mcoup p) in Cq. change (mnoe p0) with (mnoe p) in Nq.
  assert (Aq : maspects q = length cs). { unfold maspects. rewrite Cq. exact Ap. }
  split; [done|by rewrite Cq, (pi_coup _ _ _ _ _ _ Hp)|done|by rewrite Nq, (pi_noe _ _ _ _ _ _ Hp)|].
  intros t n Hn. destruct (decide (t = l)) as [->|Ht]; [exists gq; congruence|].
  destruct (pA_lay q t n Wq Hn) as [Hl1 Hf1]. rewrite Aq in Hf1.
  destruct (lay_pA p t) as [np Hnp]; [done| |by rewrite Ap|].
  { destruct t as [y|ls]; simpl in Hl1 |- *; rewrite Ap; rewrite Aq in Hl1; destruct Hl1 as [Hl0 Hl1]; (split; [done|]).
    - by apply Hsl in Hl1 as [?|[? _]].
    - intros i y Hy. specialize (Hl1 i y Hy). by apply Hsl in Hl1 as [?|[? _]]. }
  assert (pA p0 t = Some np) as Hnp0 by (change (pA p0 t) with (pA (add_empty p l) t); by rewrite empty_other).
  destruct (Ho t np Ht Hnp0) as (n' & Hn' & hs & _ & En'). rewrite <- (sim_pA _ _ _ _ t Hsim) in Hn'. assert (n' = n) as -> by congruence.
  destruct (pi_view _ _ _ _ _ _ Hp t np Hnp) as (gn & Hgn & _). exists (gn ++ hs). rewrite En'. by apply hist_run.
Qed.
(** After the assignment the neighbours, degree and strength of a node-layer are those given by
    the links (as in C19 and C20), unless the layer loses nodes. *)
Theorem C100_neighbours cs dir h p l dv fv g v s q dr a ds :
  mhist cs dir 0 true h p -> 1 <= length cs -> l ∈ mlayers p ->
  hist 0 0 dv fv g v -> (dv = true -> dir = true) -> s ≡ₚ net_nodes v ->
  aset_net p l v s = (q, Ok tt) ->
  mexists q a -> coupling_ok cs a -> dims_of (length cs) ds a ->
  agetitem q (player_of (length cs) a) [node_of a; node_of a] = Ok 0%Z ->
  exists L, neighbours_exact q dr a ds L.
Proof.
  intros Hh H1 Hl Hv Hd Hs Hq Ha Hok Hds Hself. destruct (C100_assign cs dir 0 true h p l dv fv g v s Hh H1 Hl Hv Hd Hs) as (q1 & E1 & _ & _ & _ & _ & _ & _ & _ & _ & Fq).
  assert (q1 = q) as -> by congruence.
  pose proof (assign_ginv cs dir 0 true h p l dv fv g v s q Hh H1 Hl (or_introl eq_refl) Hv Hd Hs Hq) as H.
  pose proof (gi_wf _ _ _ _ H) as Hw. pose proof (ginv_asp _ _ _ _ H) as Has.
  eapply gi_lift; [done|by eapply coupling_ok_no_net|done|done|]. intros dr' [|d] Hd'.
  - destruct (mexists_psl q a Hw Ha) as (Hl' & _ & Hm & _). destruct (Hm ltac:(lia)) as (m & HA & _). rewrite Has in Hl'.
    destruct (gi_no_self _ _ _ _ _ _ H H1 Hl' HA Hself) as (Hg & H2 & H3 & H4).
    apply (dim_good_intra q dr' a m Hw Ha ltac:(lia) (gi_noe _ _ _ _ H) HA Hg H2 H3 H4).
  - apply dim_good_coup_fic; [done|done|done|apply H|done|]. unfold coup_ok. rewrite (gi_coup _ _ _ _ H).
    destruct (lookup_lt_is_Some_2 cs d) as [c Hc]; [lia|]. rewrite Hc. specialize (Hok d c Hc). by destruct c.
Qed.
Theorem C100_neighbours_kept_nodes cw dir h p l dv fv g v s q dr a ds :
  mhist [CCat cw] dir 0 false h p -> cw <> 0%Z -> l ∈ mlayers p -> (forall x, mexists p (nl_of x l) -> has_elem v 0 x) ->
  hist 0 0 dv fv g v -> (dv = true -> dir = true) -> s ≡ₚ net_nodes v ->
  aset_net p l v s = (q, Ok tt) ->
  mexists q a -> dims_of 1 ds a -> agetitem q (player_of 1 a) [node_of a; node_of a] = Ok 0%Z ->
  exists L, neighbours_exact q dr a ds L.
Proof.
  intros Hh Hcw Hl He Hv Hd Hs Hq Ha Hds Hself. destruct (C100_assign [CCat cw] dir 0 false h p l dv fv g v s Hh (le_n 1) Hl Hv Hd Hs) as (q1 & E1 & _ & _ & _ & _ & _ & _ & _ & _ & Fq).
  assert (q1 = q) as -> by congruence.
  pose proof (assign_ginv [CCat cw] dir 0 false h p l dv fv g v s q Hh (le_n 1) Hl (or_intror He) Hv Hd Hs Hq) as H.
  pose proof (gi_wf _ _ _ _ H) as Hw. pose proof (ginv_asp _ _ _ _ H) as Has. change (length [CCat cw]) with 1 in Has.
  eapply gi_lift; [done|by repeat constructor|done|done|]. intros dr' [|[|d]] Hd'; [| |lia].
  - destruct (mexists_psl q a Hw Ha) as (Hl' & _ & Hm & _). destruct (Hm ltac:(lia)) as (m & HA & _). rewrite Has in Hl'.
    destruct (gi_no_self _ _ _ _ _ _ H (le_n 1) Hl' HA Hself) as (Hg & H2 & H3 & H4).
    apply (dim_good_intra q dr' a m Hw Ha ltac:(lia) (gi_noe _ _ _ _ H) HA Hg H2 H3 H4).
  - eapply dim_good_cat_nf; [done|done|done|apply H|apply H|done].
Qed.

(** A layer that does not exist is not created, and a network with aspects is refused; the
    multiplex network is not changed. *)
Theorem C100_no_layer cs dir noe fi h p l v s : mhist cs dir noe fi h p -> aspects v = 0 -> l ∉ mlayers p ->
  aset_net p l v s = (p, Err GenericException).
Proof.
  intros Hh Ha Hl. pose proof (pi_wf _ _ _ _ _ _ (mhist_inv _ _ _ _ _ _ Hh)) as Wp. unfold aset_net. rewrite decide_True by done.
  destruct (dget (mA p) l) as [m|] eqn:E; [|done]. exfalso. apply Hl, mlayers_form; [done|]. unfold pA. rewrite E. eauto.
Qed.
Theorem C100_not_monoplex p l v s : aspects v <> 0 -> aset_net p l v s = (p, Err AssertionError).
Proof. intros Ha. unfold aset_net. by rewrite decide_False. Qed.
(** In a network that is not fully interconnected a node that was on the layer and is not in
    [val] is no longer listed there, and the weight of its coupling to that layer reads as no
    link, yet the degree and the neighbours of the node on another layer still count the layer. *)
Theorem C100_old_nodes_refuted :
  exists h p g v q, mhist [CCat 1] false 0 false h p /\ hist 0 0 false true g v /\
    aset_net p (LBare sa) v (net_nodes v) = (q, Ok tt) /\
    mexists p [n1; sa] /\ ~ mexists q [n1; sa] /\ ~ mlinked q [n1; sb] [n1; sa] /\
    mp_degree q DTot [n1; sb] None = Ok 1%Z /\ mp_iter q DTot [n1; sb] None = Ok [[n1; sa]].
Proof.
  set (e := mcalls (new_mpx [CCat 1] false 0 false) [MAddNode n1 (Some (LBare sa)); MAddNode n1 (Some (LBare sb))]).
  exists e.1, e.2, [OpSet [n2; n3] 4%Z], (run (new_net 0 0 false true) [OpSet [n2; n3] 4%Z]). eexists.
  split; [apply mcalls_hist|]. split; [apply (hist_run 0 0 false true []); constructor|]. split; [vm_compute; reflexivity|]. split.
  { eexists. split; [vm_compute; reflexivity|]. by apply (bool_decide_unpack _). }
  split.
  { intros (L & HL & Ha). vm_compute in HL. injection HL as <-. revert Ha. apply (bool_decide_unpack _). by vm_compute. }
  split.
  { intros (w & Hw & Hne). apply mreads_pair in Hw; [|done..]. vm_compute in Hw. injection Hw as <-. by apply Hne. }
  split; vm_compute; reflexivity.
Qed.

(** The hypotheses are met: a layer with links, and a network with another node, other links
    and a self-link, in a fully interconnected multiplex network and in one that is not. *)
Definition ex100 := mcalls (new_mpx [CCat 1] false 0 true)
  [MSet [n1; n2; sa; sa] 3%Z; MSet [n1; n2; sb; sb] 5%Z].
Definition ex100_ops := [OpSet [n2; n3] 4%Z; OpSet [n2; n2] 6%Z].
Definition ex100_v := run (new_net 0 0 false true) ex100_ops.
Definition ex100_e := mcalls (new_mpx [CCat 1] false 0 false)
  [MSet [n1; n2; sa; sa] 3%Z; MAddLayer sb 1].
Example C100_ready : mhist [CCat 1] false 0 true ex100.1 ex100.2 /\ hist 0 0 false true ex100_ops ex100_v /\ LBare sa ∈ mlayers ex100.2 /\
  (exists q, aset_net ex100.2 (LBare sa) ex100_v [n3; n2] = (q, Ok tt) /\ agetitem q (LBare sa) [n1; n2] = Ok 0%Z /\
     agetitem q (LBare sa) [n3; n2] = Ok 4%Z /\ agetitem q (LBare sa) [n2; n2] = Ok 6%Z /\ agetitem q (LBare sb) [n1; n2] = Ok 5%Z /\
     mnodes q = [n1; n2; n3]) /\
  mhist [CCat 1] false 0 false ex100_e.1 ex100_e.2 /\ LBare sa ∈ mlayers ex100_e.2 /\ LBare sb ∈ mlayers ex100_e.2 /\
  (exists q, aset_net ex100_e.2 (LBare sb) ex100_v [n3; n2] = (q, Ok tt) /\ miter_node_layers q = Ok [[n1; sa]; [n2; sa]; [n3; sb]; [n2; sb]]) /\
  exists q, aset_net ex100_e.2 (LBare sa) ex100_v [n3; n2] = (q, Ok tt) /\ miter_node_layers q = Ok [[n3; sa]; [n2; sa]].
Proof.
  split; [apply mcalls_hist|]. split; [apply (hist_run 0 0 false true []); constructor|]. split; [apply (bool_decide_unpack _); vm_compute; exact I|].
  split; [eexists; split; [vm_compute; reflexivity|]; split_and!; vm_compute; reflexivity|]. split; [apply mcalls_hist|].
  split; [apply (bool_decide_unpack _); vm_compute; exact I|]. split; [apply (bool_decide_unpack _); vm_compute; exact I|].
  split; eexists; split; vm_compute; reflexivity.
Qed.
Definition ex100_w := run (new_net 0 0 false true) [OpSet [n1; n2] 4%Z; OpSet [n2; n3] 5%Z].
Definition ex100_k := mcalls (new_mpx [CCat 1] false 0 false)
  [MSet [n1; n2; sa; sa] 3%Z; MSet [n2; n3; sb; sb] 7%Z].
Example C100_neighbours_ready :
  (exists q, aset_net ex100.2 (LBare sa) ex100_v [n3; n2] = (q, Ok tt) /\ mexists q [n3; sa] /\
     agetitem q (player_of 1 [n3; sa]) [n3; n3] = Ok 0%Z /\ mp_iter q DTot [n3; sa] None = Ok [[n2; sa]; [n3; sb]] /\ mp_strength q DTot [n3; sa] None = Ok 5%Z) /\
  mhist [CCat 1] false 0 false ex100_k.1 ex100_k.2 /\ (forall x, mexists ex100_k.2 (nl_of x (LBare sa)) -> has_elem ex100_w 0 x) /\
  exists q, aset_net ex100_k.2 (LBare sa) ex100_w [n1; n3; n2] = (q, Ok tt) /\ mexists q [n3; sb] /\
     agetitem q (player_of 1 [n3; sb]) [n3; n3] = Ok 0%Z /\ mp_iter q DTot [n3; sb] None = Ok [[n2; sb]; [n3; sa]] /\ mp_degree q DTot [n3; sb] None = Ok 2%Z.
Proof.
  split.
  { eexists. split; [vm_compute; reflexivity|]. split; [eexists; split; [vm_compute; reflexivity|]; apply (bool_decide_unpack _); vm_compute; exact I|].
    split_and!; vm_compute; reflexivity. }
  split; [apply mcalls_hist|]. split.
  { intros x (L & HL & Hx). vm_compute in HL. injection HL as <-. rewrite has_elem_sl, <- net_nodes_sl. cbn [nl_of] in Hx. rewrite !elem_of_cons, elem_of_nil in Hx.
    destruct Hx as [[= ->]|[[= ->]|[[= ?]|[[= ?]|?]]]]; try done; apply (bool_decide_unpack _); vm_compute; exact I. }
  eexists. split; [vm_compute; reflexivity|]. split; [eexists; split; [vm_compute; reflexivity|]; apply (bool_decide_unpack _); vm_compute; exact I|].
  split_and!; vm_compute; reflexivity.
Qed.
Print Assumptions C100_assign.
Print Assumptions C100_neighbours.
Print Assumptions C100_neighbours_kept_nodes.
Print Assumptions C100_no_layer.
Print Assumptions C100_not_monoplex.
Print Assumptions C100_old_nodes_refuted.
