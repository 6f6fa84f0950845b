(** * Thresholding and randomizing multiplex networks: facts *)
From Verif Require Export MpxSub TransFacts2.

Lemma layer_edges cs dir noe fi h p l m : pinv cs dir noe fi h p -> pA p l = Some m ->
  (forall e, e ∈ edges m -> exists x y, e = ([x; y], lrd p l x y) /\ lrd p l x y <> 0%Z /\ x ∈ net_nodes m /\ y ∈ net_nodes m) /\
  (forall x y, lrd p l x y <> 0%Z -> ([x; y], lrd p l x y) ∈ edges m \/ dir = false /\ ([y; x], lrd p l x y) ∈ edges m).
Proof.
  intros Hp Hm. destruct (pinv_layer _ _ _ _ _ _ _ _ Hp Hm) as (Hg & Ha & Hn & Hd & Hf).
  pose proof (src_of_ok m Hg) as Hok. pose proof (edges_pairs m) as Ee. change (if directed m then pairs m else upairs m) with (npairs m) in Ee.
  assert (Hpt : forall a b, (a, b) ∈ npairs m -> exists x y, a = [x] /\ b = [y] /\ ptuple m (a, b) = ([x; y], lrd p l x y) /\ lrd p l x y <> 0%Z).
  { intros a b Hab. pose proof (npairs_linked m a b Hg Hab) as Hl. destruct (lnk_lengths _ _ _ Hg Hl) as [La Lb]. rewrite Ha in La, Lb.
    destruct a as [|x [|]], b as [|y [|]]; try done. exists x, y. split; [done|]. split; [done|].
    rewrite (lrd_rd p l m) by done. split; [unfold ptuple; simpl; by rewrite weight_rd|]. rewrite <- Hn. by apply rd_noEdge. }
  split.
  - intros e He. rewrite Ee in He. apply elem_of_list_fmap in He as ([a b] & -> & Hab). destruct (Hpt a b Hab) as (x & y & _ & _ & -> & Hne).
    exists x, y. split; [done|]. split; [done|]. by apply (lrd_nodes _ _ _ _ _ _ _ _ _ _ Hp Hm).
  - intros x y Hne. pose proof (lrd_nodes _ _ _ _ _ _ _ _ _ _ Hp Hm Hne) as [Hx Hy].
    destruct (so_all _ _ _ Hok [x] [y]) as [H|[Hd' H]]; try (by apply layer_present).
    + simpl. rewrite Hn, <- (lrd_rd p l m) by done. done.
    + left. rewrite Ee. apply elem_of_list_fmap. exists ([x], [y]). split; [|done]. by destruct (Hpt _ _ H) as (? & ? & [= <-] & [= <-] & -> & _).
    + right. simpl in Hd'. rewrite Hd in Hd'. split; [done|]. rewrite Ee. apply elem_of_list_fmap. exists ([y], [x]). split; [|done].
      destruct (Hpt _ _ H) as (? & ? & [= <-] & [= <-] & -> & _). f_equal. rewrite Hd' in Hp. by apply (lrd_sym _ _ _ _ _ _ _ _ Hp).
Qed.

(** ** Networks extended by further calls *)
Section Extend.
  Context (cs : list coupling) (dir : bool) (noe : Z) (fi : bool) (g : list call) (q0 q : mpx) (os : list mop).
  Context (H1 : 1 <= length cs) (H0 : mhist cs dir noe fi g q0) (Hq : mhist cs dir noe fi (g ++ went os) q).
  Notation asp := (length cs).
  Lemma ext_psl k x : psl q k x <-> psl q0 k x \/ exists o, o ∈ os /\ mmentions asp fi (o, Ok tt) k x.
  Proof using H1 H0 Hq.
    rewrite (pi_sl _ _ _ _ _ _ (mhist_inv _ _ _ _ _ _ Hq) H1), (pi_sl _ _ _ _ _ _ (mhist_inv _ _ _ _ _ _ H0) H1).
    setoid_rewrite elem_of_app. setoid_rewrite elem_of_went. naive_solver.
  Qed.
  Lemma ext_n2l x l : fi = false -> mlayer_form asp l -> l ∈ mn2lv q x <-> l ∈ mn2lv q0 x \/ exists o, o ∈ os /\ mcreates asp (o, Ok tt) x l.
  Proof using H1 H0 Hq.
    intros Hf Hl. rewrite (pi_n2l _ _ _ _ _ _ (mhist_inv _ _ _ _ _ _ Hq) Hf x l Hl), (pi_n2l _ _ _ _ _ _ (mhist_inv _ _ _ _ _ _ H0) Hf x l Hl).
    setoid_rewrite elem_of_app. setoid_rewrite elem_of_went. naive_solver.
  Qed.
  Lemma ext_lrd l x y v :
    (forall o i j w, o ∈ os -> mwrite asp dir l (o, Ok tt) = Some (i, j, w) -> nhit dir i j x y -> w = v) ->
    ((exists o i j w, o ∈ os /\ mwrite asp dir l (o, Ok tt) = Some (i, j, w) /\ nhit dir i j x y) \/ lrd q0 l x y = v) ->
    lrd q l x y = v.
  Proof using H0 Hq.
    intros Hag Hex. rewrite (lrd_spec _ _ _ _ _ _ _ _ _ (mhist_inv _ _ _ _ _ _ Hq)). unfold mspec. rewrite fold_left_app. apply mspec_fold_agree.
    - intros e i j w He. apply elem_of_went in He as (o & Ho & ->). by apply Hag.
    - destruct Hex as [(o & i & j & w & Ho & ?)|Hex]; [left; exists (o, Ok tt), i, j, w; split; [apply elem_of_went; eauto|done]|].
      right. by rewrite (lrd_spec _ _ _ _ _ _ _ _ _ (mhist_inv _ _ _ _ _ _ H0)) in Hex.
  Qed.
End Extend.
(** A loop over layers. *)
Lemma layers_fold cs dir noe fi (f : mpx -> layer -> res mpx) (ops : layer -> list mop) L : 1 <= length cs -> forall g q, mhist cs dir noe fi g q ->
  (forall l, l ∈ L -> is_Some (pA q l)) -> (forall l q', l ∈ L -> is_Some (pA q' l) -> f q' l = mbuild q' (ops l) /\ Forall (mop_safe (length cs) dir q') (ops l)) ->
  exists q', rfold f q L = Ok q' /\ mhist cs dir noe fi (g ++ went (L ≫= ops)) q'.
Proof.
  intros H1. induction L as [|l L IH]; intros g q Hq HL Hf; [exists q; split; [done|]; simpl; by rewrite app_nil_r|].
  cbn [rfold]. destruct (Hf l q ltac:(left) (HL l ltac:(left))) as [-> Hs]. destruct (mbuild_ok _ _ _ _ (ops l) g q Hq H1 Hs) as (q1 & E & Hq1). rewrite E. cbn [rbind].
  destruct (IH _ _ Hq1) as (q' & E' & Hq').
  - intros l' Hl'. apply (mbuild_layer _ _ _ _ _ _ _ _ _ Hq E). apply HL. by right.
  - intros l' q' Hl'. apply Hf. by right.
  - exists q'. split; [done|]. by rewrite bind_cons, went_app, app_assoc.
Qed.

(** ** threshold *)
Lemma copy_struct p : ((fun x => MAddNode x None) <$> mnodes p) ++
  (seq 1 (maspects p) ≫= fun k => (fun l => MAddLayer l k) <$> default [] (mslices p !! k)) = mrelabel_struct p [] [].
Proof. unfold mrelabel_struct. simpl. by rewrite app_nil_r. Qed.
Definition thr_ops (r : rule) (t : Z) (p : mpx) (l : layer) : list mop :=
  match pA p l with Some m => (fun e : list name * Z => MASet l (e.1) (e.2)) <$> filter (fun e => acc_of r t (e.2) = true) (edges m) | None => [] end.
Lemma mthr_layer_ops r t p q l : r <> ROther -> is_Some (pA p l) -> mthr_layer r t p q l = mbuild q (thr_ops r t p l).
Proof.
  intros Hr [m Hm]. unfold mthr_layer, layer_net, thr_ops. rewrite Hm. cbn [rbind]. unfold mbuild. generalize (edges m). intros es. revert q.
  induction es as [|e es IH]; intros q; [done|]. cbn [rfold]. assert (accept r (e.2) t = Ok (acc_of r t (e.2))) as -> by by destruct r. cbn [rbind].
  rewrite filter_cons. destruct (acc_of r t (e.2)) eqn:Ea.
  - rewrite decide_True by done. cbn [fmap list_fmap rfold]. destruct (mdo q _); [apply IH|done].
  - rewrite decide_False by done. apply IH.
Qed.
Section Threshold.
  Context (cs : list coupling) (dir : bool) (noe : Z) (fi : bool) (h : list call) (p : mpx) (r : rule) (t : Z).
  Context (Hp : pinv cs dir noe fi h p) (H1 : 1 <= length cs) (Hnn : Forall no_net cs) (Hr : r <> ROther).
  Notation asp := (length cs).
  Let Has : maspects p = asp := pinv_masp _ _ _ _ _ _ Hp.
  Let Hw : pwf p := pi_wf _ _ _ _ _ _ Hp.
  Lemma thr_ops_elem o l : o ∈ thr_ops r t p l <-> exists m x y, pA p l = Some m /\ ([x; y], lrd p l x y) ∈ edges m /\
    acc_of r t (lrd p l x y) = true /\ o = MASet l [x; y] (lrd p l x y).
  Proof using Hp.
    unfold thr_ops. destruct (pA p l) as [m|] eqn:Em; [|split; [by intros ?%elem_of_nil|intros (? & ? & ? & ? & _); done]].
    rewrite elem_of_list_fmap. setoid_rewrite elem_of_list_filter. split.
    - intros (e & -> & Ha & He). destruct (proj1 (layer_edges _ _ _ _ _ _ _ _ Hp Em) e He) as (x & y & -> & _). by exists m, x, y.
    - intros (m' & x & y & [= <-] & He & Ha & ->). by exists ([x; y], lrd p l x y).
  Qed.
  Lemma thr_struct : exists q, mbuild (new_mpx cs dir noe fi) (mrelabel_struct p [] []) = Ok q /\ mhist cs dir noe fi (went (mrelabel_struct p [] [])) q /\
    (forall k x, psl q k x <-> psl p k x) /\ (forall l x y, lrd q l x y = 0%Z) /\ (forall l, is_Some (pA p l) -> is_Some (pA q l)).
  Proof using Hp H1.
    destruct (mbuild_ok cs dir noe fi (mrelabel_struct p [] []) [] (new_mpx cs dir noe fi)) as (q & E & Hq);
      [constructor|done|apply (struct_safe _ _ _ _ _ _ _ Hp H1); by intros a ?%elem_of_nil|]. rewrite app_nil_l in Hq.
    exists q. split; [done|]. split; [done|]. pose proof (mhist_inv _ _ _ _ _ _ Hq) as Iq.
    assert (Hs : forall k x, psl q k x <-> psl p k x).
    { intros k x. rewrite (pi_sl _ _ _ _ _ _ Iq H1), (struct_mentions _ _ _ _ _ _ [] Hp H1) by by intros a ?%elem_of_nil.
      split; [by intros (? & ? & ->)|eauto]. }
    split; [done|]. split.
    - intros l x y. rewrite (lrd_spec _ _ _ _ _ _ _ _ _ Iq). apply mspec_agree; [|by right]. intros e i j w He Hwr. by rewrite (struct_no_writes cs dir p [] []) in Hwr.
    - intros l [m Hm]. destruct (pA_lay p l m Hw Hm) as [_ Hf]. rewrite Has in Hf. destruct (lkey_tuple _ l Hf) as [K1 K2]. rewrite <- K1.
      apply lkey_pA; [done|by eapply pi_wf|by eapply pinv_masp|done|]. intros k z Hz. apply Hs. by apply (layer_psl _ _ _ _ _ _ Hp l m).
  Qed.
  Lemma thr_facts : fi = true -> exists q g, mthreshold p t r = Ok q /\ mhist cs dir noe fi g q /\
    (forall k x, psl q k x <-> psl p k x) /\ (forall l, is_Some (pA p l) -> is_Some (pA q l)) /\
    (forall l x y, lrd q l x y = if acc_of r t (lrd p l x y) then lrd p l x y else 0%Z).
  Proof using Hp H1 Hnn Hr.
    intros Ef. destruct thr_struct as (q1 & E1 & Hq1 & Hs1 & Hl1 & HA1).
    assert (HL : forall l, l ∈ mlayers p -> is_Some (pA p l)) by (intros l Hl; by apply mlayers_form in Hl as [m Hm]; [exists m|]).
    destruct (layers_fold cs dir noe fi (mthr_layer r t p) (thr_ops r t p) (mlayers p) H1 _ q1 Hq1) as (q & E & Hq).
    { intros l Hl. by apply HA1, HL. }
    { intros l q' Hl Hq'. split; [apply mthr_layer_ops; [done|by apply HL]|]. apply Forall_forall. intros o Ho.
      apply thr_ops_elem in Ho as (m & x & y & Hm & He & Ha & ->). cbn [mop_safe]. split; [done|]. exists x, y. split; [done|]. right; left.
      destruct (proj1 (layer_edges _ _ _ _ _ _ _ _ Hp Hm) _ He) as (x' & y' & [= <- <-] & Hne & _). done. }
    exists q, (went (mrelabel_struct p [] []) ++ went (mlayers p ≫= thr_ops r t p)).
    assert (mthreshold p t r = Ok q) as Eq.
    { unfold mthreshold. rewrite (like_ok _ _ _ _ _ _ Hp Hnn). cbn [rbind]. rewrite copy_struct, E1. cbn [rbind].
      rewrite (pi_fic _ _ _ _ _ _ Hp), Ef. cbn [rbind]. done. }
    split; [done|]. split; [done|]. assert (Hs : forall k x, psl q k x <-> psl p k x).
    { intros k x. rewrite (ext_psl _ _ _ _ _ _ _ _ H1 Hq1 Hq), Hs1. split; [|by left]. intros [?|(o & Ho & Hm)]; [done|].
      apply elem_of_list_bind in Ho as (l & Ho & Hl). apply thr_ops_elem in Ho as (m & x' & y' & Em & He & _ & ->). destruct Hm as (_ & -> & Hx).
      destruct (proj1 (layer_edges _ _ _ _ _ _ _ _ Hp Em) _ He) as (x2 & y2 & [= <- <-] & _ & Hxm & Hym).
      assert (x ∈ net_nodes m) as Hxx by (apply elem_of_cons in Hx as [->|Hx%elem_of_list_singleton]; [done|by subst]).
      pose proof (node_mexists _ _ _ _ _ _ Hp l m x Em Hxx) as Hex. destruct (mexists_psl p _ Hw Hex) as (_ & Ps & _). rewrite nl_of_cons in Ps. by apply (Ps 0). }
    split; [done|]. split.
    - intros l [m Hm]. destruct (pA_lay p l m Hw Hm) as [_ Hf]. rewrite Has in Hf. destruct (lkey_tuple _ l Hf) as [K1 K2]. rewrite <- K1.
      pose proof (mhist_inv _ _ _ _ _ _ Hq) as Iq.
      apply lkey_pA; [done|by eapply pi_wf|by eapply pinv_masp|done|]. intros k z Hz. apply Hs. by apply (layer_psl _ _ _ _ _ _ Hp l m).
    - intros l x y. apply (ext_lrd _ _ _ _ _ _ _ _ Hq1 Hq).
      + intros o i j w Ho Hwr Hhit. apply elem_of_list_bind in Ho as (l' & Ho & Hl). apply thr_ops_elem in Ho as (m & x' & y' & Em & He & Ha & ->).
        rewrite mwrite_aset in Hwr. destruct (decide _) as [->|]; [|done]. injection Hwr as <- <- <-.
        destruct Hhit as [[-> ->]|(Hd & -> & ->)]; [by rewrite Ha|]. pose proof Hp as Hp2. rewrite Hd in Hp2. rewrite (lrd_sym _ _ _ _ _ l y' x' Hp2). by rewrite Ha.
      + destruct (acc_of r t (lrd p l x y)) eqn:Ea; [|right; apply Hl1]. destruct (decide (lrd p l x y = 0%Z)) as [->|Hne]; [right; apply Hl1|]. left.
        destruct (pA p l) as [m|] eqn:Em; [|unfold lrd in Hne; by rewrite Em in Hne].
        assert (l ∈ mlayers p) as Hl by (apply mlayers_form; [done|by exists m]).
        destruct (proj2 (layer_edges _ _ _ _ _ _ _ _ Hp Em) x y Hne) as [He|[Hd He]].
        * exists (MASet l [x; y] (lrd p l x y)), x, y, (lrd p l x y). split; [|split; [rewrite mwrite_aset; by rewrite decide_True|by left]].
          apply elem_of_list_bind. exists l. split; [|done]. apply thr_ops_elem. by exists m, x, y.
        * exists (MASet l [y; x] (lrd p l y x)), y, x, (lrd p l y x). split; [|split; [rewrite mwrite_aset; by rewrite decide_True|by right]].
          pose proof Hp as Hp2. rewrite Hd in Hp2. rewrite (lrd_sym _ _ _ _ _ l x y Hp2) in He, Ea.
          apply elem_of_list_bind. exists l. split; [|done]. apply thr_ops_elem. by exists m, y, x.
  Qed.
End Threshold.
Lemma thr_name_error cs dir noe h p r t a : pinv cs dir noe false h p -> 1 <= length cs -> Forall no_net cs -> mexists p a -> mthreshold p t r = Err NameError.
Proof.
  intros Hp H1 Hnn (L & HL & Ha). destruct (thr_struct cs dir noe false h p Hp H1) as (q1 & E1 & _).
  unfold mthreshold. rewrite (like_ok _ _ _ _ _ _ Hp Hnn). cbn [rbind]. rewrite copy_struct, E1. cbn [rbind]. rewrite (pi_fic _ _ _ _ _ _ Hp), HL. cbn [rbind].
  destruct L; [by apply elem_of_nil in Ha|done].
Qed.
Lemma thr_other cs dir noe h p t : pinv cs dir noe true h p -> 1 <= length cs -> Forall no_net cs ->
  ((exists l x y, lrd p l x y <> 0%Z) -> mthreshold p t ROther = Err GenericException) /\
  ((forall l x y, lrd p l x y = 0%Z) -> mthreshold p t ROther = mthreshold p t RGe).
Proof.
  intros Hp H1 Hnn. destruct (thr_struct cs dir noe true h p Hp H1) as (q1 & E1 & _). pose proof (pi_wf _ _ _ _ _ _ Hp) as Hw.
  unfold mthreshold. rewrite (like_ok _ _ _ _ _ _ Hp Hnn). cbn [rbind]. rewrite copy_struct, E1. cbn [rbind]. rewrite (pi_fic _ _ _ _ _ _ Hp). cbn [rbind].
  assert (Hst : forall q l m, pA p l = Some m -> mthr_layer ROther t p q l = match edges m with [] => Ok q | _ => Err GenericException end).
  { intros q l m Hm. unfold mthr_layer, layer_net. rewrite Hm. cbn [rbind]. by destruct (edges m). }
  split.
  - intros (l & x & y & Hne). apply (rfold_err _ (fun _ => True)); [| |done].
    + intros q l' _ Hl'. apply mlayers_form in Hl' as [m Hm]; [|done]. rewrite (Hst q l' m Hm). destruct (edges m); [left; eauto|by right].
    + destruct (pA p l) as [m|] eqn:Em; [|unfold lrd in Hne; by rewrite Em in Hne]. exists l. split; [apply mlayers_form; eauto|].
      intros q _. rewrite (Hst q l m Em). destruct (proj2 (layer_edges _ _ _ _ _ _ _ _ Hp Em) x y Hne) as [He|[_ He]]; destruct (edges m); try done; by apply elem_of_nil in He.
  - intros Hz. apply rfold_ext_in. intros q l Hl. apply mlayers_form in Hl as [m Hm]; [|done]. rewrite (Hst q l m Hm). unfold mthr_layer, layer_net. rewrite Hm. cbn [rbind].
    destruct (edges m) as [|e es] eqn:Ee; [done|]. destruct (proj1 (layer_edges _ _ _ _ _ _ _ _ Hp Hm) e) as (x & y & _ & Hne & _); [rewrite Ee; left|]. by destruct (Hz l x y).
Qed.

(** ** randomize_nodes_by_layer *)
Lemma dget_zip (xs ys : list name) i x y : NoDup xs -> xs !! i = Some x -> ys !! i = Some y -> dget (zip xs ys) x = Some y.
Proof.
  revert ys i. induction xs as [|x0 xs IH]; intros [|y0 ys] [|i] Hnd Hx Hy; try done; apply NoDup_cons in Hnd as [Hn Hnd]; cbn [zip zip_with dget].
  - injection Hx as ->. injection Hy as ->. by rewrite decide_True.
  - rewrite decide_False; [by apply (IH ys i)|]. intros ->. apply Hn. by eapply elem_of_list_lookup_2.
Qed.
(** Where the shuffle sends the nodes of a layer. *)
Definition rmap (sh : layer -> list name) (p : mpx) (l : layer) (x : name) : name :=
  match pA p l with Some m => default x (dget (zip (net_nodes m) (sh l)) x) | None => x end.
Definition rand_ops (sh : layer -> list name) (p : mpx) (l : layer) : list mop :=
  match pA p l with
  | Some m => ((fun x => MAAddNode l x) <$> net_nodes m) ++
      ((fun e : list name * Z => match e.1 with [x; y] => MASet l [rmap sh p l x; rmap sh p l y] (e.2) | _ => MAAddNode l (NInt 0) end) <$> edges m)
  | None => []
  end.
Section Randomize.
  Context (c : coupling) (dir : bool) (noe : Z) (fi : bool) (h : list call) (p : mpx) (sh : layer -> list name).
  Context (Hp : pinv [c] dir noe fi h p) (Hnn : no_net c).
  Context (Hsh : forall l m, pA p l = Some m -> Permutation (sh l) (net_nodes m)).
  Let Has : maspects p = 1 := pinv_masp _ _ _ _ _ _ Hp.
  Let Hw : pwf p := pi_wf _ _ _ _ _ _ Hp.
  Let Hfi : mfic p = fi := pi_fic _ _ _ _ _ _ Hp.

  Lemma layer_nd l m : pA p l = Some m -> NoDup (net_nodes m).
  Proof using Hp.
    intros Hm. destruct (pinv_layer _ _ _ _ _ _ _ _ Hp Hm) as ([HS _] & _). unfold net_nodes. destruct (slices m !! 0) as [s|] eqn:E; [|constructor].
    simpl. eapply Forall_lookup_1; [apply HS|exact E].
  Qed.
  Lemma rmap_pos l m i x : pA p l = Some m -> net_nodes m !! i = Some x -> sh l !! i = Some (rmap sh p l x) /\ dget (zip (net_nodes m) (sh l)) x = Some (rmap sh p l x).
  Proof using Hp Hsh.
    intros Hm Hx. destruct (lookup_lt_is_Some_2 (sh l) i) as [y Hy]; [rewrite (Hsh l m Hm); by eapply lookup_lt_Some|].
    unfold rmap. rewrite Hm, (dget_zip _ _ i x y) by (done || by eapply layer_nd). done.
  Qed.
  Lemma rmap_in l m x : pA p l = Some m -> x ∈ net_nodes m -> rmap sh p l x ∈ net_nodes m /\ dget (zip (net_nodes m) (sh l)) x = Some (rmap sh p l x).
  Proof using Hp Hsh.
    intros Hm [i Hi]%elem_of_list_lookup. destruct (rmap_pos l m i x Hm Hi) as [H1 H2]. split; [|done]. rewrite <- (Hsh l m Hm). by eapply elem_of_list_lookup_2.
  Qed.
  Lemma rmap_inj l m x y : pA p l = Some m -> x ∈ net_nodes m -> y ∈ net_nodes m -> rmap sh p l x = rmap sh p l y -> x = y.
  Proof using Hp Hsh.
    intros Hm [i Hi]%elem_of_list_lookup [j Hj]%elem_of_list_lookup E. destruct (rmap_pos l m i x Hm Hi) as [H1 _]. destruct (rmap_pos l m j y Hm Hj) as [H2 _].
    rewrite E in H1. assert (NoDup (sh l)) as Hnd by (rewrite (Hsh l m Hm); by eapply layer_nd). pose proof (NoDup_lookup _ _ _ _ Hnd H1 H2) as ->. congruence.
  Qed.
  Lemma rmap_surj l m y : pA p l = Some m -> y ∈ net_nodes m -> exists x, x ∈ net_nodes m /\ rmap sh p l x = y.
  Proof using Hp Hsh.
    intros Hm Hy. rewrite <- (Hsh l m Hm) in Hy. apply elem_of_list_lookup in Hy as [i Hi].
    destruct (lookup_lt_is_Some_2 (net_nodes m) i) as [x Hx]; [rewrite <- (Hsh l m Hm); by eapply lookup_lt_Some|].
    exists x. split; [by eapply elem_of_list_lookup_2|]. destruct (rmap_pos l m i x Hm Hx) as [H1 _]. congruence.
  Qed.
  Lemma rand_ops_elem l o : o ∈ rand_ops sh p l <-> exists m, pA p l = Some m /\
    ((exists x, x ∈ net_nodes m /\ o = MAAddNode l x) \/
     (exists x y, ([x; y], lrd p l x y) ∈ edges m /\ o = MASet l [rmap sh p l x; rmap sh p l y] (lrd p l x y))).
  Proof using Hp.
    unfold rand_ops. destruct (pA p l) as [m|] eqn:Em; [|split; [by intros ?%elem_of_nil|by intros (? & ? & _)]].
    rewrite elem_of_app, !elem_of_list_fmap. split.
    - intros [(x & -> & Hx)|(e & -> & He)]; exists m; (split; [done|]); [left; eauto|right].
      destruct (proj1 (layer_edges _ _ _ _ _ _ _ _ Hp Em) e He) as (x & y & -> & _). by exists x, y.
    - intros (m' & [= <-] & [(x & Hx & ->)|(x & y & He & ->)]); [left; eauto|right]. by exists ([x; y], lrd p l x y).
  Qed.
  Lemma rand_layer_ops q l : is_Some (pA p l) -> is_Some (pA q l) -> rand_layer sh p q l = mbuild q (rand_ops sh p l).
  Proof using Hp Hsh.
    intros [m Hm] [n Hn]. unfold rand_layer, layer_net, rand_ops. rewrite Hm, Hn. cbn [rbind]. rewrite mbuild_app. destruct (mbuild q _) as [q1|]; [|done]. cbn [rbind].
    unfold mbuild. rewrite <- rfold_fmap. apply rfold_ext_in. intros s e He.
    destruct (proj1 (layer_edges _ _ _ _ _ _ _ _ Hp Hm) e He) as (x & y & -> & _ & Hx & Hy). cbn [fst snd].
    by rewrite (proj2 (rmap_in l m x Hm Hx)), (proj2 (rmap_in l m y Hm Hy)).
  Qed.
  Lemma keys_pA l : l ∈ dkeys (mA p) <-> is_Some (pA p l).
  Proof using.
    rewrite elem_of_dkeys. unfold pA. split; [intros [m ->]; by eexists|]. intros [m H]. destruct (dget (mA p) l); [by eexists|done].
  Qed.
  Lemma on_layer x l m : pA p l = Some m -> mexists p (nl_of x l) <-> x ∈ net_nodes m.
  Proof using Hp.
    intros Hm. split; [|by apply (node_mexists _ _ _ _ _ _ Hp)]. intros He. destruct (mexists_psl p _ Hw He) as (_ & _ & Hx & _). rewrite Has in Hx.
    destruct (pA_lay p l m Hw Hm) as [_ Hf]. rewrite Has in Hf. rewrite nl_of_cons in Hx. cbn [tail node_of] in Hx. destruct (lkey_tuple _ l Hf) as [K1 _]. rewrite K1 in Hx.
    destruct (Hx ltac:(lia)) as (m' & Hm' & ?). assert (m' = m) as -> by congruence. done.
  Qed.
  Lemma exists_layer a : mexists p a -> exists x l m, pA p l = Some m /\ x ∈ net_nodes m /\ a = nl_of x l.
  Proof using Hp.
    intros He. destruct (mexists_psl p _ Hw He) as (Hl & _ & Hx & _). rewrite Has in Hx, Hl. destruct a as [|x ls]; [done|]. destruct (Hx ltac:(lia)) as (m & Hm & ?).
    exists x, (lkey 1 ls), m. split; [done|]. split; [done|]. simpl in Hl. rewrite nl_of_lkey; [done|lia|lia].
  Qed.
  Lemma rand_facts : exists q g, mrandomize p sh = Ok q /\ mhist [c] dir noe fi g q /\
    (forall x, psl q 1 x <-> psl p 1 x) /\ (forall x, psl q 0 x <-> exists a, mexists p a /\ a !! 0 = Some x) /\
    (forall a, mexists q a <-> mexists p a) /\ (forall l, is_Some (pA p l) -> is_Some (pA q l)) /\
    (forall l m x y, pA p l = Some m -> x ∈ net_nodes m -> y ∈ net_nodes m -> lrd q l (rmap sh p l x) (rmap sh p l y) = lrd p l x y).
  Proof using Hp Hnn Hsh.
    set (args := [Some []; Some (default [] (mslices p !! 1))] : list (option (list name))).
    destruct (sub_facts [c] dir noe fi h p args Hp ltac:(simpl; lia) ltac:(by constructor) eq_refl false) as (q0 & g & E & H0 & Hs0 & He0 & _).
    { right. intros ls Hls. apply (combo_elem [c] dir noe fi h p args Hp) in Hls as [Hlen Hk]; [|simpl; lia|done].
      apply lkey_pA; [simpl; lia|done|done|done|]. intros k z Hz. specialize (Hk k z Hz). assert (k = 0) as -> by (apply lookup_lt_Some in Hz; simpl in *; lia).
      unfold mselection, args in Hk. cbn in Hk. rewrite elem_of_remove_dups in Hk. by apply slice_psl. }
    assert (Hno : forall a, ~ sel_nl args a \/ a = []).
    { intros [|x a]; [by right|left]. intros H. specialize (H 0 x (Some []) eq_refl eq_refl). by apply elem_of_nil in H. }
    assert (Hs1 : forall x, psl q0 1 x <-> psl p 1 x).
    { intros x. rewrite Hs0. unfold sub_name, sel_at. split.
      - intros [(? & _)|(_ & ? & _)]; done.
      - intros Hx. left. split; [done|]. split; [|by right]. eexists. split; [done|]. simpl. by apply slice_psl. }
    assert (Hs2 : forall x, ~ psl q0 0 x).
    { intros x Hx. apply Hs0 in Hx as [(_ & (o & [= <-] & Ho) & _)|(_ & _ & a & Ha & Hs & <-)]; [by apply elem_of_nil in Ho|].
      destruct (Hno a) as [?| ->]; [done|]. by destruct (mexists_psl p [] Hw Ha) as (? & _). }
    assert (Hz : forall l x y, lrd q0 l x y = 0%Z).
    { intros l x y. destruct (decide (lrd q0 l x y = 0%Z)) as [|Hne]; [done|exfalso]. pose proof (mhist_inv _ _ _ _ _ _ H0) as I0.
      destruct (pA q0 l) as [m|] eqn:Em; [|unfold lrd in Hne; by rewrite Em in Hne]. destruct (lrd_nodes _ _ _ _ _ _ _ _ _ _ I0 Em Hne) as [Hx _].
      destruct (mexists_psl q0 _ (pi_wf _ _ _ _ _ _ I0) (node_mexists _ _ _ _ _ _ I0 l m x Em Hx)) as (_ & Px & _). rewrite nl_of_cons in Px. apply (Hs2 x). by apply (Px 0). }
    assert (HA0 : forall q l, pwf q -> maspects q = 1 -> (forall x, psl q 1 x <-> psl p 1 x) -> is_Some (pA p l) -> is_Some (pA q l)).
    { intros q l Wq Aq Hs [m Hm]. destruct (pA_lay p l m Hw Hm) as [_ Hf]. rewrite Has in Hf. destruct (lkey_tuple _ l Hf) as [K1 K2]. rewrite <- K1.
      apply lkey_pA; [done|done|done|done|]. intros k z Hzz. assert (k = 0) as -> by (apply lookup_lt_Some in Hzz; lia). apply Hs. by apply (layer_psl _ _ _ _ _ _ Hp l m). }
    pose proof (mhist_inv _ _ _ _ _ _ H0) as I0.
    destruct (layers_fold [c] dir noe fi (rand_layer sh p) (rand_ops sh p) (dkeys (mA p)) ltac:(simpl; lia) g q0 H0) as (q & E' & Hq).
    { intros l Hl%keys_pA. apply HA0; [by eapply pi_wf|exact (pinv_masp _ _ _ _ _ _ I0)|done|done]. }
    { intros l q' Hl%keys_pA Hq'. split; [by apply rand_layer_ops|]. apply Forall_forall. intros o Ho.
      apply rand_ops_elem in Ho as (m & Hm & [(x & Hx & ->)|(x & y & He & ->)]); cbn [mop_safe]; [done|]. split; [done|]. eexists _, _. split; [done|]. right; left.
      destruct (proj1 (layer_edges _ _ _ _ _ _ _ _ Hp Hm) _ He) as (x' & y' & [= <- <-] & Hne & _). done. }
    exists q, (g ++ went (dkeys (mA p) ≫= rand_ops sh p)).
    split. { unfold mrandomize. rewrite decide_True by done. fold args. rewrite E. cbn [rbind]. done. }
    split; [done|]. pose proof (mhist_inv _ _ _ _ _ _ Hq) as Iq.
    assert (Hop : forall o, o ∈ dkeys (mA p) ≫= rand_ops sh p <-> exists l m, pA p l = Some m /\
       ((exists x, x ∈ net_nodes m /\ o = MAAddNode l x) \/ (exists x y, ([x; y], lrd p l x y) ∈ edges m /\ o = MASet l [rmap sh p l x; rmap sh p l y] (lrd p l x y)))).
    { intros o. rewrite elem_of_list_bind. setoid_rewrite rand_ops_elem. setoid_rewrite keys_pA. split; [naive_solver|]. intros (l & m & Hm & H). exists l. split; eauto. }
    assert (H1' : 1 <= length [c]) by (simpl; lia).
    assert (Hs : forall x, psl q 1 x <-> psl p 1 x).
    { intros x. rewrite (ext_psl _ _ _ _ _ _ _ _ H1' H0 Hq), Hs1. split; [|by left]. intros [?|(o & Ho & Hm)]; [done|].
      apply Hop in Ho as (l & m & Em & [(x' & _ & ->)|(x' & y' & _ & ->)]); by destruct Hm as (_ & ? & _). }
    assert (Hnode : forall x, psl q 0 x <-> exists l m, pA p l = Some m /\ x ∈ net_nodes m).
    { intros x. rewrite (ext_psl _ _ _ _ _ _ _ _ H1' H0 Hq). split.
      - intros [?|(o & Ho & Hm)]; [by destruct (Hs2 x)|]. apply Hop in Ho as (l & m & Em & [(x' & Hx & ->)|(x' & y' & He & ->)]); destruct Hm as (_ & _ & Hm).
        + subst x. eauto.
        + destruct (proj1 (layer_edges _ _ _ _ _ _ _ _ Hp Em) _ He) as (x2 & y2 & [= <- <-] & _ & Hxm & Hym). exists l, m. split; [done|].
          apply elem_of_cons in Hm as [->|Hm%elem_of_list_singleton]; [by apply rmap_in|]. subst x. by apply rmap_in.
      - intros (l & m & Hm & Hx). right. exists (MAAddNode l x). split; [apply Hop; exists l, m; split; [done|]; left; eauto|done]. }
    assert (Hn2 : forall x l, fi = false -> mlayer_form 1 l -> l ∈ mn2lv q x <-> exists m, pA p l = Some m /\ x ∈ net_nodes m).
    { intros x l Ef Hf. rewrite (ext_n2l _ _ _ _ _ _ _ _ H1' H0 Hq x l Ef Hf). split.
      - intros [Hl|(o & Ho & Hf' & Hm)].
        + exfalso. assert (mexists q0 (nl_of x l)) as Hx.
          { apply mexists_iff; [by eapply pi_wf|]. rewrite (pi_fic _ _ _ _ _ _ I0), Ef, (pinv_masp _ _ _ _ _ _ I0). by exists x, l. }
          apply He0 in Hx as [_ Hx]. rewrite nl_of_cons in Hx. by destruct (Hno (x :: lay_tuple l)).
        + apply Hop in Ho as (l' & m & Em & [(x' & Hx & ->)|(x' & y' & He & ->)]); destruct Hm as (_ & -> & Hm).
          * subst x. eauto.
          * destruct (proj1 (layer_edges _ _ _ _ _ _ _ _ Hp Em) _ He) as (x2 & y2 & [= <- <-] & _ & Hxm & Hym). exists m. split; [done|].
            apply elem_of_cons in Hm as [->|Hm%elem_of_list_singleton]; [by apply rmap_in|]. subst x. by apply rmap_in.
      - intros (m & Hm & Hx). right. exists (MAAddNode l x). split; [apply Hop; exists l, m; split; [done|]; left; eauto|]. split; [done|]. done. }
    split; [done|]. split.
    { intros x. rewrite Hnode. split.
      - intros (l & m & Hm & Hx). exists (nl_of x l). split; [by apply (node_mexists _ _ _ _ _ _ Hp l m)|by rewrite nl_of_cons].
      - intros (a & Ha & Hx). destruct (exists_layer a Ha) as (x' & l & m & Hm & Hx' & ->). rewrite nl_of_cons in Hx. injection Hx as <-. eauto. }
    split.
    { intros a. split.
      - intros Ha. apply mexists_iff in Ha; [|by eapply pi_wf]. rewrite (pi_fic _ _ _ _ _ _ Iq), (pinv_masp _ _ _ _ _ _ Iq) in Ha.
        assert (fi = true \/ fi = false) as [Ef|Ef] by (destruct fi; auto); rewrite Ef in Ha.
        + destruct Ha as [Hl Hk]. apply mexists_iff; [done|]. rewrite Hfi, Ef, Has. split; [done|]. intros [|[|k]] x Hx.
          * apply Hk, Hnode in Hx as (l & m & Hm & Hx). destruct (mexists_psl p _ Hw (node_mexists _ _ _ _ _ _ Hp l m x Hm Hx)) as (_ & Px & _). rewrite nl_of_cons in Px. by apply (Px 0).
          * by apply Hs, Hk.
          * apply lookup_lt_Some in Hx. simpl in Hl. lia.
        + destruct Ha as (x & l & Hf & -> & Hl). apply Hn2 in Hl as (m & Hm & Hx); [|done|done]. by apply (on_layer x l m).
      - intros Ha. destruct (exists_layer a Ha) as (x & l & m & Hm & Hx & ->). destruct (pA_lay p l m Hw Hm) as [Hli Hf]. rewrite Has in Hf.
        apply mexists_iff; [by eapply pi_wf|]. rewrite (pi_fic _ _ _ _ _ _ Iq), (pinv_masp _ _ _ _ _ _ Iq).
        assert (fi = true \/ fi = false) as [Ef|Ef] by (destruct fi; auto); rewrite Ef.
        + destruct (lkey_tuple _ l Hf) as [K1 K2]. rewrite nl_of_cons. split; [simpl; lia|]. intros [|k] z Hzz.
          * injection Hzz as <-. apply Hnode. eauto.
          * simpl in Hzz. assert (k = 0) as -> by (apply lookup_lt_Some in Hzz; lia). apply Hs. by apply (layer_psl _ _ _ _ _ _ Hp l m).
        + exists x, l. split; [done|]. split; [done|]. apply Hn2; eauto. }
    split; [intros l; apply HA0; [by eapply pi_wf|exact (pinv_masp _ _ _ _ _ _ Iq)|done]|].
    intros l m x y Hm Hx Hy. apply (ext_lrd _ _ _ _ _ _ _ _ H0 Hq).
    - intros o i j w Ho Hwr Hhit. apply Hop in Ho as (l' & m' & Em & [(x' & _ & ->)|(x' & y' & He & ->)]); [done|].
      rewrite mwrite_aset in Hwr. destruct (decide _) as [->|]; [|done]. injection Hwr as <- <- <-. assert (m' = m) as -> by congruence.
      destruct (proj1 (layer_edges _ _ _ _ _ _ _ _ Hp Hm) _ He) as (x2 & y2 & [= <- <-] & _ & Hxm & Hym).
      destruct Hhit as [[Ei Ej]|(Hd & Ei & Ej)]; apply (rmap_inj l m) in Ei; try done; apply (rmap_inj l m) in Ej; try done; [by rewrite Ei, Ej|]. rewrite Ei, Ej.
      pose proof Hp as Hp2. rewrite Hd in Hp2. by apply (lrd_sym _ _ _ _ _ _ _ _ Hp2).
    - destruct (decide (lrd p l x y = 0%Z)) as [->|Hne]; [right; apply Hz|left].
      destruct (proj2 (layer_edges _ _ _ _ _ _ _ _ Hp Hm) x y Hne) as [He|[Hd He]].
      + exists (MASet l [rmap sh p l x; rmap sh p l y] (lrd p l x y)), (rmap sh p l x), (rmap sh p l y), (lrd p l x y).
        split; [apply Hop; exists l, m; split; [done|]; right; eauto|]. split; [rewrite mwrite_aset; by rewrite decide_True|by left].
      + exists (MASet l [rmap sh p l y; rmap sh p l x] (lrd p l y x)), (rmap sh p l y), (rmap sh p l x), (lrd p l y x).
        pose proof Hp as Hp2. rewrite Hd in Hp2. rewrite (lrd_sym _ _ _ _ _ l x y Hp2) in He.
        split; [apply Hop; exists l, m; split; [done|]; right; eauto|]. split; [rewrite mwrite_aset; by rewrite decide_True|by right].
  Qed.
End Randomize.
