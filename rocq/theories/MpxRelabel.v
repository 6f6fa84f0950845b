(** * Relabelling of multiplex networks: facts *)
From Verif Require Export MpxBuild.

(** ** Calls with short index tuples *)
Lemma names_short_inv asp x y ls a b : length ls = asp -> names_link asp (x :: y :: ls) a b <-> a = x :: ls /\ b = y :: ls.
Proof.
  intros Hl. split; [|intros [-> ->]; by apply names_short].
  intros Hn. assert (writes asp (OpSet (x :: y :: ls) 0) a b 0) as H1 by by split.
  assert (writes asp (OpSet (x :: y :: ls) 0) (x :: ls) (y :: ls) 0) as H2 by (split; [done|by apply names_short]).
  apply writes_spec in H1, H2. rewrite H1 in H2. by injection H2 as -> ->.
Qed.
Lemma mwrite_short asp dir l x y ls w r : length ls = asp -> 1 <= asp -> x <> y ->
  mwrite asp dir l (MSet (x :: y :: ls) w, r) = if decide (lkey asp ls = l) then Some (x, y, w) else None.
Proof.
  intros Hl H1 Hne. cbn [mwrite fst]. rewrite (proj1 (writes_spec asp (OpSet (x :: y :: ls) w) (x :: ls) (y :: ls) w)).
  2:{ split; [done|by apply names_short]. }
  unfold wl. rewrite <- !(lkey_player asp) by (simpl; congruence || lia). cbn [tail node_of].
  destruct (decide (lkey asp ls = l)).
  - by rewrite decide_True.
  - rewrite decide_False; [done|]. by intros (_ & ? & _).
Qed.
Lemma mmentions_short asp fi x y ls w r k z : length ls = asp ->
  mmentions asp fi (MSet (x :: y :: ls) w, r) k z <-> (x :: ls) !! k = Some z \/ (y :: ls) !! k = Some z.
Proof.
  intros Hl. cbn [mmentions fst mentions]. split.
  - intros (a & b & w' & [_ Hn] & H). apply names_short_inv in Hn as [-> ->]; done.
  - intros H. exists (x :: ls), (y :: ls), w. split; [|done]. split; [done|]. by apply names_short.
Qed.
Lemma mcreates_short asp x y ls w r z l : length ls = asp ->
  mcreates asp (MSet (x :: y :: ls) w, r) z l <-> mlayer_form asp l /\ (nl_of z l = x :: ls \/ nl_of z l = y :: ls).
Proof.
  intros Hl. unfold mcreates. cbn [fst]. split; intros [Hf H]; (split; [done|]).
  - destruct H as (a & b & Hn & H). by apply names_short_inv in Hn as [-> ->].
  - exists (x :: ls), (y :: ls). split; [by apply names_short|done].
Qed.
Lemma lay_arg_lkey asp ls : length ls = asp -> 1 <= asp -> lay_arg ls = lkey asp ls.
Proof.
  intros Hl H1. unfold lay_arg, lkey. destruct ls as [|x [|y ls]]; simpl in *; [lia| |].
  - by rewrite decide_True.
  - by rewrite decide_False by lia.
Qed.
Lemma lkey_form asp ls : length ls = asp -> 1 <= asp -> mlayer_form asp (lkey asp ls).
Proof.
  intros Hl H1. unfold lkey. destruct (decide (asp = 1)) as [->|].
  - by destruct ls.
  - simpl. lia.
Qed.
Lemma lkey_tuple asp l : mlayer_form asp l -> lkey asp (lay_tuple l) = l /\ length (lay_tuple l) = asp.
Proof. destruct l as [y|ls]; simpl; [intros ->; done|]. intros [H1 H2]. unfold lkey. by rewrite decide_False by lia. Qed.
Lemma lkey_inj asp ls ls' : length ls = asp -> length ls' = asp -> 1 <= asp -> lkey asp ls = lkey asp ls' -> ls = ls'.
Proof.
  intros H1 H2 H3. unfold lkey. destruct (decide (asp = 1)) as [->|]; [|congruence].
  destruct ls as [|? [|]], ls' as [|? [|]]; simpl in *; try lia. congruence.
Qed.
Lemma nl_of_lkey asp x ls : length ls = asp -> 1 <= asp -> nl_of x (lkey asp ls) = x :: ls.
Proof.
  intros H1 H2. unfold lkey. destruct (decide (asp = 1)) as [->|]; [|done]. by destruct ls as [|? [|]].
Qed.
Lemma nl_of_cons x l : nl_of x l = x :: lay_tuple l.
Proof. by destruct l. Qed.

(** ** Reading through a correspondence of node-layers *)
Lemma differ_transport d (a b a' b' : nl) : length a = length b -> length a' = length a -> length b' = length b ->
  (forall k, a !! k = b !! k <-> a' !! k = b' !! k) -> differ_at d a b <-> differ_at d a' b'.
Proof.
  intros H1 H2 H3 H. unfold differ_at. setoid_rewrite H. rewrite H2, H3. done.
Qed.
Lemma pget_transport p q a b a' b' : pwf p -> pwf q -> mcoup p = mcoup q -> mnoe p = mnoe q -> Forall no_net (mcoup p) ->
  mexists p a -> mexists p b -> mexists q a' -> mexists q b' ->
  (forall k, a !! k = b !! k <-> a' !! k = b' !! k) ->
  (forall d w x y x' y', mcoup p !! d = Some (COrd w) -> differ_at (S d) a b -> a !! S d = Some x -> b !! S d = Some y ->
     a' !! S d = Some x' -> b' !! S d = Some y' -> adjacent x' y' = adjacent x y) ->
  (1 <= maspects p -> differ_at 0 a b -> lrd q (lkey (maspects p) (tail a')) (node_of a') (node_of b') = lrd p (lkey (maspects p) (tail a)) (node_of a) (node_of b)) ->
  1 <= maspects p -> pget_pair q a' b' = pget_pair p a b.
Proof.
  intros Wp Wq Hc Hn Hnet Ea Eb Ea' Eb' Hk Hord Hl H1.
  assert (maspects q = maspects p) as Has by (unfold maspects; by rewrite Hc).
  destruct (mexists_psl p a Wp Ea) as (La & _ & Ma & _). destruct (mexists_psl p b Wp Eb) as (Lb & _ & Mb & _).
  destruct (mexists_psl q a' Wq Ea') as (La' & _ & Ma' & _). destruct (mexists_psl q b' Wq Eb') as (Lb' & _ & Mb' & _).
  assert (Hd : forall d, differ_at d a b <-> differ_at d a' b') by (intros d; apply differ_transport; [congruence..|done]).
  destruct (inter_aspects a b) as [|d [|d' ds]] eqn:Ei.
  - rewrite !pget_pair_none; [congruence|congruence| |congruence|].
    + intros d. rewrite <- inter_aspects_single by congruence. congruence.
    + intros d. rewrite <- Hd, <- inter_aspects_single by congruence. congruence.
  - apply inter_aspects_single in Ei; [|congruence]. pose proof (proj1 (Hd d) Ei) as Ei'. destruct d as [|d].
    + rewrite (pget_pair_intra p a b Ei), (pget_pair_intra q a' b' Ei'), Has.
      destruct (Ma H1) as (m & Hm & _). destruct (Ma' ltac:(lia)) as (m' & Hm' & _). specialize (Hl H1 Ei). unfold lrd in Hl.
      rewrite Has in Hm'. rewrite Hm, Hm' in *. by rewrite Hl.
    + rewrite (pget_pair_coup_ex p d a b), (pget_pair_coup_ex q d a' b') by done. unfold cread. rewrite <- Hc, <- Hn. simpl. rewrite Nat.sub_0_r.
      destruct (lookup_lt_is_Some_2 a (S d)) as [x Hx]; [apply Ei|]. destruct (lookup_lt_is_Some_2 b (S d)) as [y Hy]; [destruct Ei; lia|].
      destruct (lookup_lt_is_Some_2 a' (S d)) as [x' Hx']; [apply Ei'|]. destruct (lookup_lt_is_Some_2 b' (S d)) as [y' Hy']; [destruct Ei'; lia|].
      rewrite Hx, Hy, Hx', Hy'. destruct (mcoup p !! d) as [[w|w|o|m]|] eqn:Ec; try done.
      * by rewrite (Hord d w x y x' y').
      * exfalso. rewrite Forall_forall in Hnet. apply elem_of_list_lookup_2 in Ec. by apply Hnet in Ec.
  - rewrite !pget_pair_none; [congruence|congruence| |congruence|].
    + intros d0. rewrite <- inter_aspects_single by congruence. congruence.
    + intros d0. rewrite <- Hd, <- inter_aspects_single by congruence. congruence.
Qed.

(** ** Symmetry of the weights of an undirected network *)
Lemma mspec_step_sym asp l s e x y : (forall x y, s x y = s y x) -> mspec_step asp false l s e x y = mspec_step asp false l s e y x.
Proof.
  intros Hs. unfold mspec_step. destruct (mwrite _ _ _ _) as [[[i j] w]|]; [|done].
  destruct (decide (nhit false i j x y)) as [H|H], (decide (nhit false i j y x)) as [H'|H']; try done; unfold nhit in *; naive_solver.
Qed.
Lemma mspec_sym asp l h x y : mspec asp false l h x y = mspec asp false l h y x.
Proof.
  revert x y. induction h as [|e h IH] using rev_ind; intros x y; [done|]. rewrite mspec_app. by apply mspec_step_sym.
Qed.
Lemma lrd_sym cs noe fi h p l x y : pinv cs false noe fi h p -> lrd p l x y = lrd p l y x.
Proof. intros H. rewrite !(lrd_spec _ _ _ _ _ _ _ _ _ H). apply mspec_sym. Qed.

(** ** relabel *)
Lemma imap_choice (f : nat -> name -> name) (P : nat -> name -> Prop) (b : nl) :
  (forall k y, b !! k = Some y -> exists x, P k x /\ y = f k x) ->
  exists a, b = imap f a /\ forall k x, a !! k = Some x -> P k x.
Proof.
  revert f P. induction b as [|y b IH]; intros f P H; [by exists []|].
  destruct (H 0 y eq_refl) as (x & Hx & ->). destruct (IH (f ∘ S) (fun k => P (S k))) as (a & -> & Ha).
  { intros k z Hz. apply (H (S k) z Hz). }
  exists (x :: a). split; [done|]. intros [|k] z Hz; [by injection Hz as <-|]. by apply Ha.
Qed.
Lemma like_ok cs dir noe fi h p : pinv cs dir noe fi h p -> Forall no_net cs -> like p = Ok (new_mpx cs dir noe fi).
Proof.
  intros H Hn. unfold like. rewrite (pi_coup _ _ _ _ _ _ H), (pi_dir _ _ _ _ _ _ H), (pi_noe _ _ _ _ _ _ H), (pi_fic _ _ _ _ _ _ H).
  destruct (existsb is_cnet cs) eqn:E; [|done]. apply existsb_exists in E as (c & Hc & Hi). apply elem_of_list_In in Hc.
  rewrite Forall_forall in Hn. apply Hn in Hc. by destruct c.
Qed.

Definition mrelabel_op (p : mpx) (ds : list (dict name name)) (t : layer * (name * name)) : mop :=
  let '(l, (x, y)) := t in
  MSet (renames ds 0 x :: renames ds 0 y :: tail (ren_nl ds (x :: lay_tuple l))) (lrd p l x y).
Lemma pgetitem_layer p l m x y : mlayer_form (maspects p) l -> pA p l = Some m -> x <> y ->
  pgetitem p (x :: y :: lay_tuple l) = Ok (lrd p l x y).
Proof.
  intros Hf Hm Hne. destruct (lkey_tuple _ l Hf) as [Hk Hl].
  rewrite (pgetitem_pair p _ (x :: lay_tuple l) (y :: lay_tuple l)) by by apply names_short.
  rewrite pget_pair_intra by by apply differ_at_0. cbn [tail node_of]. rewrite Hk. unfold lrd. by rewrite Hm.
Qed.
Lemma mrelabel_link_eq p ds q l m x y : mlayer_form (maspects p) l -> pA p l = Some m -> x <> y ->
  mrelabel_link p ds q (l, (x, y)) = mdo q (mrelabel_op p ds (l, (x, y))).
Proof. intros Hf Hm Hne. unfold mrelabel_link. rewrite (pgetitem_layer p l m) by done. done. Qed.
Lemma rfold_ext_in {S A} (f g : S -> A -> res S) l : forall s, (forall s x, x ∈ l -> f s x = g s x) -> rfold f s l = rfold g s l.
Proof.
  induction l as [|x l IH]; intros s H; [done|]. simpl. rewrite (H s x) by left. destruct (g s x); [|done].
  apply IH. intros s' y Hy. apply H. by right.
Qed.
Lemma rfold_fmap {S A B} (f : S -> B -> res S) (k : A -> B) l : forall s, rfold (fun s x => f s (k x)) s l = rfold f s (k <$> l).
Proof. induction l as [|x l IH]; intros s; [done|]. simpl. destruct (f s (k x)); [apply IH|done]. Qed.

Lemma mlayers_form p l : pwf p -> l ∈ mlayers p <-> exists m, pA p l = Some m.
Proof.
  intros Hw. rewrite elem_of_mlayers by done. split; [intros [? ?]; by apply lay_pA|intros [m Hm]; by eapply pA_lay].
Qed.
Lemma mlayer_pairs_ok cs dir noe fi h p : pinv cs dir noe fi h p ->
  exists ts, mlayer_pairs p = Ok ts /\
    forall l x y, (l, (x, y)) ∈ ts <-> l ∈ mlayers p /\ (lrd p l x y <> 0 \/ lrd p l y x <> 0)%Z.
Proof.
  intros H. pose proof (pi_wf _ _ _ _ _ _ H) as Hw. unfold mlayer_pairs.
  rewrite (rmapM_Ok_iff _ (fun l => match pA p l with Some m => net_nodes m ≫= fun x => (fun b => (l, (x, node_of b))) <$> iter_total m [x] None | None => [] end)).
  2:{ intros l Hl. apply mlayers_form in Hl as [m Hm]; [|done]. unfold layer_net. by rewrite Hm. }
  eexists. split; [done|]. intros l x y. rewrite elem_of_list_In, in_concat. split.
  - intros (s & Hs & Hin). apply elem_of_list_In, elem_of_list_fmap in Hs as (l' & -> & Hl'). apply elem_of_list_In in Hin.
    pose proof Hl' as Hl''. apply mlayers_form in Hl' as [m Hm]; [|done]. rewrite Hm in Hin. apply elem_of_list_bind in Hin as (x' & Hin & Hx').
    apply elem_of_list_fmap in Hin as (b & [= -> -> ->] & Hb). split; [done|].
    apply (layer_neigh _ _ _ _ _ _ _ _ _ _ H Hm) in Hb as (y' & -> & Hy'). done.
  - intros [Hl Hxy]. pose proof Hl as Hl'. apply mlayers_form in Hl as [m Hm]; [|done].
    exists (net_nodes m ≫= fun x => (fun b => (l, (x, node_of b))) <$> iter_total m [x] None). split.
    + apply elem_of_list_In, elem_of_list_fmap. exists l. by rewrite Hm.
    + apply elem_of_list_In, elem_of_list_bind. exists x. split.
      * apply elem_of_list_fmap. exists [y]. split; [done|]. apply (layer_neigh _ _ _ _ _ _ _ _ _ _ H Hm). eauto.
      * destruct Hxy as [Hxy|Hxy]; apply (lrd_nodes _ _ _ _ _ _ _ _ _ _ H Hm) in Hxy; tauto.
Qed.

Lemma slice_psl p k x : x ∈ default [] (mslices p !! k) <-> psl p k x.
Proof.
  unfold psl. destruct (mslices p !! k) as [s|]; simpl; [naive_solver|]. split; [by intros ?%elem_of_nil|naive_solver].
Qed.
Lemma struct_elem p ds nls o : o ∈ mrelabel_struct p ds nls <->
  (exists x, psl p 0 x /\ o = MAddNode (renames ds 0 x) None) \/
  (exists k x, 1 <= k <= maspects p /\ psl p k x /\ o = MAddLayer (renames ds k x) k) \/
  (exists a, a ∈ nls /\ o = MAddNode (node_of (ren_nl ds a)) (Some (lay_arg (tail (ren_nl ds a))))).
Proof.
  unfold mrelabel_struct. rewrite !elem_of_app, elem_of_list_bind, !elem_of_list_fmap. setoid_rewrite elem_of_list_fmap. setoid_rewrite elem_of_seq.
  setoid_rewrite slice_psl. unfold renames. split.
  - intros [(x & -> & Hx)|[(k & (x & -> & Hx) & Hk)|(a & -> & Ha)]]; [left; eauto|right; left; exists k, x; split; [lia|done]|right; right; eauto].
  - intros [(x & Hx & ->)|[(k & x & Hk & Hx & ->)|(a & Ha & ->)]]; [left; eauto|right; left; exists k; split; [eauto|lia]|right; right; eauto].
Qed.
Lemma ren_tail ds x ls : tail (ren_nl ds (x :: ls)) = imap (fun k => renames ds (S k)) ls.
Proof. done. Qed.
Lemma ren_cons ds x ls : ren_nl ds (x :: ls) = renames ds 0 x :: imap (fun k => renames ds (S k)) ls.
Proof. done. Qed.

Section Relabel.
  Context (cs : list coupling) (dir : bool) (noe : Z) (fi : bool) (h : list call) (p : mpx) (ds : list (dict name name)).
  Context (Hp : pinv cs dir noe fi h p) (H1 : 1 <= length cs) (Hnn : Forall no_net cs).
  Context (Hinj : forall k x y, psl p k x -> psl p k y -> renames ds k x = renames ds k y -> x = y).
  Context (Hself : forall l x, lrd p l x x = 0%Z).
  Notation asp := (length cs).
  Let Has : maspects p = asp := pinv_masp _ _ _ _ _ _ Hp.
  Let Hw : pwf p := pi_wf _ _ _ _ _ _ Hp.

  Lemma psl_le k x : psl p k x -> k <= asp.
  Proof using Hp H1. intros (s & Hs & _). apply lookup_lt_Some in Hs. rewrite (pw_len p Hw), Has in Hs. lia. Qed.
  Lemma struct_mentions nls k y : (forall a, a ∈ nls -> mexists p a) ->
    (exists e, e ∈ went (mrelabel_struct p ds nls) /\ mmentions asp fi e k y) <-> exists x, psl p k x /\ y = renames ds k x.
  Proof using Hp H1.
    intros Hnls. setoid_rewrite elem_of_went. setoid_rewrite struct_elem. split.
    - intros (e & (o & Ho & ->) & Hm). destruct Ho as [(x & Hx & ->)|[(j & x & Hj & Hx & ->)|(a & Ha & ->)]]; cbn [mmentions fst mentions] in Hm.
      + destruct Hm as [[-> ->]|[(_ & _ & _ & ?)|(_ & _ & ls & j & ? & _)]]; [|done..]. eauto.
      + destruct Hm as (-> & -> & _). eauto.
      + apply Hnls in Ha. destruct (mexists_psl p a Hw Ha) as (Hl & Hs & _ & Hfi). rewrite Has in *.
        destruct a as [|x0 ls0]; [done|]. rewrite ren_tail in Hm. cbn [node_of] in Hm.
        destruct Hm as [[-> ->]|[(_ & Ha1 & -> & He)|(_ & Ha2 & ls & j & He & Hj & -> & Hle)]].
        * exists x0. split; [by apply Hs|]. done.
        * destruct ls0 as [|x1 [|]]; simpl in Hl, He; [lia| |lia]. injection He as <-. exists x1. split; [by apply Hs|done].
        * rewrite (lay_arg_lkey asp) in He; [|rewrite imap_length; simpl in Hl; lia|done]. unfold lkey in He.
          rewrite decide_False in He by lia. injection He as <-. rewrite list_lookup_imap in Hj. destruct (ls0 !! j) as [z|] eqn:Ej; [|done].
          injection Hj as <-. exists z. split; [by apply Hs|done].
    - intros (x & Hx & ->). destruct k as [|k].
      + exists (MAddNode (renames ds 0 x) None, Ok tt). split; [eexists; split; [left; eauto|done]|]. cbn. by left.
      + exists (MAddLayer (renames ds (S k) x) (S k), Ok tt). pose proof (psl_le _ _ Hx). split; [|done].
        eexists. split; [right; left; exists (S k), x; split; [lia|done]|done].
  Qed.
  Lemma struct_creates nls z l : (forall a, a ∈ nls -> mexists p a) -> fi = false ->
    (exists e, e ∈ went (mrelabel_struct p ds nls) /\ mcreates asp e z l) <->
    exists a, a ∈ nls /\ mlayer_form asp l /\ nl_of z l = ren_nl ds a.
  Proof using Hp H1.
    intros Hnls Hfi. setoid_rewrite elem_of_went. setoid_rewrite struct_elem. unfold mcreates. split.
    - intros (e & (o & Ho & ->) & Hf & Hm). destruct Ho as [(x & Hx & ->)|[(j & x & Hj & Hx & ->)|(a & Ha & ->)]]; cbn [fst] in Hm; [by destruct Hm|done|].
      exists a. split; [done|]. split; [done|]. destruct Hm as [-> [= He]]. apply Hnls in Ha. destruct (mexists_psl p a Hw Ha) as (Hl & _).
      destruct a as [|x0 ls0]; [done|]. rewrite ren_tail in *. rewrite (lay_arg_lkey asp) in He; [|rewrite imap_length; simpl in Hl; lia|done].
      rewrite <- He, nl_of_lkey; [done|rewrite imap_length; simpl in Hl; lia|done].
    - intros (a & Ha & Hf & E). pose proof (Hnls a Ha) as Ha'. destruct (mexists_psl p a Hw Ha') as (Hl & _).
      exists (MAddNode (node_of (ren_nl ds a)) (Some (lay_arg (tail (ren_nl ds a)))), Ok tt). split; [eexists; split; [right; right; eauto|done]|].
      split; [done|]. cbn [fst]. rewrite <- E. destruct (nl_of_form _ z l Hf) as (F1 & _ & F3 & F4). split; [done|]. f_equal.
      rewrite nl_of_cons. cbn [tail]. destruct (lkey_tuple _ l Hf) as [K1 K2]. by rewrite (lay_arg_lkey asp).
  Qed.
  Lemma struct_no_writes nls e l : e ∈ went (mrelabel_struct p ds nls) -> mwrite asp dir l e = None.
  Proof. rewrite elem_of_went. setoid_rewrite struct_elem. naive_solver. Qed.
  Lemma struct_safe nls q : (forall a, a ∈ nls -> mexists p a) -> Forall (mop_safe asp dir q) (mrelabel_struct p ds nls).
  Proof using Hp H1.
    intros Hnls. apply Forall_forall. intros o. rewrite struct_elem. intros [(x & Hx & ->)|[(j & x & Hj & Hx & ->)|(a & Ha & ->)]]; [done|simpl; lia|].
    apply Hnls in Ha. destruct (mexists_psl p a Hw Ha) as (Hl & _). destruct a as [|x0 ls0]; [done|]. cbn [mop_safe]. rewrite ren_tail.
    assert (length (imap (λ k : nat, renames ds (S k)) ls0) = asp) by (rewrite imap_length; simpl in Hl; lia).
    rewrite (lay_arg_lkey asp) by done. by apply lkey_form.
  Qed.
  Lemma node_mexists l m x : pA p l = Some m -> x ∈ net_nodes m -> mexists p (nl_of x l).
  Proof using Hp.
    intros Hm Hx. destruct (pA_lay p l m Hw Hm) as [Hli Hf]. destruct (nl_of_form _ x l Hf) as (F1 & F2 & F3 & F4).
    destruct (mfic p) eqn:Hfi.
    - apply mexists_iff; [done|]. rewrite Hfi. split; [done|]. intros k z Hz. rewrite nl_of_cons in Hz. destruct k as [|k].
      + injection Hz as <-. rewrite (pA_nodes_fic p l m Hm Hfi) in Hx. by apply mnodes_psl.
      + simpl in Hz. destruct l as [y|ls]; simpl in Hz, Hli.
        * destruct k; [|done]. injection Hz as <-. tauto.
        * by apply Hli.
    - apply mexists_nf; [done..|]. rewrite F3, F4. apply (pw_node p Hw Hfi l m); [|done]. unfold pA in Hm. destruct (dget (mA p) l); [|done].
      rewrite Hfi in Hm. congruence.
  Qed.
  Lemma layer_psl l m k z : pA p l = Some m -> lay_tuple l !! k = Some z -> psl p (S k) z.
  Proof using Hp.
    intros Hm Hz. destruct (pA_lay p l m Hw Hm) as [Hli Hf]. destruct l as [y|ls]; simpl in *.
    - destruct k; [|done]. injection Hz as <-. tauto.
    - by apply Hli.
  Qed.
  Lemma rt_inj ls ls' : (forall k z, ls !! k = Some z -> psl p (S k) z) -> (forall k z, ls' !! k = Some z -> psl p (S k) z) ->
    imap (fun k => renames ds (S k)) ls = imap (fun k => renames ds (S k)) ls' -> ls = ls'.
  Proof using Hinj.
    intros Ha Hb E. apply list_eq. intros k. assert (renames ds (S k) <$> ls !! k = renames ds (S k) <$> ls' !! k) as Ek.
    { pose proof (f_equal (fun t => t !! k) E) as E'. simpl in E'. by rewrite !list_lookup_imap in E'. }
    destruct (ls !! k) as [x|] eqn:Ex, (ls' !! k) as [y|] eqn:Ey; simpl in Ek; try done. injection Ek as Ek. f_equal. apply (Hinj (S k)); auto.
  Qed.
  (** What a link that is visited tells. *)
  Lemma visited l x y : l ∈ mlayers p -> (lrd p l x y <> 0 \/ lrd p l y x <> 0)%Z ->
    exists m, pA p l = Some m /\ mlayer_form asp l /\ x ∈ net_nodes m /\ y ∈ net_nodes m /\ psl p 0 x /\ psl p 0 y /\ x <> y /\
      renames ds 0 x <> renames ds 0 y /\ mexists p (x :: lay_tuple l) /\ mexists p (y :: lay_tuple l) /\
      length (imap (fun k => renames ds (S k)) (lay_tuple l)) = asp.
  Proof using Hp Hinj Hself.
    intros Hl Hxy. apply mlayers_form in Hl as [m Hm]; [|done]. exists m. split; [done|]. destruct (pA_lay p l m Hw Hm) as [Hli Hf].
    rewrite Has in Hf. split; [done|].
    assert (x ∈ net_nodes m /\ y ∈ net_nodes m) as [Hx Hy].
    { destruct Hxy as [Hxy|Hxy]; apply (lrd_nodes _ _ _ _ _ _ _ _ _ _ Hp Hm) in Hxy; tauto. }
    pose proof (node_mexists l m x Hm Hx) as Ex. pose proof (node_mexists l m y Hm Hy) as Ey. rewrite nl_of_cons in Ex, Ey.
    destruct (mexists_psl p _ Hw Ex) as (_ & Px & _). destruct (mexists_psl p _ Hw Ey) as (_ & Py & _).
    specialize (Px 0 x eq_refl). specialize (Py 0 y eq_refl).
    assert (x <> y) as Hne. { intros ->. rewrite Hself in Hxy. tauto. }
    split_and!; try done.
    - intros E. apply Hne. by apply (Hinj 0).
    - rewrite imap_length. by apply lkey_tuple.
  Qed.
  Lemma relabel_facts : exists q g, mrelabel p ds = Ok q /\ mhist cs dir noe fi g q /\
    (forall k y, psl q k y <-> exists x, psl p k x /\ y = renames ds k x) /\
    (forall b, mexists q b <-> exists a, mexists p a /\ b = ren_nl ds a) /\
    (forall ls x y, length ls = asp -> (forall k z, ls !! k = Some z -> psl p (S k) z) -> psl p 0 x -> psl p 0 y ->
       lrd q (lkey asp (imap (fun k => renames ds (S k)) ls)) (renames ds 0 x) (renames ds 0 y) = lrd p (lkey asp ls) x y).
  Proof using Hp H1 Hnn Hinj Hself.
    pose proof (pi_fic _ _ _ _ _ _ Hp) as Hfi.
    assert (exists nls, (if mfic p then Ok [] else miter_node_layers p) = Ok nls /\ (forall a, a ∈ nls -> mexists p a) /\
              (fi = false -> forall a, mexists p a -> a ∈ nls)) as (nls & En & N1 & N2).
    { rewrite Hfi. destruct fi; [exists []; split; [done|]; split; [by intros a ?%elem_of_nil|done]|].
      destruct (miter_node_layers_ok p Hw) as (L & HL & HL'). exists L. rewrite HL. split; [done|]. split; intros; [by exists L|].
      destruct H0 as (L' & E & ?). congruence. }
    destruct (mlayer_pairs_ok _ _ _ _ _ _ Hp) as (ts & Et & Hts).
    destruct (mbuild_ok cs dir noe fi (mrelabel_struct p ds nls) [] (new_mpx cs dir noe fi)) as (q1 & E1 & Hq1); [constructor|done|by apply struct_safe|].
    rewrite app_nil_l in Hq1.
    destruct (mbuild_ok cs dir noe fi (mrelabel_op p ds <$> ts) _ q1 Hq1) as (q & E2 & Hq); [done| |].
    { apply Forall_forall. intros o Ho. apply elem_of_list_fmap in Ho as ([l [x y]] & -> & Ht). apply Hts in Ht as [Hl Hxy].
      destruct (visited l x y Hl Hxy) as (m & Hm & Hf & _ & _ & _ & _ & Hne & Hne' & _ & _ & Hlen). cbn [mop_safe mrelabel_op]. rewrite ren_tail.
      eexists _, _. split; [by apply names_short|]. split; [done|]. split; done. }
    exists q, (went (mrelabel_struct p ds nls) ++ went (mrelabel_op p ds <$> ts)).
    assert (mrelabel p ds = Ok q) as Eq.
    { unfold mrelabel. rewrite (like_ok _ _ _ _ _ _ Hp Hnn). cbn [rbind]. rewrite En. cbn [rbind]. rewrite E1. cbn [rbind]. rewrite Et. cbn [rbind].
      rewrite <- E2. unfold mbuild. rewrite <- rfold_fmap. apply rfold_ext_in. intros s [l [x y]] Ht. apply Hts in Ht as [Hl Hxy].
      destruct (visited l x y Hl Hxy) as (m & Hm & Hf & _ & _ & _ & _ & Hne & _). apply (mrelabel_link_eq p ds s l m); [by rewrite Has|done|done]. }
    split; [done|]. split; [done|]. pose proof (mhist_inv _ _ _ _ _ _ Hq) as Iq.
    assert (Hpsl : forall k y, psl q k y <-> exists x, psl p k x /\ y = renames ds k x).
    { intros k y. rewrite (pi_sl _ _ _ _ _ _ Iq H1). rewrite <- (struct_mentions nls k y N1). split.
      - intros (e & He & Hm). apply elem_of_app in He as [He|He]; [by exists e|]. rewrite struct_mentions by done.
        apply elem_of_went in He as (o & Ho & ->). apply elem_of_list_fmap in Ho as ([l [x0 y0]] & -> & Ht). apply Hts in Ht as [Hl Hxy].
        destruct (visited l x0 y0 Hl Hxy) as (m & Hm' & Hf & _ & _ & P1 & P2 & _ & _ & _ & _ & Hlen). cbn [mrelabel_op] in Hm. rewrite ren_tail in Hm.
        apply mmentions_short in Hm; [|done]. destruct k as [|k]; simpl in Hm.
        + destruct Hm as [[= <-]|[= <-]]; eauto.
        + assert (imap (λ k0 : nat, renames ds (S k0)) (lay_tuple l) !! k = Some y) as Hm2 by tauto. rewrite list_lookup_imap in Hm2.
          destruct (lay_tuple l !! k) as [z|] eqn:Ez; [|done]. injection Hm2 as <-. exists z. split; [|done]. by eapply layer_psl.
      - intros (e & He & Hm). exists e. split; [apply elem_of_app; by left|done]. }
    split; [done|]. split.
    - intros b. rewrite mexists_iff by apply Iq. rewrite (pi_fic _ _ _ _ _ _ Iq), (pinv_masp _ _ _ _ _ _ Iq).
      assert (fi = true \/ fi = false) as [Ef|Ef] by (destruct fi; auto); rewrite Ef at 1.
      + setoid_rewrite mexists_iff; [|done]. rewrite Hfi, Ef, Has. split.
        * intros [Hl Hk]. destruct (imap_choice (renames ds) (psl p) b) as (a & -> & Ha); [intros k y Hy; apply Hpsl; by apply Hk|].
          exists a. split; [|done]. split; [by rewrite imap_length in Hl|done].
        * intros (a & [Hl Hk] & ->). split; [by rewrite ren_nl_length|]. intros k y. rewrite ren_nl_lookup. destruct (a !! k) as [x|] eqn:Ex; [|done].
          intros [= <-]. apply Hpsl. eauto.
      + assert (Hcr : forall z l, mlayer_form asp l -> l ∈ mn2lv q z <-> exists a, mexists p a /\ nl_of z l = ren_nl ds a).
        { intros z l Hf. rewrite (pi_n2l _ _ _ _ _ _ Iq Ef z l Hf). split.
          - intros (e & He & Hc). apply elem_of_app in He as [He|He].
            + destruct (proj1 (struct_creates nls z l N1 Ef)) as (a & Ha & _ & E); [by exists e|]. exists a. split; [by apply N1|done].
            + apply elem_of_went in He as (o & Ho & ->). apply elem_of_list_fmap in Ho as ([l0 [x0 y0]] & -> & Ht). apply Hts in Ht as [Hl Hxy].
              destruct (visited l0 x0 y0 Hl Hxy) as (m & Hm' & Hf' & _ & _ & P1 & P2 & _ & _ & X1 & X2 & Hlen). cbn [mrelabel_op] in Hc. rewrite ren_tail in Hc.
              apply mcreates_short in Hc as [_ [Hc|Hc]]; [| |done]; [exists (x0 :: lay_tuple l0)|exists (y0 :: lay_tuple l0)]; done.
          - intros (a & Ha & E). destruct (proj2 (struct_creates nls z l N1 Ef)) as (e & He & Hc); [exists a; split; [by apply N2|done]|].
            exists e. split; [apply elem_of_app; by left|done]. }
        split.
        * intros (z & l & Hf & -> & Hz). by apply Hcr in Hz.
        * intros (a & Ha & ->). destruct (mexists_psl p a Hw Ha) as (Hl & _). rewrite Has in Hl.
          assert (length (ren_nl ds a) = S asp) as Hl' by by rewrite ren_nl_length. pose proof (player_form asp (ren_nl ds a) Hl' H1) as Hf.
          assert (ren_nl ds a <> []) as Hnil by (intros E; rewrite E in Hl'; done).
          exists (node_of (ren_nl ds a)), (player_of asp (ren_nl ds a)). split; [done|]. rewrite nl_of_player by done. split; [done|].
          apply Hcr; [done|]. exists a. split; [done|]. by apply nl_of_player.
    - intros ls x y Hl Hk Hx Hy. rewrite (lrd_spec _ _ _ _ _ _ _ _ _ Iq). apply mspec_agree.
      + intros e i j w He Hwr Hhit. apply elem_of_app in He as [He|He]; [by rewrite (struct_no_writes nls) in Hwr|].
        apply elem_of_went in He as (o & Ho & ->). apply elem_of_list_fmap in Ho as ([l [x0 y0]] & -> & Ht). apply Hts in Ht as [Hl0 Hxy].
        destruct (visited l x0 y0 Hl0 Hxy) as (m & Hm & Hf & _ & _ & P1 & P2 & Hne & Hne' & _ & _ & Hlen). cbn [mrelabel_op] in Hwr. rewrite ren_tail in Hwr.
        rewrite mwrite_short in Hwr by done. destruct (decide _) as [E|]; [|done]. injection Hwr as <- <- <-.
        apply lkey_inj in E; [|done|by rewrite imap_length|done]. apply rt_inj in E; [|intros k z; by apply (layer_psl l m)|done].
        destruct (lkey_tuple asp l Hf) as [Kl _]. rewrite <- E, Kl. destruct Hhit as [[Ei Ej]|(Hd & Ei & Ej)].
        * apply (Hinj 0) in Ei; [|done..]. apply (Hinj 0) in Ej; [|done..]. by subst.
        * apply (Hinj 0) in Ei; [|done..]. apply (Hinj 0) in Ej; [|done..]. subst. by eapply lrd_sym.
      + destruct (decide (lrd p (lkey asp ls) x y = 0%Z)) as [E|Hne]; [by right|]. left.
        assert (lkey asp ls ∈ mlayers p) as Hlay.
        { apply mlayers_form; [done|]. unfold lrd in Hne. destruct (pA p (lkey asp ls)); [by eexists|done]. }
        pose proof (visited _ x y Hlay (or_introl Hne)) as (m & Hm & Hf & _ & _ & P1 & P2 & Hnxy & Hne' & _ & _ & Hlen).
        exists (mrelabel_op p ds (lkey asp ls, (x, y)), Ok tt), (renames ds 0 x), (renames ds 0 y), (lrd p (lkey asp ls) x y).
        split; [|split].
        * apply elem_of_app; right. apply elem_of_went. eexists. split; [|done]. apply elem_of_list_fmap. eexists. split; [done|]. apply Hts. eauto.
        * cbn [mrelabel_op]. rewrite ren_tail, mwrite_short by done. rewrite decide_True; [done|]. f_equal.
          assert (lay_tuple (lkey asp ls) = ls) as ->; [|done].
          pose proof (nl_of_lkey asp x ls Hl H1) as E. rewrite nl_of_cons in E. by injection E.
        * by left.
  Qed.
End Relabel.

(** ** Renamings that merge linked nodes *)
Lemma rfold_err {S A} (f : S -> A -> res S) (P : S -> Prop) e l : forall s,
  (forall s x, P s -> x ∈ l -> (exists s', f s x = Ok s' /\ P s') \/ f s x = Err e) ->
  (exists x, x ∈ l /\ forall s, P s -> f s x = Err e) -> P s -> rfold f s l = Err e.
Proof.
  induction l as [|x l IH]; intros s H Hex Hs; [destruct Hex as (x & Hx & _); by apply elem_of_nil in Hx|].
  simpl. destruct (H s x Hs ltac:(left)) as [(s' & E & Hs')|E]; rewrite E; [|done].
  apply IH; [intros s0 x0 H0 Hx0; apply H; [done|by right]| |done].
  destruct Hex as (x0 & Hx0 & He). apply elem_of_cons in Hx0 as [->|Hx0]; [|by exists x0].
  rewrite He in E by done. done.
Qed.
Lemma relabel_merged cs dir noe fi h p ds l x y : pinv cs dir noe fi h p -> 1 <= length cs -> Forall no_net cs ->
  l ∈ mlayers p -> lrd p l x y <> 0%Z -> renames ds 0 x = renames ds 0 y -> mrelabel p ds = Err KeyError.
Proof.
  intros Hp H1 Hnn Hlay Hne Exy. pose proof (pi_wf _ _ _ _ _ _ Hp) as Hw. pose proof (pinv_masp _ _ _ _ _ _ Hp) as Has.
  assert (exists nls, (if mfic p then Ok [] else miter_node_layers p) = Ok nls /\ (forall a, a ∈ nls -> mexists p a)) as (nls & En & N1).
  { destruct (mfic p); [exists []; split; [done|]; by intros a ?%elem_of_nil|].
    destruct (miter_node_layers_ok p Hw) as (L & HL & HL'). exists L. rewrite HL. split; [done|]. intros; by exists L. }
  destruct (mlayer_pairs_ok _ _ _ _ _ _ Hp) as (ts & Et & Hts).
  destruct (mbuild_ok cs dir noe fi (mrelabel_struct p ds nls) [] (new_mpx cs dir noe fi)) as (q1 & E1 & Hq1);
    [constructor|done|eapply struct_safe; done|].
  unfold mrelabel. rewrite (like_ok _ _ _ _ _ _ Hp Hnn). cbn [rbind]. rewrite En. cbn [rbind]. rewrite E1. cbn [rbind]. rewrite Et. cbn [rbind].
  assert (Hstep : forall q l0 x0 y0, (exists g, mhist cs dir noe fi g q) -> l0 ∈ mlayers p ->
     (renames ds 0 x0 <> renames ds 0 y0 -> exists q', mrelabel_link p ds q (l0, (x0, y0)) = Ok q' /\ exists g, mhist cs dir noe fi g q') /\
     (renames ds 0 x0 = renames ds 0 y0 -> mrelabel_link p ds q (l0, (x0, y0)) = Err KeyError)).
  { intros q l0 x0 y0 [g Hg] Hl0. apply mlayers_form in Hl0 as [m Hm]; [|done]. destruct (pA_lay p l0 m Hw Hm) as [Hli Hf].
    destruct (lkey_tuple _ l0 Hf) as [K1 K2]. unfold mrelabel_link.
    assert (exists w, pgetitem p (x0 :: y0 :: lay_tuple l0) = Ok w) as [w Ew].
    { destruct (decide (x0 = y0)) as [->|Hxy]; [|rewrite (pgetitem_layer p l0 m) by done; by eexists].
      rewrite (pgetitem_pair p _ (y0 :: lay_tuple l0) (y0 :: lay_tuple l0)) by by apply names_short.
      rewrite pget_pair_none; [by eexists|done|]. intros d (_ & Hd & Hk). by apply (proj1 (Hk d)). }
    rewrite Ew. cbn [rbind]. rewrite ren_tail. cbn [node_of ren_nl imap].
    assert (length (imap (fun k => renames ds (S k)) (lay_tuple l0)) = length cs) as Hlen by (rewrite imap_length; congruence).
    change (ren (default [] (ds !! 0)) x0) with (renames ds 0 x0). change (ren (default [] (ds !! 0)) y0) with (renames ds 0 y0). split.
    - intros Hd. destruct (mdo_ok _ _ _ _ _ _ (MSet (renames ds 0 x0 :: renames ds 0 y0 :: imap (fun k => renames ds (S k)) (lay_tuple l0)) w) Hg H1) as [q' E'].
      { eexists _, _. split; [by apply names_short|]. split; [done|]. split; done. }
      exists q'. split; [exact E'|]. eexists. by eapply mdo_hist.
    - intros Hd. rewrite Hd. unfold mdo. rewrite mstep_set, (pinv_masp _ _ _ _ _ _ (mhist_inv _ _ _ _ _ _ Hg)).
      rewrite (proj1 (writes_spec (length cs) (OpSet _ w) _ _ w) (conj eq_refl (names_short _ _ _ _ Hlen))).
      set (a0 := renames ds 0 y0 :: imap (fun k => renames ds (S k)) (lay_tuple l0)).
      match goal with |- context [passign q ?b a0 w] => change b with a0 end.
      destruct (passign q a0 a0 w) as [q' r] eqn:Ep. apply mhist_inv in Hg. pose proof (pinv_masp _ _ _ _ _ _ Hg) as Haq.
      destruct (passign_meff q a0 a0 w q' r (pi_wf _ _ _ _ _ _ Hg) (pinv_hviews _ _ _ _ _ _ Hg)) as [_ ->]; [simpl; congruence..|done|].
      rewrite decide_False by (rewrite Haq; lia). rewrite decide_False; [done|]. intros (_ & _ & ?). done. }
  apply (rfold_err _ (fun q => exists g, mhist cs dir noe fi g q)).
  - intros q [l0 [x0 y0]] Hq Ht. apply Hts in Ht as [Hl0 _]. destruct (Hstep q l0 x0 y0 Hq Hl0) as [S1 S2].
    destruct (decide (renames ds 0 x0 = renames ds 0 y0)); [right; auto|left]. destruct (S1 n) as (q' & ? & ?). eauto.
  - exists (l, (x, y)). split; [apply Hts; eauto|]. intros q Hq. by apply (Hstep q l x y Hq Hlay).
  - eauto.
Qed.
