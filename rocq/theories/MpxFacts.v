(** * Multiplex: effect of the mutators and the invariant of all histories *)
From Verif Require Export Mpx.

(** ** Idempotence of set operations *)
Lemma alter_id_lookup {A} (f : A -> A) (l : list A) i :
  (forall x, l !! i = Some x -> f x = x) -> alter f i l = l.
Proof.
  intros Hf. apply list_eq. intros j. destruct (decide (i = j)) as [->|Hne].
  - rewrite list_lookup_alter. destruct (l !! j) as [x|] eqn:E; simpl; [|done]. by rewrite Hf.
  - by rewrite list_lookup_alter_ne.
Qed.
Lemma dset_id {K V} `{EqDecision K} (d : list (K * V)) k v : dget d k = Some v -> dset d k v = d.
Proof.
  induction d as [|[k1 v1] d IH]; simpl; [done|].
  destruct (decide (k = k1)) as [->|Hne]; [by intros [= ->]|]. intros Hg. by rewrite IH.
Qed.
Lemma dset_dset {K V} `{EqDecision K} (d : list (K * V)) k v v' : dset (dset d k v) k v' = dset d k v'.
Proof.
  induction d as [|[k1 v1] d IH]; simpl.
  - by rewrite decide_True.
  - destruct (decide (k = k1)) as [->|Hne]; simpl.
    + by rewrite decide_True.
    + rewrite decide_False by done. by rewrite IH.
Qed.

(** ** Membership in the element sets *)
Definition psl (p : mpx) (k : nat) (x : name) : Prop := exists s, mslices p !! k = Some s /\ x ∈ s.
Definition mn2lv (p : mpx) (x : name) : list layer := default [] (dget (mn2l p) x).
Definition lay_in (p : mpx) (l : layer) : Prop :=
  match l with
  | LBare y => maspects p = 1 /\ psl p 1 y
  | LTup ls => 2 <= maspects p /\ forall i y, ls !! i = Some y -> psl p (S i) y
  end.

Lemma mnodes_psl p x : x ∈ mnodes p <-> psl p 0 x.
Proof.
  unfold mnodes, psl. destruct (mslices p !! 0) as [s|]; simpl.
  - split; [by eauto|]. by intros (s' & [= <-] & ?).
  - split; [by intros ?%elem_of_nil|]. by intros (s' & ? & ?).
Qed.
Lemma psl_pslice_add p i y k x :
  psl (pslice_add p i y) k x <-> psl p k x \/ (k = i /\ x = y /\ i < length (mslices p)).
Proof.
  unfold psl, pslice_add. simpl. destruct (decide (i = k)) as [->|Hne].
  - rewrite list_lookup_alter. destruct (mslices p !! k) as [s|] eqn:E; simpl.
    + apply lookup_lt_Some in E. split.
      * intros (s' & [= <-] & Hx). apply elem_of_sadd in Hx as [->|?]; [by right|left; eauto].
      * intros [(s' & [= <-] & Hx)|(_ & -> & _)]; eexists; (split; [done|]); apply elem_of_sadd; auto.
    + apply lookup_ge_None in E. split; [by intros (? & ? & ?)|].
      intros [(? & ? & ?)|(_ & _ & ?)]; [done|lia].
  - rewrite list_lookup_alter_ne by done. split; [by left|]. intros [?|(? & _)]; [done|congruence].
Qed.
Lemma pslice_add_id p i x : psl p i x -> pslice_add p i x = p.
Proof.
  intros (s & Hs & Hx). unfold pslice_add. rewrite alter_id_lookup; [by destruct p|].
  intros s' Hs'. rewrite Hs in Hs'. injection Hs' as <-. by apply sadd_idem.
Qed.
Lemma mn2lv_add p x l y : mn2lv (n2l_add p x l) y = if decide (y = x) then sadd l (mn2lv p x) else mn2lv p y.
Proof. unfold mn2lv, n2l_add. simpl. rewrite dget_dset. by destruct (decide (y = x)) as [->|]. Qed.
Lemma n2l_add_id p x l : l ∈ mn2lv p x -> n2l_add p x l = p.
Proof.
  intros Hl. unfold n2l_add. unfold mn2lv in Hl. destruct (dget (mn2l p) x) as [v|] eqn:E; simpl in *.
  - rewrite sadd_idem by done. rewrite dset_id by done. by destruct p.
  - by apply elem_of_nil in Hl.
Qed.

(** ** Invariant of the structure *)
Definition full_form (asp : nat) (l : layer) : Prop :=
  match l with LBare _ => asp = 1 | LTup ls => 2 <= asp /\ length ls = asp end.
Record pwf (p : mpx) : Prop := {
  pw_len : length (mslices p) = S (maspects p);
  pw_nd : Forall NoDup (mslices p);
  pw_keys : NoDup (dkeys (mA p));
  pw_dom : forall l, l ∈ dkeys (mA p) <-> lay_in p l /\ full_form (maspects p) l;
  pw_raw : forall l m, dget (mA p) l = Some m -> length (slices m) = 1;
  pw_n2l_keys : NoDup (dkeys (mn2l p));
  pw_n2l_nd : forall x, NoDup (mn2lv p x);
  pw_fic : mfic p = true -> mn2l p = [];
  pw_node : mfic p = false -> forall l m x, dget (mA p) l = Some m -> x ∈ net_nodes m <-> l ∈ mn2lv p x;
  pw_n2l : forall x l, l ∈ mn2lv p x -> psl p 0 x /\ lay_in p l;
}.

Lemma new_mpx_pwf cs dir noe fi : pwf (new_mpx cs dir noe fi).
Proof.
  assert (Hn : forall k x, ~ psl (new_mpx cs dir noe fi) k x).
  { intros k x (s & Hs & Hx). unfold new_mpx in Hs. cbn [mslices] in Hs.
    apply lookup_replicate in Hs as [-> _]. by apply elem_of_nil in Hx. }
  split.
  - unfold new_mpx, maspects. cbn [mslices mcoup]. by rewrite replicate_length.
  - unfold new_mpx. cbn [mslices]. apply Forall_forall. intros s Hs.
    apply elem_of_replicate in Hs as [-> _]. constructor.
  - constructor.
  - intros l. split; [by intros ?%elem_of_nil|]. intros [Hin Hf]. exfalso. destruct l as [y|ls].
    + destruct Hin as [_ Hin]. by apply Hn in Hin.
    + destruct Hin as [_ Hin]. destruct Hf as [H2 Hl]. destruct ls as [|y ls]; [simpl in Hl; lia|].
      by apply (Hn 1 y), (Hin 0).
  - by intros l m ?.
  - constructor.
  - intros x. constructor.
  - done.
  - by intros _ l m x ?.
  - intros x l Hl. by apply elem_of_nil in Hl.
Qed.

(** ** Views of the intra-layer networks *)
Definition is_addnode (o : op) : Prop := match o with OpAddNode _ _ => True | _ => False end.
Definition adds (m m' : mlnet) : Prop := exists hs, Forall is_addnode hs /\ m' = run m hs.
Lemma adds_refl m : adds m m.
Proof. by exists []. Qed.
Lemma adds_trans m1 m2 m3 : adds m1 m2 -> adds m2 m3 -> adds m1 m3.
Proof.
  intros (h1 & H1 & ->) (h2 & H2 & ->). exists (h1 ++ h2). split; [by apply Forall_app|].
  unfold run. by rewrite fold_left_app.
Qed.
Lemma adds_slice_add m x : adds m (slice_add m 0 x).
Proof. exists [OpAddNode x None]. split; [by repeat constructor|done]. Qed.

Record padds (p p' : mpx) : Prop := {
  pa_coup : mcoup p' = mcoup p;
  pa_dir : mdir p' = mdir p;
  pa_noe : mnoe p' = mnoe p;
  pa_fic : mfic p' = mfic p;
  pa_old : forall l m, pA p l = Some m -> exists m', pA p' l = Some m' /\ adds m m';
  pa_new : forall l m', pA p l = None -> pA p' l = Some m' -> adds (new_net 0 0 (mdir p) true) m';
}.
Lemma padds_refl p : padds p p.
Proof. split; try done; [|congruence]. intros l m Hm. exists m. split; [done|apply adds_refl]. Qed.
Lemma padds_trans p1 p2 p3 : padds p1 p2 -> padds p2 p3 -> padds p1 p3.
Proof.
  intros [] []. split; try congruence.
  - intros l m Hm. destruct (pa_old0 l m Hm) as (m2 & Hm2 & Ha).
    destruct (pa_old1 l m2 Hm2) as (m3 & Hm3 & Ha3). exists m3. split; [done|by eapply adds_trans].
  - intros l m3 Hn Hm3. destruct (pA p2 l) as [m2|] eqn:E2.
    + destruct (pa_old1 l m2 E2) as (m3' & Hm3' & Ha3). rewrite Hm3 in Hm3'. injection Hm3' as <-.
      eapply adds_trans; [|done]. by apply pa_new0 with l.
    + rewrite <- pa_dir0. by apply pa_new1 with l.
Qed.

(** Effect of a structural operation: [S] are the added elements, [N] the added
    node-layer memberships. *)
Record eff (p p' : mpx) (S : nat -> name -> Prop) (N : name -> layer -> Prop) : Prop := {
  eff_wf : pwf p';
  eff_adds : padds p p';
  eff_sl : forall k x, psl p' k x <-> psl p k x \/ S k x;
  eff_n2l : forall x l, l ∈ mn2lv p' x <-> l ∈ mn2lv p x \/ N x l;
}.
Lemma eff_refl p : pwf p -> eff p p (fun _ _ => False) (fun _ _ => False).
Proof. intros Hw. split; [done|apply padds_refl| |]; tauto. Qed.
Lemma eff_trans p1 p2 p3 S S' N N' : eff p1 p2 S N -> eff p2 p3 S' N' ->
  eff p1 p3 (fun k x => S k x \/ S' k x) (fun x l => N x l \/ N' x l).
Proof.
  intros [W1 A1 S1 N1] [W2 A2 S2 N2]. split; [done|by eapply padds_trans| |].
  - intros k x. rewrite S2, S1. tauto.
  - intros x l. rewrite N2, N1. tauto.
Qed.
Lemma eff_iff p p' S S' N N' : eff p p' S N -> 
  (forall k x, psl p k x \/ S k x <-> psl p k x \/ S' k x) ->
  (forall x l, l ∈ mn2lv p x \/ N x l <-> l ∈ mn2lv p x \/ N' x l) -> eff p p' S' N'.
Proof.
  intros [W A HS HN] H1 H2. split; [done|done| |].
  - intros k x. by rewrite HS, H1.
  - intros x l. by rewrite HN, H2.
Qed.
Lemma maspects_padds p p' : padds p p' -> maspects p' = maspects p.
Proof. intros Ha. unfold maspects. by rewrite (pa_coup _ _ Ha). Qed.

Lemma lay_in_mono p p' l : maspects p' = maspects p -> (forall k x, psl p k x -> psl p' k x) -> lay_in p l -> lay_in p' l.
Proof.
  intros Ha Hs. destruct l as [y|ls]; simpl; rewrite Ha.
  - intros [H1 H2]. auto.
  - intros [H1 H2]. split; [done|]. intros i y Hy. apply Hs. by apply H2.
Qed.

(** *** Adding a node to the node set only *)
Lemma pslice_add_pwf p k x : pwf p -> k = 0 -> pwf (pslice_add p k x).
Proof.
  intros Hw ->.
  assert (Hl : forall l, lay_in (pslice_add p 0 x) l <-> lay_in p l).
  { intros l. destruct l as [y|ls]; simpl.
    - rewrite psl_pslice_add. split; [intros [? [?|(? & _)]]|intros [? ?]]; [by split|done|by auto].
    - split; intros [? Hi]; (split; [done|]); intros i y Hy.
      + specialize (Hi i y Hy). apply psl_pslice_add in Hi as [?|(? & _)]; done.
      + apply psl_pslice_add. left. by apply Hi. }
  destruct Hw. split; simpl; try done.
  - by rewrite alter_length.
  - apply Forall_lookup_2. intros j s Hs. destruct (decide (j = 0)) as [->|Hj].
    + rewrite list_lookup_alter in Hs. apply fmap_Some in Hs as (s0 & Hs0 & ->).
      apply NoDup_sadd. by eapply Forall_lookup_1.
    + rewrite list_lookup_alter_ne in Hs by done. by eapply Forall_lookup_1.
  - intros l. rewrite Hl. apply pw_dom0.
  - intros y l Hl'. destruct (pw_n2l0 y l Hl'). rewrite Hl, psl_pslice_add. auto.
Qed.
Lemma mnodes_pslice_add p x : mslices p !! 0 <> None -> mnodes (pslice_add p 0 x) = sadd x (mnodes p).
Proof.
  unfold mnodes, pslice_add. simpl. rewrite list_lookup_alter. by destruct (mslices p !! 0).
Qed.
Lemma slice0 p : pwf p -> mslices p !! 0 = Some (mnodes p).
Proof.
  intros Hw. unfold mnodes. destruct (mslices p) as [|s ss] eqn:E; [|done].
  pose proof (pw_len p Hw) as Hl. by rewrite E in Hl.
Qed.
Lemma pA_pslice_add0 p x l : pwf p ->
  pA (pslice_add p 0 x) l = match pA p l with
                            | Some m => Some (if mfic p then slice_add m 0 x else m) | None => None end.
Proof.
  intros Hw. unfold pA. simpl. destruct (dget (mA p) l) as [m|] eqn:E; [|done].
  destruct (mfic p); [|done]. f_equal. unfold slice_add, set_slices. simpl.
  rewrite mnodes_pslice_add; [done|]. rewrite slice0 by done. done.
Qed.
Lemma eff_add_plain p x : pwf p -> eff p (pslice_add p 0 x) (fun k y => k = 0 /\ y = x) (fun _ _ => False).
Proof.
  intros Hw. split.
  - by apply pslice_add_pwf.
  - split; try done.
    + intros l m Hm. rewrite pA_pslice_add0 by done. rewrite Hm. eexists. split; [done|].
      destruct (mfic p); [apply adds_slice_add|apply adds_refl].
    + intros l m' Hn. rewrite pA_pslice_add0 by done. by rewrite Hn.
  - intros k y. rewrite psl_pslice_add. rewrite (pw_len p Hw). intuition lia.
  - intros y l. unfold mn2lv. simpl. tauto.
Qed.

(** *** New layers *)
Lemma lin_psl p k s l : mslices p !! k = Some s -> lin l s = true <-> psl p k l.
Proof.
  intros Hs. rewrite Base.lin_true. unfold psl. rewrite Hs. split; [eauto|]. by intros (? & [= <-] & ?).
Qed.
Definition new_keys (p : mpx) (l : name) (aspect : nat) : list layer :=
  if decide (1 < maspects p)
  then LTup <$> cart (alter (fun _ => [l]) (aspect - 1) (drop 1 (mslices p)))
  else [LBare l].
Lemma fold_add_empty ls p :
  fold_left (fun q t => add_empty q t) ls p
  = pset_A p (fold_left (fun d t => dset d t (empty_intra p)) ls (mA p)).
Proof.
  revert p. induction ls as [|l ls IH]; intros p; simpl; [by destruct p|].
  by rewrite IH.
Qed.
Lemma fold_left_fmap {A B C} (f : A -> B -> A) (g : C -> B) l a :
  fold_left f (g <$> l) a = fold_left (fun a x => f a (g x)) l a.
Proof. revert a. induction l as [|x l IH]; intros a; [done|]. apply IH. Qed.
Lemma padd_layer_eq p l k s : mslices p !! k = Some s -> l ∉ s -> k <> 0 ->
  padd_layer p l k =
  (pslice_add (pset_A p (fold_left (fun d t => dset d t (empty_intra p)) (new_keys p l k) (mA p))) k l, Ok tt).
Proof.
  intros Hs Hl Hk. unfold padd_layer. rewrite Hs. rewrite (proj2 (lin_false _ _) Hl).
  rewrite decide_False by done. unfold new_keys. f_equal. f_equal.
  destruct (decide (1 < maspects p)) as [H1|H1]; [|done].
  rewrite <- (fold_add_empty (LTup <$> _)). by rewrite fold_left_fmap.
Qed.
Lemma dget_fold_dset {K V} `{EqDecision K} (v : V) ls (d : list (K * V)) k :
  dget (fold_left (fun d t => dset d t v) ls d) k = if decide (k ∈ ls) then Some v else dget d k.
Proof.
  revert d. induction ls as [|l ls IH]; intros d; cbn [fold_left].
  - rewrite decide_False; [done|]. apply not_elem_of_nil.
  - rewrite IH. rewrite dget_dset. destruct (decide (k ∈ ls)) as [Hi|Hi].
    + rewrite decide_True; [done|by right].
    + destruct (decide (k = l)) as [->|Hne].
      * rewrite decide_True; [done|left].
      * rewrite decide_False; [done|]. by intros [?|?]%elem_of_cons.
Qed.
Lemma NoDup_fold_dset {K V} `{EqDecision K} (v : V) ls (d : list (K * V)) :
  NoDup (dkeys d) -> NoDup (dkeys (fold_left (fun d t => dset d t v) ls d)).
Proof.
  revert d. induction ls as [|l ls IH]; intros d Hd; simpl; [done|]. apply IH. by apply NoDup_dset.
Qed.

Lemma elem_of_new_keys p l k t : pwf p -> 1 <= k <= maspects p ->
  t ∈ new_keys p l k <-> full_form (maspects p) t /\
    match t with
    | LBare y => y = l
    | LTup ls => ls !! (k - 1) = Some l /\ forall i y, ls !! i = Some y -> i <> k - 1 -> psl p (S i) y
    end.
Proof.
  intros Hw Hk. pose proof (pw_len p Hw) as Hlen. unfold new_keys. destruct (decide (1 < maspects p)) as [H1|H1].
  - rewrite elem_of_list_fmap. split.
    + intros (ls & -> & Hc). apply elem_of_cart in Hc. 
      pose proof (Forall2_length _ _ _ Hc) as Hl. rewrite alter_length, drop_length in Hl.
      assert (Hcoord : forall i y, ls !! i = Some y -> exists s, alter (fun _ => [l]) (k - 1) (drop 1 (mslices p)) !! i = Some s /\ y ∈ s).
      { intros i y Hy. by apply (Forall2_lookup_l _ _ _ _ _ Hc). }
      simpl. split; [lia|]. split.
      * destruct (ls !! (k - 1)) as [y|] eqn:E.
        -- destruct (Hcoord _ _ E) as (s & Hs & Hy). rewrite list_lookup_alter in Hs.
           apply fmap_Some in Hs as (? & _ & ->). by apply elem_of_list_singleton in Hy as ->.
        -- apply lookup_ge_None in E. lia.
      * intros i y Hy Hne. destruct (Hcoord _ _ Hy) as (s & Hs & Hys).
        rewrite list_lookup_alter_ne in Hs by lia. rewrite lookup_drop in Hs. by exists s.
    + intros [Hf Ht]. destruct t as [y|ls]; [simpl in Hf; lia|]. destruct Hf as [_ Hf]. destruct Ht as [Hkl Hrest].
      exists ls. split; [done|]. apply elem_of_cart. apply Forall2_same_length_lookup.
      rewrite alter_length, drop_length. split; [lia|].
      intros i y s Hy Hs. destruct (decide (i = k - 1)) as [->|Hne].
      * rewrite list_lookup_alter in Hs. apply fmap_Some in Hs as (? & _ & ->).
        rewrite Hkl in Hy. injection Hy as <-. by apply elem_of_list_singleton.
      * rewrite list_lookup_alter_ne in Hs by lia. rewrite lookup_drop in Hs.
        destruct (Hrest i y Hy Hne) as (s' & Hs' & Hy'). simpl in Hs. congruence.
  - rewrite elem_of_list_singleton. split.
    + intros ->. simpl. split; [lia|done].
    + destruct t as [y|ls]; simpl; [by intros [_ ->]|lia].
Qed.

Lemma eff_add_layer p l k : pwf p -> k <= maspects p ->
  exists p', padd_layer p l k = (p', Ok tt) /\ eff p p' (fun j y => j = k /\ y = l) (fun _ _ => False).
Proof.
  intros Hw Hk. pose proof (pw_len p Hw) as Hlen.
  destruct (mslices p !! k) as [s|] eqn:Hs; [|apply lookup_ge_None in Hs; lia].
  destruct (decide (l ∈ s)) as [Hl|Hl].
  { exists p. unfold padd_layer. rewrite Hs. rewrite (proj2 (Base.lin_true _ _) Hl). split; [done|].
    eapply eff_iff; [by apply eff_refl| |done]. intros j y. split; [tauto|].
    intros [?|[-> ->]]; [by left|]. left. by exists s. }
  destruct (decide (k = 0)) as [->|Hk0].
  { exists (pslice_add p 0 l). split; [|by apply eff_add_plain].
    unfold padd_layer. rewrite Hs. by rewrite (proj2 (lin_false _ _) Hl). }
  eexists. split; [by apply padd_layer_eq with s|].
  set (A' := fold_left _ _ _). set (p1 := pset_A p A').
  assert (Hnew : forall t, t ∈ new_keys p l k -> ~ lay_in p t).
  { intros t Ht. apply elem_of_new_keys in Ht as [Hf Ht]; [|done|lia].
    assert (Hnp : ~ psl p k l). { intros (s' & Hs' & Hl'). congruence. }
    destruct t as [y|ls]; simpl in *.
    - subst y. intros [H1 H2]. apply Hnp. by replace k with 1 by lia.
    - intros [_ Hi]. destruct Ht as [Ht _]. apply Hnp. replace k with (S (k - 1)) by lia. by apply Hi. }
  assert (Hg : forall t, dget A' t = if decide (t ∈ new_keys p l k) then Some (empty_intra p) else dget (mA p) t).
  { intros t. unfold A'. apply dget_fold_dset. }
  assert (Hsl : forall j y, psl (pslice_add p1 k l) j y <-> psl p j y \/ (j = k /\ y = l)).
  { intros j y. rewrite psl_pslice_add. unfold p1. simpl. rewrite Hlen. unfold psl. simpl. intuition lia. }
  assert (Hn2 : forall x, mn2lv (pslice_add p1 k l) x = mn2lv p x) by done.
  assert (Hm0 : mnodes (pslice_add p1 k l) = mnodes p).
  { unfold mnodes, pslice_add. simpl. by rewrite list_lookup_alter_ne. }
  split.
  - split.
    + simpl. by rewrite alter_length.
    + simpl. apply Forall_lookup_2. intros j s' Hs'. destruct (decide (j = k)) as [->|Hj].
      * rewrite list_lookup_alter in Hs'. apply fmap_Some in Hs' as (s0 & Hs0 & ->).
        apply NoDup_sadd. eapply Forall_lookup_1; [apply (pw_nd p Hw)|done].
      * rewrite list_lookup_alter_ne in Hs' by done. eapply Forall_lookup_1; [apply (pw_nd p Hw)|done].
    + simpl. apply NoDup_fold_dset. apply (pw_keys p Hw).
    + intros t. change (mA (pslice_add p1 k l)) with A'. change (maspects (pslice_add p1 k l)) with (maspects p).
      rewrite elem_of_dkeys, Hg. destruct (decide (t ∈ new_keys p l k)) as [Hi|Hi].
      * split; [|by eauto]. intros _. apply elem_of_new_keys in Hi as [Hf Hi]; [|done|lia].
        split; [|done]. destruct t as [y|ls]; simpl in *.
        -- split; [done|]. apply Hsl. right. split; [lia|done].
        -- split; [apply Hf|]. intros i y Hy. apply Hsl. destruct (decide (i = k - 1)) as [->|Hne].
           ++ right. split; [lia|]. destruct Hi as [Hi _]. congruence.
           ++ left. by apply (proj2 Hi).
      * rewrite <- elem_of_dkeys, (pw_dom p Hw). split.
        -- intros [H1 H2]. split; [|done]. revert H1. apply lay_in_mono; [done|]. intros j y Hy. apply Hsl. by left.
        -- intros [H1 H2]. split; [|done]. destruct t as [y|ls]; simpl in *.
           ++ split; [done|]. destruct H1 as [_ H1]. apply Hsl in H1 as [?|[? ->]]; [done|].
              exfalso. apply Hi. apply elem_of_new_keys; [done|lia|]. done.
           ++ split; [lia|]. destruct H1 as [_ H1]. intros i y Hy. pose proof (H1 i y Hy) as Hp.
              apply Hsl in Hp as [?|[Hik ->]]; [done|].
              exfalso. apply Hi. apply elem_of_new_keys; [done|lia|]. split; [done|].
              split; [by replace (k - 1) with i by lia|]. intros i' y' Hy' Hne.
              pose proof (H1 i' y' Hy') as Hp. apply Hsl in Hp as [?|[? _]]; [done|lia].
    + intros t m. change (mA (pslice_add p1 k l)) with A'. rewrite Hg.
      destruct (decide (t ∈ new_keys p l k)); [by intros [= <-]|apply (pw_raw p Hw)].
    + apply (pw_n2l_keys p Hw).
    + apply (pw_n2l_nd p Hw).
    + apply (pw_fic p Hw).
    + intros Hfi t m x. change (mA (pslice_add p1 k l)) with A'. rewrite Hg, Hn2.
      destruct (decide (t ∈ new_keys p l k)) as [Hi|Hi]; [|by apply (pw_node p Hw)].
      intros [= <-]. split; [by intros ?%elem_of_nil|]. intros Ht. apply (pw_n2l p Hw) in Ht as [_ Ht].
      by apply Hnew in Hi.
    + intros x t Ht. apply (pw_n2l p Hw) in Ht as [Hx Ht]. split; [apply Hsl; by left|].
      revert Ht. apply lay_in_mono; [done|]. intros j y Hy. apply Hsl. by left.
  - split; try done.
    + intros t m Hm. exists m. split; [|apply adds_refl]. unfold pA in *.
      change (mA (pslice_add p1 k l)) with A'. rewrite Hg, Hm0.
      destruct (decide (t ∈ new_keys p l k)) as [Hi|Hi]; [|done].
      exfalso. apply (Hnew _ Hi). apply (pw_dom p Hw). apply elem_of_dkeys.
      destruct (dget (mA p) t); [by eexists|done].
    + intros t m' Hn. unfold pA in *. change (mA (pslice_add p1 k l)) with A'. rewrite Hg, Hm0.
      destruct (decide (t ∈ new_keys p l k)) as [Hi|Hi].
      * intros [= <-]. change (mfic (pslice_add p1 k l)) with (mfic p). destruct (mfic p); [|apply adds_refl].
        exists ((fun x => OpAddNode x None) <$> mnodes p). split.
        { apply Forall_fmap, Forall_true. done. }
        unfold run. rewrite fold_left_fmap. simpl.
        assert (Hnd : NoDup (mnodes p)). { eapply Forall_lookup_1; [apply (pw_nd p Hw)|by apply slice0]. }
        assert (Hgen : forall xs acc, NoDup (acc ++ xs) ->
          fold_left (fun a x => slice_add a 0 x) xs (set_slices (empty_intra p) [acc]) = set_slices (empty_intra p) [acc ++ xs]).
        { induction xs as [|x xs IH]; intros acc Hd; simpl; [by rewrite app_nil_r|].
          unfold slice_add at 2. simpl. unfold sadd. rewrite decide_False.
          - transitivity (set_slices (empty_intra p) [(acc ++ [x]) ++ xs]); [|by rewrite <- app_assoc].
            apply IH. by rewrite <- app_assoc.
          - intros Hx. apply NoDup_app in Hd as (_ & Hd & _). apply (Hd x Hx). left. }
        symmetry. apply (Hgen (mnodes p) [] Hnd).
      * destruct (dget (mA p) t); [done|]. done.
  - done.
  - intros x t. rewrite Hn2. tauto.
Qed.

(** *** Adding a node to one layer *)
Definition n2l_add' (p : mpx) (x : name) (l : layer) : mpx := if mfic p then p else n2l_add p x l.
Definition padd1 (p : mpx) (l : layer) (m : mlnet) (x : name) : mpx :=
  n2l_add' (pslice_add (pset_A p (dset (mA p) l (slice_add m 0 x))) 0 x) x l.
Lemma net_nodes_slice_add m x : length (slices m) = 1 -> net_nodes (slice_add m 0 x) = sadd x (net_nodes m).
Proof. unfold net_nodes, slice_add. simpl. destruct (slices m) as [|s ss]; [done|]. done. Qed.
Lemma pA_raw p l m : pA p l = Some m -> exists m0, dget (mA p) l = Some m0.
Proof. unfold pA. destruct (dget (mA p) l) as [m0|]; [eauto|done]. Qed.
Lemma pA_len p l m : pwf p -> pA p l = Some m -> length (slices m) = 1.
Proof.
  intros Hw. unfold pA. destruct (dget (mA p) l) as [m0|] eqn:E; [|done]. intros [= <-].
  destruct (mfic p); [done|]. by apply (pw_raw p Hw) with l.
Qed.
Lemma pA_nodes_fic p l m : pA p l = Some m -> mfic p = true -> net_nodes m = mnodes p.
Proof. unfold pA. intros Hm Hf. rewrite Hf in Hm. destruct (dget (mA p) l); [|done]. by injection Hm as <-. Qed.
Lemma pA_lay p l m : pwf p -> pA p l = Some m -> lay_in p l /\ full_form (maspects p) l.
Proof.
  intros Hw Hm. apply (pw_dom p Hw). apply elem_of_dkeys. destruct (pA_raw _ _ _ Hm) as [m0 ->]. by eexists.
Qed.
Lemma lay_pA p l : pwf p -> lay_in p l -> full_form (maspects p) l -> exists m, pA p l = Some m.
Proof.
  intros Hw H1 H2. assert (l ∈ dkeys (mA p)) as Hd by (by apply (pw_dom p Hw)).
  apply elem_of_dkeys in Hd as [m Hm]. unfold pA. rewrite Hm. by eexists.
Qed.

Lemma eff_add1 p l m x : pwf p -> pA p l = Some m ->
  eff p (padd1 p l m x) (fun k y => k = 0 /\ y = x) (fun y t => mfic p = false /\ y = x /\ t = l) /\
  pA (padd1 p l m x) l = Some (slice_add m 0 x).
Proof.
  intros Hw Hm. destruct (pA_raw _ _ _ Hm) as [m0 Hm0]. pose proof (pA_len p l m Hw Hm) as Hml.
  set (A' := dset (mA p) l (slice_add m 0 x)).
  assert (HA : mA (padd1 p l m x) = A'). { unfold padd1, n2l_add'. simpl. by destruct (mfic p). }
  assert (Hms : mslices (padd1 p l m x) = mslices (pslice_add p 0 x)).
  { unfold padd1, n2l_add'. simpl. by destruct (mfic p). }
  assert (Hfi : mfic (padd1 p l m x) = mfic p).
  { unfold padd1, n2l_add'. simpl. by destruct (mfic p) eqn:E; simpl. }
  assert (Hcf : mcoup (padd1 p l m x) = mcoup p /\ mdir (padd1 p l m x) = mdir p /\ mnoe (padd1 p l m x) = mnoe p).
  { unfold padd1, n2l_add'. simpl. by destruct (mfic p). }
  assert (Hn2e : mn2l (padd1 p l m x) = if mfic p then mn2l p else mn2l (n2l_add p x l)).
  { unfold padd1, n2l_add'. simpl. by destruct (mfic p). }
  assert (Hsl : forall k y, psl (padd1 p l m x) k y <-> psl p k y \/ (k = 0 /\ y = x)).
  { intros k y. unfold psl. rewrite Hms. fold (psl (pslice_add p 0 x) k y). rewrite psl_pslice_add.
    rewrite (pw_len p Hw). unfold psl. intuition lia. }
  assert (Hnv : forall y, mn2lv (padd1 p l m x) y =
            if decide (mfic p = false /\ y = x) then sadd l (mn2lv p x) else mn2lv p y).
  { intros y. unfold mn2lv. rewrite Hn2e. destruct (mfic p).
    - rewrite decide_False by (by intros [? _]). done.
    - fold (mn2lv (n2l_add p x l) y). rewrite mn2lv_add. destruct (decide (y = x)) as [->|].
      + by rewrite decide_True.
      + by rewrite decide_False by (by intros [_ ?]). }
  assert (Has : maspects (padd1 p l m x) = maspects p). { unfold maspects. by rewrite (proj1 Hcf). }
  assert (Hmn : mnodes (padd1 p l m x) = sadd x (mnodes p)).
  { unfold mnodes at 1. rewrite Hms. fold (mnodes (pslice_add p 0 x)). apply mnodes_pslice_add. by rewrite slice0. }
  assert (Hli : forall t, lay_in (padd1 p l m x) t <-> lay_in p t).
  { intros t. destruct t as [y|ls]; simpl; rewrite Has.
    - rewrite Hsl. intuition congruence.
    - split; intros [? Hi]; (split; [done|]); intros i y Hy; specialize (Hi i y Hy).
      + apply Hsl in Hi as [?|[? _]]; done.
      + apply Hsl. by left. }
  assert (HpA : forall t, pA (padd1 p l m x) t =
     if decide (t = l) then Some (slice_add m 0 x)
     else match pA p t with Some m1 => Some (if mfic p then slice_add m1 0 x else m1) | None => None end).
  { intros t. unfold pA at 1. rewrite HA, Hfi, Hmn. unfold A'. rewrite dget_dset.
    destruct (decide (t = l)) as [->|Hne].
    - destruct (mfic p) eqn:Ef; [|done]. f_equal.
      pose proof (pA_nodes_fic _ _ _ Hm Ef) as Hnn. rewrite <- Hnn.
      destruct m as [? ? ? ? sl0 ? ? ? ? ?]. simpl in *. destruct sl0 as [|s [|]]; [done| |done]. done.
    - unfold pA. destruct (dget (mA p) t) as [m1|]; [|done]. by destruct (mfic p). }
  split; [|by rewrite HpA, decide_True]. split.
  - split.
    + rewrite Hms, Has. simpl. rewrite alter_length. apply (pw_len p Hw).
    + rewrite Hms. apply (pw_nd (pslice_add p 0 x)). by apply pslice_add_pwf.
    + rewrite HA. by apply NoDup_dset, (pw_keys p Hw).
    + intros t. rewrite HA, Has, Hli, <- (pw_dom p Hw). unfold A'. rewrite elem_of_dkeys_dset.
      split; [|by right]. intros [->|?]; [|done]. apply elem_of_dkeys. by rewrite Hm0.
    + intros t m1. rewrite HA. unfold A'. rewrite dget_dset. destruct (decide (t = l)).
      * intros [= <-]. unfold slice_add. simpl. by rewrite alter_length.
      * apply (pw_raw p Hw).
    + rewrite Hn2e. destruct (mfic p); [apply (pw_n2l_keys p Hw)|].
      simpl. apply NoDup_dset, (pw_n2l_keys p Hw).
    + intros y. rewrite Hnv. destruct (decide _); [apply NoDup_sadd|]; apply (pw_n2l_nd p Hw).
    + rewrite Hfi, Hn2e. intros Hf. rewrite Hf. by apply (pw_fic p Hw).
    + rewrite Hfi. intros Hf t m1 y. rewrite HA, Hnv. unfold A'. rewrite dget_dset.
      assert (Hmm : m0 = m). { unfold pA in Hm. rewrite Hm0, Hf in Hm. congruence. } subst m0.
      destruct (decide (t = l)) as [->|Hne].
      * intros [= <-]. rewrite net_nodes_slice_add by done. rewrite elem_of_sadd.
        rewrite (pw_node p Hw Hf l m y Hm0).
        destruct (decide (mfic p = false /\ y = x)) as [[_ ->]|Hn].
        -- rewrite elem_of_sadd. tauto.
        -- split; [|tauto]. intros [->|?]; [tauto|done].
      * intros Hg. rewrite (pw_node p Hw Hf t m1 y Hg).
        destruct (decide (mfic p = false /\ y = x)) as [[_ ->]|Hn]; [|done].
        rewrite elem_of_sadd. intuition congruence.
    + intros y t. rewrite Hnv, Hsl, Hli. destruct (decide (mfic p = false /\ y = x)) as [[_ ->]|Hn].
      * rewrite elem_of_sadd. intros [->|Ht].
        -- split; [by right|]. by apply (pA_lay p l m).
        -- split; [by right|]. by apply (pw_n2l p Hw x t).
      * intros Ht. apply (pw_n2l p Hw) in Ht as [? ?]. split; [by left|done].
  - split; try apply Hcf; try done.
    + intros t m1 Hm1. rewrite HpA. destruct (decide (t = l)) as [->|].
      * eexists. split; [done|]. rewrite Hm in Hm1. injection Hm1 as <-. apply adds_slice_add.
      * rewrite Hm1. eexists. split; [done|]. destruct (mfic p); [apply adds_slice_add|apply adds_refl].
    + intros t m1 Hn. rewrite HpA. destruct (decide (t = l)) as [->|]; [congruence|]. by rewrite Hn.
  - done.
  - intros y t. rewrite Hnv. destruct (decide (mfic p = false /\ y = x)) as [[Hf ->]|Hn].
    + rewrite elem_of_sadd. tauto.
    + split; [by left|]. intros [?|(? & -> & _)]; [done|tauto].
Qed.

(** The layer loop of [add_node] changes nothing when the layers exist. *)
Definition padd_loop (q : mpx) (kx : nat * name) : out mpx unit :=
  match mslices q !! S (kx.1) with
  | None => (q, Err IndexError)
  | Some s => if lin (kx.2) s then (q, Ok tt) else padd_layer q (kx.2) (S (kx.1))
  end.
Lemma padd_loop_id p ps : (forall k x, (k, x) ∈ ps -> psl p (S k) x) -> ofold padd_loop p ps = (p, Ok tt).
Proof.
  induction ps as [|[k x] ps IH]; intros Hp; [done|]. cbn [ofold]. unfold padd_loop at 1. simpl.
  destruct (Hp k x) as (s & Hs & Hx); [left|]. rewrite Hs, (proj2 (Base.lin_true _ _) Hx).
  apply IH. intros k' x' Hi. apply Hp. by right.
Qed.
Lemma padd_node_id f p x l m : mfic p = false -> psl p 0 x -> lay_in p l -> pA p l = Some m ->
  x ∈ net_nodes m -> l ∈ mn2lv p x -> padd_node_fuel (S f) p x (Some l) = (p, Ok tt).
Proof.
  intros Hf Hx Hl Hm Hxm Hlx. cbn [padd_node_fuel]. unfold padd_node_body. rewrite pslice_add_id by done. rewrite Hf.
  assert (Hto : padd_node_to_layer (padd_node_fuel f) p x l = (p, Ok tt)).
  { unfold padd_node_to_layer. rewrite n2l_add_id by done. rewrite Hm. by rewrite (proj2 (Base.lin_true _ _) Hxm). }
  destruct l as [y|ls]; simpl in Hl.
  - destruct Hl as [H1 (s & Hs & Hy)]. rewrite decide_True by done. rewrite Hs.
    rewrite (proj2 (Base.lin_true _ _) Hy). simpl. done.
  - destruct Hl as [H1 Hl]. rewrite decide_True by done. fold padd_loop. rewrite padd_loop_id; [simpl; done|].
    intros k z Hk. apply elem_of_imap_pair in Hk. by apply Hl.
Qed.
Lemma padd_to_layer_eq f p x l : pwf p -> mfic p = false -> psl p 0 x -> lay_in p l ->
  padd_node_to_layer (padd_node_fuel (S f)) p x l =
  match pA p l with None => (n2l_add p x l, Err KeyError) | Some m => (padd1 p l m x, Ok tt) end.
Proof.
  intros Hw Hf Hx Hl. unfold padd_node_to_layer.
  assert (HpA : pA (n2l_add p x l) l = pA p l) by done. rewrite HpA.
  destruct (pA p l) as [m|] eqn:Hm; [|done]. pose proof (pA_len p l m Hw Hm) as Hml.
  assert (Hraw : dget (mA p) l = Some m).
  { unfold pA in Hm. rewrite Hf in Hm. destruct (dget (mA p) l); [done|done]. }
  assert (Hpe : padd1 p l m x = n2l_add (pset_A p (dset (mA p) l (slice_add m 0 x))) x l).
  { unfold padd1. rewrite pslice_add_id by done. unfold n2l_add'. cbn [mfic pset_A]. by rewrite Hf. }
  destruct (lin x (net_nodes m)) eqn:El.
  - apply Base.lin_true in El. rewrite Hpe. f_equal. unfold slice_add. rewrite alter_id_lookup.
    + replace (set_slices m (slices m)) with m by (by destruct m). rewrite dset_id by done. by destruct p.
    + intros s Hs. apply sadd_idem. unfold net_nodes in El. by rewrite Hs in El.
  - unfold intra_add_node. rewrite HpA. cbn [mfic n2l_add pset_n2l]. rewrite Hf.
    set (p1 := put_A (n2l_add p x l) l (slice_add m 0 x)).
    assert (Hp1 : p1 = padd1 p l m x). { rewrite Hpe. unfold p1, put_A. cbn [mfic n2l_add pset_n2l]. by rewrite Hf. }
    destruct (eff_add1 p l m x Hw Hm) as [He HA]. rewrite <- Hp1 in He, HA.
    rewrite (padd_node_id f p1 x l (slice_add m 0 x)).
    + simpl. rewrite n2l_add_id; [by rewrite Hp1|]. apply (eff_n2l _ _ _ _ He). by right.
    + rewrite (pa_fic _ _ (eff_adds _ _ _ _ He)). done.
    + apply (eff_sl _ _ _ _ He). by left.
    + revert Hl. apply lay_in_mono; [by apply maspects_padds, (eff_adds _ _ _ _ He)|].
      intros k y Hy. apply (eff_sl _ _ _ _ He). by left.
    + done.
    + rewrite net_nodes_slice_add by done. apply elem_of_sadd. by left.
    + apply (eff_n2l _ _ _ _ He). by right.
Qed.

Lemma eff_n2l_only p x l : pwf p -> mfic p = false -> psl p 0 x -> lay_in p l -> pA p l = None ->
  eff p (n2l_add p x l) (fun _ _ => False) (fun y t => y = x /\ t = l).
Proof.
  intros Hw Hf Hx Hl Hn.
  assert (Hnv : forall y t, t ∈ mn2lv (n2l_add p x l) y <-> t ∈ mn2lv p y \/ y = x /\ t = l).
  { intros y t. rewrite mn2lv_add. destruct (decide (y = x)) as [->|]; [rewrite elem_of_sadd|]; tauto. }
  split.
  - destruct Hw. split; try done; simpl in *.
    + by apply NoDup_dset.
    + intros y. rewrite mn2lv_add. destruct (decide (y = x)); [by apply NoDup_sadd|done].
    + congruence.
    + intros _ t m y Hg. rewrite Hnv. rewrite (pw_node0 Hf t m y Hg). split; [by left|].
      intros [?|[-> ->]]; [done|]. unfold pA in Hn. by rewrite Hg in Hn.
    + intros y t. rewrite Hnv. intros [Ht|[-> ->]]; [by apply pw_n2l0|done].
  - split; try done; [|intros t m' Hx1 Hx2; change (pA p t = Some m') in Hx2; congruence].
    intros t m Hm. exists m. split; [done|apply adds_refl].
  - intros k y. unfold psl. simpl. tauto.
  - done.
Qed.
Lemma padd_loop_eq p k x s : mslices p !! S k = Some s -> padd_loop p (k, x) = padd_layer p x (S k).
Proof. intros Hs. unfold padd_loop, padd_layer. simpl. rewrite Hs. by destruct (lin x s). Qed.
Lemma eff_loop p ls o : pwf p -> o <= maspects p ->
  exists p', ofold padd_loop p (imap (fun i y => (i + o, y)) ls)
             = (p', if decide (length ls + o <= maspects p) then Ok tt else Err IndexError) /\
    eff p p' (fun j x => exists i, ls !! i = Some x /\ j = S (i + o) /\ j <= maspects p) (fun _ _ => False).
Proof.
  revert p o. induction ls as [|y ls IH]; intros p o Hw Ho; cbn [imap ofold length].
  - exists p. rewrite decide_True by lia. split; [done|]. eapply eff_iff; [by apply eff_refl| |done].
    intros k x. split; [tauto|]. intros [?|(i & Hi & _)]; [by left|]. by rewrite lookup_nil in Hi.
  - destruct (decide (S o <= maspects p)) as [Hs|Hs].
    + destruct (mslices p !! S o) as [s|] eqn:Es.
      2:{ apply lookup_ge_None in Es. rewrite (pw_len p Hw) in Es. lia. }
      change (0 + o) with o. rewrite (padd_loop_eq _ _ _ s) by done.
      destruct (eff_add_layer p y (S o) Hw Hs) as (p1 & E1 & He1). rewrite E1.
      pose proof (maspects_padds _ _ (eff_adds _ _ _ _ He1)) as Hma.
      destruct (IH p1 (S o) (eff_wf _ _ _ _ He1)) as (p2 & E2 & He2); [lia|].
      replace (imap ((fun i y => (i + o, y)) ∘ S) ls) with (imap (fun i y => (i + S o, y)) ls).
      2:{ apply imap_ext. intros i z _. simpl. f_equal. lia. }
      exists p2. rewrite E2, Hma. split.
      { f_equal. destruct (decide (length ls + S o <= maspects p)), (decide (S (length ls) + o <= maspects p)); lia || done. }
      eapply eff_iff; [by eapply eff_trans| |tauto]. rewrite Hma. intros k x. split.
      * intros [?|[[-> ->]|(i & Hi & -> & ?)]]; [by left| |]; right.
        -- exists 0. split_and!; [done|lia|lia].
        -- exists (S i). split_and!; [done|lia|lia].
      * intros [?|([|i] & Hi & -> & ?)]; [by left| |]; right.
        -- left. injection Hi as ->. split; [lia|done].
        -- right. exists i. split_and!; [done|lia|lia].
    + assert (mslices p !! S o = None) as Es. { apply lookup_ge_None. rewrite (pw_len p Hw). lia. }
      unfold padd_loop at 1. cbn [fst snd]. change (0 + o) with o. rewrite Es. exists p.
      rewrite decide_False by lia. split; [done|]. eapply eff_iff; [by apply eff_refl| |done].
      intros k x. split; [tauto|]. intros [?|(i & _ & ? & ?)]; [by left|lia].
Qed.

(** [add_node], complete description. *)
Definition add_node_out (asp : nat) (fi : bool) (lay : option layer) : res unit :=
  match lay with
  | None => Ok tt
  | Some l =>
    if fi then Ok tt else
    match l with
    | LBare _ => if decide (asp = 1) then Ok tt else Err AssertionError
    | LTup ls => if decide (2 <= asp) then
                   if decide (length ls <= asp) then
                     if decide (length ls = asp) then Ok tt else Err KeyError
                   else Err IndexError
                 else Err AssertionError
    end
  end.
Definition joins (asp : nat) (fi : bool) (x : name) (lay : option layer) (y : name) (l : layer) : Prop :=
  fi = false /\ y = x /\ lay = Some l /\
  match l with LBare _ => asp = 1 | LTup ls => 2 <= asp /\ length ls <= asp end.
Lemma padd_node_spec f p x lay : pwf p ->
  exists p', padd_node_fuel (S (S f)) p x lay = (p', add_node_out (maspects p) (mfic p) lay) /\
    eff p p' (mentions (maspects p) (mfic p) (OpAddNode x lay)) (joins (maspects p) (mfic p) x lay).
Proof.
  intros Hw. change (padd_node_fuel (S (S f)) p x lay) with (padd_node_body (padd_node_fuel (S f)) p x lay).
  unfold padd_node_body. pose proof (eff_add_plain p x Hw) as He0.
  set (p0 := pslice_add p 0 x) in *.
  assert (Hx0 : psl p0 0 x). { apply (eff_sl _ _ _ _ He0). by right. }
  pose proof (eff_wf _ _ _ _ He0) as Hw0.
  destruct lay as [l|].
  2:{ exists p0. split; [done|]. eapply eff_iff; [done| |].
      - intros k y. simpl. split; [tauto|]. intros [?|[?|[(_ & _ & _ & ?)|(_ & _ & ? & ? & ? & _)]]]; try done; tauto.
      - intros y l. split; [tauto|]. intros [?|(_ & _ & ? & _)]; [by left|done]. }
  unfold add_node_out. destruct (mfic p) eqn:Hf.
  { exists p0. split; [done|]. eapply eff_iff; [done| |].
    - intros k y. simpl. split; [tauto|]. intros [?|[?|[(? & _)|(? & _)]]]; try done; tauto.
    - intros y t. split; [tauto|]. intros [?|(? & _)]; [by left|done]. }
  assert (Hf0 : mfic p0 = false) by done.
  destruct l as [y|ls].
  - destruct (decide (maspects p = 1)) as [H1|H1].
    + destruct (mslices p0 !! 1) as [s|] eqn:Es.
      2:{ apply lookup_ge_None in Es. rewrite (pw_len p0 Hw0) in Es. change (maspects p0) with (maspects p) in Es. lia. }
      assert (Hl : (if lin y s then (p0, Ok tt) else padd_layer p0 y 1) = padd_layer p0 y 1).
      { destruct (lin y s) eqn:El; [|done]. unfold padd_layer. by rewrite Es, El. }
      rewrite Hl. destruct (eff_add_layer p0 y 1 Hw0) as (p1 & E1 & He1).
      { change (maspects p0) with (maspects p). lia. }
      rewrite E1. cbn [obind]. pose proof (eff_trans _ _ _ _ _ _ _ He0 He1) as He01.
      pose proof (eff_wf _ _ _ _ He1) as Hw1.
      assert (Ha1 : maspects p1 = 1). { rewrite (maspects_padds _ _ (eff_adds _ _ _ _ He1)). done. }
      assert (Hl1 : lay_in p1 (LBare y)). { simpl. split; [done|]. apply (eff_sl _ _ _ _ He1). by right. }
      rewrite padd_to_layer_eq; [|done| | |done].
      2:{ rewrite (pa_fic _ _ (eff_adds _ _ _ _ He1)). done. }
      2:{ apply (eff_sl _ _ _ _ He1). by left. }
      destruct (lay_pA p1 (LBare y) Hw1 Hl1) as [m Hm]; [done|]. rewrite Hm.
      destruct (eff_add1 p1 (LBare y) m x Hw1 Hm) as [He2 _].
      eexists. split; [done|]. eapply eff_iff; [eapply eff_trans; [exact He01|exact He2]| |].
      * intros k z. simpl. split.
        -- intros [?|[[?|[-> ->]]|?]]; [by left|by right; left| |by right; left].
           right. right. left. done.
        -- intros [?|[?|[(_ & _ & -> & [= ->])|(_ & ? & _)]]]; [by left|tauto|tauto|lia].
      * intros z t. rewrite (pa_fic _ _ (eff_adds _ _ _ _ He1)). unfold joins. split.
        -- intros [?|[[?|?]|(_ & -> & ->)]]; [by left|done|done|]. right. done.
        -- intros [?|(_ & -> & [= <-] & _)]; [by left|]. right. right. done.
    + exists p0. split; [done|]. eapply eff_iff; [done| |].
      * intros k z. simpl. split; [tauto|]. intros [?|[?|[(_ & ? & _)|(_ & _ & ? & ? & ? & _)]]]; try done; tauto.
      * intros z t. split; [tauto|]. intros [?|(_ & _ & [= <-] & ?)]; [by left|done].
  - destruct (decide (2 <= maspects p)) as [H2|H2].
    + destruct (eff_loop p0 ls 0 Hw0) as (p1 & E1 & He1); [lia|].
      fold padd_loop. replace (imap pair ls) with (imap (fun i y => (i + 0, y)) ls).
      2:{ apply imap_ext. intros i z _. f_equal. lia. }
      rewrite E1. change (maspects p0) with (maspects p) in *.
      replace (length ls + 0) with (length ls) by lia.
      pose proof (eff_trans _ _ _ _ _ _ _ He0 He1) as He01.
      pose proof (eff_wf _ _ _ _ He1) as Hw1.
      pose proof (maspects_padds _ _ (eff_adds _ _ _ _ He1)) as Ha1. change (maspects p0) with (maspects p) in *.
      pose proof (pa_fic _ _ (eff_adds _ _ _ _ He1)) as Hf1. rewrite Hf0 in Hf1.
      assert (Hmen : forall k z,
        (k = 0 /\ z = x) \/ (exists i, ls !! i = Some z /\ k = S (i + 0) /\ k <= maspects p) <->
        mentions (maspects p) false (OpAddNode x (Some (LTup ls))) k z).
      { intros k z. simpl. split.
        - intros [?|(i & Hi & -> & ?)]; [by left|]. right. right. split; [done|]. split; [done|].
          exists ls, i. split_and!; [done|done|lia|lia].
        - intros [?|[(_ & _ & _ & ?)|(_ & _ & ls' & j & [= <-] & ? & -> & ?)]]; [by left|done|].
          right. exists j. split_and!; [done|lia|lia]. }
      destruct (decide (length ls <= maspects p)) as [Hle|Hle].
      * cbn [obind]. assert (Hl1 : lay_in p1 (LTup ls)).
        { simpl. split; [lia|]. intros i z Hz. apply (eff_sl _ _ _ _ He1). right. exists i.
          apply lookup_lt_Some in Hz as ?. split_and!; [done|lia|lia]. }
        rewrite padd_to_layer_eq; [|done|done|by apply (eff_sl _ _ _ _ He1); left|done].
        destruct (pA p1 (LTup ls)) as [m|] eqn:Hm.
        -- destruct (pA_lay _ _ _ Hw1 Hm) as [_ Hff]. simpl in Hff. rewrite Ha1 in Hff.
           destruct (eff_add1 p1 (LTup ls) m x Hw1 Hm) as [He2 _].
           eexists. split; [by rewrite decide_True by lia|].
           eapply eff_iff; [eapply eff_trans; [exact He01|exact He2]| |].
           ++ intros k z. rewrite <- Hmen. tauto.
           ++ intros z t. rewrite Hf1. unfold joins. split.
              ** intros [?|[[?|?]|(_ & -> & ->)]]; [by left|done|done|]. right. done.
              ** intros [?|(_ & -> & [= <-] & _)]; [by left|]. right. right. done.
        -- assert (length ls <> maspects p).
           { intros Heq. destruct (lay_pA p1 (LTup ls) Hw1 Hl1) as [m Hm']; [simpl; lia|congruence]. }
           eexists. split; [by rewrite decide_False by done|].
           eapply eff_iff; [eapply eff_trans; [exact He01|apply eff_n2l_only; [done|done| |done|done]]| |].
           ++ apply (eff_sl _ _ _ _ He1). by left.
           ++ intros k z. rewrite <- Hmen. tauto.
           ++ intros z t. unfold joins. split.
              ** intros [?|[[?|?]|(-> & ->)]]; [by left|done|done|]. right. done.
              ** intros [?|(_ & -> & [= <-] & _)]; [by left|]. right. right. done.
      * cbn [obind]. exists p1. split; [done|]. eapply eff_iff; [exact He01| |].
        -- intros k z. by rewrite <- Hmen.
        -- intros z t. split; [tauto|]. intros [?|(_ & _ & [= <-] & _ & ?)]; [by left|lia].
    + exists p0. split; [done|]. eapply eff_iff; [done| |].
      * intros k z. simpl. split; [tauto|]. intros [?|[?|[(_ & _ & _ & ?)|(_ & ? & _)]]]; try done; try lia; tauto.
      * intros z t. split; [tauto|]. intros [?|(_ & _ & [= <-] & ? & _)]; [by left|lia].
Qed.
