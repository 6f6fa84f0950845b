(** * Multiplex: reading, iteration, degrees *)
From Verif Require Export MpxHist.

(** ** Coordinates *)
Lemma differ_at_0 x y a b : differ_at 0 (x :: a) (y :: b) <-> x <> y /\ a = b.
Proof.
  split.
  - intros (Hl & _ & H). split.
    + intros ->. by apply (proj1 (H 0)).
    + apply list_eq. intros k. by apply (proj2 (H (S k))).
  - intros [Hne ->]. split; [done|]. split; [simpl; lia|]. intros [|k]; simpl; [|done].
    split; [congruence|done].
Qed.
Lemma differ_at_S d x y a b : differ_at (S d) (x :: a) (y :: b) <-> x = y /\ differ_at d a b.
Proof.
  split.
  - intros (Hl & Hd & H). simpl in *. split.
    + assert (Some x = Some y) by by apply (proj2 (H 0)). congruence.
    + split; [lia|]. split; [lia|]. intros k. rewrite (H (S k)). lia.
  - intros [-> (Hl & Hd & H)]. split; [simpl; lia|]. split; [simpl; lia|]. intros [|k]; simpl; [done|].
    rewrite H. lia.
Qed.
Lemma differ_at_sym d a b : differ_at d a b <-> differ_at d b a.
Proof.
  assert (forall a b, differ_at d a b -> differ_at d b a) as H; [|split; apply H].
  intros x y (Hl & Hd & H). split; [done|]. split; [lia|]. intros k. rewrite <- H. done.
Qed.
Lemma differ_at_fun d d' a b : differ_at d a b -> differ_at d' a b -> d = d'.
Proof.
  intros (_ & _ & H) (_ & _ & H'). destruct (decide (d = d')) as [|Hne]; [done|].
  apply H' in Hne as Hk. by apply H in Hk.
Qed.
Lemma inter_aspects_single a b d : length a = length b -> inter_aspects a b = [d] <-> differ_at d a b.
Proof.
  revert b d. induction a as [|x a IH]; intros [|y b] d Hl; try done.
  { split; [done|]. intros (_ & Hd & _). simpl in Hd. lia. }
  injection Hl as Hl. rewrite inter_aspects_cons. destruct d as [|d].
  - rewrite differ_at_0, <- (inter_aspects_nil a b) by done. destruct (decide (x = y)) as [->|Hne]; simpl.
    + split; [|tauto]. destruct (inter_aspects a b); simpl; [done|]. by intros [= ?].
    + split; [intros [= Hn]; split; [done|by apply fmap_nil_inv in Hn]|]. by intros [_ ->].
  - rewrite differ_at_S, <- (IH b d) by done. destruct (decide (x = y)) as [->|Hne]; simpl.
    + split.
      * intros Hf. split; [done|]. destruct (inter_aspects a b) as [|d' [|]]; simpl in *; try done. by injection Hf as ->.
      * by intros [_ ->].
    + split; [|tauto]. done.
Qed.
Lemma differ_at_insert d a b : differ_at d a b <-> exists x y, a !! d = Some x /\ b = <[d := y]> a /\ x <> y.
Proof.
  split.
  - intros (Hl & Hd & H). destruct (lookup_lt_is_Some_2 a d Hd) as [x Hx]. destruct (lookup_lt_is_Some_2 b d) as [y Hy]; [lia|].
    exists x, y. split; [done|]. split.
    + apply list_eq. intros k. destruct (decide (k = d)) as [->|Hne].
      * rewrite list_lookup_insert by done. done.
      * rewrite list_lookup_insert_ne by done. symmetry. by apply H.
    + intros ->. by apply (proj1 (H d)); [congruence|].
  - intros (x & y & Hx & -> & Hne). apply lookup_lt_Some in Hx as Hd. split; [by rewrite insert_length|].
    split; [done|]. intros k. destruct (decide (k = d)) as [->|Hk].
    + rewrite list_lookup_insert by done. split; [congruence|done].
    + rewrite list_lookup_insert_ne by done. done.
Qed.

(** ** Reading *)
Lemma pgetitem_pair p item a b : names_link (maspects p) item a b -> pgetitem p item = pget_pair p a b.
Proof.
  intros Hn. destruct (names_link_inv _ _ _ _ Hn) as (Ha & Hb & Hi). unfold pgetitem, psetitem_link.
  assert (Hfin : pget_link p (interleave a b) = pget_pair p a b).
  { unfold pget_link. rewrite link_to_nodes_interleave by congruence. done. }
  destruct Hi as [[Hl ->]|[Hl Hs]].
  - rewrite decide_True by done. done.
  - destruct (decide (length item = 2 * S (maspects p))) as [Hl2|Hl2].
    + assert (item = interleave a b) as ->; [|done].
      destruct item as [|x [|y [|]]]; simpl in Hl, Hl2; try lia. by rewrite <- Hs.
    + rewrite decide_True by done. cbn [rbind]. rewrite Hs. done.
Qed.
Lemma mreads_pair p a b w : length a = S (maspects p) -> length b = S (maspects p) ->
  mreads p a b w <-> pget_pair p a b = Ok w.
Proof.
  intros Ha Hb. split.
  - intros (item & Hn & Hg). by rewrite (pgetitem_pair p item a b Hn) in Hg.
  - intros Hg. exists (interleave a b). pose proof (names_link_full _ a b Ha Hb) as Hn. split; [done|].
    by rewrite (pgetitem_pair p _ a b Hn).
Qed.
Lemma mraises_pair p a b e : length a = S (maspects p) -> length b = S (maspects p) ->
  mraises p a b e <-> pget_pair p a b = Err e.
Proof.
  intros Ha Hb. split.
  - intros (item & Hn & Hg). by rewrite (pgetitem_pair p item a b Hn) in Hg.
  - intros Hg. exists (interleave a b). pose proof (names_link_full _ a b Ha Hb) as Hn. split; [done|].
    by rewrite (pgetitem_pair p _ a b Hn).
Qed.
Lemma mreads_len p a b w : mreads p a b w -> length a = S (maspects p) /\ length b = S (maspects p).
Proof. intros (item & Hn & _). by destruct (names_link_inv _ _ _ _ Hn) as (? & ? & _). Qed.

Lemma pget_pair_none p a b : length a = length b -> (forall d, ~ differ_at d a b) -> pget_pair p a b = Ok (mnoe p).
Proof.
  intros Hl Hn. unfold pget_pair. destruct (inter_aspects a b) as [|d [|]] eqn:E; try done.
  apply inter_aspects_single in E; [|done]. by apply Hn in E.
Qed.
Lemma pget_pair_intra p a b : differ_at 0 a b ->
  pget_pair p a b = match pA p (lkey (maspects p) (tail a)) with
                    | Some m => Ok (get_link m [node_of a; node_of b]) | None => Ok (mnoe p) end.
Proof. intros Hd. unfold pget_pair. rewrite (proj2 (inter_aspects_single a b 0 (proj1 Hd)) Hd). done. Qed.
Definition cread (p : mpx) (d : nat) (a b : nl) : res Z :=
  match mcoup p !! (d - 1)%nat, a !! d, b !! d with
  | Some (CCat w), _, _ => Ok w
  | Some (COrd w), Some x, Some y => let? adj := adjacent x y in Ok (if adj then w else mnoe p)
  | Some (CNet m), Some x, Some y => Ok (get_link m [x; y])
  | Some (CNone _), _, _ => Err GenericException
  | _, _, _ => Err IndexError
  end.
Lemma pget_pair_coup p d a b : differ_at (S d) a b ->
  pget_pair p a b =
    if lin (node_of a) (mnodes p) then
      let? both :=
        if mfic p then Ok true
        else
          match pA p (lkey (maspects p) (tail a)) with
          | None => Err KeyError
          | Some m1 =>
            if lin (node_of a) (net_nodes m1) then
              match pA p (lkey (maspects p) (tail b)) with
              | None => Err KeyError
              | Some m2 => Ok (lin (node_of a) (net_nodes m2))
              end
            else Ok false
          end in
      if both then cread p (S d) a b else Ok (mnoe p)
    else Ok (mnoe p).
Proof. intros Hd. unfold pget_pair. rewrite (proj2 (inter_aspects_single a b (S d) (proj1 Hd)) Hd). done. Qed.

(** ** Existing node-layers *)
Lemma elem_of_mlayers p l : pwf p -> l ∈ mlayers p <-> lay_in p l /\ full_form (maspects p) l.
Proof.
  intros Hw. pose proof (pw_len p Hw) as Hlen. unfold mlayers. destruct (decide (1 < maspects p)) as [H1|H1].
  - rewrite elem_of_list_fmap. split.
    + intros (t & -> & Ht). apply elem_of_cart in Ht. pose proof (Forall2_length _ _ _ Ht) as Hl.
      rewrite drop_length in Hl. split; simpl.
      * split; [lia|]. intros i y Hi. destruct (Forall2_lookup_l _ _ _ _ _ Ht Hi) as (s & Hs & Hy).
        rewrite lookup_drop in Hs. by exists s.
      * lia.
    + intros [H2 H3]. destruct l as [y|ls]; simpl in *; [lia|]. exists ls. split; [done|].
      apply elem_of_cart. apply Forall2_same_length_lookup. split; [rewrite drop_length; lia|].
      intros i y s Hy Hs. rewrite lookup_drop in Hs. destruct H2 as [_ H2]. destruct (H2 i y Hy) as (s' & Hs' & ?).
      simpl in *. congruence.
  - destruct (decide (maspects p = 1)) as [H2|H2].
    + rewrite elem_of_list_fmap. destruct (mslices p !! 1) as [s|] eqn:E; [|apply lookup_ge_None in E; lia]. simpl. split.
      * intros (y & -> & Hy). simpl. split; [|done]. split; [done|]. by exists s.
      * intros [H3 H4]. destruct l as [y|ls]; simpl in *; [|lia]. destruct H3 as [_ (s' & Hs' & ?)].
        exists y. split; [done|]. congruence.
    + split; [by intros ?%elem_of_nil|]. intros [_ H3]. destruct l as [y|ls]; simpl in *; lia.
Qed.
Lemma rmapM_Ok_iff {A B} (f : A -> res B) (g : A -> B) l : (forall x, x ∈ l -> f x = Ok (g x)) -> rmapM f l = Ok (g <$> l).
Proof.
  induction l as [|x l IH]; intros H; [done|]. simpl. rewrite (H x) by left. rewrite IH; [done|].
  intros y Hy. apply H. by right.
Qed.
Lemma miter_node_layers_ok p : pwf p -> exists L, miter_node_layers p = Ok L /\
  forall a, a ∈ L <-> if mfic p then length a = S (maspects p) /\ (forall k x, a !! k = Some x -> psl p k x)
                      else exists x l, full_form (maspects p) l /\ a = nl_of x l /\ l ∈ mn2lv p x.
Proof.
  intros Hw. pose proof (pw_len p Hw) as Hlen. unfold miter_node_layers. destruct (mfic p) eqn:Hf.
  - eexists. split; [done|]. intros a. rewrite elem_of_cart, Forall2_same_length_lookup, Hlen. split.
    + intros [Hl H]. split; [done|]. intros k x Hx. destruct (lookup_lt_is_Some_2 (mslices p) k) as [s Hs].
      { apply lookup_lt_Some in Hx. lia. } exists s. split; [done|]. by eapply H.
    + intros [Hl H]. split; [done|]. intros k x s Hx Hs. destruct (H k x Hx) as (s' & Hs' & ?). congruence.
  - assert (Hl : forall l, l ∈ mlayers p -> exists m, dget (mA p) l = Some m).
    { intros l Hl. apply elem_of_mlayers in Hl as [H1 H2]; [|done]. 
      destruct (lay_pA p l Hw H1 H2) as [m Hm]. by apply pA_raw in Hm. }
    erewrite (rmapM_Ok_iff _ (fun l => (fun x => nl_of x l) <$> match dget (mA p) l with Some m => net_nodes m | None => [] end)).
    2:{ intros l Hl'. destruct (Hl l Hl') as [m Hm]. unfold miter_nodes, pA. rewrite Hf, Hm. done. }
    cbn [rbind]. eexists. split; [done|]. intros a. split.
    + intros Ha. apply elem_of_list_In, in_concat in Ha as (L & HL & Ha).
      apply elem_of_list_In in HL, Ha. apply elem_of_list_fmap in HL as (l & -> & Hl').
      apply elem_of_list_fmap in Ha as (x & -> & Hx). destruct (Hl l Hl') as [m Hm]. rewrite Hm in Hx.
      exists x, l. apply elem_of_mlayers in Hl' as [H1 H2]; [|done]. split; [done|]. split; [done|].
      by apply (pw_node p Hw Hf l m).
    + intros (x & l & H1 & -> & H2). apply elem_of_list_In, in_concat.
      destruct (pw_n2l p Hw x l H2) as [_ H3]. assert (l ∈ mlayers p) as Hl' by by apply elem_of_mlayers.
      eexists. split; [apply elem_of_list_In, elem_of_list_fmap; by exists l|].
      apply elem_of_list_In, elem_of_list_fmap. exists x. split; [done|]. destruct (Hl l Hl') as [m Hm]. rewrite Hm.
      by apply (pw_node p Hw Hf l m).
Qed.
Lemma mexists_iff p a : pwf p -> mexists p a <->
  if mfic p then length a = S (maspects p) /\ (forall k x, a !! k = Some x -> psl p k x)
  else exists x l, full_form (maspects p) l /\ a = nl_of x l /\ l ∈ mn2lv p x.
Proof.
  intros Hw. destruct (miter_node_layers_ok p Hw) as (L & HL & H). rewrite <- H. unfold mexists. split; [|eauto].
  intros (L' & HL' & Ha). congruence.
Qed.
(** Both kinds of networks: the coordinates of an existing node-layer exist. *)
Lemma mexists_psl p a : pwf p -> mexists p a ->
  length a = S (maspects p) /\ (forall k x, a !! k = Some x -> psl p k x) /\
  (1 <= maspects p -> exists m, pA p (lkey (maspects p) (tail a)) = Some m /\ node_of a ∈ net_nodes m) /\
  (mfic p = false -> 1 <= maspects p).
Proof.
  intros Hw Ha. pose proof Ha as Ha'. apply mexists_iff in Ha; [|done].
  assert (Hcore : length a = S (maspects p) /\ (forall k x, a !! k = Some x -> psl p k x) /\ (mfic p = false -> 1 <= maspects p)).
  { destruct (mfic p) eqn:Hf.
    - destruct Ha as [H1 H2]. split_and!; done.
    - destruct Ha as (x & l & Hl & -> & Hx). destruct (nl_of_form _ x l Hl) as (H1 & H2 & _ & _).
      destruct (pw_n2l p Hw x l Hx) as [H3 H4]. split_and!; [done| |done].
      intros k y Hk. destruct l as [z|ls]; simpl in *.
      + destruct k as [|[|k]]; simpl in Hk; [by injection Hk as <-|injection Hk as <-; apply H4|done].
      + destruct k as [|k]; simpl in Hk; [by injection Hk as <-|]. by apply H4. }
  destruct Hcore as (H1 & H2 & H3). split_and!; [done|done| |done]. intros H4.
  rewrite lkey_player by done. pose proof (player_form _ a H1 H4) as Hfo.
  destruct (lay_pA p (player_of (maspects p) a) Hw) as [m Hm]; [|done|].
  { destruct a as [|i a]; [done|]. destruct a as [|y [|z a]]; simpl in H1, Hfo |- *; [lia| |].
    - rewrite decide_True by lia. simpl. split; [lia|]. by apply (H2 1).
    - split; [lia|]. intros k x Hk. by apply (H2 (S k)). }
  exists m. split; [done|]. destruct (mfic p) eqn:Hf.
  - rewrite (pA_nodes_fic _ _ _ Hm Hf). apply mnodes_psl, H2. by destruct a.
  - destruct Ha as (x & l & Hl & -> & Hx). destruct (nl_of_form _ x l Hl) as (_ & _ & Hp & Hn). rewrite Hn, Hp in *.
    unfold pA in Hm. rewrite Hf in Hm. destruct (dget (mA p) l) as [m0|] eqn:E; [|done]. injection Hm as ->.
    by apply (pw_node p Hw Hf l m).
Qed.
Lemma mexists_nf p a : pwf p -> mfic p = false -> length a = S (maspects p) -> 1 <= maspects p ->
  mexists p a <-> player_of (maspects p) a ∈ mn2lv p (node_of a).
Proof.
  intros Hw Hf Ha H1. rewrite mexists_iff, Hf by done. split.
  - intros (x & l & Hl & -> & Hx). by destruct (nl_of_form _ x l Hl) as (_ & _ & -> & ->).
  - intros Hx. exists (node_of a), (player_of (maspects p) a). split; [by apply player_form|]. split; [|done].
    rewrite nl_of_player; [done|]. by destruct a.
Qed.

(** Reading between two node-layers of which both exist. *)
Lemma pget_pair_coup_ex p d a b : pwf p -> mexists p a -> mexists p b -> differ_at (S d) a b ->
  pget_pair p a b = cread p (S d) a b.
Proof.
  intros Hw Ha Hb Hd. rewrite (pget_pair_coup p d a b Hd).
  destruct (mexists_psl p a Hw Ha) as (Hla & Hpa & Hma & Hfa). destruct (mexists_psl p b Hw Hb) as (Hlb & Hpb & Hmb & Hfb).
  assert (node_of a = node_of b) as Hn.
  { destruct a as [|x a]; [done|]. destruct b as [|y b]; [done|]. by apply differ_at_S in Hd as [? _]. }
  assert (lin (node_of a) (mnodes p) = true) as Hin.
  { apply Base.lin_true, mnodes_psl, Hpa. by destruct a. }
  rewrite Hin. destruct (mfic p) eqn:Hf; [done|].
  destruct (Hma (Hfa eq_refl)) as (m1 & Hm1 & H1). destruct (Hmb (Hfb eq_refl)) as (m2 & Hm2 & H2).
  rewrite Hm1, (proj2 (Base.lin_true _ _) H1), Hm2. rewrite <- Hn in H2. rewrite (proj2 (Base.lin_true _ _) H2). done.
Qed.

(** ** Iteration, degree and strength, one dimension at a time *)
Definition dim_iter (p : mpx) (dr : direction) (a : nl) (d : nat) : res (list nl) :=
  if decide (d = 0)%nat then
    match pA p (lkey (maspects p) (tail a)) with
    | None => Err KeyError
    | Some m => Ok ((fun b => node_of b :: tail a) <$> dir_iter dr m [node_of a] None)
    end
  else iter_dim p a d.
Definition dim_deg (p : mpx) (dr : direction) (a : nl) (d : nat) : res Z :=
  if decide (d = 0)%nat then
    match pA p (lkey (maspects p) (tail a)) with
    | None => Err KeyError
    | Some m => Ok (dir_degree dr m [node_of a] None)
    end
  else dim_degree p a d dr.
Definition dim_str (p : mpx) (dr : direction) (a : nl) (d : nat) : res Z :=
  if decide (d = 0)%nat then
    match pA p (lkey (maspects p) (tail a)) with
    | None => Err KeyError
    | Some m => Ok (dir_strength dr m [node_of a] None)
    end
  else dim_strength p a d dr.

(** [str()] needs every coupling to carry a weight. *)
Definition weighted (c : coupling) : Prop :=
  match c with CCat _ | COrd _ | CNone (Some _) => True | _ => False end.
Record dim_good (p : mpx) (dr : direction) (a : nl) (d : nat) (L : list nl) : Prop := {
  dg_iter : dim_iter p dr a d = Ok L;
  dg_ex : lists_exactly L (fun b => differ_at d a b /\ mexists p b /\ mlinked_dir p dr a b);
  dg_deg : dr <> DTot -> dim_deg p dr a d = Ok (Z.of_nat (length L));
  dg_str : dr <> DTot -> Forall weighted (mcoup p) -> forall f, (forall b, b ∈ L -> mreads_dir p dr a b (f b)) ->
           dim_str p dr a d = Ok (zsumf f L);
}.

Lemma select_dims_spec p a ds : dims_of (maspects p) ds a -> length a = S (maspects p) ->
  NoDup (select_dims p a ds) /\
  forall d, d ∈ select_dims p a ds <-> d <= maspects p /\ match ds with None => True | Some l => l !! d = Some None end.
Proof.
  intros [Hd Hm] Ha. unfold select_dims. destruct ds as [l|].
  - assert (dims_match l a = true) as ->.
    { apply dims_match_spec; [congruence|done]. }
    split.
    + assert (forall o, NoDup (fst <$> filter (fun q : nat * option name => q.2 = None) (imap (fun i x => (i + o, x)) l)) /\
        forall d, d ∈ fst <$> filter (fun q : nat * option name => q.2 = None) (imap (fun i x => (i + o, x)) l) -> o <= d) as H.
      { clear. induction l as [|x l IH]; intros o; [split; [constructor|by intros d ?%elem_of_nil]|].
        assert (imap (fun i x => (i + o, x)) (x :: l) = (o, x) :: imap (fun i x => (i + S o, x)) l) as ->.
        { simpl. f_equal. apply imap_ext. intros. simpl. f_equal. lia. }
        destruct (IH (S o)) as [H1 H2]. rewrite filter_cons. cbn [snd]. destruct (decide (x = None)).
        - rewrite fmap_cons. cbn [fst]. split.
          + apply NoDup_cons. split; [|done]. intros Hi%H2. lia.
          + intros d Hi. apply elem_of_cons in Hi as [->|Hi%H2]; lia.
        - split; [done|]. intros d Hi%H2. lia. }
      destruct (H 0) as [H0 _]. replace (imap pair l) with (imap (fun i x => (i + 0, x)) l); [exact H0|].
      apply imap_ext. intros i x _. simpl. by rewrite Nat.add_0_r.
    + intros d. rewrite elem_of_list_fmap. split.
      * intros ([k o] & -> & Hq). apply elem_of_list_filter in Hq as [Ho Hq]. simpl in *. subst o.
        apply elem_of_imap_pair in Hq. cbn [fst snd] in Hq. apply lookup_lt_Some in Hq as Hlt. split; [lia|done].
      * intros [_ Hl]. exists (d, None). split; [done|]. apply elem_of_list_filter. split; [done|]. by apply elem_of_imap_pair.
  - split; [apply NoDup_seq|]. intros d. rewrite elem_of_seq. lia.
Qed.

Lemma lists_exactly_concat {A} (ds : list nat) (Ls : list (list A)) (P : nat -> A -> Prop) : NoDup ds ->
  Forall2 (fun d L => lists_exactly L (P d)) ds Ls -> (forall d d' x, P d x -> P d' x -> d = d') ->
  lists_exactly (concat Ls) (fun x => exists d, d ∈ ds /\ P d x).
Proof.
  intros Hnd HF Hdis. revert Hnd. induction HF as [|d L ds Ls [HN HL] HF IH]; intros Hnd.
  - split; [constructor|]. intros x. simpl. rewrite elem_of_nil. split; [done|]. intros (d & Hd & _). by apply elem_of_nil in Hd.
  - apply NoDup_cons in Hnd as [Hd Hnd]. destruct (IH Hnd) as [IHN IHL]. split.
    + simpl. apply NoDup_app. split_and!; [done| |done]. intros x Hx Hx'. apply HL in Hx. apply IHL in Hx' as (d' & Hd' & Hx').
      assert (d = d') as -> by eauto. done.
    + intros x. simpl. rewrite elem_of_app, HL, IHL. split.
      * intros [?|(d' & ? & ?)]; [exists d; split; [left|done]|exists d'; split; [by right|done]].
      * intros (d' & Hd' & ?). apply elem_of_cons in Hd' as [->|?]; [by left|right; eauto].
Qed.
Lemma rmapM_choice {A B} (f : A -> res B) (Q : A -> B -> Prop) l : (forall x, x ∈ l -> exists y, f x = Ok y /\ Q x y) ->
  exists ys, rmapM f l = Ok ys /\ Forall2 Q l ys.
Proof.
  induction l as [|x l IH]; intros H; [by exists []|].
  destruct (H x) as (y & Hy & Hq); [left|]. destruct IH as (ys & Hys & HF); [intros z Hz; apply H; by right|].
  exists (y :: ys). simpl. rewrite Hy, Hys. split; [done|by constructor].
Qed.
Lemma rmapM_Forall2 {A B} (f : A -> res B) l ys : Forall2 (fun x y => f x = Ok y) l ys -> rmapM f l = Ok ys.
Proof. induction 1 as [|x y l ys H HF IH]; [done|]. simpl. by rewrite H, IH. Qed.

Lemma mlinked_differ p a b : mlinked p a b -> length a = S (maspects p) -> exists d, d <= maspects p /\ differ_at d a b.
Proof.
  intros (w & Hr & Hne) Ha. destruct (mreads_len _ _ _ _ Hr) as [_ Hb]. apply mreads_pair in Hr; [|done..].
  unfold pget_pair in Hr. destruct (inter_aspects a b) as [|d [|]] eqn:E; try congruence.
  apply inter_aspects_single in E; [|congruence]. exists d. split; [|done]. destruct E as (_ & Hd & _). lia.
Qed.
Lemma mlinked_dir_differ p dr a b : mlinked_dir p dr a b -> length a = S (maspects p) -> length b = S (maspects p) ->
  exists d, d <= maspects p /\ differ_at d a b.
Proof.
  intros H Ha Hb. assert (forall a b, mlinked p a b -> length a = S (maspects p) -> exists d, d <= maspects p /\ differ_at d a b) as Hl.
  { intros. by apply mlinked_differ. }
  destruct dr; simpl in H; [destruct H as [H|H]| |]; try (by apply Hl);
    destruct (Hl _ _ H Hb) as (d & Hd & Hx); exists d; (split; [done|]); by apply differ_at_sym.
Qed.

Lemma dims_good p dr a ds : pwf p -> mexists p a -> dims_of (maspects p) ds a ->
  (forall d, d <= maspects p -> exists L, dim_good p dr a d L) ->
  exists L, piter p dr a ds = Ok L /\
    lists_exactly L (fun b => mexists p b /\ mlinked_dir p dr a b /\ matches ds b) /\
    (dr <> DTot -> pdegree p dr a ds = Ok (Z.of_nat (length L))) /\
    (dr <> DTot -> Forall weighted (mcoup p) -> forall f, (forall b, b ∈ L -> mreads_dir p dr a b (f b)) ->
       pstrength p dr a ds = Ok (zsumf f L)).
Proof.
  intros Hw Hex Hds Hg. destruct (mexists_psl p a Hw Hex) as (Ha & _).
  destruct (select_dims_spec p a ds Hds Ha) as [Hnd Hsel].
  destruct (rmapM_choice (dim_iter p dr a) (fun d L => dim_good p dr a d L) (select_dims p a ds)) as (Ls & HLs & HF).
  { intros d Hd. destruct (Hg d) as [L HL]; [by apply Hsel|]. exists L. split; [apply HL|done]. }
  exists (concat Ls). split; [|split; [|split]].
  - unfold piter. fold (dim_iter p dr a). rewrite HLs. done.
  - eapply lists_exactly_iff; [|apply (lists_exactly_concat (select_dims p a ds) Ls
      (fun d b => differ_at d a b /\ mexists p b /\ mlinked_dir p dr a b) Hnd)].
    + intros b. simpl. split.
      * intros (d & Hd & Hdi & Hb & Hl). split; [done|]. split; [done|]. apply Hsel in Hd as [Hd1 Hd2].
        destruct Hds as [Hd3 Hd4]. destruct ds as [l|]; simpl in *; [|done].
        intros k x Hk. specialize (Hd4 k x Hk). assert (k <> d) by congruence. apply Hdi in H. congruence.
      * intros (Hb & Hl & Hm). destruct (mexists_psl p b Hw Hb) as (Hlb & _).
        destruct (mlinked_dir_differ p dr a b Hl Ha Hlb) as (d & Hd & Hdi). exists d. split; [|done].
        apply Hsel. split; [done|]. destruct Hds as [Hd3 Hd4]. destruct ds as [l|]; simpl in *; [|done].
        destruct (lookup_lt_is_Some_2 l d) as [[x|] Hx]; [lia| |done]. exfalso.
        pose proof (Hm d x Hx) as H1. pose proof (Hd4 d x Hx) as H2.
        assert (a !! d = b !! d) as H3 by congruence. by apply Hdi in H3.
    + eapply Forall2_impl; [exact HF|]. intros d L HL. apply HL.
    + intros d d' b [H1 _] [H2 _]. by eapply differ_at_fun.
  - intros Hdr. unfold pdegree. fold (dim_deg p dr a).
    assert (Forall2 (fun d k => dim_deg p dr a d = Ok k) (select_dims p a ds) ((fun L : list nl => Z.of_nat (length L)) <$> Ls)) as HF'.
    { apply Forall2_fmap_r. eapply Forall2_impl; [exact HF|]. intros d L HL. by apply (dg_deg _ _ _ _ _ HL). }
    rewrite (rmapM_Forall2 _ _ _ HF'). cbn [rbind]. f_equal. clear. induction Ls as [|L Ls IH]; [done|].
    rewrite fmap_cons, zsum_cons, IH. simpl. rewrite app_length. lia.
  - intros Hdr Hwt f Hf. unfold pstrength. fold (dim_str p dr a).
    assert (Forall2 (fun d k => dim_str p dr a d = Ok k) (select_dims p a ds) ((fun L : list nl => zsumf f L) <$> Ls)) as HF'.
    { apply Forall2_fmap_r. apply Forall2_same_length_lookup. split; [by eapply Forall2_length|].
      intros i d L Hd HL. pose proof (Forall2_lookup_lr _ _ _ _ _ _ HF Hd HL) as Hgd.
      apply (dg_str _ _ _ _ _ Hgd Hdr Hwt). intros b Hb. apply Hf. apply elem_of_list_In, in_concat.
      exists L. split; [|by apply elem_of_list_In]. apply elem_of_list_In. by eapply elem_of_list_lookup_2. }
    rewrite (rmapM_Forall2 _ _ _ HF'). cbn [rbind]. f_equal. clear. induction Ls as [|L Ls IH]; [done|].
    rewrite fmap_cons, zsum_cons, IH. simpl. by rewrite zsumf_app.
Qed.

Lemma mexists_node p x y t m : pwf p -> 1 <= maspects p -> mexists p (x :: t) ->
  pA p (lkey (maspects p) t) = Some m -> mexists p (y :: t) <-> y ∈ net_nodes m.
Proof.
  intros Hw H1 Hx Hm. destruct (mexists_psl p _ Hw Hx) as (Hl & Hp & _).
  assert (length (y :: t) = S (maspects p)) as Hly by done.
  assert (lkey (maspects p) t = player_of (maspects p) (y :: t)) as Hk. { by rewrite <- (lkey_player _ (y :: t)). }
  split.
  - intros Hy. destruct (mexists_psl p _ Hw Hy) as (_ & _ & Hy' & _). destruct (Hy' H1) as (m' & Hm' & Hin).
    simpl in Hm'. rewrite Hm in Hm'. by injection Hm' as <-.
  - intros Hy. destruct (mfic p) eqn:Hf.
    + apply mexists_iff; [done|]. rewrite Hf. split; [done|]. intros k z Hz. destruct k as [|k]; simpl in Hz.
      * injection Hz as <-. apply mnodes_psl. by rewrite <- (pA_nodes_fic _ _ _ Hm Hf).
      * by apply (Hp (S k)).
    + apply mexists_nf; [done..|]. rewrite <- Hk. change (node_of (y :: t)) with y.
      unfold pA in Hm. rewrite Hf in Hm. destruct (dget (mA p) (lkey (maspects p) t)) as [m0|] eqn:E; [|done].
      injection Hm as ->. by apply (pw_node p Hw Hf _ m).
Qed.

Lemma intra_linked p x y t m : mnoe p = 0%Z -> length (x :: t) = S (maspects p) -> good m -> aspects m = 0 -> noEdge m = 0%Z ->
  pA p (lkey (maspects p) t) = Some m -> x <> y -> mlinked p (x :: t) (y :: t) <-> linked m [x] [y].
Proof.
  intros Hno Hl Hg Hasp Hn Hm Hne. assert (differ_at 0 (x :: t) (y :: t)) as Hd by by apply differ_at_0.
  rewrite linked_lnk by done. unfold mlinked. setoid_rewrite (mreads_pair p (x :: t) (y :: t) _ Hl Hl).
  rewrite (pget_pair_intra _ _ _ Hd). simpl tail. rewrite Hm. change (node_of (x :: t)) with x. change (node_of (y :: t)) with y.
  change (get_link m [x; y]) with (weight m [x] [y]). rewrite weight_rd by done. rewrite Hno. rewrite <- Hn. split.
  - intros (w & [= <-] & Hw). by apply rd_noEdge in Hw.
  - intros Hs. exists (rd m [x] [y]). split; [done|]. by apply rd_noEdge.
Qed.
Lemma intra_reads p x y t m w : length (x :: t) = S (maspects p) -> aspects m = 0 ->
  pA p (lkey (maspects p) t) = Some m -> x <> y -> mreads p (x :: t) (y :: t) w <-> reads m [x] [y] w.
Proof.
  intros Hl Hasp Hm Hne. assert (differ_at 0 (x :: t) (y :: t)) as Hd by by apply differ_at_0.
  rewrite (mreads_pair p (x :: t) (y :: t) _ Hl Hl), reads_rd by (simpl; congruence).
  rewrite (pget_pair_intra _ _ _ Hd). simpl tail. rewrite Hm. change (node_of (x :: t)) with x. change (node_of (y :: t)) with y.
  change (get_link m [x; y]) with (weight m [x] [y]). rewrite weight_rd by done. split; congruence.
Qed.

Definition dlinked (m : mlnet) (dr : direction) (a b : nl) : Prop :=
  match dr with DOut => linked m a b | DIn => linked m b a | DTot => linked m a b \/ linked m b a end.
Lemma dir_iter_exact m dr a : good m -> lists_exactly (dir_iter dr m a None) (dlinked m dr a).
Proof.
  intros Hg. destruct dr; simpl.
  - eapply lists_exactly_iff; [|by apply (iter_total_exact m a None Hg I)]. intros b. simpl. tauto.
  - eapply lists_exactly_iff; [|by apply (iter_in_exact m a None Hg I)]. intros b. simpl. tauto.
  - eapply lists_exactly_iff; [|by apply (iter_out_exact m a None Hg I)]. intros b. simpl. tauto.
Qed.

Lemma dim_good_intra p dr a m : pwf p -> mexists p a -> 1 <= maspects p -> mnoe p = 0%Z ->
  pA p (lkey (maspects p) (tail a)) = Some m -> good m -> aspects m = 0 -> noEdge m = 0%Z ->
  ~ linked m [node_of a] [node_of a] -> exists L, dim_good p dr a 0 L.
Proof.
  intros Hw Ha H1 Hno Hm Hg Hasp Hn Hself. destruct (mexists_psl p a Hw Ha) as (Hl & Hp & _).
  destruct a as [|x t]; [done|]. simpl in Hm. change (node_of (x :: t)) with x in *.
  pose proof (dir_iter_exact m dr [x] Hg) as [Hnd Hit].
  assert (Hlen : forall b, b ∈ dir_iter dr m [x] None -> exists y, b = [y] /\ y <> x).
  { intros b Hb. apply Hit in Hb as Hb'.
    assert (length b = 1) as Hlb. { destruct dr; simpl in Hb'; [destruct Hb' as [H|H]| |]; destruct H + destruct Hb'; naive_solver congruence. }
    destruct b as [|y [|]]; try done. exists y. split; [done|]. intros ->. apply Hself.
    destruct dr; simpl in Hb'; tauto. }
  assert (Hml : forall y, x <> y -> mlinked_dir p dr (x :: t) (y :: t) <-> dlinked m dr [x] [y]).
  { intros y Hne. pose proof (intra_linked p x y t m Hno Hl Hg Hasp Hn Hm Hne) as I1.
    assert (length (y :: t) = S (maspects p)) as Hl' by done.
    pose proof (intra_linked p y x t m Hno Hl' Hg Hasp Hn Hm ltac:(congruence)) as I2.
    destruct dr; simpl; rewrite ?I1, ?I2; done. }
  exists ((fun b => node_of b :: t) <$> dir_iter dr m [x] None). split.
  - unfold dim_iter. simpl. rewrite Hm. done.
  - split.
    + apply NoDup_fmap_2_strong; [|done]. intros b1 b2 Hb1 Hb2 [= He].
      destruct (Hlen b1 Hb1) as (y1 & -> & _), (Hlen b2 Hb2) as (y2 & -> & _). unfold node_of in He. simpl in He. by rewrite He.
    + intros b. rewrite elem_of_list_fmap. split.
      * intros (c & -> & Hc). destruct (Hlen c Hc) as (y & -> & Hne). change (node_of [y]) with y.
        split; [by apply differ_at_0|]. apply Hit in Hc. split; [|by apply Hml].
        apply (mexists_node p x y t m Hw H1 Ha Hm).
        assert (present m [y]) as Hpr.
        { assert (forall u v, linked m u v -> present m u /\ present m v) as Hlp.
          { intros u v Huv. apply linked_lnk in Huv as [w Huv]; [|done]. by apply (wfL_present m (proj2 Hg)) in Huv. }
          destruct dr; simpl in Hc; [destruct Hc as [Hc|Hc]| |]; apply Hlp in Hc; tauto. }
        apply elem_of_iter_node_layers in Hpr as [Hpr _]; [|apply Hg]. apply nl_in_slices_sl in Hpr as [_ Hpr].
        apply net_nodes_sl. by apply (Hpr 0).
      * intros (Hd & Hb & Hlk). destruct b as [|y b]; [by destruct Hd|]. apply differ_at_0 in Hd as [Hne <-].
        exists [y]. split; [done|]. apply Hit. by apply Hml.
  - intros Hdr. unfold dim_deg. simpl. rewrite Hm. f_equal. rewrite fmap_length.
    change (node_of (x :: t)) with x.
    destruct dr; [done| |]; simpl.
    + apply (degree_in_exact m [x] None _ Hg I). apply (iter_in_exact m [x] None Hg I).
    + apply (degree_out_exact m [x] None _ Hg I). apply (iter_out_exact m [x] None Hg I).
  - intros Hdr _ f Hf. unfold dim_str. simpl. rewrite Hm. f_equal. rewrite zsumf_fmap. change (node_of (x :: t)) with x.
    assert (Hf' : forall b, b ∈ dir_iter dr m [x] None -> exists y, b = [y] /\ y <> x /\ mreads_dir p dr (x :: t) (y :: t) (f (y :: t))).
    { intros b Hb. destruct (Hlen b Hb) as (y & -> & Hne). exists y. split; [done|]. split; [done|]. apply Hf.
      apply elem_of_list_fmap. by exists [y]. }
    destruct dr; [done| |]; simpl in *.
    + apply (strength_in_exact m [x] None _ _ Hg I); [apply (iter_in_exact m [x] None Hg I)|].
      intros b Hb. destruct (Hf' b Hb) as (y & -> & Hne & Hr). change (node_of [y]) with y.
      assert (length (y :: t) = S (maspects p)) as Hl' by done. by apply (intra_reads p y x t m _ Hl').
    + apply (strength_out_exact m [x] None _ _ Hg I); [apply (iter_out_exact m [x] None Hg I)|].
      intros b Hb. destruct (Hf' b Hb) as (y & -> & Hne & Hr). change (node_of [y]) with y.
      by apply (intra_reads p x y t m _ Hl).
Qed.

(** ** Couplings *)
Definition no_net (c : coupling) : Prop := match c with CNet _ => False | _ => True end.
Lemma adjacent_sym x y : adjacent x y = adjacent y x.
Proof.
  destruct x as [z|s], y as [z'|s']; try done. simpl. f_equal.
  do 2 case_bool_decide; do 2 (try case_bool_decide); try done; lia.
Qed.
Lemma cread_sym p d a b : length a = length b -> (forall c, mcoup p !! (d - 1) = Some c -> no_net c) -> cread p d a b = cread p d b a.
Proof.
  intros Hl Hc. unfold cread. destruct (mcoup p !! (d - 1)) as [[w|w|o|m]|] eqn:E.
  - done.
  - destruct (a !! d) as [x|] eqn:Ea.
    + destruct (lookup_lt_is_Some_2 b d) as [y Hy]; [apply lookup_lt_Some in Ea; lia|]. rewrite Hy. by rewrite adjacent_sym.
    + assert (b !! d = None) as ->; [|done]. apply lookup_ge_None. apply lookup_ge_None in Ea. lia.
  - done.
  - by specialize (Hc _ eq_refl).
  - done.
Qed.
Lemma coup_reads p dr d a b w : pwf p -> mexists p a -> mexists p b -> differ_at (S d) a b ->
  (forall c, mcoup p !! d = Some c -> no_net c) -> mreads_dir p dr a b w <-> cread p (S d) a b = Ok w.
Proof.
  intros Hw Ha Hb Hd Hc. destruct (mexists_psl p a Hw Ha) as (Hla & _). destruct (mexists_psl p b Hw Hb) as (Hlb & _).
  assert (mreads p a b w <-> cread p (S d) a b = Ok w) as I1.
  { rewrite mreads_pair by done. by rewrite (pget_pair_coup_ex p d a b). }
  assert (mreads p b a w <-> cread p (S d) a b = Ok w) as I2.
  { rewrite mreads_pair by done. rewrite (pget_pair_coup_ex p d b a); [|done..|by apply differ_at_sym].
    rewrite cread_sym; [done|congruence|]. simpl. by rewrite Nat.sub_0_r. }
  by destruct dr.
Qed.
Lemma coup_linked p dr d a b : pwf p -> mexists p a -> mexists p b -> differ_at (S d) a b ->
  (forall c, mcoup p !! d = Some c -> no_net c) ->
  mlinked_dir p dr a b <-> exists w, cread p (S d) a b = Ok w /\ w <> mnoe p.
Proof.
  intros Hw Ha Hb Hd Hc. pose proof (fun w dr => coup_reads p dr d a b w Hw Ha Hb Hd Hc) as Hr.
  assert (mlinked p a b <-> exists w, cread p (S d) a b = Ok w /\ w <> mnoe p) as I1.
  { unfold mlinked. split; intros (w & Hx & Hne); exists w; (split; [|done]); by apply (Hr w DOut). }
  assert (mlinked p b a <-> exists w, cread p (S d) a b = Ok w /\ w <> mnoe p) as I2.
  { unfold mlinked. split; intros (w & Hx & Hne); exists w; (split; [|done]); by apply (Hr w DIn). }
  destruct dr; simpl; rewrite ?I1, ?I2; tauto.
Qed.

Definition coup_ok (p : mpx) (a : nl) (d : nat) : Prop :=
  match mcoup p !! d with
  | Some (CCat w) => w <> 0%Z
  | Some (COrd w) => w <> 0%Z /\ exists z, a !! S d = Some (NInt z)
  | Some (CNone _) => True
  | _ => False
  end.
Lemma mexists_insert_fic p a d y : pwf p -> mfic p = true -> mexists p a -> S d <= maspects p ->
  mexists p (<[S d := y]> a) <-> psl p (S d) y.
Proof.
  intros Hw Hf Ha Hd. rewrite !mexists_iff, Hf in * by done. destruct Ha as [Hl Ha]. split.
  - intros [_ H]. apply H. apply list_lookup_insert. lia.
  - intros Hy. split; [by rewrite insert_length|]. intros k x Hk. destruct (decide (k = S d)) as [->|Hne].
    + rewrite list_lookup_insert in Hk by lia. by injection Hk as <-.
    + rewrite list_lookup_insert_ne in Hk by done. by apply Ha.
Qed.
Lemma filter_neq_length (x : name) s : NoDup s -> x ∈ s -> Z.of_nat (length (filter (fun y => y <> x) s)) = (Z.of_nat (length s) - 1)%Z.
Proof.
  induction s as [|y s IH]; intros Hnd Hx; [by apply elem_of_nil in Hx|]. apply NoDup_cons in Hnd as [Hy Hnd].
  rewrite filter_cons. destruct (decide (y <> x)) as [Hne|He].
  - apply elem_of_cons in Hx as [->|Hx]; [done|]. cbn [length]. specialize (IH Hnd Hx). lia.
  - apply dec_stable in He as ->. assert (filter (fun y => y <> x) s = s) as ->; [|cbn [length]; lia].
    clear -Hy. induction s as [|z s IH]; [done|]. apply not_elem_of_cons in Hy as [Hz Hy].
    rewrite filter_cons, decide_True by done. f_equal. by apply IH.
Qed.

Lemma dim_good_coup_fic p dr a d : pwf p -> mfic p = true -> mexists p a -> mnoe p = 0%Z -> S d <= maspects p ->
  coup_ok p a d -> exists L, dim_good p dr a (S d) L.
Proof.
  intros Hw Hf Ha Hno Hd Hok. destruct (mexists_psl p a Hw Ha) as (Hl & Hp & _).
  destruct (lookup_lt_is_Some_2 a (S d)) as [x Hx]; [lia|].
  destruct (lookup_lt_is_Some_2 (mslices p) (S d)) as [s Hs]; [rewrite (pw_len p Hw); lia|].
  assert (x ∈ s) as Hxs. { destruct (Hp _ _ Hx) as (s' & Hs' & ?). congruence. }
  assert (NoDup s) as Hnd. { pose proof (pw_nd p Hw) as H. rewrite Forall_lookup in H. by apply (H (S d)). }
  assert (Hmem : forall y, mexists p (<[S d := y]> a) <-> y ∈ s).
  { intros y. rewrite mexists_insert_fic by done. split; [|by exists s]. intros (s' & Hs' & ?). congruence. }
  assert (Hnn : forall c, mcoup p !! d = Some c -> no_net c).
  { intros c Hc. unfold coup_ok in Hok. rewrite Hc in Hok. by destruct c. }
  assert (Hiff : forall b, (differ_at (S d) a b /\ mexists p b /\ mlinked_dir p dr a b) <->
    exists y, b = <[S d := y]> a /\ y <> x /\ y ∈ s /\ exists w, cread p (S d) a b = Ok w /\ w <> 0%Z).
  { intros b. split.
    - intros (H1 & H2 & H3). apply (proj1 (coup_linked p dr d a b Hw Ha H2 H1 Hnn)) in H3. 
      apply differ_at_insert in H1 as (x' & y & Hx' & -> & Hne). exists y. split; [done|]. split; [congruence|].
      split; [by apply Hmem|]. by rewrite Hno in H3.
    - intros (y & -> & H1 & H2 & H3). assert (differ_at (S d) a (<[S d := y]> a)) as H4.
      { apply differ_at_insert. exists x, y. done. }
      apply Hmem in H2. split; [done|]. split; [done|]. apply (coup_linked p dr d _ _ Hw Ha H2 H4 Hnn). by rewrite Hno. }
  assert (Hins : forall y, (<[S d := y]> a : nl) !! S d = Some y). { intros y. apply list_lookup_insert. lia. }
  assert (Hinj : forall y y', (<[S d := y]> a : nl) = <[S d := y']> a -> y = y').
  { intros y y' He. pose proof (Hins y) as H1. rewrite He, Hins in H1. congruence. }
  assert (Hrd : forall f (L : list nl), (forall b, b ∈ L -> mreads_dir p dr a b (f b)) ->
      (forall b, b ∈ L -> differ_at (S d) a b /\ mexists p b /\ mlinked_dir p dr a b) ->
      forall b, b ∈ L -> cread p (S d) a b = Ok (f b)).
  { intros f L Hfr HL b Hb. destruct (HL b Hb) as (H1 & H2 & _).
    by apply (proj1 (coup_reads p dr d a b (f b) Hw Ha H2 H1 Hnn)), Hfr. }
  unfold coup_ok in Hok. destruct (mcoup p !! d) as [[w|w|o|m]|] eqn:Hc; try done.
  - exists (replace_at a (S d) <$> filter (fun y => y <> x) s).
    assert (Hle : lists_exactly (replace_at a (S d) <$> filter (fun y => y <> x) s)
        (fun b => differ_at (S d) a b /\ mexists p b /\ mlinked_dir p dr a b)).
    { split.
      - apply NoDup_fmap_2_strong; [|by apply NoDup_filter]. intros y y' _ _. apply Hinj.
      - intros b. rewrite Hiff, elem_of_list_fmap. split.
        + intros (y & -> & Hy). apply elem_of_list_filter in Hy as [Hy1 Hy2]. exists y. split_and!; [done|done|done|].
          exists w. split; [|done]. unfold cread. simpl. rewrite Nat.sub_0_r, Hc. done.
        + intros (y & -> & H1 & H2 & _). exists y. split; [done|]. by apply elem_of_list_filter. }
    split.
    + unfold dim_iter. simpl. unfold iter_dim. simpl. rewrite Nat.sub_0_r, Hc, Hx, Hs, Hf. done.
    + done.
    + intros _. unfold dim_deg. simpl. unfold dim_degree. simpl. rewrite Nat.sub_0_r, Hc, Hx, Hs, Hf.
      rewrite fmap_length. by rewrite filter_neq_length.
    + intros _ _ f Hfr. unfold dim_str. simpl. unfold dim_strength. simpl. rewrite Nat.sub_0_r, Hc.
      unfold dim_degree. simpl. rewrite Nat.sub_0_r, Hc, Hx, Hs, Hf. cbn [rbind]. f_equal.
      rewrite (zsumf_ext f (fun _ => w)).
      * rewrite zsumf_const, fmap_length, filter_neq_length by done. lia.
      * intros b Hb. assert (cread p (S d) a b = Ok (f b)) as Hr. { apply (Hrd f _ Hfr); [|done]. intros b' Hb'. by apply Hle. }
        unfold cread in Hr. simpl in Hr. rewrite Nat.sub_0_r, Hc in Hr. congruence.
  - destruct Hok as [Hw0 [z Hz]]. rewrite Hx in Hz. injection Hz as ->.
    set (L := (if lin (NInt (z + 1)) s then [replace_at a (S d) (NInt (z + 1))] else [])
              ++ (if lin (NInt (z + -1)) s then [replace_at a (S d) (NInt (z + -1))] else [])).
    assert (HL : forall b, b ∈ L <-> exists y, b = <[S d := y]> a /\ y ∈ s /\ (y = NInt (z + 1) \/ y = NInt (z - 1))).
    { intros b. unfold L. rewrite elem_of_app. split.
      - intros [Hb|Hb].
        + destruct (lin (NInt (z + 1)) s) eqn:E; [|by apply elem_of_nil in Hb]. apply Base.lin_true in E.
          apply elem_of_list_singleton in Hb as ->. eexists. split; [done|]. auto.
        + destruct (lin (NInt (z + -1)) s) eqn:E; [|by apply elem_of_nil in Hb]. apply Base.lin_true in E.
          apply elem_of_list_singleton in Hb as ->. eexists. split; [done|]. auto.
      - intros (y & -> & Hy & [->| ->]).
        + left. rewrite (proj2 (Base.lin_true _ _) Hy). by left.
        + right. change (z - 1)%Z with (z + -1)%Z in *. rewrite (proj2 (Base.lin_true _ _) Hy). by left. }
    assert (Hcr : forall y, cread p (S d) a (<[S d := y]> a) =
        match y with NInt z' => Ok (if bool_decide (z + 1 = z')%Z || bool_decide (z = z' + 1)%Z then w else 0%Z) | NStr _ => Err TypeError end).
    { intros y. unfold cread. simpl. rewrite Nat.sub_0_r, Hc, Hx, Hins, Hno. by destruct y. }
    assert (Hadj : forall y v, cread p (S d) a (<[S d := y]> a) = Ok v -> v <> 0%Z -> (y = NInt (z + 1) \/ y = NInt (z - 1)) /\ v = w).
    { intros y v. rewrite Hcr. destruct y as [z'|]; [|done]. intros [= <-].
      case_bool_decide; simpl; [intros _; split; [left; congruence|done]|]. case_bool_decide; simpl; [|done].
      intros _. split; [right; f_equal; lia|done]. }
    assert (Hadj2 : forall y, (y = NInt (z + 1) \/ y = NInt (z - 1)) -> cread p (S d) a (<[S d := y]> a) = Ok w).
    { intros y Hy. rewrite Hcr. destruct Hy as [->| ->].
      - rewrite bool_decide_eq_true_2 by done. done.
      - rewrite (bool_decide_eq_true_2 (z = z - 1 + 1)%Z) by lia. by rewrite orb_true_r. }
    exists L.
    assert (Hle : lists_exactly L (fun b => differ_at (S d) a b /\ mexists p b /\ mlinked_dir p dr a b)).
    { split.
      - unfold L. destruct (lin (NInt (z + 1)) s), (lin (NInt (z + -1)) s); simpl; try apply NoDup_singleton; try constructor.
        + rewrite elem_of_list_singleton. intros He%Hinj. injection He. lia.
        + apply NoDup_singleton.
      - intros b. rewrite HL, Hiff. split.
        + intros (y & -> & Hy & Hc'). exists y. split; [done|]. split; [|split; [done|]].
          * destruct Hc' as [->| ->]; intros [=]; lia.
          * exists w. split; [by apply Hadj2|done].
        + intros (y & -> & H1 & H2 & v & Hv & Hne). exists y. split; [done|]. split; [done|]. by apply Hadj in Hv as [? _]. }
    split.
    + unfold dim_iter. simpl. unfold iter_dim. simpl. rewrite Nat.sub_0_r, Hc, Hx, Hs, Hf. done.
    + done.
    + intros _. unfold dim_deg. simpl. unfold dim_degree. simpl. rewrite Nat.sub_0_r, Hc, Hx, Hs, Hf. simpl. f_equal.
      unfold L. by destruct (lin (NInt (z + 1)) s), (lin (NInt (z + -1)) s).
    + intros _ _ f Hfr. unfold dim_str. simpl. unfold dim_strength. simpl. rewrite Nat.sub_0_r, Hc.
      unfold dim_degree. simpl. rewrite Nat.sub_0_r, Hc, Hx, Hs, Hf. cbn [rbind Mpx.shift]. f_equal.
      rewrite (zsumf_ext f (fun _ => w)).
      * rewrite zsumf_const. unfold L, zb. destruct (lin (NInt (z + 1)) s), (lin (NInt (z + -1)) s); cbn [app length]; lia.
      * intros b Hb. assert (cread p (S d) a b = Ok (f b)) as Hr. { apply (Hrd f L Hfr); [|done]. intros b' Hb'. by apply Hle. }
        apply HL in Hb as (y & -> & _ & Hy). apply Hadj2 in Hy. congruence.
  - exists []. split.
    + unfold dim_iter. simpl. unfold iter_dim. simpl. rewrite Nat.sub_0_r, Hc. done.
    + split; [constructor|]. intros b. rewrite Hiff, elem_of_nil. split; [done|]. intros (y & -> & _ & _ & v & Hv & _).
      unfold cread in Hv. simpl in Hv. rewrite Nat.sub_0_r, Hc in Hv. done.
    + intros _. unfold dim_deg. simpl. unfold dim_degree. simpl. rewrite Nat.sub_0_r, Hc. done.
    + intros _ Hwt f _. rewrite Forall_lookup in Hwt. specialize (Hwt d _ Hc). destruct o as [w|]; [|done].
      unfold dim_str. simpl. unfold dim_strength. simpl. rewrite Nat.sub_0_r, Hc.
      unfold dim_degree. simpl. rewrite Nat.sub_0_r, Hc. done.
Qed.

(** One categorically coupled aspect, not fully interconnected. *)
Lemma dim_good_cat_nf p dr a w : pwf p -> mfic p = false -> mexists p a -> mnoe p = 0%Z ->
  mcoup p = [CCat w] -> w <> 0%Z -> exists L, dim_good p dr a 1 L.
Proof.
  intros Hw Hf Ha Hno Hc Hw0. assert (maspects p = 1) as Has by (unfold maspects; by rewrite Hc).
  destruct (mexists_psl p a Hw Ha) as (Hl & Hp & Hm & _). rewrite Has in *.
  destruct a as [|x [|s [|]]]; simpl in Hl; try lia. destruct (Hm ltac:(lia)) as (m & HA & Hin).
  change (lkey 1 (tail [x; s])) with (LBare s) in *. change (node_of [x; s]) with x in *.
  assert (LBare s ∈ mn2lv p x) as Hsx. { apply (mexists_nf p [x; s] Hw Hf) in Ha; [|simpl; lia..]. by rewrite Has in Ha. }
  assert (exists ls, dget (mn2l p) x = Some ls /\ mn2lv p x = ls) as (ls & Hls & Hlsv).
  { unfold mn2lv in *. destruct (dget (mn2l p) x) as [ls|]; [|by apply elem_of_nil in Hsx]. by exists ls. }
  assert (Hbare : forall l, l ∈ ls -> exists r, l = LBare r).
  { intros l Hl'. rewrite <- Hlsv in Hl'. apply (pw_n2l p Hw) in Hl' as [_ Hl']. destruct l as [r|]; [by exists r|].
    simpl in Hl'. lia. }
  assert (Hcr : forall b, cread p 1 [x; s] b = Ok w). { intros b. unfold cread. simpl. by rewrite Hc. }
  assert (Hnn : forall c, mcoup p !! 0 = Some c -> no_net c). { intros c. rewrite Hc. by intros [= <-]. }
  assert (Hsl : exists t, mslices p !! 1 = Some t). { destruct (Hp 1 s eq_refl) as (t & Ht & _). by exists t. }
  destruct Hsl as [t Ht].
  set (L := (fun l => nl_of x l) <$> filter (fun l => l <> LBare s) ls).
  assert (Hle : lists_exactly L (fun b => differ_at 1 [x; s] b /\ mexists p b /\ mlinked_dir p dr [x; s] b)).
  { split.
    - apply NoDup_fmap_2_strong; [|apply NoDup_filter; rewrite <- Hlsv; apply Hw].
      intros l1 l2 H1 H2 He. apply elem_of_list_filter in H1 as [_ H1], H2 as [_ H2].
      destruct (Hbare _ H1) as [r1 ->], (Hbare _ H2) as [r2 ->]. simpl in He. congruence.
    - intros b. unfold L. rewrite elem_of_list_fmap. split.
      + intros (l & -> & Hl'). apply elem_of_list_filter in Hl' as [Hne Hl']. destruct (Hbare _ Hl') as [r ->]. simpl.
        assert (differ_at 1 [x; s] [x; r]) as Hd. { apply differ_at_S. split; [done|]. apply differ_at_0. split; congruence. }
        assert (mexists p [x; r]) as Hb. { apply (mexists_nf p [x; r] Hw Hf); [simpl; lia|lia|]. rewrite Has. change (LBare r ∈ mn2lv p x). by rewrite Hlsv. }
        split; [done|]. split; [done|]. apply (coup_linked p dr 0 _ _ Hw Ha Hb Hd Hnn). rewrite Hno. eauto.
      + intros (Hd & Hb & _). destruct (mexists_psl p b Hw Hb) as (Hlb & _). rewrite Has in Hlb.
        destruct b as [|x' [|r [|]]]; simpl in Hlb; try lia. apply differ_at_S in Hd as [<- Hd]. apply differ_at_0 in Hd as [Hne _].
        exists (LBare r). split; [done|]. apply elem_of_list_filter. split; [congruence|].
        apply (mexists_nf p [x; r] Hw Hf) in Hb; [|simpl; lia..]. rewrite Has in Hb. change (LBare r ∈ mn2lv p x) in Hb. by rewrite Hlsv in Hb. }
  assert (Hlen : Z.of_nat (length L) = (Z.of_nat (length ls) - 1)%Z).
  { unfold L. rewrite fmap_length. assert (NoDup ls) as Hnd by (rewrite <- Hlsv; apply Hw). rewrite Hlsv in Hsx. clear -Hnd Hsx.
    induction ls as [|y ls IH]; [by apply elem_of_nil in Hsx|]. apply NoDup_cons in Hnd as [Hy Hnd].
    rewrite filter_cons. destruct (decide (y <> LBare s)) as [Hne|He].
    - apply elem_of_cons in Hsx as [<-|Hx]; [done|]. cbn [length]. specialize (IH Hx Hnd). lia.
    - apply dec_stable in He as ->. assert (filter (fun y => y <> LBare s) ls = ls) as ->; [|cbn [length]; lia].
      clear -Hy. induction ls as [|z ls IH]; [done|]. apply not_elem_of_cons in Hy as [Hz Hy].
      rewrite filter_cons, decide_True by done. f_equal. by apply IH. }
  assert (Hdeg : dim_degree p [x; s] 1 dr = Ok (Z.of_nat (length L))).
  { unfold dim_degree. simpl. rewrite Hc. simpl. rewrite Ht, Hf. change (node_of [x; s]) with x. rewrite Hls. rewrite Has. 
    change (player_of 1 [x; s]) with (LBare s). rewrite Hlsv in Hsx. rewrite (proj2 (Base.lin_true _ _) Hsx). simpl. by rewrite Hlen. }
  exists L. split.
  - unfold dim_iter. simpl. unfold iter_dim. simpl. rewrite Hc. simpl. rewrite Ht, Hf, Has.
    change (lkey 1 [s]) with (LBare s). rewrite HA. change (node_of [x; s]) with x.
    rewrite (proj2 (Base.lin_true _ _) Hin). rewrite Hls. done.
  - done.
  - intros _. unfold dim_deg. simpl. done.
  - intros _ _ f Hfr. unfold dim_str. simpl. unfold dim_strength. simpl. rewrite Hc. simpl. rewrite Hdeg. cbn [rbind]. f_equal.
    rewrite (zsumf_ext f (fun _ => w)); [rewrite zsumf_const; lia|].
    intros b Hb. apply Hle in Hb as Hb'. destruct Hb' as (H1 & H2 & _).
    pose proof (proj1 (coup_reads p dr 0 _ b (f b) Hw Ha H2 H1 Hnn) (Hfr b Hb)) as Hr. rewrite Hcr in Hr. congruence.
Qed.

(** ** The last write *)
Lemma mwrite_mwrites asp dir e l i j w : mlayer_form asp l -> i <> j ->
  mwrite asp dir l e = Some (i, j, w) <-> mwrites asp e l i j w.
Proof.
  intros Hl Hne. destruct e as [o r]. unfold mwrite, mwrites. cbn [fst snd].
  pose proof (nl_of_form asp i l Hl) as (Hi1 & Hi2 & Hi3 & Hi4). pose proof (nl_of_form asp j l Hl) as (Hj1 & Hj2 & Hj3 & Hj4).
  assert (Hwl : forall (o' : op), wl asp l (write_of asp o') = Some (i, j, w) <-> write_of asp o' = Some (nl_of i l, nl_of j l, w)).
  { intros o'. unfold wl. destruct (write_of asp o') as [[[a b] v]|] eqn:E; [|done].
    destruct (write_of_length _ _ _ _ _ E) as [Ha Hb]. split.
    - destruct (decide _) as [(H1 & H2 & H3 & H4)|]; [|done]. intros [= <- <- <-]. rewrite <- H2 at 1. rewrite <- H3.
      rewrite !nl_of_player; [done| |]; by destruct a, b.
    - intros [= -> -> ->]. rewrite decide_True; [by rewrite Hi4, Hj4|]. rewrite Hi3, Hj3, Hi4, Hj4. done. }
  destruct o as [item v|a b v|l' item v|x lay|y k|l' x]; cbn [fst].
  - rewrite Hwl, <- writes_spec. cbn [writes]. tauto.
  - rewrite Hwl, <- writes_spec. cbn [writes]. split.
    + intros (-> & -> & -> & _). done.
    + intros (_ & -> & -> & ->). done.
  - split.
    + destruct item as [|i' [|j' [|]]]; try done. destruct (decide _) as [[-> Hr]|]; [|done]. intros [= -> -> ->].
      split; [done|]. destruct Hr as [Hr|(? & _)]; done.
    + intros (_ & -> & -> & -> & ->). rewrite decide_True; [done|]. auto.
  - split; [done|]. by intros [_ []].
  - split; [done|]. by intros [_ []].
  - split; [done|]. by intros [_ []].
Qed.
Lemma massigns_hit asp dir e l i j w : mlayer_form asp l -> i <> j ->
  massigns asp dir e l i j w <-> exists i' j', mwrite asp dir l e = Some (i', j', w) /\ nhit dir i' j' i j.
Proof.
  intros Hl Hne. unfold massigns. rewrite <- (mwrite_mwrites asp dir e l i j w), <- (mwrite_mwrites asp dir e l j i w) by done.
  split.
  - intros [H|[Hd H]]; [exists i, j|exists j, i]; (split; [done|]); unfold nhit; auto.
  - intros (i' & j' & H & [[-> ->]|(Hd & -> & ->)]); auto.
Qed.
Lemma mlast_mspec asp dir h l i j : mlayer_form asp l -> i <> j -> mlast asp dir h l i j (mspec asp dir l h i j).
Proof.
  intros Hl Hne. induction h as [|e h IH] using rev_ind.
  - right. split; [done|]. intros e' w' He. by apply elem_of_nil in He.
  - rewrite mspec_app. unfold mspec_step.
    assert ((exists w, massigns asp dir e l i j w) \/ forall w, ~ massigns asp dir e l i j w) as Hdec.
    { setoid_rewrite (massigns_hit asp dir e l i j _ Hl Hne). destruct (mwrite asp dir l e) as [[[i' j'] w]|]; [|right; naive_solver].
      destruct (decide (nhit dir i' j' i j)); [left; naive_solver|right; naive_solver]. }
    destruct Hdec as [[w Hw]|Hno].
    + left. exists h, e, []. split; [done|]. split; [|by intros e' w' He%elem_of_nil].
      pose proof Hw as Hw'. apply massigns_hit in Hw' as (i' & j' & -> & Hh); [|done..]. by rewrite decide_True.
    + assert (match mwrite asp dir l e with Some (i', j', w) => fun x y => if decide (nhit dir i' j' x y) then w else mspec asp dir l h x y
              | None => mspec asp dir l h end i j = mspec asp dir l h i j) as ->.
      { destruct (mwrite asp dir l e) as [[[i' j'] w]|] eqn:E; [|done]. destruct (decide _) as [Hh|]; [|done].
        exfalso. apply (Hno w). apply massigns_hit; [done..|]. eauto. }
      destruct IH as [(h1 & e0 & h2 & -> & H1 & H2)|[-> H2]].
      * left. exists h1, e0, (h2 ++ [e]). split; [by rewrite <- app_assoc|]. split; [done|].
        intros e' w' [He|He%elem_of_list_singleton]%elem_of_app; [by apply H2|]. subst. apply Hno.
      * right. split; [done|]. intros e' w' [He|He%elem_of_list_singleton]%elem_of_app; [by apply H2|]. subst. apply Hno.
Qed.
Lemma massigns_fun asp dir e l i j w w' : mlayer_form asp l -> i <> j ->
  massigns asp dir e l i j w -> massigns asp dir e l i j w' -> w = w'.
Proof.
  intros Hl Hne H H'. apply massigns_hit in H as (? & ? & H & _), H' as (? & ? & H' & _); [|done..]. congruence.
Qed.
Lemma mlast_fun asp dir h l i j w w' : mlayer_form asp l -> i <> j ->
  mlast asp dir h l i j w -> mlast asp dir h l i j w' -> w = w'.
Proof.
  intros Hl Hne. induction h as [|e h IH] using rev_ind.
  - intros [(h1 & e & h2 & He & _)|[-> _]] [(h1' & e' & h2' & He' & _)|[-> _]]; try done.
    + by destruct h1.
    + by destruct h1.
    + by destruct h1'.
  - assert (Hdest : forall v, mlast asp dir (h ++ [e]) l i j v -> massigns asp dir e l i j v \/
       ((forall w', ~ massigns asp dir e l i j w') /\ mlast asp dir h l i j v)).
    { intros v [(h1 & e0 & h2 & He & H1 & H2)|[-> H2]].
      - destruct h2 as [|e1 h2 _] using rev_ind.
        + apply app_inj_tail in He as [-> ->]. by left.
        + rewrite app_comm_cons, app_assoc in He. apply app_inj_tail in He as [-> ->]. right. split.
          * intros w0. apply H2. apply elem_of_app. right. by apply elem_of_list_singleton.
          * left. exists h1, e0, h2. split; [done|]. split; [done|]. intros e' w0 He'. apply H2. apply elem_of_app. by left.
      - right. split.
        + intros w0. apply H2. apply elem_of_app. right. by apply elem_of_list_singleton.
        + right. split; [done|]. intros e' w0 He'. apply H2. apply elem_of_app. by left. }
    intros [H1|[N1 H1]]%Hdest [H2|[N2 H2]]%Hdest.
    + by eapply massigns_fun.
    + by apply N2 in H1.
    + by apply N1 in H2.
    + by apply IH.
Qed.
Lemma mlast_iff asp dir h l i j w : mlayer_form asp l -> i <> j -> mlast asp dir h l i j w <-> w = mspec asp dir l h i j.
Proof.
  intros Hl Hne. split.
  - intros H. eapply mlast_fun; [done|done|exact H|by apply mlast_mspec].
  - intros ->. by apply mlast_mspec.
Qed.
(** What reading through the network and through the layer gives. *)
Lemma view_get cs dir noe fi h p l m x y : pinv cs dir noe fi h p -> pA p l = Some m ->
  get_link m [x; y] = mspec (length cs) dir l h x y.
Proof.
  intros Hi Hm. destruct (pi_view _ _ _ _ _ _ Hi l m Hm) as (g & Hg & Hs). rewrite <- Hs.
  rewrite <- (hist_refines _ _ _ _ _ _ Hg). change (get_link m [x; y]) with (weight m [x] [y]). by rewrite weight_rd.
Qed.
Lemma mreads_intra cs dir noe fi h p l i j w : pinv cs dir noe fi h p -> mlayer_form (length cs) l -> i <> j ->
  mreads p (nl_of i l) (nl_of j l) w <->
  match pA p l with Some _ => w = mspec (length cs) dir l h i j | None => w = noe end.
Proof.
  intros Hi Hl Hne. assert (maspects p = length cs) as Has by (unfold maspects; by rewrite (pi_coup _ _ _ _ _ _ Hi)).
  rewrite <- Has in Hl.
  pose proof (nl_of_form _ i l Hl) as (Hi1 & Hi2 & Hi3 & Hi4). pose proof (nl_of_form _ j l Hl) as (Hj1 & Hj2 & Hj3 & Hj4).
  rewrite mreads_pair by done.
  assert (differ_at 0 (nl_of i l) (nl_of j l)) as Hd.
  { destruct l; simpl; apply differ_at_0; done. }
  rewrite (pget_pair_intra _ _ _ Hd). rewrite lkey_player, Hi3, Hi4, Hj4 by done.
  destruct (pA p l) as [m|] eqn:Hm.
  - rewrite (view_get _ _ _ _ _ _ _ _ _ _ Hi Hm). split; congruence.
  - rewrite (pi_noe _ _ _ _ _ _ Hi). split; congruence.
Qed.
