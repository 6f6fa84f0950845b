(** * The edges of a multiplex network as seen by the transformations *)
From Verif Require Import Cc PropsMpx TransFacts NetEdges MpxIter CcSpec.
Local Open Scope nat_scope.

(** ** Undirected edge iteration over an arbitrary neighbour function *)
Fixpoint gpairs (it : nl -> list nl) (todo iterated : list nl) : list (nl * nl) :=
  match todo with
  | [] => []
  | a :: todo => ((fun b => (a, b)) <$> filter (fun b => b ∉ iterated) (it a)) ++ gpairs it todo (a :: iterated)
  end.
Lemma elem_of_gpairs f todo it a b : (a, b) ∈ gpairs f todo it <->
  exists pre post, todo = pre ++ a :: post /\ b ∈ f a /\ b ∉ it /\ b ∉ pre.
Proof.
  revert it. induction todo as [|c todo IH]; intros it; simpl.
  - rewrite elem_of_nil. split; [done|]. intros ([|] & ? & ? & _); done.
  - rewrite elem_of_app, IH, elem_of_list_fmap. split.
    + intros [(b' & [= -> ->] & [Hn Hb]%elem_of_list_filter)|(pre & post & -> & Hb & Hn & Hp)].
      * exists [], todo. split_and!; [done|done|done|apply not_elem_of_nil].
      * exists (c :: pre), post. rewrite not_elem_of_cons in Hn. destruct Hn as [Hbc Hn].
        split_and!; [done|done|done|]. by rewrite not_elem_of_cons.
    + intros ([|c' pre] & post & [= -> ->] & Hb & Hn & Hp).
      * left. exists b. split; [done|]. apply elem_of_list_filter. done.
      * right. exists pre, post. rewrite not_elem_of_cons in Hp. destruct Hp.
        split_and!; [done|done| |done]. by rewrite not_elem_of_cons.
Qed.
Lemma NoDup_gpairs f todo it : (forall a, a ∈ todo -> NoDup (f a)) -> NoDup todo -> NoDup (gpairs f todo it).
Proof.
  revert it. induction todo as [|c todo IH]; intros it Hf Hnd; simpl; [constructor|].
  apply NoDup_cons in Hnd as [Hc Hnd]. apply NoDup_app. split_and!.
  - apply NoDup_fmap; [by intros ?? [= ?]|]. apply NoDup_filter. apply Hf. left.
  - intros [a b] (b' & [= -> ->] & _)%elem_of_list_fmap (pre & post & -> & _)%elem_of_gpairs.
    apply Hc. apply elem_of_app. right. left.
  - apply IH; [|done]. intros a Ha. apply Hf. by right.
Qed.
Lemma gpairs_some f todo a b : NoDup todo -> a ∈ todo -> b ∈ todo -> b ∈ f a -> a ∈ f b ->
  (a, b) ∈ gpairs f todo [] \/ (b, a) ∈ gpairs f todo [].
Proof.
  intros Hnd Ha Hb Hi1 Hi2. rewrite !elem_of_gpairs.
  destruct (decide (a = b)) as [->|Hne].
  - left. apply elem_of_list_split in Ha as (pre & post & Hl). exists pre, post.
    split_and!; [done|done|apply not_elem_of_nil|]. rewrite Hl in Hnd.
    apply NoDup_app in Hnd as (_ & Hdis & _). intros Hin. apply (Hdis b Hin). left.
  - destruct (before_after _ _ _ Hnd Ha Hb Hne) as [(pre & post & Hl & H1 & H2)|(pre & post & Hl & H1 & H2)];
      [left|right]; exists pre, post; split_and!; try done; apply not_elem_of_nil.
Qed.
Lemma gpairs_once f todo a b : NoDup todo -> a <> b -> (a, b) ∈ gpairs f todo [] -> (b, a) ∈ gpairs f todo [] -> False.
Proof.
  intros Hnd Hne H1 H2.
  apply elem_of_gpairs in H1 as (pre & post & Hl & _ & _ & Hb).
  apply elem_of_gpairs in H2 as (pre' & post' & Hl' & _ & _ & Ha).
  rewrite Hl in Hl', Hnd. clear Hl. revert pre' Hl' Ha.
  induction pre as [|c pre IH]; intros pre' Hl' Ha.
  - destruct pre' as [|c' pre']; simpl in Hl'; injection Hl' as ? ?; [done|]. subst. apply Ha. left.
  - destruct pre' as [|c' pre']; simpl in Hl'; injection Hl' as ? ?.
    + subst. apply Hb. left.
    + subst. simpl in Hnd. apply NoDup_cons in Hnd as [_ Hnd]. rewrite not_elem_of_cons in Hb, Ha.
      apply (IH Hnd (proj2 Hb) pre' H0 (proj2 Ha)).
Qed.

(** ** Multiplex networks whose couplings are iterated faithfully *)
Definition faithful (cs : list coupling) (fi : bool) (p : mpx) : Prop :=
  (fi = true /\ 1 <= length cs /\ forall a, mexists p a -> coupling_ok cs a) \/
  (fi = false /\ exists w, cs = [CCat w] /\ w <> 0%Z).
(** No self-loop was written through an intra-layer network. *)
Definition loopless (p : mpx) : Prop := forall a, mexists p a -> agetitem p (player_of (maspects p) a) [node_of a; node_of a] = Ok 0%Z.

Section Edges.
  Context (cs : list coupling) (dir fi : bool) (h : list call) (p : mpx) (Hh : mhist cs dir 0 fi h p)
    (Hc : faithful cs fi p) (Hl : loopless p).
  Let Hi : pinv cs dir 0 fi h p := mhist_inv _ _ _ _ _ _ Hh.
  Let Hp : pwf p := pi_wf _ _ _ _ _ _ Hi.
  Let Has : maspects p = length cs := pinv_asp _ _ _ _ _ _ Hi.
  Let H1 : 1 <= length cs.
  Proof. destruct Hc as [(_ & ? & _)|(_ & w & -> & _)]; [done|simpl; lia]. Qed.
  Lemma fa_no_net a : mexists p a -> Forall no_net cs.
  Proof.
    intros Ha. destruct Hc as [(_ & _ & Hok)|(_ & w & -> & _)]; [by eapply coupling_ok_no_net, Hok|by repeat constructor].
  Qed.
  Lemma mslices_len a : a ∈ cart (mslices p) -> length a = S (maspects p).
  Proof. intros H%elem_of_cart%Forall2_length. by rewrite (pw_len p Hp) in H. Qed.
  Lemma ex_len a : mexists p a -> length a = S (maspects p).
  Proof. by intros (? & _)%(mexists_psl p a Hp). Qed.
  Lemma ex_cart a : mexists p a -> a ∈ cart (mslices p).
  Proof.
    intros (H2 & H3 & _)%(mexists_psl p a Hp). apply elem_of_cart, Forall2_same_length_lookup. split; [by rewrite (pw_len p Hp)|].
    intros k x s Hx Hs. destruct (H3 k x Hx) as (s' & Hs' & Hin). congruence.
  Qed.
  Lemma ex_dec a : mexists p a \/ ~ mexists p a.
  Proof.
    destruct (miter_node_layers_ok p Hp) as (L & HL & _). destruct (decide (a ∈ L)) as [Ha|Ha]; [left; by exists L|right].
    intros (L' & HL' & Ha'). congruence.
  Qed.
  (** Iteration over the neighbours of any element of the product of the slices. *)
  Lemma iter_any a dr : a ∈ cart (mslices p) -> exists L, mp_iter p dr a None = Ok L /\
    lists_exactly L (fun b => mexists p a /\ mexists p b /\ mlinked_dir p dr a b).
  Proof.
    intros Ha. destruct (ex_dec a) as [Hx|Hx].
    - assert (exists L, neighbours_exact p dr a None L) as (L & HL & HE & _).
      { pose proof (Hl a Hx) as Hself. rewrite Has in Hself. pose proof Hh as Hh'. destruct Hc as [(Hf & _ & Hok)|(Hf & w & Hcs & Hw)].
        - rewrite Hf in Hh'. apply (C19_neighbours_exact cs dir h p dr a None Hh' H1 Hx (Hok a Hx)); [split; done|done].
        - rewrite Hf, Hcs in Hh'. rewrite Hcs in Hself. apply (C20_one_categorical w dir h p dr a None Hh' Hw Hx); [split; done|done]. }
      exists L. split; [done|]. eapply lists_exactly_iff; [|exact HE]. intros b. simpl. tauto.
    - destruct Hc as [(Hfi & _ & Hok)|(Hfi & w & Hcs & Hw)].
      { exfalso. apply Hx. rewrite mexists_iff by done. rewrite (pi_fic _ _ _ _ _ _ Hi), Hfi. pose proof (mslices_len a Ha) as Hla. split; [done|].
        apply elem_of_cart in Ha. intros k x Hk. destruct (Forall2_lookup_l _ _ _ _ _ Ha Hk) as (s & Hs & Hin). by exists s. }
      exists []. split; [|split; [constructor|intros b; rewrite elem_of_nil; tauto]].
      assert (maspects p = 1) as Has1 by (rewrite Has, Hcs; done). assert (mfic p = false) as Hf by (rewrite (pi_fic _ _ _ _ _ _ Hi); done).
      pose proof (mslices_len a Ha) as Hla. rewrite Has1 in Hla. destruct a as [|x [|l []]]; try done.
      apply elem_of_cart in Ha. assert (psl p 1 l) as Hpl.
      { destruct (Forall2_lookup_l _ _ _ 1%nat l Ha eq_refl) as (s & Hs & Hin). by exists s. }
      destruct (lay_pA p (LBare l) Hp) as [m Hm]; [split; done|done|].
      assert (x ∉ net_nodes m) as Hxm.
      { intros Hin. apply Hx. rewrite mexists_nf; [|done|done|by rewrite Has1|lia].
        rewrite Has1. change (LBare l ∈ mn2lv p x). unfold pA in Hm. rewrite Hf in Hm.
        destruct (dget (mA p) (LBare l)) as [m'|] eqn:E; [|done]. injection Hm as ->. by apply (pw_node p Hp Hf _ _ x E). }
      assert (forall dr', dir_iter dr' m [x] None = []) as Hempty.
      { intros dr'. destruct (pi_view _ _ _ _ _ _ Hi _ _ Hm) as (g & Hg & _). pose proof (hist_good _ _ _ _ _ _ Hg) as Hgd.
        destruct (hist_inv _ _ _ _ _ _ Hg) as [_ HL Haz _ _ _].
        assert (forall b, linked m [x] b \/ linked m b [x] -> False) as Hno.
        { intros b Hb. apply Hxm. assert ([x] ∈ iter_node_layers m) as Hxn.
          { destruct Hb as [Hb|Hb]; apply linked_lnk in Hb as [v Hv]; [|done| |done]; by destruct (wfL_present m HL _ _ _ Hv). }
          apply elem_of_iter_node_layers in Hxn as [Hxn _]; [|apply Hgd]. unfold nl_in_slices in Hxn.
          unfold net_nodes. destruct (slices m); inversion Hxn; done. }
        destruct (dir_iter dr' m [x] None) as [|b L] eqn:Eb; [done|]. exfalso.
        destruct (dir_iter_exact m dr' [x] Hgd) as [_ HE]. assert (b ∈ dir_iter dr' m [x] None) as Hb by (rewrite Eb; left).
        apply HE in Hb. apply (Hno b). destruct dr'; simpl in Hb; tauto. }
      unfold mp_iter, piter. generalize (pdir p dr). intros dr'. unfold select_dims. rewrite Has1. cbn [seq length rmapM].
      rewrite decide_True by done. change (lkey 1 (tail [x; l])) with (LBare l). rewrite Hm. change (node_of [x; l]) with x. rewrite Hempty.
      rewrite decide_False by done. unfold iter_dim. rewrite (pi_coup _ _ _ _ _ _ Hi), Hcs, Has1. cbn [Nat.sub lookup list_lookup length].
      destruct (Forall2_lookup_l _ _ _ 1%nat l Ha eq_refl) as (s & Hs & _). rewrite Hs.
      rewrite Hf. change (lkey 1 (tail [x; l])) with (LBare l). rewrite Hm. change (node_of [x; l]) with x.
      by rewrite (proj2 (Base.lin_false _ _) Hxm).
  Qed.
  Definition nbf (dr : direction) (a : nl) : list nl := match mp_iter p dr a None with Ok L => L | Err _ => [] end.
  Lemma nbf_ok dr a : a ∈ cart (mslices p) -> mp_iter p dr a None = Ok (nbf dr a).
  Proof. intros Ha. destruct (iter_any a dr Ha) as (L & HL & _). unfold nbf. by rewrite HL. Qed.
  Lemma nbf_nd dr a : a ∈ cart (mslices p) -> NoDup (nbf dr a).
  Proof. intros Ha. destruct (iter_any a dr Ha) as (L & HL & HE). unfold nbf. rewrite HL. apply HE. Qed.
  Lemma elem_of_nbf dr a b : a ∈ cart (mslices p) -> b ∈ nbf dr a <-> mexists p a /\ mexists p b /\ mlinked_dir p dr a b.
  Proof. intros Ha. destruct (iter_any a dr Ha) as (L & HL & HE). unfold nbf. rewrite HL. apply HE. Qed.
  (** The weight of a link ([noEdge] where reading raises). *)
  Definition MR (a b : nl) : Z := match pget_pair p a b with Ok w => w | Err _ => 0%Z end.
  Lemma MR_linked a b : mexists p a -> mexists p b -> MR a b <> 0%Z <-> mlinked p a b.
  Proof.
    intros Ha Hb. unfold MR, mlinked. rewrite (pi_noe _ _ _ _ _ _ Hi).
    setoid_rewrite mreads_pair; [|by apply ex_len..]. destruct (pget_pair p a b) as [v|]; split; try done.
    - intros Hv. eauto.
    - by intros (v' & [= <-] & Hv).
    - by intros (v' & ? & _).
  Qed.
  Lemma MR_reads a b : mexists p a -> mexists p b -> mlinked p a b -> mreads p a b (MR a b).
  Proof.
    intros Ha Hb (v & Hv & _). pose proof Hv as Hv'. rewrite mreads_pair in Hv' by (by apply ex_len). unfold MR. by rewrite Hv'.
  Qed.
  Lemma MR_sym a b : dir = false -> mexists p a -> mexists p b -> MR a b = MR b a.
  Proof.
    intros Hd Ha Hb. pose proof Hi as Hi'. rewrite Hd in Hi'. pose proof (fa_no_net a Ha) as Hnn.
    assert (forall v, pget_pair p a b = Ok v <-> pget_pair p b a = Ok v) as Hs.
    { intros v. pose proof (ex_len a Ha) as La. pose proof (ex_len b Hb) as Lb. rewrite <- !mreads_pair by done. split; by eapply mreads_sym. }
    unfold MR. destruct (pget_pair p a b) as [v|] eqn:E1.
    - by rewrite (proj1 (Hs v) eq_refl).
    - destruct (pget_pair p b a) as [v|] eqn:E2; [|done]. by pose proof (proj2 (Hs v) eq_refl).
  Qed.
  Definition mpairs : list (nl * nl) :=
    if dir then cart (mslices p) ≫= (fun a => (fun b => (a, b)) <$> nbf DOut a) else gpairs (nbf DTot) (cart (mslices p)) [].
  Lemma und_linked a b : dir = false -> mexists p a -> mexists p b -> mlinked_dir p DTot a b <-> mlinked p a b.
  Proof.
    intros Hd Ha Hb. simpl. split; [|tauto]. intros [?|Hba]; [done|]. apply MR_linked; [done..|]. rewrite MR_sym by done. by apply MR_linked.
  Qed.
  Lemma mpairs_linked a b : (a, b) ∈ mpairs -> mexists p a /\ mexists p b /\ mlinked p a b.
  Proof.
    unfold mpairs. (case_eq dir; intros Hd).
    - intros (a' & (b' & [= <- <-] & Hb)%elem_of_list_fmap & Ha)%elem_of_list_bind. by apply elem_of_nbf in Hb.
    - intros (pre & post & Hc' & Hb & _)%elem_of_gpairs. apply elem_of_nbf in Hb as (? & ? & Hlk).
      + split; [done|]. split; [done|]. by apply und_linked.
      + rewrite Hc'. apply elem_of_app. right. left.
  Qed.
  Lemma NoDup_mcart : NoDup (cart (mslices p)).
  Proof. apply NoDup_cart, (pw_nd p Hp). Qed.
  Lemma NoDup_mpairs : NoDup mpairs.
  Proof.
    unfold mpairs. (case_eq dir; intros Hd).
    - apply NoDup_bind.
      + apply NoDup_mcart.
      + intros a Ha. apply NoDup_fmap; [by intros ?? [= ?]|by apply nbf_nd].
      + intros x y z _ _ (? & -> & _)%elem_of_list_fmap (? & [= -> _] & _)%elem_of_list_fmap. done.
    - apply NoDup_gpairs; [|apply NoDup_mcart]. intros a Ha. by apply nbf_nd.
  Qed.
  Lemma mread_edge a b : (a ∈ cart (mslices p)) -> b ∈ nbf (if dir then DOut else DTot) a -> pgetitem p (interleave a b) = Ok (MR a b).
  Proof.
    intros Ha Hb. assert (mexists p a /\ mexists p b /\ mlinked p a b) as (H2 & H3 & H4).
    { apply elem_of_nbf in Hb as (? & ? & Hlk); [|done]. split; [done|]. split; [done|]. revert Hlk. case_eq dir; intros Hd; [done|]. intros Hlk. by apply und_linked. }
    pose proof (ex_len a H2) as La. pose proof (ex_len b H3) as Lb.
    rewrite (pgetitem_pair p _ a b) by (by apply names_link_full). destruct H4 as (v & Hv & _).
    rewrite mreads_pair in Hv by done. unfold MR. by rewrite Hv.
  Qed.
  Lemma medges_eq : medges p = Ok ((fun q => (interleave (q.1) (q.2), MR (q.1) (q.2))) <$> mpairs).
  Proof.
    unfold medges, mpairs. rewrite (pi_dir _ _ _ _ _ _ Hi). pose proof mread_edge as Hre. revert Hre. case_eq dir; intros Hd Hre.
    - unfold medges_dir.
      rewrite (rmapM_Ok_iff _ (fun a => (fun b => (interleave a b, MR a b)) <$> nbf DOut a)).
      + cbn [rbind]. f_equal. clear. induction (cart (mslices p)) as [|a L IH]; [done|].
        change ((a :: L) ≫= ?f) with (f a ++ (L ≫= f)). cbv beta. rewrite fmap_app, <- IH, <- list_fmap_compose. done.
      + intros a Ha. rewrite nbf_ok by done. cbn [rbind]. apply rmapM_Ok_iff. intros b Hb. by rewrite Hre.
    - assert (forall todo it, (forall a, a ∈ todo -> a ∈ cart (mslices p)) ->
        medges_und p todo it = Ok ((fun q => (interleave (q.1) (q.2), MR (q.1) (q.2))) <$> gpairs (nbf DTot) todo it)) as HH; [|by apply HH].
      induction todo as [|a todo IH]; intros it Ht; [done|]. cbn [medges_und gpairs]. assert (a ∈ cart (mslices p)) as Ha by (apply Ht; left).
      rewrite nbf_ok by done. cbn [rbind]. rewrite (rmapM_Ok_iff _ (fun b => (interleave a b, MR a b))).
      2:{ intros b [_ Hb]%elem_of_list_filter. by rewrite Hre. }
      cbn [rbind]. rewrite IH by (intros b Hb; apply Ht; by right). cbn [rbind]. by rewrite fmap_app, <- list_fmap_compose.
  Qed.
  Lemma mpairs_all a b : mexists p a -> mexists p b -> mlinked p a b -> (a, b) ∈ mpairs \/ dir = false /\ (b, a) ∈ mpairs.
  Proof.
    intros Ha Hb Hk. pose proof (ex_cart a Ha) as Ca. pose proof (ex_cart b Hb) as Cb. unfold mpairs. (case_eq dir; intros Hd).
    - left. apply elem_of_list_bind. exists a. split; [|done]. apply elem_of_list_fmap. exists b. split; [done|]. by apply elem_of_nbf.
    - destruct (gpairs_some (nbf DTot) (cart (mslices p)) a b NoDup_mcart Ca Cb) as [?|?]; [| |by left|by right].
      + apply elem_of_nbf; [done|]. split; [done|]. split; [done|]. by left.
      + apply elem_of_nbf; [done|]. split; [done|]. split; [done|]. by right.
  Qed.
  Lemma mpairs_once a b : dir = false -> (a, b) ∈ mpairs -> (b, a) ∈ mpairs -> a = b.
  Proof.
    unfold mpairs. intros Hd. rewrite Hd. intros H2 H3. destruct (decide (a = b)); [done|]. exfalso. eapply (gpairs_once (nbf DTot)); [apply NoDup_mcart|done|done|done].
  Qed.
  Lemma nls_NoDup L : miter_node_layers p = Ok L -> NoDup L.
  Proof.
    unfold miter_node_layers. destruct (mfic p) eqn:Hf; [intros [= <-]; apply NoDup_mcart|].
    assert (forall l, l ∈ mlayers p -> exists m, pA p l = Some m /\ NoDup (net_nodes m)) as Hlay.
    { intros l Hml%elem_of_mlayers; [|done]. destruct (lay_pA p l Hp) as [m Hm]; [apply Hml..|]. exists m. split; [done|].
      destruct (pi_view _ _ _ _ _ _ Hi _ _ Hm) as (g & Hg & _). destruct (hist_good _ _ _ _ _ _ Hg) as [HS _].
      unfold net_nodes. pose proof (wfS_nodup _ HS) as Hnd. destruct (slices m); [constructor|]. by inversion Hnd. }
    assert (NoDup (mlayers p)) as Hnd.
    { unfold mlayers. pose proof (pw_nd p Hp) as Hnd. case_decide.
      - apply NoDup_fmap; [by intros ?? [= ?]|]. apply NoDup_cart. by apply Forall_drop.
      - case_decide; [|constructor]. apply NoDup_fmap; [by intros ?? [= ?]|]. destruct (mslices p !! 1%nat) as [s|] eqn:E; [|constructor].
        simpl. rewrite Forall_lookup in Hnd. by apply (Hnd 1%nat). }
    assert (forall l, l ∈ mlayers p -> full_form (maspects p) l) as Hff.
    { intros l Hml%elem_of_mlayers; [apply Hml|done]. }
    rewrite (rmapM_Ok_iff _ (fun l => (fun x => nl_of x l) <$> match pA p l with Some m => net_nodes m | None => [] end)).
    2:{ intros l Hml. destruct (Hlay l Hml) as (m & Hm & _). unfold miter_nodes. by rewrite Hf, Hm. }
    cbn [rbind]. intros [= <-]. assert (forall {A B} (f : A -> list B) l, concat (f <$> l) = l ≫= f) as Hcb.
    { intros A B f l. induction l as [|x l IH]; [done|]. change (f x ++ concat (f <$> l) = f x ++ (l ≫= f)). by rewrite IH. }
    rewrite Hcb. apply NoDup_bind; [done| |].
    - intros l Hml. destruct (Hlay l Hml) as (m & -> & Hmn). apply NoDup_fmap; [|done]. intros x y. destruct l; simpl; congruence.
    - intros l l' a H2 H3 (x & -> & _)%elem_of_list_fmap (y & Heq & _)%elem_of_list_fmap. apply Hff in H2, H3.
      destruct l as [z|zs], l' as [z'|zs']; simpl in *; [congruence|destruct H3; lia|destruct H2; lia|congruence].
  Qed.
  Lemma msrc_ok : exists nls, miter_node_layers p = Ok nls /\
    msrc_of p = Ok (MkSrc (maspects p) (mdir p) (mnoe p) (mfic p) (mslices p) nls ((fun q => (interleave (q.1) (q.2), MR (q.1) (q.2))) <$> mpairs)) /\
    src_ok (MkSrc (maspects p) (mdir p) (mnoe p) (mfic p) (mslices p) nls ((fun q => (interleave (q.1) (q.2), MR (q.1) (q.2))) <$> mpairs)) mpairs MR.
  Proof.
    destruct (miter_node_layers_ok p Hp) as (L & HL & _). assert (forall a, a ∈ L <-> mexists p a) as HE.
    { intros a. split; [intros; by exists L|]. intros (L' & HL' & ?). congruence. }
    exists L. split; [done|]. split; [unfold msrc_of; rewrite HL, medges_eq; done|].
    constructor; cbn [s_asp s_dir s_noe s_fic s_sl s_nls s_edges].
    - apply (pw_len p Hp).
    - apply (pw_nd p Hp).
    - rewrite Has. lia.
    - done.
    - apply NoDup_mpairs.
    - intros a b (? & ? & _)%mpairs_linked. by rewrite !HE.
    - intros a b (? & ? & ?)%mpairs_linked. rewrite (pi_noe _ _ _ _ _ _ Hi). by apply MR_linked.
    - rewrite (pi_dir _ _ _ _ _ _ Hi). intros Hd a b ?%HE ?%HE. by apply MR_sym.
    - rewrite (pi_dir _ _ _ _ _ _ Hi), (pi_noe _ _ _ _ _ _ Hi). intros a b Ha%HE Hb%HE Hr. apply mpairs_all; [done..|]. by apply MR_linked.
    - rewrite (pi_dir _ _ _ _ _ _ Hi). intros Hd a b. by apply mpairs_once.
    - intros a Ha%HE. apply elem_of_cart. by apply ex_cart.
    - rewrite (pi_fic _ _ _ _ _ _ Hi). intros Hf a Ha. apply HE. rewrite mexists_iff, (pi_fic _ _ _ _ _ _ Hi), Hf by done. split.
      + apply Forall2_length in Ha. by rewrite (pw_len p Hp) in Ha.
      + intros k x Hk. destruct (Forall2_lookup_l _ _ _ _ _ Ha Hk) as (s & Hs & Hin). by exists s.
    - by apply (nls_NoDup L).
  Qed.
  Lemma not_self_linked a : mexists p a -> ~ mlinked p a a.
  Proof.
    intros Ha Hk%MR_linked; [|done|done]. apply Hk. unfold MR. rewrite pget_pair_none; [apply (pi_noe _ _ _ _ _ _ Hi)|done|].
    intros d (_ & Hd & Hk'). destruct (proj1 (Hk' d)); done.
  Qed.
  Lemma degree_any a : mexists p a -> mp_degree p (if dir then DOut else DTot) a None = Ok (Z.of_nat (length (nbf (if dir then DOut else DTot) a))).
  Proof.
    intros Hx. assert (exists L, neighbours_exact p (if dir then DOut else DTot) a None L) as (L & HL & _ & HD & _).
    { pose proof (Hl a Hx) as Hself. rewrite Has in Hself. pose proof Hh as Hh'. destruct Hc as [(Hf & _ & Hok)|(Hf & w & Hcs & Hw)].
      - rewrite Hf in Hh'. apply (C19_neighbours_exact cs dir h p _ a None Hh' H1 Hx (Hok a Hx)); [split; done|done].
      - rewrite Hf, Hcs in Hh'. rewrite Hcs in Hself. apply (C20_one_categorical w dir h p _ a None Hh' Hw Hx); [split; done|done]. }
    unfold nbf. rewrite HL. apply HD. rewrite (pi_dir _ _ _ _ _ _ Hi). case_eq dir; [by right|by left].
  Qed.
  Lemma mlen_eq : mlen_edges p = Ok (Z.of_nat (length mpairs)).
  Proof.
    destruct (miter_node_layers_ok p Hp) as (L & HL & _). assert (forall a, a ∈ L <-> mexists p a) as HE.
    { intros a. split; [intros; by exists L|]. intros (L' & HL' & ?). congruence. }
    pose proof (nls_NoDup L HL) as Hnd. unfold mlen_edges. rewrite HL. cbn [rbind].
    rewrite (rmapM_Ok_iff _ (fun a => Z.of_nat (length (nbf (if dir then DOut else DTot) a)))).
    2:{ intros a Ha%HE. rewrite (pi_dir _ _ _ _ _ _ Hi), degree_any by done. cbn [rbind]. case_eq dir; intros Hd; [done|].
        pose proof (ex_len a Ha) as La. rewrite (pgetitem_pair p _ a a) by (by apply names_link_full).
        rewrite pget_pair_none; [|done|intros d (_ & Hdd & Hk'); by destruct (proj1 (Hk' d))].
        cbn [rbind]. by rewrite decide_True. }
    cbn [rbind]. rewrite (pi_dir _ _ _ _ _ _ Hi).
    set (O := fun dr => L ≫= (fun a => (fun b => (a, b)) <$> nbf dr a)).
    assert (forall dr, foldr Z.add 0%Z ((fun a => Z.of_nat (length (nbf dr a))) <$> L) = Z.of_nat (length (O dr))) as HO.
    { intros dr. unfold O. clear. induction L as [|a L IH]; [done|]. change ((a :: L) ≫= ?f) with (f a ++ (L ≫= f)).
      cbn [fmap list_fmap foldr]. rewrite app_length, fmap_length, Nat2Z.inj_add, <- IH. done. }
    assert (forall dr, NoDup (O dr)) as HOn.
    { intros dr. unfold O. apply NoDup_bind; [done| |].
      - intros a Ha%HE. apply NoDup_fmap; [by intros ?? [= ?]|]. by apply nbf_nd, ex_cart.
      - intros x y z _ _ (? & -> & _)%elem_of_list_fmap (? & [= -> _] & _)%elem_of_list_fmap. done. }
    assert (forall dr a b, (a, b) ∈ O dr <-> mexists p a /\ mexists p b /\ mlinked_dir p dr a b) as HOe.
    { intros dr a b. unfold O. rewrite elem_of_list_bind. split.
      - intros (a' & (b' & [= <- <-] & Hb)%elem_of_list_fmap & Ha%HE). apply elem_of_nbf in Hb; [done|by apply ex_cart].
      - intros H2. exists a. split; [|apply HE, H2]. apply elem_of_list_fmap. exists b. split; [done|]. apply elem_of_nbf; [apply ex_cart, H2|done]. }
    rewrite HO. pose proof NoDup_mpairs as HPn. revert HPn. case_eq dir; intros Hd HPn; f_equal.
    - f_equal. apply Permutation_length, NoDup_Permutation; [apply HOn|done|]. intros [a b]. rewrite HOe. split.
      + intros (Ha & Hb & Hk). destruct (mpairs_all a b Ha Hb Hk) as [?|[? _]]; [done|congruence].
      + intros Hab. by apply mpairs_linked in Hab.
    - assert (Permutation (O DTot) (mpairs ++ (swp <$> mpairs))) as ->%Permutation_length.
      { apply NoDup_Permutation; [apply HOn| |].
        - apply NoDup_app. split; [done|]. split.
          + intros [a b] Hab ([c d] & [= -> ->] & Hcd)%elem_of_list_fmap. pose proof (mpairs_once _ _ Hd Hab Hcd) as ->.
            apply mpairs_linked in Hab as (Ha & _ & Hk). by apply not_self_linked in Hk.
          + apply NoDup_fmap; [|done]. by intros [??] [??] [= -> ->].
        - intros [a b]. rewrite HOe, elem_of_app, elem_of_list_fmap. split.
          + intros (Ha & Hb & Hk%und_linked); [|done..]. destruct (mpairs_all a b Ha Hb Hk) as [?|[_ ?]]; [by left|right]. by exists (b, a).
          + intros [(? & ? & ?)%mpairs_linked|([c d] & [= -> ->] & (? & ? & ?)%mpairs_linked)].
            * split; [done|]. split; [done|]. by left.
            * split; [done|]. split; [done|]. by right. }
      rewrite app_length, fmap_length. replace (Z.of_nat _) with (Z.of_nat (length mpairs) * 2)%Z by lia. apply Z.quot_mul. done.
  Qed.
End Edges.
