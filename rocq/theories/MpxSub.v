(** * Subnetworks of multiplex networks: facts *)
From Verif Require Export MpxRelabel.

Lemma selected_spec sel a : selected sel a = true <-> forall k x, a !! k = Some x -> x ∈ default [] (sel !! k).
Proof.
  unfold selected. rewrite forallb_forall. split.
  - intros H k x Hx. specialize (H (k, x)). unfold lin in H. simpl in H. apply (bool_decide_eq_true_1 _). apply H. apply elem_of_list_In, elem_of_imap_pair. done.
  - intros H [k x] Hin. apply elem_of_list_In, elem_of_imap_pair in Hin. unfold lin. simpl. apply bool_decide_eq_true_2. by apply H.
Qed.
(** Selected by the arguments (one per coordinate). *)
Definition sel_at (args : list (option (list name))) (k : nat) (x : name) : Prop := exists o, args !! k = Some o /\ sel_name o x.
Lemma sel_nl_at args a : length a = length args -> sel_nl args a <-> forall k x, a !! k = Some x -> sel_at args k x.
Proof.
  intros Hl. split.
  - intros H k x Hx. destruct (lookup_lt_is_Some_2 args k) as [o Ho]; [rewrite <- Hl; by eapply lookup_lt_Some|]. exists o. split; [done|]. by apply (H k x o).
  - intros H k x o Hx Ho. destruct (H k x Hx) as (o' & Ho' & ?). congruence.
Qed.

Lemma mwrite_aset asp dir l l' x y w : mwrite asp dir l (MASet l' [x; y] w, Ok tt) = if decide (l' = l) then Some (x, y, w) else None.
Proof.
  cbn [mwrite fst snd]. destruct (decide (l' = l)) as [->|Hne].
  - rewrite decide_True; [done|]. split; [done|by left].
  - rewrite decide_False; [done|]. by intros [? _].
Qed.

Lemma lkey_lay asp q ls : 1 <= asp -> maspects q = asp -> length ls = asp -> (forall k z, ls !! k = Some z -> psl q (S k) z) -> lay_in q (lkey asp ls).
Proof.
  intros H1 Hq Hl Hls. unfold lkey. destruct (decide (asp = 1)) as [E|E].
  - destruct ls as [|y [|]]; simpl in Hl; [lia| |lia]. split; [congruence|]. by apply (Hls 0).
  - split; [lia|done].
Qed.
Lemma lkey_pA asp q ls : 1 <= asp -> pwf q -> maspects q = asp -> length ls = asp -> (forall k z, ls !! k = Some z -> psl q (S k) z) -> is_Some (pA q (lkey asp ls)).
Proof.
  intros H1 Wq Hq Hl Hls. destruct (lay_pA q (lkey asp ls) Wq) as [m Hm]; [by apply lkey_lay|rewrite Hq; by apply lkey_form|by exists m].
Qed.

Section Subnet.
  Context (cs : list coupling) (dir : bool) (noe : Z) (fi : bool) (h : list call) (p : mpx) (args : list (option (list name))).
  Context (Hp : pinv cs dir noe fi h p) (H1 : 1 <= length cs) (Hnn : Forall no_net cs) (Hargs : length args = S (length cs)).
  Notation asp := (length cs).
  Notation sel := (mselection p args).
  Let Has : maspects p = asp := pinv_masp _ _ _ _ _ _ Hp.
  Let Hw : pwf p := pi_wf _ _ _ _ _ _ Hp.
  Let Hfi : mfic p = fi := pi_fic _ _ _ _ _ _ Hp.

  Lemma sel_in k x : psl p k x -> x ∈ default [] (sel !! k) <-> sel_at args k x.
  Proof using Hp.
    intros Hx. unfold mselection. rewrite list_lookup_imap. unfold sel_at. destruct (args !! k) as [[l|]|] eqn:E; simpl.
    - rewrite elem_of_remove_dups. naive_solver.
    - rewrite slice_psl. naive_solver.
    - split; [by intros ?%elem_of_nil|naive_solver].
  Qed.
  Lemma sel_in_nl a : (forall k x, a !! k = Some x -> psl p k x) -> length a = S asp -> selected sel a = true <-> sel_nl args a.
  Proof using Hp Hargs.
    intros Ha Hl. rewrite selected_spec, sel_nl_at by congruence. split; intros H k x Hx; apply (sel_in k x (Ha k x Hx)); auto.
  Qed.
  (** What is in the new network. *)
  Definition sub_name (k : nat) (x : name) : Prop :=
    psl p k x /\ sel_at args k x /\ (fi = true \/ k <> 0) \/ fi = false /\ k = 0 /\ exists a, mexists p a /\ sel_nl args a /\ node_of a = x.
  Definition sub_nl (a : nl) : Prop := mexists p a /\ sel_nl args a.
  Lemma sub_nl_names a k x : sub_nl a -> a !! k = Some x -> sub_name k x.
  Proof using Hp Hargs.
    intros [Ha Hs] Hx. destruct (mexists_psl p a Hw Ha) as (Hl & Ps & _). rewrite Has in Hl. pose proof Hs as Hs'. rewrite sel_nl_at in Hs' by congruence.
    destruct (decide (fi = false /\ k = 0)) as [[Hf ->]|Hf].
    - right. split; [done|]. split; [done|]. exists a. split; [done|]. split; [done|]. destruct a; [done|]. by injection Hx.
    - left. split; [by apply Ps|]. split; [by apply Hs'|]. destruct fi; [by left|]. right. naive_solver.
  Qed.

  Lemma sub_struct_elem nls o : o ∈ msub_struct p sel nls <->
    (exists k x, (fi = true \/ k <> 0) /\ psl p k x /\ sel_at args k x /\ o = MAddLayer x k) \/
    (exists a, a ∈ nls /\ selected sel a = true /\ o = MAddNode (node_of a) (Some (lay_arg (tail a)))).
  Proof using Hp.
    unfold msub_struct. rewrite elem_of_app, elem_of_list_bind, elem_of_list_fmap. setoid_rewrite elem_of_list_filter. split.
    - intros [([k s] & Hin & (Hc & Hks))|(a & -> & Hs & Ha)]; [left|right; eauto]. apply elem_of_imap_pair in Hks.
      apply elem_of_list_fmap in Hin as (x & -> & Hx). apply elem_of_list_filter in Hx as [Hx Hxs]. simpl in *. rewrite Hfi in Hc.
      exists k, x. apply slice_psl in Hx. split; [done|]. split; [done|]. split; [|done]. apply (sel_in k x Hx). by rewrite Hks.
    - intros [(k & x & Hc & Hx & Hsel & ->)|(a & Ha & Hs & ->)]; [left|right; eauto].
      pose proof (proj2 (sel_in k x Hx) Hsel) as Hin. destruct (sel !! k) as [s|] eqn:Es; [|by apply elem_of_nil in Hin]. simpl in Hin.
      exists (k, s). split; [|split; [by rewrite Hfi|by apply elem_of_imap_pair]]. simpl. apply elem_of_list_fmap. exists x. split; [done|].
      apply elem_of_list_filter. split; [by apply slice_psl|done].
  Qed.

  (** The calls made for one combination of selected layers. *)
  Notation s0 := (default [] (sel !! 0)).
  Definition sub_ops (ls : list name) : list mop :=
    match pA p (lkey asp ls) with Some m => msub_layer_ops (lkey asp ls) m s0 | None => [] end.
  Lemma sub_ops_elem l m o : pA p l = Some m -> o ∈ msub_layer_ops l m s0 ->
    (exists x, x ∈ s0 /\ x ∈ net_nodes m /\ o = MAAddNode l x) \/
    (exists x y, x ∈ s0 /\ y ∈ s0 /\ x ∈ net_nodes m /\ y ∈ net_nodes m /\ (lrd p l x y <> 0 \/ lrd p l y x <> 0)%Z /\ o = MASet l [x; y] (lrd p l x y)).
  Proof using Hp.
    intros Hm. destruct (pinv_layer _ _ _ _ _ _ _ _ Hp Hm) as (Hg & Ha & Hno & Hd & Hf). unfold msub_layer_ops. rewrite elem_of_app. intros [Ho|Ho].
    - left. apply elem_of_list_fmap in Ho as (x & -> & Hx). apply elem_of_list_filter in Hx as [? ?]. eauto.
    - right. apply elem_of_list_bind in Ho as (x & Ho & Hx). apply elem_of_list_fmap in Ho as (y & -> & Hy).
      assert (Hwt : weight m [x] [y] = lrd p l x y) by (rewrite (lrd_rd p l m) by done; by apply weight_rd). rewrite Hwt.
      assert (y ∈ s0 /\ (lrd p l x y <> 0 \/ lrd p l y x <> 0)%Z) as [Hys Hne].
      { destruct (decide _) in Hy; apply elem_of_list_filter in Hy as [Hy1 Hy2].
        - rewrite Hno, Hwt in Hy1. split; [done|by left].
        - split; [done|]. apply elem_of_list_fmap in Hy2 as (b & -> & Hb). apply (layer_neigh _ _ _ _ _ _ _ _ _ _ Hp Hm) in Hb as (y' & -> & Hy'). done. }
      exists x, y. assert (x ∈ net_nodes m /\ y ∈ net_nodes m) as [? ?]; [|done].
      destruct Hne as [Hne|Hne]; apply (lrd_nodes _ _ _ _ _ _ _ _ _ _ Hp Hm) in Hne; tauto.
  Qed.
  Lemma sub_ops_link l m x y : pA p l = Some m -> x ∈ s0 -> y ∈ s0 -> lrd p l x y <> 0%Z -> MASet l [x; y] (lrd p l x y) ∈ msub_layer_ops l m s0.
  Proof using Hp.
    intros Hm Hx Hy Hne. destruct (pinv_layer _ _ _ _ _ _ _ _ Hp Hm) as (Hg & Ha & Hno & Hd & Hf).
    assert (Hwt : weight m [x] [y] = lrd p l x y) by (rewrite (lrd_rd p l m) by done; by apply weight_rd).
    unfold msub_layer_ops. apply elem_of_app. right. apply elem_of_list_bind. exists x. split; [|done]. apply elem_of_list_fmap. exists y. rewrite Hwt. split; [done|].
    destruct (decide _); apply elem_of_list_filter.
    - split; [by rewrite Hno, Hwt|done].
    - split; [done|]. apply elem_of_list_fmap. exists [y]. split; [done|]. apply (layer_neigh _ _ _ _ _ _ _ _ _ _ Hp Hm). eauto.
  Qed.
  Lemma sub_ops_safe l m q : pA p l = Some m -> is_Some (pA q l) -> Forall (mop_safe asp dir q) (msub_layer_ops l m s0).
  Proof using Hp.
    intros Hm Hq. apply Forall_forall. intros o Ho. apply (sub_ops_elem l m o Hm) in Ho as [(x & _ & _ & ->)|(x & y & _ & _ & _ & _ & Hne & ->)]; [done|].
    cbn [mop_safe]. split; [done|]. exists x, y. split; [done|]. destruct (decide (x = y)) as [->|]; [|by left]. right; left. tauto.
  Qed.
  Lemma sub_loop lss : forall g q, mhist cs dir noe fi g q ->
    (forall ls, ls ∈ lss -> is_Some (pA p (lkey asp ls)) /\ is_Some (pA q (lkey asp ls))) ->
    exists q', rfold (msub_layer p s0) q lss = Ok q' /\ mhist cs dir noe fi (g ++ went (lss ≫= sub_ops)) q'.
  Proof using Hp H1.
    induction lss as [|ls lss IH]; intros g q Hq Hls; [exists q; split; [done|]; simpl; by rewrite app_nil_r|].
    destruct (Hls ls) as [[m Hm] [n Hn]]; [left|]. cbn [rfold]. unfold msub_layer at 1. rewrite Has. unfold layer_net. rewrite Hm, Hn. cbn [rbind].
    destruct (mbuild_ok cs dir noe fi (msub_layer_ops (lkey asp ls) m s0) g q Hq H1) as (q1 & E & Hq1); [apply sub_ops_safe; [done|by eexists]|].
    rewrite E. cbn [rbind]. destruct (IH _ _ Hq1) as (q' & E' & Hq').
    { intros ls' Hl'. destruct (Hls ls') as [? ?]; [by right|]. split; [done|]. by eapply (mbuild_layer _ _ _ _ _ _ _ _ _ Hq E). }
    exists q'. split; [exact E'|]. rewrite bind_cons, went_app, app_assoc. unfold sub_ops at 1. by rewrite Hm.
  Qed.

  Lemma sel_length : length sel = S asp.
  Proof using Hargs. unfold mselection. by rewrite imap_length. Qed.
  Lemma combo_elem ls : ls ∈ cart (tail sel) <-> length ls = asp /\ forall k z, ls !! k = Some z -> z ∈ default [] (sel !! S k).
  Proof using Hp Hargs H1.
    pose proof sel_length as Hs. rewrite elem_of_cart. destruct sel as [|s0 st] eqn:Es; [done|]. cbn [tail]. simpl in Hs. split.
    - intros H. split; [apply Forall2_length in H; lia|]. intros k z Hz. destruct (Forall2_lookup_l _ _ _ _ _ H Hz) as (t & Ht & ?). simpl. by rewrite Ht.
    - intros [Hl H]. apply Forall2_same_length_lookup_2; [lia|]. intros k z t Hz Ht. specialize (H k z Hz). simpl in H. by rewrite Ht in H.
  Qed.
  (** A node of an existing selected layer. *)
  Lemma combo_node ls m x : ls ∈ cart (tail sel) -> pA p (lkey asp ls) = Some m -> x ∈ s0 -> x ∈ net_nodes m -> sub_nl (x :: ls).
  Proof using Hp Hargs H1.
    intros Hls Hm Hx Hxm. apply combo_elem in Hls as [Hl Hls]. pose proof (node_mexists _ _ _ _ _ _ Hp _ m x Hm Hxm) as He. rewrite nl_of_lkey in He by done.
    split; [done|]. destruct (mexists_psl p _ Hw He) as (_ & Ps & _). apply sel_nl_at; [simpl; congruence|]. intros [|k] z Hz.
    - injection Hz as <-. apply sel_in; [by apply Ps|done].
    - apply sel_in; [by apply Ps|]. by apply Hls.
  Qed.
  Definition all_ops (nls : list nl) (L : list (list name)) : list mop := msub_struct p sel nls ++ (L ≫= sub_ops).
  Definition nls_ok (nls : list nl) : Prop := (forall a, a ∈ nls -> fi = false /\ mexists p a) /\ (fi = false -> forall a, mexists p a -> a ∈ nls).
  Lemma all_ops_elem nls L o : nls_ok nls -> (forall ls, ls ∈ L -> ls ∈ cart (tail sel)) -> o ∈ all_ops nls L ->
    (exists k x, (fi = true \/ k <> 0) /\ psl p k x /\ sel_at args k x /\ o = MAddLayer x k) \/
    (exists a, fi = false /\ sub_nl a /\ o = MAddNode (node_of a) (Some (lay_arg (tail a)))) \/
    (exists ls x, ls ∈ L /\ length ls = asp /\ sub_nl (x :: ls) /\ o = MAAddNode (lkey asp ls) x) \/
    (exists ls x y, ls ∈ L /\ length ls = asp /\ sub_nl (x :: ls) /\ sub_nl (y :: ls) /\ o = MASet (lkey asp ls) [x; y] (lrd p (lkey asp ls) x y)).
  Proof using Hp Hargs H1.
    intros [N1 N2] HL Ho. apply elem_of_app in Ho as [Ho|Ho].
    - apply sub_struct_elem in Ho as [Ho|(a & Ha & Hs & ->)]; [by left|]. right; left. exists a. destruct (N1 a Ha) as [Hf He]. split; [done|]. split; [|done].
      split; [done|]. destruct (mexists_psl p a Hw He) as (Hl & Ps & _). apply sel_in_nl; [done|by rewrite <- Has|done].
    - right; right. apply elem_of_list_bind in Ho as (ls & Ho & Hls). unfold sub_ops in Ho. destruct (pA p (lkey asp ls)) as [m|] eqn:Em; [|by apply elem_of_nil in Ho].
      assert (length ls = asp) as Hlen by (apply HL, combo_elem in Hls; tauto).
      destruct (sub_ops_elem _ m o Em Ho) as [(x & Hx & Hxm & ->)|(x & y & Hx & Hy & Hxm & Hym & _ & ->)]; [left|right]; exists ls, x; [|exists y];
        split_and!; try done; apply (combo_node ls m); auto.
  Qed.
  Lemma all_ops_add nls L k x : psl p k x -> sel_at args k x -> (fi = true \/ k <> 0) -> MAddLayer x k ∈ all_ops nls L.
  Proof using Hp Hargs H1. intros Hx Hs Hc. apply elem_of_app. left. apply sub_struct_elem. left. by exists k, x. Qed.
  Lemma all_ops_node nls L a : nls_ok nls -> fi = false -> sub_nl a -> MAddNode (node_of a) (Some (lay_arg (tail a))) ∈ all_ops nls L.
  Proof using Hp Hargs H1.
    intros [N1 N2] Hf [He Hs]. apply elem_of_app. left. apply sub_struct_elem. right. exists a. split; [by apply N2|]. split; [|done].
    destruct (mexists_psl p a Hw He) as (Hl & Ps & _). apply sel_in_nl; [done|by rewrite <- Has|done].
  Qed.
  Lemma psl_lt k x : psl p k x -> k <= asp.
  Proof using Hp Hargs H1. intros (s & Hs & _). apply lookup_lt_Some in Hs. rewrite (pw_len p Hw), Has in Hs. lia. Qed.
  Lemma all_ops_psl nls L q k x : nls_ok nls -> (forall ls, ls ∈ L -> ls ∈ cart (tail sel)) -> mhist cs dir noe fi (went (all_ops nls L)) q ->
    psl q k x <-> sub_name k x.
  Proof using Hp Hargs H1.
    intros Hn HL Hq%mhist_inv. rewrite (pi_sl _ _ _ _ _ _ Hq H1). setoid_rewrite elem_of_went. split.
    - intros (e & (o & Ho & ->) & Hm). apply (all_ops_elem nls L o Hn HL) in Ho as [(j & y & Hc & Hy & Hs & ->)|[(a & Hf & Ha & ->)|[(ls & y & _ & Hl & Hy & ->)|(ls & y & z & _ & Hl & Hy & Hz & ->)]]];
        cbn [mmentions fst snd mentions] in Hm.
      + destruct Hm as (-> & -> & _). by left.
      + assert (a !! k = Some x) as Hx; [|by apply (sub_nl_names a)]. destruct (mexists_psl p a Hw (proj1 Ha)) as (Hl & _). rewrite Has in Hl.
        destruct a as [|x0 ls0]; [done|]. cbn [tail node_of] in Hm. simpl in Hl.
        destruct Hm as [[-> ->]|[(_ & Ha1 & -> & He)|(_ & Ha2 & ls & j & He & Hj & -> & Hle)]]; [done| |].
        * destruct ls0 as [|x1 [|]]; simpl in Hl, He; [lia| |lia]. by injection He as <-.
        * rewrite (lay_arg_lkey asp) in He by lia. unfold lkey in He. rewrite decide_False in He by lia. by injection He as <-.
      + destruct Hm as (_ & -> & ->). by apply (sub_nl_names (y :: ls)).
      + destruct Hm as (_ & -> & Hx). apply elem_of_cons in Hx as [->|Hx%elem_of_list_singleton]; [by apply (sub_nl_names (y :: ls))|]. subst. by apply (sub_nl_names (z :: ls)).
    - intros [(Hx & Hs & Hc)|(Hf & -> & a & He & Hs & <-)].
      + exists (MAddLayer x k, Ok tt). split; [eexists; split; [by apply all_ops_add|done]|]. simpl. pose proof (psl_lt k x Hx). done.
      + eexists. split; [eexists; split; [by apply (all_ops_node nls L a)|done]|]. cbn. by left.
  Qed.
  Lemma all_ops_exists nls L q a : nls_ok nls -> (forall ls, ls ∈ L -> ls ∈ cart (tail sel)) -> mhist cs dir noe fi (went (all_ops nls L)) q ->
    mexists q a <-> sub_nl a.
  Proof using Hp Hargs H1.
    intros Hn HL Hq. pose proof (mhist_inv _ _ _ _ _ _ Hq) as Iq. rewrite mexists_iff by apply Iq. rewrite (pi_fic _ _ _ _ _ _ Iq), (pinv_masp _ _ _ _ _ _ Iq).
    assert (fi = true \/ fi = false) as [Ef|Ef] by (destruct fi; auto); rewrite Ef at 1.
    - setoid_rewrite (all_ops_psl nls L q _ _ Hn HL Hq). unfold sub_nl. rewrite mexists_iff by done. rewrite Hfi, Ef, Has. unfold sub_name. split.
      + intros [Hl H]. split; [split; [done|]; intros k x Hx; destruct (H k x Hx) as [(? & ? & _)|(? & _)]; [done|congruence]|].
        apply sel_nl_at; [congruence|]. intros k x Hx. destruct (H k x Hx) as [(? & ? & _)|(? & _)]; [done|congruence].
      + intros [[Hl H] Hs]. split; [done|]. intros k x Hx. left. split; [by apply H|]. split; [|by left]. rewrite sel_nl_at in Hs by congruence. by apply Hs.
    - assert (Hcr : forall z l, mlayer_form asp l -> l ∈ mn2lv q z <-> sub_nl (nl_of z l)).
      { intros z l Hf. rewrite (pi_n2l _ _ _ _ _ _ Iq Ef z l Hf). setoid_rewrite elem_of_went. unfold mcreates. split.
        - intros (e & (o & Ho & ->) & _ & Hm). apply (all_ops_elem nls L o Hn HL) in Ho as [(j & y & Hc & Hy & Hs & ->)|[(b & _ & Hb & ->)|[(ls & y & _ & Hl & Hy & ->)|(ls & y & z' & _ & Hl & Hy & Hz & ->)]]];
            cbn [fst snd] in Hm.
          + done.
          + destruct Hm as [-> [= <-]]. destruct (mexists_psl p b Hw (proj1 Hb)) as (Hl & _). rewrite Has in Hl. destruct b as [|x0 ls0]; [done|]. simpl in Hl.
            cbn [tail node_of]. rewrite (lay_arg_lkey asp), nl_of_lkey by lia. done.
          + destruct Hm as (_ & <- & ->). by rewrite nl_of_lkey.
          + destruct Hm as (_ & <- & Hx). rewrite nl_of_lkey by done. apply elem_of_cons in Hx as [->|Hx%elem_of_list_singleton]; [done|]. by subst.
        - intros Hs. eexists. split; [eexists; split; [by apply (all_ops_node nls L _ Hn Ef Hs)|done]|]. split; [done|]. cbn [fst].
          destruct (nl_of_form _ z l Hf) as (F1 & _ & F3 & F4). split; [done|]. f_equal.
          rewrite nl_of_cons. cbn [tail]. destruct (lkey_tuple _ l Hf) as [K1 K2]. by rewrite (lay_arg_lkey asp). }
      split.
      + intros (z & l & Hf & -> & Hz). by apply Hcr in Hz.
      + intros Ha. destruct (mexists_psl p a Hw (proj1 Ha)) as (Hl & _). rewrite Has in Hl.
        assert (a <> []) as Hnil by (intros ->; done). pose proof (player_form asp a Hl H1) as Hf.
        exists (node_of a), (player_of asp a). split; [done|]. rewrite nl_of_player by done. split; [done|]. apply Hcr; [done|]. by rewrite nl_of_player.
  Qed.
  (** Intra-layer weights. *)
  Lemma all_ops_lrd nls q ls x y : nls_ok nls -> mhist cs dir noe fi (went (all_ops nls (cart (tail sel)))) q -> length ls = asp ->
    sel_nl args (x :: ls) -> sel_nl args (y :: ls) -> lrd q (lkey asp ls) x y = lrd p (lkey asp ls) x y.
  Proof using Hp Hargs H1.
    intros Hn Hq Hl Sx Sy. pose proof (mhist_inv _ _ _ _ _ _ Hq) as Iq. rewrite (lrd_spec _ _ _ _ _ _ _ _ _ Iq). apply mspec_agree.
    - intros e i j w He Hwr Hhit. apply elem_of_went in He as (o & Ho & ->).
      apply (all_ops_elem nls _ o Hn ltac:(done)) in Ho as [(k & y' & Hc & Hy & Hs & ->)|[(b & _ & Hb & ->)|[(ls' & y' & _ & Hl' & Hy & ->)|(ls' & x' & y' & _ & Hl' & Hx & Hy & ->)]]]; [done..|].
      rewrite mwrite_aset in Hwr. destruct (decide _) as [E|]; [|done]. injection Hwr as <- <- <-. rewrite E.
      destruct Hhit as [[-> ->]|(Hd & -> & ->)]; [done|]. pose proof Hp as Hp2. rewrite Hd in Hp2. by apply (lrd_sym _ _ _ _ _ _ _ _ Hp2).
    - destruct (decide (lrd p (lkey asp ls) x y = 0%Z)) as [|Hne]; [by right|left]. destruct (pA p (lkey asp ls)) as [m|] eqn:Em; [|unfold lrd in Hne; by rewrite Em in Hne].
      destruct (lrd_nodes _ _ _ _ _ _ _ _ _ _ Hp Em Hne) as [Xm Ym].
      assert (forall z, z ∈ net_nodes m -> sel_nl args (z :: ls) -> forall k t, (z :: ls) !! k = Some t -> t ∈ default [] (sel !! k)) as Hsel.
      { intros z Hz Hs k t Ht. pose proof (node_mexists _ _ _ _ _ _ Hp _ m z Em Hz) as He. rewrite nl_of_lkey in He by done.
        destruct (mexists_psl p _ Hw He) as (_ & Ps & _). apply sel_in; [by apply Ps|]. rewrite sel_nl_at in Hs by (simpl; congruence). by apply Hs. }
      exists (MASet (lkey asp ls) [x; y] (lrd p (lkey asp ls) x y), Ok tt), x, y, (lrd p (lkey asp ls) x y). split; [|split].
      + apply elem_of_went. eexists. split; [|done]. apply elem_of_app. right. apply elem_of_list_bind. exists ls. split.
        * unfold sub_ops. rewrite Em. apply sub_ops_link; [done|by apply (Hsel x Xm Sx 0)|by apply (Hsel y Ym Sy 0)|done].
        * apply combo_elem. split; [done|]. intros k z Hz. by apply (Hsel x Xm Sx (S k)).
      + rewrite mwrite_aset. by rewrite decide_True.
      + by left.
  Qed.
  Lemma all_ops_lrd0 nls q l x y : nls_ok nls -> mhist cs dir noe fi (went (all_ops nls [])) q -> lrd q l x y = 0%Z.
  Proof using Hp Hargs H1.
    intros Hn Hq. pose proof (mhist_inv _ _ _ _ _ _ Hq) as Iq. rewrite (lrd_spec _ _ _ _ _ _ _ _ _ Iq). apply mspec_agree; [|by right].
    intros e i j w He Hwr Hhit. apply elem_of_went in He as (o & Ho & ->).
    apply (all_ops_elem nls _ o Hn) in Ho as [(k & y' & Hc & Hy & Hs & ->)|[(b & _ & Hb & ->)|[(ls' & y' & Hin & _)|(ls' & x' & y' & Hin & _)]]]; try done; try by apply elem_of_nil in Hin.
    by intros ? ?%elem_of_nil.
  Qed.

  (** ** The function *)
  Lemma nls_exist : exists nls, (if mfic p then Ok [] else miter_node_layers p) = Ok nls /\ nls_ok nls.
  Proof using Hp Hargs H1.
    rewrite Hfi. assert (fi = true \/ fi = false) as [Ef|Ef] by (destruct fi; auto); rewrite Ef.
    - exists []. split; [done|]. split; [by intros a ?%elem_of_nil|congruence].
    - destruct (miter_node_layers_ok p Hw) as (L & HL & HL'). exists L. rewrite HL. split; [done|]. split.
      + intros a Ha. split; [done|]. by exists L.
      + intros _ a (L' & E & ?). congruence.
  Qed.
  Lemma struct_build nls : nls_ok nls -> exists q1, mbuild (new_mpx cs dir noe fi) (msub_struct p sel nls) = Ok q1 /\ mhist cs dir noe fi (went (all_ops nls [])) q1.
  Proof using Hp Hargs H1.
    intros Hn. destruct (mbuild_ok cs dir noe fi (msub_struct p sel nls) [] (new_mpx cs dir noe fi)) as (q1 & E1 & Hq1); [constructor|done| |].
    - apply Forall_forall. intros o Ho. assert (o ∈ all_ops nls []) as Ho' by (apply elem_of_app; by left).
      apply (all_ops_elem nls _ o Hn) in Ho' as [(k & y' & Hc & Hy & Hs & ->)|[(b & _ & Hb & ->)|[(ls' & y' & Hin & _)|(ls' & x' & y' & Hin & _)]]]; try by apply elem_of_nil in Hin.
      + simpl. by eapply psl_lt.
      + destruct (mexists_psl p b Hw (proj1 Hb)) as (Hl & _). rewrite Has in Hl. destruct b as [|x0 ls0]; [done|]. simpl in Hl. cbn [mop_safe tail].
        rewrite (lay_arg_lkey asp) by lia. apply lkey_form; lia.
      + by intros ? ?%elem_of_nil.
    - exists q1. split; [done|]. unfold all_ops. simpl. rewrite app_nil_r. done.
  Qed.
  Lemma msubnet_unfold nls q1 nolinks : (if mfic p then Ok [] else miter_node_layers p) = Ok nls ->
    mbuild (new_mpx cs dir noe fi) (msub_struct p sel nls) = Ok q1 ->
    msubnet p args nolinks = if nolinks then Ok q1 else rfold (msub_layer p s0) q1 (cart (tail sel)).
  Proof using Hp Hargs H1 Hnn.
    intros En E1. unfold msubnet. rewrite decide_True by congruence. cbv zeta. rewrite (like_ok _ _ _ _ _ _ Hp Hnn). cbn [rbind]. rewrite En. cbn [rbind]. rewrite E1. done.
  Qed.
  Lemma sub_facts nolinks : (nolinks = true \/ forall ls, ls ∈ cart (tail sel) -> is_Some (pA p (lkey asp ls))) ->
    exists q g, msubnet p args nolinks = Ok q /\ mhist cs dir noe fi g q /\
      (forall k x, psl q k x <-> sub_name k x) /\ (forall a, mexists q a <-> sub_nl a) /\
      (forall ls x y, length ls = asp -> sel_nl args (x :: ls) -> sel_nl args (y :: ls) ->
         lrd q (lkey asp ls) x y = if nolinks then 0%Z else lrd p (lkey asp ls) x y).
  Proof using Hp Hargs H1 Hnn.
    intros Hc. destruct nls_exist as (nls & En & Hn). destruct (struct_build nls Hn) as (q1 & E1 & Hq1).
    destruct nolinks; rewrite (msubnet_unfold nls q1 _ En E1).
    - exists q1, (went (all_ops nls [])). split; [done|]. split; [done|]. split; [|split].
      + intros k x. apply (all_ops_psl nls [] q1 k x Hn); [by intros ? ?%elem_of_nil|done].
      + intros a. apply (all_ops_exists nls [] q1 a Hn); [by intros ? ?%elem_of_nil|done].
      + intros. by apply (all_ops_lrd0 nls).
    - destruct Hc as [?|Hc]; [done|]. destruct (sub_loop (cart (tail sel)) _ q1 Hq1) as (q & E & Hq).
      { intros ls Hls. split; [by apply Hc|]. pose proof Hls as Hls'. apply combo_elem in Hls' as [Hl Hk].
        pose proof (mhist_inv _ _ _ _ _ _ Hq1) as I1. apply lkey_pA; [done|by eapply pi_wf|by eapply pinv_masp|done|].
        intros k z Hz. apply (all_ops_psl nls [] q1 (S k) z Hn); [by intros ? ?%elem_of_nil|done|]. left.
        destruct (Hc ls Hls) as [m Hm]. assert (psl p (S k) z) as Hpz.
        { apply (layer_psl _ _ _ _ _ _ Hp _ m k z Hm). pose proof (nl_of_lkey asp z ls Hl H1) as E. rewrite nl_of_cons in E. by injection E as ->. }
        split; [done|]. split; [|by right]. apply (sel_in _ _ Hpz). by apply Hk. }
      exists q, (went (all_ops nls (cart (tail sel)))). split; [done|].
      assert (mhist cs dir noe fi (went (all_ops nls (cart (tail sel)))) q) as Hq'.
      { unfold all_ops in *. simpl in Hq. rewrite app_nil_r in Hq. by rewrite went_app. }
      split; [done|]. split; [|split].
      + intros k x. by apply (all_ops_psl nls (cart (tail sel)) q k x Hn).
      + intros a. by apply (all_ops_exists nls (cart (tail sel)) q a Hn).
      + intros. by apply (all_ops_lrd nls).
  Qed.
  (** A selected combination that is not a layer of the network. *)
  Lemma sub_missing ls : ls ∈ cart (tail sel) -> pA p (lkey asp ls) = None -> msubnet p args false = Err KeyError.
  Proof using Hp Hargs H1 Hnn.
    intros Hls Hm. destruct nls_exist as (nls & En & Hn). destruct (struct_build nls Hn) as (q1 & E1 & Hq1). rewrite (msubnet_unfold nls q1 _ En E1).
    apply (rfold_err _ (fun q => exists g, mhist cs dir noe fi g q)).
    - intros q ls' [g Hg] Hls'. unfold msub_layer. rewrite Has. unfold layer_net. destruct (pA p (lkey asp ls')) as [m|] eqn:Em; [|by right].
      destruct (pA q (lkey asp ls')) as [n|] eqn:En'; [|by right]. left. cbn [rbind].
      destruct (mbuild_ok cs dir noe fi (msub_layer_ops (lkey asp ls') m s0) g q Hg H1) as (q' & E' & Hq'); [apply sub_ops_safe; [done|by eexists]|].
      exists q'. split; [done|]. eauto.
    - exists ls. split; [done|]. intros q _. unfold msub_layer. rewrite Has. unfold layer_net. by rewrite Hm.
    - eauto.
  Qed.
End Subnet.
