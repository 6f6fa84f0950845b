(** * Lemmas about [overlap_degs] *)
From Verif Require Import OvDegs CcFacts CcSpec CcAgg PropsCc SampFacts ModelsFacts OverlapFacts MpxHist MpxIter NetEdges PropsNet PropsMpx PropsTrans PropsMpxEdges PropsMpxSub PropsDiag TransFacts NetIter.
Open Scope Z_scope.

Lemma sum_full {A} (f : A -> Z) c : (forall l, l ∈ c -> f l = 0 \/ f l = 1) -> zsumf f c <= Z.of_nat (length c) /\
  (zsumf f c >= Z.of_nat (length c) <-> forall l, l ∈ c -> f l = 1).
Proof.
  induction c as [|x c IH]; intros H.
  - rewrite zsumf_nil. split; [simpl; lia|]. split; [|simpl; lia]. intros _ l Hl%elem_of_nil. done.
  - destruct IH as [H1 H2]; [intros l Hl; apply H; by right|]. rewrite zsumf_cons. pose proof (H x ltac:(left)) as Hx.
    assert (Z.of_nat (length (x :: c)) = 1 + Z.of_nat (length c)) as -> by (cbn [length]; lia).
    split; [lia|]. split.
    + intros Hge. assert (f x = 1) as E by lia. intros l [->|Hl]%elem_of_cons; [done|]. apply H2; [lia|done].
    + intros Ha. assert (f x = 1) by (apply Ha; left). assert (zsumf f c >= Z.of_nat (length c)); [|lia]. apply H2. intros l Hl. apply Ha. by right.
Qed.
Lemma wt_mspec w fi h p l x y : mhist [CCat w] false 0 fi h p -> wt p l x y = mspec 1 false (LBare l) h x y.
Proof.
  intros Hi%mhist_inv. unfold wt. destruct (pA p (LBare l)) as [m|] eqn:E.
  - exact (view_get _ _ _ _ _ _ _ _ x y Hi E).
  - symmetry. exact (pi_none _ _ _ _ _ _ Hi _ E x y).
Qed.
Lemma no_loops_wt p : (forall l x, wt p l x x = 0) -> no_loops p.
Proof. intros H l x v Hv%get_wt. by rewrite Hv. Qed.
Definition clears (o : mop) : Prop := exists x y l, o = MSet [x; y; l] 0 /\ x <> y.
Lemma mwrite_set x y l l' : x <> y -> mwrite 1 false (LBare l) (okc (MSet [x; y; l'] 0)) = if decide (l = l') then Some (x, y, 0) else None.
Proof.
  intros Hne. unfold mwrite. simpl. change (wl 1 (LBare l) (Some ([x; l'], [y; l'], 0)) = if decide (l = l') then Some (x, y, 0) else None). unfold wl.
  change (player_of 1 [x; l']) with (LBare l'). change (player_of 1 [y; l']) with (LBare l'). cbn [node_of hd default].
  destruct (decide (l = l')) as [->|Hl].
  - rewrite decide_True by (split; [lia|done]). done.
  - rewrite decide_False; [done|]. intros (_ & [= ?] & _). done.
Qed.
Lemma mspec_clear ops h l x y : Forall clears ops ->
  (MSet [x; y; l] 0 ∈ ops \/ MSet [y; x; l] 0 ∈ ops -> mspec 1 false (LBare l) (h ++ (okc <$> ops)) x y = 0) /\
  (~ (MSet [x; y; l] 0 ∈ ops \/ MSet [y; x; l] 0 ∈ ops) -> mspec 1 false (LBare l) (h ++ (okc <$> ops)) x y = mspec 1 false (LBare l) h x y).
Proof.
  induction ops as [|o ops IH] using rev_ind; intros Hc.
  - cbn. rewrite app_nil_r. split; [|done]. intros [?%elem_of_nil|?%elem_of_nil]; done.
  - apply Forall_app in Hc as [Hc Ho]. apply Forall_singleton in Ho as (a & b & l' & -> & Hab). destruct (IH Hc) as [I1 I2].
    rewrite fmap_app, app_assoc. cbn [fmap list_fmap]. rewrite mspec_app. unfold mspec_step. rewrite mwrite_set by done.
    rewrite !elem_of_app, !elem_of_list_singleton. destruct (decide (l = l')) as [<-|Hl].
    + destruct (decide (nhit false a b x y)) as [Hn|Hn].
      * split; [done|]. intros H. exfalso. apply H. destruct Hn as [[-> ->]|(_ & -> & ->)]; auto.
      * split; intros H; [apply I1|apply I2]; unfold nhit in Hn; naive_solver.
    + split; intros H; [apply I1|apply I2]; naive_solver.
Qed.
Lemma clear_keeps w fi h q ops : mhist [CCat w] false 0 fi h q -> Forall clears ops ->
  (forall x y l, MSet [x; y; l] 0 ∈ ops -> mexists q [x; l] /\ mexists q [y; l]) ->
  exists q', Models.mbuild q ops = Ok q' /\ mhist [CCat w] false 0 fi (h ++ (okc <$> ops)) q' /\
    (forall k x, mhas q' k x <-> mhas q k x) /\ (forall a, mexists q' a <-> mexists q a) /\
    forall l x y, (MSet [x; y; l] 0 ∈ ops \/ MSet [y; x; l] 0 ∈ ops -> wt q' l x y = 0) /\
      (~ (MSet [x; y; l] 0 ∈ ops \/ MSet [y; x; l] 0 ∈ ops) -> wt q' l x y = wt q l x y).
Proof.
  intros Hh Hc Hex. destruct (mbuild_safe (CCat w) false 0 fi ops h q Hh) as (q' & E & Hh').
  { apply (Forall_impl _ _ _ Hc). intros o (x & y & l & -> & Hne). exact Hne. }
  exists q'. split; [done|]. split; [done|].
  pose proof (pi_wf _ _ _ _ _ _ (mhist_inv _ _ _ _ _ _ Hh)) as Hp.
  assert (Hk : forall k x, mhas q' k x <-> mhas q k x).
  { intros k x. split; [|by eapply hist_mono]. rewrite (C51_nodes_layers_exact _ _ _ _ _ _ Hh') by done. intros (e & He & Hm).
    apply elem_of_app in He as [He|(o & -> & Ho)%elem_of_list_fmap]; [apply (C51_nodes_layers_exact _ _ _ _ _ _ Hh); [done|]; by exists e|].
    destruct (proj1 (Forall_forall _ _) Hc o Ho) as (a & b & l & -> & _). destruct (Hex _ _ _ Ho) as [H1 H2].
    destruct (mexists_psl q _ Hp H1) as (_ & P1 & _). destruct (mexists_psl q _ Hp H2) as (_ & P2 & _).
    unfold mmentions in Hm. simpl in Hm. destruct Hm as (a' & b' & v & [_ [-> ->]%names_link1g] & Hx). apply psl_mhas. destruct Hx as [Hx|Hx]; auto. }
  split; [done|]. split.
  - intros a. rewrite (C51_node_layers_exact _ _ _ _ _ _ Hh'), (C51_node_layers_exact _ _ _ _ _ _ Hh) by done. destruct fi.
    + setoid_rewrite <- (C51_nodes_layers_exact _ _ _ _ _ _ Hh'); [|done]. setoid_rewrite <- (C51_nodes_layers_exact _ _ _ _ _ _ Hh); [|done]. by setoid_rewrite Hk.
    + split.
      * intros (e & x & l & He & Hm & ->). apply elem_of_app in He as [He|(o & -> & Ho)%elem_of_list_fmap]; [by exists e, x, l|].
        destruct (proj1 (Forall_forall _ _) Hc o Ho) as (a & b & l' & -> & _). destruct (Hex _ _ _ Ho) as [H1 H2].
        destruct Hm as (_ & a' & b' & [-> ->]%names_link1g & Hx). simpl in Hx.
        apply (C51_node_layers_exact _ _ _ _ _ _ Hh) in H1; [|done]. apply (C51_node_layers_exact _ _ _ _ _ _ Hh) in H2; [|done]. destruct Hx as [-> | ->]; done.
      * intros (e & x & l & He & Hm & ->). exists e, x, l. split; [apply elem_of_app; by left|done].
  - intros l x y. rewrite (wt_mspec w fi _ q' l x y Hh'), (wt_mspec w fi _ q l x y Hh). by apply mspec_clear.
Qed.

(** ** One subnetwork *)
Lemma sub_wt w fi h q c : mhist [CCat w] false 0 fi h q -> (forall N, (forall x l, mexists q [x; l] -> x ∈ N) -> (forall l, l ∈ c -> l ∈ lays q) -> (fi = true -> forall x, x ∈ mnodes q -> x ∈ N) ->
  exists s g, msubnet q [Some N; Some c] false = Ok s /\ mhist [CCat w] false 0 fi g s /\
    (forall a, mexists s a <-> mexists q a /\ forall l, a !! 1%nat = Some l -> l ∈ c) /\
    (forall l, l ∈ lays s <-> l ∈ c) /\ (fi = true -> forall x, x ∈ mnodes s <-> x ∈ mnodes q) /\
    (fi = false -> forall x, x ∈ mnodes s <-> exists l, l ∈ c /\ mexists q [x; l]) /\
    forall l x y, wt s l x y = if decide (l ∈ c) then wt q l x y else 0).
Proof.
  intros Hh N HN Hc HfN. pose proof (mhist_inv _ _ _ _ _ _ Hh) as Hi. pose proof (pi_wf _ _ _ _ _ _ Hi) as Hp. pose proof (pinv_asp _ _ _ _ _ _ Hi) as Has. cbn [length] in Has.
  destruct (C69_subnet [CCat w] false 0 fi h q [Some N; Some c] Hh) as (s & g & E & Hg & (S1 & S2 & S3) & _ & Hr); [simpl; lia| | done | |].
  { intros m ?%elem_of_list_singleton. done. }
  { intros k l x Hk Hx. destruct k as [|k]; [|done]. simpl in Hk. injection Hk as <-. apply psl_mhas, (lays_psl w fi h q Hi), Hc, Hx. }
  pose proof (mhist_inv _ _ _ _ _ _ Hg) as Ig. pose proof (pi_wf _ _ _ _ _ _ Ig) as Pg.
  assert (He : forall a, mexists s a <-> mexists q a /\ forall l, a !! 1%nat = Some l -> l ∈ c).
  { intros a. rewrite S3. split; intros [Ha Hs]; (split; [done|]).
    - intros l Hl. exact (Hs 1%nat l _ Hl eq_refl).
    - intros k x o Hk Ho. destruct (ex_pair w fi h q Hh a Ha) as (x' & l' & ->). destruct k as [|[|k]]; simpl in Hk, Ho; [| |done].
      + injection Hk as <-. injection Ho as <-. by apply (HN _ l').
      + injection Ho as <-. by apply Hs. }
  assert (Hl : forall l, l ∈ lays s <-> l ∈ c).
  { intros l. rewrite (lays_psl w fi g s Ig), psl_mhas, S1 by (right; lia). split.
    - intros [_ (o & [= <-] & Ho)]. done.
    - intros Hin. split; [apply psl_mhas, (lays_psl w fi h q Hi); auto|]. eexists. split; [reflexivity|]. done. }
  exists s, g. split; [done|]. split; [done|]. split; [done|]. split; [done|]. split; [|split].
  - intros Hf x. rewrite !mnodes_psl, !psl_mhas, S1 by (left; rewrite (pi_fic _ _ _ _ _ _ Hi); done). split; [by intros [? _]|]. intros Hx. split; [done|].
    eexists. split; [reflexivity|]. cbn. apply HfN; [done|]. by apply mnodes_psl, psl_mhas.
  - intros Hf x. rewrite mnodes_psl, psl_mhas, S2 by (rewrite (pi_fic _ _ _ _ _ _ Hi); done). setoid_rewrite He. split.
    + intros (a & [Ha Hac] & Hx). destruct (ex_pair w fi h q Hh a Ha) as (x' & l' & ->). injection Hx as ->. exists l'. split; [by apply Hac|done].
    + intros (l & Hlc & Ha). exists [x; l]. split; [split; [done|]|done]. intros l' [= <-]. done.
  - intros l x y.
    assert (Heq : l ∈ c -> mexists q [x; l] -> mexists q [y; l] -> wt s l x y = wt q l x y).
    { intros Hlc Hx Hy. assert (mexists s [x; l]) as Hx' by (apply He; split; [done|]; intros ? [= <-]; done). assert (mexists s [y; l]) as Hy' by (apply He; split; [done|]; intros ? [= <-]; done).
      destruct (proj1 (lay_view w fi g s Ig l) (proj2 (Hl l) Hlc)) as [m Hm]. destruct (proj1 (lay_view w fi h q Hi l) (Hc l Hlc)) as [m' Hm'].
      specialize (Hr (LBare l) x y Hx' Hy'). assert (LBare l ∈ mlayers s) as Hin.
      { apply elem_of_mlayers; [done|]. split; [|apply (pinv_asp _ _ _ _ _ _ Ig)]. cbn. split; [apply (pinv_asp _ _ _ _ _ _ Ig)|]. apply (lays_psl w fi g s Ig). by apply Hl. }
      specialize (Hr Hin). unfold agetitem in Hr. unfold wt. rewrite Hm, Hm' in *. cbn in Hr. by injection Hr. }
    destruct (decide (l ∈ c)) as [Hlc|Hlc].
    + destruct (decide (wt s l x y = wt q l x y)) as [|Hne]; [done|]. exfalso. apply Hne. destruct (decide (wt q l x y = 0)) as [E0|Hz].
      * destruct (decide (wt s l x y = 0)) as [|Hz]; [congruence|]. apply bl_1, (bl_el w fi g s Ig) in Hz as [H1%(el_1 w fi g s Ig) H2%(el_1 w fi g s Ig)]. apply Heq; [done|by apply He..].
      * apply bl_1, (bl_el w fi h q Hi) in Hz as [H1%(el_1 w fi h q Hi) H2%(el_1 w fi h q Hi)]. by apply Heq.
    + destruct (decide (wt s l x y = 0)) as [|Hz]; [done|]. apply bl_1, (bl_el w fi g s Ig) in Hz as [H1%(el_1 w fi g s Ig) _]. apply He in H1 as [_ H1]. by destruct Hlc; apply H1.
Qed.
Lemma comb_thr w fi h q c N : mhist [CCat w] false 0 fi h q -> w <> 0 -> (forall l x, wt q l x x = 0) -> (forall l x y, wt q l x y = 0 \/ wt q l x y = 1) ->
  (forall x l, mexists q [x; l] -> x ∈ N) -> (forall l, l ∈ c -> l ∈ lays q) -> (fi = true -> forall x, x ∈ mnodes q -> x ∈ N) -> NoDup c -> c <> [] ->
  exists s n t, msubnet q [Some N; Some c] false = Ok s /\ maggregate s [1%nat] false = Ok n /\ threshold (src_of n) (Z.of_nat (length c)) RGe = Ok t /\
    reachable t /\ aspects t = 0%nat /\ directed t = false /\
    (forall x, x ∈ net_nodes t <-> if fi then x ∈ mnodes q else exists l, l ∈ c /\ mexists q [x; l]) /\
    (forall a b, linked t a b <-> exists x y, a = [x] /\ b = [y] /\ forall l, l ∈ c -> wt q l x y = 1).
Proof.
  intros Hh Hw Hs Hu HN Hc HfN Hnd Hne. destruct (sub_wt w fi h q c Hh N HN Hc HfN) as (s & g & E & Hg & He & Hl & Hn1 & Hn2 & Hwt).
  assert (Hs' : no_loops s) by (apply no_loops_wt; intros l x; rewrite Hwt, Hs; by destruct (decide _)).
  destruct (agg_wt w fi g s Hg Hw Hs') as (n & En & Hgn & Hrn & Han & Hnn & Hdn & Hnod & Hsum).
  destruct (C57_multiplex_aggregate [CCat w] false fi g s [1%nat] Hg (cc_faithful w fi g s Hg Hw) (cc_loopless w fi g s Hg Hs')) as (n' & En' & _ & _ & _ & _ & Hf & _).
  { apply NoDup_singleton. } { intros d ->%elem_of_list_singleton. rewrite (pinv_asp _ _ _ _ _ _ (mhist_inv _ _ _ _ _ _ Hg)). simpl. lia. }
  assert (n' = n) as -> by congruence. assert (fic n = true) as Hfn by (apply Hf; by left).
  destruct (C28_threshold n (Z.of_nat (length c)) RGe Hrn Hfn) as (t & Et & Hrt & Hat & Hct & Hel & Hlk); [done|].
  exists s, n, t. split; [done|]. split; [done|]. split; [done|]. split; [done|]. split; [congruence|]. split; [destruct Hct; naive_solver|]. split.
  - intros x. rewrite net_nodes_sl, <- has_elem_sl, Hel, has_elem_sl, <- net_nodes_sl, Hnod. destruct fi; auto.
  - assert (Hperm : lays s ≡ₚ c) by (apply NoDup_Permutation; [apply (NoDup_lays w fi g s (mhist_inv _ _ _ _ _ _ Hg))|done|done]).
    assert (Hw0 : forall x y, w0 n x y >= Z.of_nat (length c) <-> forall l, l ∈ c -> wt q l x y = 1).
    { intros x y. rewrite Hsum, (zsumf_perm _ _ _ Hperm).
      rewrite (zsumf_ext _ (fun l => wt q l x y)) by (intros l Hin; rewrite Hwt, decide_True; done). apply sum_full. auto. }
    assert (0 < length c)%nat as Hpos by (destruct c; [done|simpl; lia]).
    intros a b. split.
    + intros Hab. pose proof Hab as (Ha & Hb & _). rewrite Hat, Han in Ha, Hb. destruct a as [|x []], b as [|y []]; try done. exists x, y. split; [done|]. split; [done|]. apply Hw0.
      pose proof (reachable_good _ Hrt) as Hgt. destruct (proj1 (Hlk [x] [y] (rd t [x] [y]))) as (_ & Hrd & Hcmp).
      { split; [done|]. by apply reads_rd; rewrite ?Hat, ?Han. }
      apply reads_rd in Hrd; [|by rewrite Han..]. unfold w0. rewrite weight_rd by done. cbn in Hcmp. by rewrite <- Hrd.
    + intros (x & y & -> & -> & Hall). apply Hw0 in Hall. apply (Hlk [x] [y] (w0 n x y)). split.
      * apply w0_linked; [done..|lia].
      * split; [|done]. apply reads_rd; [by rewrite Han..|]. unfold w0. by rewrite weight_rd.
Qed.

Lemma filter_sub {A} (P : A -> Prop) `{!forall x, Decision (P x)} (l : list A) : sublist (filter P l) l.
Proof. induction l as [|x l IH]; [constructor|]. rewrite filter_cons. destruct (decide (P x)); by constructor. Qed.
Lemma names_link0 e x y : length e = 2%nat -> names_link 0 e [x] [y] -> e = [x; y].
Proof. intros Hl (_ & _ & H)%names_link_inv. destruct e as [|a [|b []]]; try done. destruct H as [[_ H]|[_ H]]; [done|]. exact H. Qed.

(** ** The order of the combinations *)
Lemma elem_of_ol_combs LS c : c ∈ ol_combs LS <-> sublist c LS /\ c <> [].
Proof.
  unfold ol_combs. rewrite elem_of_list_bind. setoid_rewrite elem_of_combs. setoid_rewrite elem_of_seq. split.
  - intros (i & [Hs Hl] & Hi). split; [done|]. intros ->. simpl in Hl. lia.
  - intros [Hs Hne]. pose proof (sublist_length _ _ Hs). exists (length LS - length c)%nat. destruct c; [done|]. simpl in *. split; [split; [done|]|]; lia.
Qed.
Lemma NoDup_ol_combs LS : NoDup LS -> NoDup (ol_combs LS).
Proof.
  intros Hn. unfold ol_combs. apply NoDup_bind.
  - apply NoDup_seq.
  - intros i _. by apply NoDup_combs.
  - intros i j c Hi%elem_of_seq Hj%elem_of_seq [_ H1]%elem_of_combs [_ H2]%elem_of_combs. lia.
Qed.
Lemma ol_combs_before LS pre c post : ol_combs LS = pre ++ c :: post -> forall c', sublist c' LS -> (length c < length c')%nat -> c' ∈ pre.
Proof.
  unfold ol_combs. assert (Hgen : forall n k pre c post, (seq k n ≫= fun i => combs (length LS - i) LS) = pre ++ c :: post ->
    forall c', c' ∈ (seq k n ≫= fun i => combs (length LS - i) LS) -> (length c < length c')%nat -> c' ∈ pre).
  { induction n as [|n IH]; intros k pre' c0 post' E c' Hc' Hlt; [by destruct pre'|]. cbn [seq mbind list_bind] in E, Hc'.
    fold (seq (S k) n ≫= fun i => combs (length LS - i) LS) in E, Hc'.
    assert (Hlater : forall d, d ∈ (seq (S k) n ≫= fun i => combs (length LS - i) LS) -> (length d <= length LS - S k)%nat).
    { intros d (i & [_ Hd]%elem_of_combs & Hi%elem_of_seq)%elem_of_list_bind. lia. }
    apply app_eq_inv in E as [(mid & E1 & E2)|(mid & E1 & E2)].
    - destruct mid as [|m mid].
      + cbn in E2. rewrite app_nil_r in E1. subst pre'. apply elem_of_app in Hc' as [|Hc']; [done|].
        exfalso. specialize (IH (S k) [] c0 post' (eq_sym E2) c' Hc' Hlt). by apply elem_of_nil in IH.
      + cbn in E2. injection E2 as <- _. exfalso. assert (c0 ∈ combs (length LS - k) LS) as [_ H0]%elem_of_combs by (rewrite E1; apply elem_of_app; right; left).
        apply elem_of_app in Hc' as [[_ H1]%elem_of_combs|H1%Hlater]; lia.
    - rewrite E1. apply elem_of_app in Hc' as [Hc'|Hc']; apply elem_of_app; [by left|right]. by apply (IH (S k) mid c0 post'). }
  intros E c' Hs Hlt. eapply Hgen; [exact E| |exact Hlt]. assert (c' ∈ ol_combs LS) as H; [|exact H]. apply elem_of_ol_combs. split; [done|]. intros ->. simpl in Hlt. lia.
Qed.

(** ** The loop *)
Section Main.
  Context (w : Z) (fi : bool) (h : list call) (p : mpx) (Hh : mhist [CCat w] false 0 fi h p) (Hw : w <> 0)
    (Hs : forall l x, wt p l x x = 0) (Hu : forall l x y, wt p l x y = 0 \/ wt p l x y = 1).
  Let Hi : pinv [CCat w] false 0 fi h p := mhist_inv _ _ _ _ _ _ Hh.
  Let HLS : NoDup (lays p) := NoDup_lays w fi h p Hi.
  (** The layers where the two nodes are linked. *)
  Definition exs (x y : name) : list name := filter (fun l => wt p l x y <> 0) (lays p).
  Definition on_comb (c : list name) (x : name) : Prop := if fi then x ∈ mnodes p else exists l, l ∈ c /\ mexists p [x; l].
  Record oinv (done : list (list name)) (q : mpx) : Prop := {
    oi_hist : exists g, mhist [CCat w] false 0 fi g q;
    oi_ex : forall a, mexists q a <-> mexists p a;
    oi_lay : forall l, l ∈ lays q <-> l ∈ lays p;
    oi_nod : fi = true -> forall x, x ∈ mnodes q <-> x ∈ mnodes p;
    oi_gone : forall l x y, (1 < length (exs x y))%nat -> exs x y ∈ done -> wt q l x y = 0;
    oi_left : forall l x y, ~ ((1 < length (exs x y))%nat /\ exs x y ∈ done) -> wt q l x y = wt p l x y }.
  Definition degs_ok (c : list name) (e : dict nl Z) : Prop :=
    (forall a, a ∈ dkeys e <-> exists x, a = [x] /\ on_comb c x) /\
    forall x v, dget e [x] = Some v -> exists L, lists_exactly L (fun y => exs x y = c) /\ v = Z.of_nat (length L).
  Lemma exs_sub x y : sublist (exs x y) (lays p).
  Proof. apply filter_sub. Qed.
  Lemma exs_sym x y : exs x y = exs y x.
  Proof. unfold exs. apply list_filter_iff. intros l. by rewrite (wt_sym w fi h p Hi). Qed.
  Lemma elem_of_exs l x y : l ∈ exs x y <-> wt p l x y = 1.
  Proof.
    unfold exs. rewrite elem_of_list_filter. split.
    - intros [Hz _]. by destruct (Hu l x y).
    - intros E. split; [lia|]. apply (wt_out w fi h p l x y Hh). lia.
  Qed.
  Lemma ol_step done q d c : oinv done q -> sublist c (lays p) -> c <> [] -> c ∉ done ->
    (forall c', sublist c' (lays p) -> (length c < length c')%nat -> c' ∈ done) ->
    exists q' e, ol_comb (mnodes p) (q, d) c = Ok (q', dset d c e) /\ oinv (c :: done) q' /\ degs_ok c e.
  Proof.
    intros [[g Hg] I2 I3 I4 I5 I6] Hc Hne Hnd Hlong.
    assert (Hu' : forall l x y, wt q l x y = 0 \/ wt q l x y = 1).
    { intros l x y. destruct (decide ((1 < length (exs x y))%nat /\ exs x y ∈ done)) as [[? ?]|Hn]; [left; by apply I5|]. rewrite I6 by done. apply Hu. }
    assert (Hz' : forall l x, wt q l x x = 0).
    { intros l x. rewrite I6; [apply Hs|]. intros [Hgt _]. destruct (exs x x) as [|l' ?] eqn:E; [simpl in Hgt; lia|].
      assert (l' ∈ exs x x) as H1%elem_of_exs by (rewrite E; left). rewrite Hs in H1. lia. }
    destruct (comb_thr w fi g q c (mnodes p) Hg Hw Hz' Hu') as (s & n & t & E1 & E2 & E3 & Hrt & Hat & Hdt & Hnod & Hlk).
    { intros x l Hx%I2. apply (el_1 w fi h p Hi) in Hx. by apply (el_in w fi h p Hi) in Hx as [? _]. }
    { intros l Hl. apply I3. by eapply sublist_elem. } { intros Hf x Hx. by apply I4. } { by eapply sublist_NoDup'. } { done. }
    assert (Hcov : forall x y, (forall l, l ∈ c -> wt q l x y = 1) <-> exs x y = c).
    { intros x y. split.
      - intros Hall.
        assert (Hnot : ~ ((1 < length (exs x y))%nat /\ exs x y ∈ done)).
        { intros [H1 H2]. destruct c as [|l c]; [done|]. specialize (Hall l ltac:(left)). rewrite I5 in Hall; done. }
        assert (Hsub : forall l, l ∈ c -> l ∈ exs x y) by (intros l Hl; apply elem_of_exs; rewrite <- (I6 l x y) by done; by apply Hall).
        assert (c ⊆+ exs x y) as Hsm by (apply NoDup_submseteq; [by eapply sublist_NoDup'|done]). pose proof (submseteq_length _ _ Hsm) as Hle.
        destruct (decide (length c < length (exs x y))%nat) as [Hlt|Hge].
        + exfalso. apply Hnot. split; [destruct c; [done|]; simpl in Hlt; lia|]. apply Hlong; [apply exs_sub|done].
        + apply (sublist_ext (lays p)); [done|apply exs_sub|done|]. intros l. split; [|by apply Hsub].
          assert (c ≡ₚ exs x y) as HP by (apply submseteq_Permutation_length_eq; [lia|done]). by rewrite HP.
      - intros E l Hl. rewrite I6 by (intros [_ Hd]; rewrite E in Hd; done). apply elem_of_exs. by rewrite E. }
    assert (Hlk' : forall a b, linked t a b <-> exists x y, a = [x] /\ b = [y] /\ exs x y = c).
    { intros a b. rewrite Hlk. by setoid_rewrite Hcov. }
    pose proof (reachable_good _ Hrt) as Hgt.
    assert (Hdegs : degs_ok c (degs_nodes t)).
    { assert (Hkey : forall a, a ∈ iter_node_layers t <-> exists x, a = [x] /\ on_comb c x).
      { assert (on_comb_q : forall x, x ∈ net_nodes t <-> on_comb c x).
        { intros x. rewrite Hnod. unfold on_comb. destruct fi; [by apply I4|]. by setoid_rewrite I2. }
        setoid_rewrite <- on_comb_q. intros a. rewrite elem_of_iter_node_layers by apply Hgt. unfold nl_in_slices.
        rewrite (wfS_fi0 _ (proj1 Hgt) Hat). pose proof (wfS_len _ (proj1 Hgt)) as Hsl. rewrite Hat in Hsl. unfold net_nodes.
        destruct (slices t) as [|s0 [|]]; try done. cbn. split.
        - intros [Hf _]. apply Forall2_cons_inv_r in Hf as (x & a' & Hx & Ha' & ->). apply Forall2_nil_inv_r in Ha' as ->. by exists x.
        - intros (x & -> & Hx). split; [|done]. by repeat constructor. }
      split.
      - intros a. rewrite <- Hkey. rewrite elem_of_dkeys. split.
        + intros [v Hv]. apply (C30_nodes t Hrt) in Hv. tauto.
        + intros Ha. exists (degree t a None). by apply (C30_nodes t Hrt).
      - intros x v Hv. apply (C30_nodes t Hrt) in Hv as [_ <-]. exists (node_of <$> iter_total t [x] None).
        destruct (iter_total_exact t [x] None Hgt I) as [HN HE].
        assert (HT : forall b, b ∈ iter_total t [x] None <-> exists y, b = [y] /\ exs x y = c).
        { intros b. rewrite HE, !Hlk'. split.
          - intros [[(x' & y & [= <-] & -> & Hxy)|(y & x' & -> & [= <-] & Hxy)] _]; exists y; [done|]. by rewrite exs_sym.
          - intros (y & -> & Hxy). split; [|done]. left. by exists x, y. }
        split.
        + split.
          * apply NoDup_fmap_2_strong; [|done]. intros a b (y & -> & _)%HT (y' & -> & _)%HT E. change (y = y') in E. by rewrite E.
          * intros y. rewrite elem_of_list_fmap. split.
            -- intros (b & -> & (y' & -> & Hy)%HT). done.
            -- intros Hy. exists [y]. split; [done|]. apply HT. by exists y.
        + rewrite fmap_length. unfold degree, iter_total. rewrite Hdt. apply degree_out_iter. }
    unfold ol_comb. cbn [fst snd]. rewrite E1. cbn [rbind]. rewrite E2. cbn [rbind]. rewrite E3. cbn [rbind].
    destruct (decide (1 < length c)%nat) as [Hk|Hk].
    2:{ exists q, (degs_nodes t). split; [done|]. split; [|done]. split; try done; [by exists g| |].
        - intros l x y H1 [Hxy|H2]%elem_of_cons; [rewrite Hxy in H1; done|]. by apply I5.
        - intros l x y Hn. apply I6. intros [H1 H2]. apply Hn. split; [done|]. by right. }
    set (ops := edges t ≫= ol_clear c).
    assert (Hops : forall o, o ∈ ops -> exists x y l, o = MSet [x; y; l] 0 /\ exs x y = c /\ l ∈ c).
    { intros o (e & He & Hin)%elem_of_list_bind. destruct (edges_und_exact t Hgt Hdt) as (_ & H1 & _). destruct (H1 e Hin) as (a & b & Hab & (Hlen & Hnl & _)).
      apply Hlk' in Hab as (x & y & -> & -> & Hxy). rewrite Hat in Hnl, Hlen. unfold ol_clear in He.
      assert (e.1 = [x; y]) as Ee by by apply names_link0. rewrite Ee in He. apply elem_of_list_fmap in He as (l & -> & Hl). by exists x, y, l. }
    assert (Hops' : forall x y l, exs x y = c -> l ∈ c -> MSet [x; y; l] 0 ∈ ops \/ MSet [y; x; l] 0 ∈ ops).
    { intros x y l Hxy Hl. destruct (edges_und_exact t Hgt Hdt) as (_ & _ & H2 & _). destruct (H2 [x] [y]) as (e & He & Het); [apply Hlk'; by exists x, y|].
      assert (Hcase : e.1 = [x; y] \/ e.1 = [y; x]).
      { destruct Het as [(Hlen & Hnl & _)|(Hlen & Hnl & _)]; rewrite Hat in Hnl, Hlen; [left|right]; by apply names_link0. }
      destruct Hcase as [Ee|Ee]; [left|right]; apply elem_of_list_bind; exists e; (split; [|done]); unfold ol_clear; rewrite Ee; apply elem_of_list_fmap; by exists l. }
    destruct (clear_keeps w fi g q ops Hg) as (q' & Eq & Hq' & Hmh & Hme & Hwt).
    { apply Forall_forall. intros o (x & y & l & -> & Hxy & Hl)%Hops. exists x, y, l. split; [done|]. intros ->.
      rewrite <- Hxy in Hl. apply elem_of_exs in Hl. rewrite Hs in Hl. lia. }
    { intros x y l (x' & y' & l' & [= <- <- <-] & Hxy & Hl)%Hops. rewrite <- Hxy in Hl. apply elem_of_exs in Hl. rewrite !I2.
      assert (wt p l x y <> 0) as Hz by lia. apply bl_1, (bl_el w fi h p Hi) in Hz as [H1%(el_1 w fi h p Hi) H2%(el_1 w fi h p Hi)]. done. }
    fold ops. rewrite Eq. cbn [rbind]. exists q', (degs_nodes t). split; [done|]. split; [|done]. pose proof (mhist_inv _ _ _ _ _ _ Hq') as Iq'. pose proof (mhist_inv _ _ _ _ _ _ Hg) as Iq.
    split.
    - by eexists.
    - intros a. by rewrite Hme.
    - intros l. rewrite <- I3, (lays_psl w fi _ q' Iq'), (lays_psl w fi _ q Iq), !psl_mhas. apply Hmh.
    - intros Hf x. rewrite <- I4, !mnodes_psl, !psl_mhas by done. apply Hmh.
    - intros l x y H1 [Hxy|H2]%elem_of_cons.
      + destruct (decide (l ∈ c)) as [Hl|Hl]; [by apply Hwt, Hops'|].
        assert (Hin : ~ (MSet [x; y; l] 0 ∈ ops \/ MSet [y; x; l] 0 ∈ ops)).
        { intros [(x' & y' & l' & [= <- <- <-] & _ & ?)%Hops|(x' & y' & l' & [= <- <- <-] & _ & ?)%Hops]; done. }
        rewrite (proj2 (Hwt l x y) Hin). destruct (Hu' l x y) as [|H3]; [done|]. exfalso. apply Hl. rewrite <- Hxy. apply elem_of_exs.
        rewrite <- (I6 l x y); [done|]. intros [_ Hd]. rewrite Hxy in Hd. done.
      + assert (Hno : exs x y <> c) by (intros Hxy; rewrite Hxy in H2; done). rewrite (proj2 (Hwt l x y)); [by apply I5|].
        intros [(x' & y' & l' & [= <- <- <-] & Hxy & _)%Hops|(x' & y' & l' & [= <- <- <-] & Hxy & _)%Hops]; [done|]. rewrite exs_sym in Hxy. done.
    - intros l x y Hn. rewrite (proj2 (Hwt l x y)).
      + apply I6. intros [H1 H2]. apply Hn. split; [done|]. by right.
      + assert (Hno : exs x y <> c) by (intros Hxy; apply Hn; rewrite Hxy; split; [done|left]).
        intros [(x' & y' & l' & [= <- <- <-] & Hxy & _)%Hops|(x' & y' & l' & [= <- <- <-] & Hxy & _)%Hops]; [done|]. rewrite exs_sym in Hxy. done.
  Qed.
  Lemma ol_loop cs : forall done q d, oinv done q -> NoDup cs -> (forall c, c ∈ cs -> sublist c (lays p) /\ c <> [] /\ c ∉ done) ->
    (forall pre c post, cs = pre ++ c :: post -> forall c', sublist c' (lays p) -> (length c < length c')%nat -> c' ∈ pre \/ c' ∈ done) ->
    exists q' d', rfold (ol_comb (mnodes p)) (q, d) cs = Ok (q', d') /\
      (forall c, c ∈ cs -> exists e, dget d' c = Some e /\ degs_ok c e) /\ (forall c, c ∉ cs -> dget d' c = dget d c).
  Proof.
    induction cs as [|c cs IH]; intros done q d HI Hnd Hcs Hord.
    - exists q, d. split; [done|]. split; [|done]. intros c Hc%elem_of_nil. done.
    - apply NoDup_cons in Hnd as [Hc Hnd]. destruct (Hcs c ltac:(left)) as (C1 & C2 & C3).
      destruct (ol_step done q d c HI C1 C2 C3) as (q1 & e & E & HI1 & He).
      { intros c' Hs' Hlt. destruct (Hord [] c cs eq_refl c' Hs' Hlt) as [?%elem_of_nil|]; done. }
      destruct (IH (c :: done) q1 (dset d c e) HI1 Hnd) as (q2 & d2 & E2 & H1 & H2).
      { intros c' Hc'. destruct (Hcs c' ltac:(by right)) as (D1 & D2 & D3). split; [done|]. split; [done|]. intros [->|?]%elem_of_cons; done. }
      { intros pre c1 post -> c' Hs' Hlt. destruct (Hord (c :: pre) c1 post eq_refl c' Hs' Hlt) as [[->|?]%elem_of_cons|?]; [right; left|by left|right; by right]. }
      exists q2, d2. cbn [rfold]. rewrite E. cbn [rbind]. split; [done|]. split.
      + intros c' [->|Hc']%elem_of_cons; [|by apply H1]. exists e. split; [|done]. rewrite H2 by done. by rewrite dget_dset, decide_True.
      + intros c' [Hne Hc']%not_elem_of_cons. rewrite H2, dget_dset by done. by rewrite decide_False.
  Qed.
  Lemma ol_main : exists d, overlap_degs true p = Ok d /\ forall c, match dget d c with Some e => sublist c (lays p) /\ c <> [] /\ degs_ok c e | None => ~ (sublist c (lays p) /\ c <> []) end.
  Proof.
    pose proof (pi_wf _ _ _ _ _ _ Hi) as Hp.
    destruct (sub_wt w fi h p (lays p) Hh (mnodes p)) as (s & g & E & Hg & He & Hl & Hn1 & _ & Hwt); [|done..|].
    { intros x l Hx. apply (el_1 w fi h p Hi) in Hx. by apply (el_in w fi h p Hi) in Hx as [? _]. }
    destruct (ol_loop (ol_combs (lays p)) [] s []) as (q' & d & E2 & H1 & H2).
    - split.
      + by exists g.
      + intros a. rewrite He. split; [by intros [? _]|]. intros Ha. split; [done|]. destruct (ex_pair w fi h p Hh a Ha) as (x & l & ->). intros l' [= <-].
        apply (el_1 w fi h p Hi) in Ha. by apply (el_in w fi h p Hi) in Ha as [_ ?].
      + done.
      + done.
      + intros l x y _ ?%elem_of_nil. done.
      + intros l x y _. rewrite Hwt. destruct (decide (l ∈ lays p)) as [|Hno]; [done|]. destruct (decide (wt p l x y = 0)) as [|Hz]; [done|]. by apply (wt_out w fi h p l x y Hh) in Hz as [? _].
    - by apply NoDup_ol_combs.
    - intros c [? ?]%elem_of_ol_combs. split; [done|]. split; [done|]. apply not_elem_of_nil.
    - intros pre c post Eo c' Hs' Hlt. left. by eapply ol_combs_before.
    - exists d. split.
      + unfold overlap_degs, pslices. rewrite (slice0 p Hp). cbn [rbind]. rewrite (lays_eq w fi h p Hi). cbn [rbind]. rewrite E. cbn [rbind]. rewrite E2. done.
      + intros c. destruct (decide (c ∈ ol_combs (lays p))) as [Hc|Hc].
        * destruct (H1 c Hc) as (e & -> & Hde). apply elem_of_ol_combs in Hc as [? ?]. done.
        * rewrite (H2 c Hc). cbn. by rewrite <- elem_of_ol_combs.
  Qed.
End Main.
