(** * Barrett's clustering coefficient: the three implementations *)
From Verif Require Import Cc CcFacts CcSpec PropsMpx PropsTrans MpxEdges PropsMpxEdges CcAgg.
From Verif Require Import MpxIter TransFacts NetEdges.
Open Scope Z_scope.

(** Networks without aspects, undirected, [noEdge] 0. *)
Section Mono.
  Context (an : mlnet) (Hag : good an) (Haa : aspects an = 0%nat) (Han : noEdge an = 0) (Hand : directed an = false).
  Lemma m_sym x y : w0 an x y = w0 an y x.
  Proof. unfold w0. rewrite !weight_rd by done. by apply rd_sym. Qed.
  Lemma m_nbs_in x y : y ∈ nbs0 an x <-> w0 an x y <> 0.
  Proof.
    destruct (iter_total_exact an [x] None Hag I) as [HN HE]. unfold nbs0. rewrite elem_of_list_fmap.
    assert (forall z t, linked an [z] [t] <-> w0 an z t <> 0) as Hlk by (intros; symmetry; by apply w0_linked). split.
    - intros (c & -> & Hc). apply HE in Hc as [Hc _].
      assert (length c = 1%nat) as Hl by (destruct Hc as [(_ & Hl & _)|(Hl & _)]; by rewrite Haa in Hl).
      destruct c as [|c []]; try done. change (node_of [c]) with c. destruct Hc as [Hc|Hc]; apply Hlk in Hc; [done|by rewrite m_sym].
    - intros Hl. exists [y]. split; [done|]. apply HE. split; [|done]. left. by apply Hlk.
  Qed.
  Lemma m_nbs_NoDup x : NoDup (nbs0 an x).
  Proof.
    destruct (iter_total_exact an [x] None Hag I) as [HN HE]. unfold nbs0. apply NoDup_fmap_2_strong; [|done]. intros a b Ha' Hb' He.
    assert (forall c, c ∈ iter_total an [x] None -> length c = 1%nat) as Hl.
    { intros c Hc. apply HE in Hc as [[(_ & Hc & _)|(Hc & _)] _]; by rewrite Haa in Hc. }
    pose proof (Hl a Ha') as La. pose proof (Hl b Hb') as Lb.
    destruct a as [|a []]; try done. destruct b as [|b []]; try done. unfold node_of in He. simpl in He. congruence.
  Qed.
  Lemma m_deg x : deg0 an x = Z.of_nat (length (nbs0 an x)).
  Proof. unfold deg0, nbs0, degree, iter_total. rewrite Hand, fmap_length. apply degree_out_iter. Qed.
  Lemma m_nbs_node x y : w0 an x y <> 0 -> y ∈ net_nodes an.
  Proof.
    intros Hz%w0_linked; [|done..]. apply linked_lnk in Hz as [v Hv]; [|done]. destruct (wfL_present an (proj2 Hag) _ _ _ Hv) as [_ Hy].
    apply elem_of_iter_node_layers in Hy as [Hy _]; [|apply Hag]. unfold nl_in_slices in Hy. pose proof (wfS_len an (proj1 Hag)) as Hl. rewrite Haa in Hl. unfold net_nodes.
    destruct (slices an) as [|s [|]]; [done| |done]. by inversion Hy.
  Qed.
  Lemma m_nodes_NoDup : NoDup (net_nodes an).
  Proof. pose proof (wfS_nodup an (proj1 Hag)) as H. unfold net_nodes. destruct (slices an); [constructor|]. by inversion H. Qed.
  Lemma m_nbs_sum V x f : NoDup V -> (forall y, y ∈ net_nodes an -> y ∈ V) -> (forall y, w0 an x y = 0 -> f y = 0) -> zsumf f (nbs0 an x) = zsumf f V.
  Proof.
    intros HV HnV Hf. rewrite (zsumf_sublist f (fun y => zne (w0 an x y) 0) (nbs0 an x) V); [|apply m_nbs_NoDup|done| |].
    - apply zsumf_ext. intros y _. unfold zne. destruct (decide _) as [E|]; [rewrite (Hf y E)|]; lia.
    - intros y Hy%m_nbs_in. unfold zne. rewrite decide_False by done. split; [|done]. apply HnV. by eapply m_nbs_node.
    - intros y _ Hy. rewrite m_nbs_in in Hy. unfold zne. destruct (decide _) as [|Hn]; [done|]. by destruct Hy.
  Qed.
End Mono.

Section Barrett.
  Context (w : Z) (fi : bool) (h : list call) (p : mpx) (Hi : pinv [CCat w] false 0 fi h p) (Hs : no_loops p).
  Context (Hnn : forall l i j, 0 <= wt p l i j).
  Context (an : mlnet) (Hag : good an) (Haa : aspects an = 0%nat) (Han : noEdge an = 0) (Hand : directed an = false)
    (Hno : forall x, x ∈ net_nodes an <-> x ∈ mnodes p) (HW : forall i j, w0 an i j = zsumf (fun l => wt p l i j) (lays p)).
  Let ls := lays p.
  Let N := mnodes p.
  Definition MX (x j k : name) : Z := zsumf (fun l => Z.max (wt p l x k) (wt p l j k)) (lays p).
  (** Numerator and denominator of the formula, with the layers summed up. *)
  Definition bnom (x : name) : Z := zsumf (fun j => zsumf (fun k => w0 an x j * w0 an j k * w0 an x k) (mnodes p)) (mnodes p).
  Definition bden (x : name) : Z := zsumf (fun j => zsumf (fun k => w0 an x j * MX x j k) (mnodes p)) (mnodes p).
  Lemma HNd : NoDup (mnodes p). Proof. apply (NoDup_mnodes w fi h p Hi). Qed.
  Lemma W_nn i j : 0 <= w0 an i j.
  Proof. rewrite HW. apply zsumf_nonneg. intros; apply Hnn. Qed.
  Lemma W0_wt i j l : l ∈ lays p -> w0 an i j = 0 -> wt p l i j = 0.
  Proof.
    intros Hl H0. rewrite HW in H0. pose proof (zsumf_elem_le (fun l => wt p l i j) (lays p) l (fun l => Hnn l i j) Hl) as Hle. simpl in Hle. pose proof (Hnn l i j). lia.
  Qed.
  Lemma W_self0 i : w0 an i i = 0.
  Proof. rewrite HW. apply zsumf_zero. intros l _. by apply wt_self. Qed.
  Lemma bmax_eq x j k ls' : barrett_max p x j k ls' = Ok (zsumf (fun l => Z.max (wt p l x k) (wt p l j k)) ls').
  Proof. unfold barrett_max. apply rsum_ok. intros l _. rewrite !(read3 w fi h p Hi Hs). done. Qed.
  Lemma bnom_eq x : 2 * barrett_nom an x = bnom x.
  Proof.
    unfold barrett_nom. rewrite Han.
    rewrite (zsumf_ext _ (fun q => w0 an x q.1 * w0 an x q.2 * w0 an q.1 q.2)).
    2:{ intros q _. destruct (decide _) as [->|]; lia. }
    rewrite <- (zsumf_pairs2 (fun i j => w0 an x i * w0 an x j * w0 an i j)).
    - unfold bnom. rewrite (m_nbs_sum an Hag Haa Han Hand (mnodes p)); [|apply HNd|intros; by apply Hno|].
      + apply zsumf_ext. intros j _. rewrite (m_nbs_sum an Hag Haa Han Hand (mnodes p)); [|apply HNd|intros; by apply Hno|].
        * apply zsumf_ext. intros k _. lia.
        * intros y ->. lia.
      + intros y H0. apply zsumf_zero. intros z _. rewrite H0. lia.
    - intros i j. rewrite (m_sym an Hag Hand i j). lia.
    - intros i _. rewrite W_self0. lia.
  Qed.
  Lemma bex_nom x : rsum (fun j => rsum (fun h => rsum (fun k =>
      let? t1 := rsum (fun l =>
        let? t2 := rsum (fun m => pgetitem p [j; h; m]) (lays p) in
        let? w := pgetitem p [x; h; l] in Ok (t2 * w)) (lays p) in
      let? w := pgetitem p [x; j; k] in Ok (w * t1)) (lays p)) (mnodes p)) (mnodes p) = Ok (bnom x).
  Proof.
    unfold bnom. apply rsum_ok. intros j _. apply rsum_ok. intros k _.
    rewrite (rsum_ok _ (fun l => wt p l x j * (w0 an j k * w0 an x k))).
    - rewrite zsumf_mul_r, <- HW. f_equal. lia.
    - intros l _. rewrite (rsum_ok _ (fun l2 => w0 an j k * wt p l2 x k)).
      + rewrite zsumf_mul_l, <- HW. cbn [rbind]. rewrite (read3 w fi h p Hi Hs). done.
      + intros l2 _. rewrite (rsum_ok _ (fun m => wt p m j k)) by (intros; apply (read3 w fi h p Hi Hs)). rewrite <- HW. cbn [rbind].
        by rewrite (read3 w fi h p Hi Hs).
  Qed.
  Lemma bex_den x : rsum (fun j => rsum (fun h => rsum (fun k =>
      let? t1 := barrett_max p x j h (lays p) in
      let? w := pgetitem p [x; j; k] in Ok (w * t1)) (lays p)) (mnodes p)) (mnodes p) = Ok (bden x).
  Proof.
    unfold bden. apply rsum_ok. intros j _. apply rsum_ok. intros k _. rewrite (rsum_ok _ (fun l => wt p l x j * MX x j k)).
    - by rewrite zsumf_mul_r, <- HW.
    - intros l _. rewrite bmax_eq. cbn [rbind]. by rewrite (read3 w fi h p Hi Hs).
  Qed.
  Lemma b_explicit x : cc_barrett_explicit p x = if decide (bden x = 0) then Ok None else let? q := zdiv (bnom x) (bden x) in Ok (Some q).
  Proof. unfold cc_barrett_explicit. rewrite (layers1_eq w fi h p Hi). cbn [rbind]. rewrite bex_nom, bex_den. done. Qed.
  Lemma b_ratio x : barrett_ratio (barrett_nom an x) (bden x) = if decide (bden x = 0) then Ok None else let? q := zdiv (bnom x) (bden x) in Ok (Some q).
  Proof. unfold barrett_ratio. by rewrite bnom_eq. Qed.
  Lemma b_plain x : 2 <= deg0 an x -> cc_barrett p x an = cc_barrett_explicit p x.
  Proof.
    intros Hd. unfold cc_barrett. rewrite decide_True by done. rewrite b_explicit, <- b_ratio.
    rewrite (rsum_ok _ (fun j => zsumf (fun k => w0 an x j * MX x j k) (net_nodes an))).
    2:{ intros j _. apply rsum_ok. intros k _. rewrite (layers1_eq w fi h p Hi). cbn [rbind]. by rewrite bmax_eq. }
    cbn [rbind]. f_equal. unfold bden.
    rewrite (zsumf_ext _ (fun j => zsumf (fun k => w0 an x j * MX x j k) (mnodes p))).
    2:{ intros j _. apply zsumf_perm, NoDup_Permutation; [by apply m_nodes_NoDup|apply HNd|done]. }
    apply (m_nbs_sum an Hag Haa Han Hand); [apply HNd|intros; by apply Hno|]. intros y H0. apply zsumf_zero. intros k _. rewrite H0. lia.
  Qed.
  Lemma b_opt x : 2 <= deg0 an x -> cc_barrett_optimized p x an = cc_barrett_explicit p x.
  Proof.
    intros Hd. unfold cc_barrett_optimized. rewrite decide_True by done. rewrite b_explicit, <- b_ratio.
    rewrite (rsum_ok _ (fun j => zsumf (fun k => w0 an x j * MX x j k) (nbs0 an x ++ filter (fun k => k ∉ nbs0 an x) (nbs0 an j)))).
    2:{ intros j Hj. apply rsum_ok. intros k Hk. destruct (mfic p) eqn:Hf.
        - rewrite (layers1_eq w fi h p Hi). cbn [rbind]. by rewrite bmax_eq.
        - assert (w0 an x k <> 0 \/ w0 an j k <> 0) as Hnz.
          { apply elem_of_app in Hk as [Hk%m_nbs_in|[_ Hk%m_nbs_in]%elem_of_list_filter]; auto. }
          assert (forall i, w0 an i k <> 0 -> exists l, l ∈ lays p /\ wt p l i k <> 0) as Hex.
          { intros i Hn. destruct (decide (Exists (fun l => wt p l i k <> 0) (lays p))) as [(l & ? & ?)%Exists_exists|Hno']; [by exists l|].
            exfalso. apply Hn. rewrite HW. apply zsumf_zero. intros l Hl. destruct (decide (wt p l i k = 0)); [done|]. exfalso. apply Hno', Exists_exists. by exists l. }
          assert (forall l i, wt p l i k <> 0 -> LBare l ∈ mn2lv p k) as Hn2l.
          { intros l i Hn%bl_1. apply (bl_el w fi h p Hi) in Hn as [_ Hn]. apply (el_1 w fi h p Hi) in Hn.
            rewrite mexists_nf in Hn; [|apply Hi|done|by rewrite (pinv_asp _ _ _ _ _ _ Hi)|rewrite (pinv_asp _ _ _ _ _ _ Hi); simpl; lia].
            by rewrite (pinv_asp _ _ _ _ _ _ Hi) in Hn. }
          assert (exists l i, wt p l i k <> 0) as (l0 & i0 & Hl0) by (destruct Hnz as [Hz|Hz]; apply Hex in Hz as (l & _ & ?); eauto).
          assert (exists lys, dget (mn2l p) k = Some lys /\ mn2lv p k = lys) as (lys & El & Elv).
          { apply Hn2l in Hl0. unfold mn2lv in *. destruct (dget (mn2l p) k) as [lys|]; [by exists lys|]. by apply elem_of_nil in Hl0. }
          rewrite El. assert (forall l, l ∈ lys -> exists y, l = LBare y /\ y ∈ lays p) as Hly.
          { intros l Hl. rewrite <- Elv in Hl. apply (pw_n2l p (pi_wf _ _ _ _ _ _ Hi)) in Hl as [_ Hl]. destruct l as [y|t]; simpl in Hl.
            - exists y. split; [done|]. apply (lays_psl w fi h p Hi). apply Hl.
            - exfalso. destruct Hl as [Hl _]. rewrite (pinv_asp _ _ _ _ _ _ Hi) in Hl. simpl in Hl. lia. }
          assert (exists ys, bare_layers lys = Ok ys /\ lys = LBare <$> ys) as (ys & Eb & ->).
          { clear -Hly. unfold bare_layers. induction lys as [|l lys IH]; [by exists []|]. destruct IH as (ys & E & ->); [intros; apply Hly; by right|].
            destruct (Hly l) as (y & -> & _); [left|]. exists (y :: ys). cbn [rmapM rbind]. by rewrite E. }
          rewrite Eb. cbn [rbind]. rewrite bmax_eq. cbn [rbind]. do 2 f_equal. unfold MX.
          rewrite (zsumf_sublist _ (fun l => ind (l ∈ ys)) ys (lays p)); [| |apply (NoDup_lays w fi h p Hi)| |].
          + apply zsumf_ext. intros l _. destruct (decide (l ∈ ys)) as [Hl|Hl]; [rewrite ind_true by done; lia|]. rewrite ind_false by done.
            assert (forall i, wt p l i k = 0) as H0; [|by rewrite !H0]. intros i. destruct (decide (wt p l i k = 0)) as [?|Hz]; [done|]. exfalso. apply Hl.
            apply Hn2l in Hz. rewrite Elv in Hz. by apply elem_of_list_fmap in Hz as (? & [= ->] & ?).
          + pose proof (pw_n2l_nd p (pi_wf _ _ _ _ _ _ Hi) k) as Hnd. rewrite Elv in Hnd. by apply NoDup_fmap_1 in Hnd.
          + intros l Hl. rewrite ind_true by done. split; [|done]. destruct (Hly (LBare l)) as (y & [= ->] & ?); [|done]. apply elem_of_list_fmap. eauto.
          + intros l _ Hl. by apply ind_false. }
    cbn [rbind]. f_equal. unfold bden.
    rewrite (zsumf_ext _ (fun j => zsumf (fun k => w0 an x j * MX x j k) (mnodes p))).
    - apply (m_nbs_sum an Hag Haa Han Hand); [apply HNd|intros; by apply Hno|]. intros y H0. apply zsumf_zero. intros k _. rewrite H0. lia.
    - intros j _. rewrite (zsumf_sublist _ (fun k => ind (w0 an x k <> 0 \/ w0 an j k <> 0)) _ (mnodes p)); [| |apply HNd| |].
      + apply zsumf_ext. intros k _. destruct (decide (w0 an x k <> 0 \/ w0 an j k <> 0)) as [Hz|Hz]; [rewrite ind_true by done; lia|]. rewrite ind_false by done.
        unfold MX. rewrite zsumf_zero; [lia|]. intros l Hl. rewrite (W0_wt x k), (W0_wt j k); [done|done| |done|]; [destruct (decide (w0 an j k = 0))|destruct (decide (w0 an x k = 0))]; tauto.
      + apply NoDup_app. split; [by apply m_nbs_NoDup|]. split; [|by apply NoDup_filter, m_nbs_NoDup]. intros k Hk [? _]%elem_of_list_filter. done.
      + intros k Hk. assert (w0 an x k <> 0 \/ w0 an j k <> 0) as Hz.
        { apply elem_of_app in Hk as [Hk%m_nbs_in|[_ Hk%m_nbs_in]%elem_of_list_filter]; auto. }
        split; [|by rewrite ind_true]. apply Hno. destruct Hz as [Hz|Hz]; by eapply m_nbs_node.
      + intros k _ Hk. apply ind_false. intros Hz. apply Hk. apply elem_of_app. destruct (decide (w0 an x k = 0)) as [H0|H0].
        * right. apply elem_of_list_filter. rewrite !m_nbs_in by done. tauto.
        * left. by apply m_nbs_in.
  Qed.
  Lemma b_den_pos x j : w0 an x j <> 0 -> 0 < bden x.
  Proof.
    intros Hz. assert (j ∈ mnodes p) as Hj by (apply Hno; by eapply m_nbs_node).
    assert (forall j k, 0 <= MX x j k) as HM.
    { intros i k. apply zsumf_nonneg. intros l _. pose proof (Hnn l x k). lia. }
    assert (forall j k, 0 <= w0 an x j * MX x j k) as Hnn2 by (intros; apply Z.mul_nonneg_nonneg; [apply W_nn|apply HM]).
    assert (w0 an x j <= MX x j j) as Hle.
    { rewrite HW. unfold MX. apply zsumf_le. intros l _. lia. }
    pose proof (zsumf_elem_le (fun k => w0 an x j * MX x j k) (mnodes p) j (Hnn2 j) Hj) as H1. simpl in H1.
    pose proof (zsumf_elem_le (fun j => zsumf (fun k => w0 an x j * MX x j k) (mnodes p)) (mnodes p) j) as H2. simpl in H2.
    specialize (H2 ltac:(intros; apply zsumf_nonneg; intros; apply Hnn2) Hj). pose proof (W_nn x j).
    assert (0 < w0 an x j * MX x j j) by (apply Z.mul_pos_pos; lia). unfold bden. lia.
  Qed.
  Lemma b_deg0 x : deg0 an x = 0 -> cc_barrett_explicit p x = Ok None.
  Proof.
    intros Hd. rewrite b_explicit. assert (bden x = 0) as ->; [|done]. unfold bden. apply zsumf_zero. intros j _. apply zsumf_zero. intros k _.
    destruct (decide (w0 an x j = 0)) as [->|Hz]; [done|]. exfalso. apply m_nbs_in in Hz; [|done..]. rewrite m_deg in Hd by done. by destruct (nbs0 an x); [apply elem_of_nil in Hz|].
  Qed.
  Lemma b_deg1 x : deg0 an x = 1 -> exists q, cc_barrett_explicit p x = Ok (Some q) /\ (q == 0)%Q.
  Proof.
    intros Hd. rewrite m_deg in Hd by done. destruct (nbs0 an x) as [|j [|]] eqn:En; [simpl in Hd; lia| |simpl in Hd; lia].
    assert (forall k, w0 an x k <> 0 <-> k = j) as Hu.
    { intros k. rewrite <- m_nbs_in by done. rewrite En. apply elem_of_list_singleton. }
    rewrite b_explicit. assert (bnom x = 0) as ->.
    { unfold bnom. apply zsumf_zero. intros i _. apply zsumf_zero. intros k _. destruct (decide (w0 an x i = 0)) as [->|Hz1]; [lia|]. destruct (decide (w0 an x k = 0)) as [->|Hz2]; [lia|].
      apply Hu in Hz1, Hz2. subst. rewrite W_self0. lia. }
    assert (w0 an x j <> 0) as Hp%b_den_pos by by apply Hu. rewrite decide_False by lia. unfold zdiv, fdiv.
    destruct (Qeq_bool _ _) eqn:E; [apply Qeq_bool_iff in E; unfold Qeq in E; simpl in E; lia|]. cbn [rbind]. eexists. split; [done|]. unfold Qeq. simpl. lia.
  Qed.
  Lemma b_some x : 2 <= deg0 an x -> cc_barrett_explicit p x = Ok (Some (inject_Z (bnom x) / inject_Z (bden x))%Q).
  Proof.
    intros Hd. rewrite m_deg in Hd by done. destruct (nbs0 an x) as [|j L] eqn:En; [simpl in Hd; lia|].
    assert (w0 an x j <> 0) as Hp%b_den_pos by (apply m_nbs_in; [done..|]; rewrite En; left). rewrite b_explicit, decide_False by lia. unfold zdiv, fdiv.
    destruct (Qeq_bool _ _) eqn:E; [apply Qeq_bool_iff in E; unfold Qeq in E; simpl in E; lia|]. done.
  Qed.
End Barrett.
