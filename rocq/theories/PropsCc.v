(** * C40-C42, C58: clustering coefficients *)
From Verif Require Import Cc CcSpec PropsNet PropsMpx PropsTrans PropsMpxEdges NetEdges NetIter TransFacts MpxIter MpxEdges CcFacts CcAgg CcBarrett.
Open Scope Z_scope.

(** ** C40 *)
Lemma zdiv_pos num den : 0 < den -> zdiv num den = Ok (inject_Z num / inject_Z den)%Q.
Proof.
  intros Hd. unfold zdiv, fdiv. destruct (Qeq_bool _ _) eqn:E; [|done]. apply Qeq_bool_iff in E. unfold Qeq in E. simpl in E. lia.
Qed.
Lemma Qdiv_eq a b c d : 0 < b -> 0 < d -> a * d = c * b -> (inject_Z a / inject_Z b == inject_Z c / inject_Z d)%Q.
Proof.
  intros Hb Hd H. unfold Qdiv, Qinv, inject_Z, Qeq, Qmult. simpl. destruct b as [|b|b], d as [|d|d]; try lia. simpl. lia.
Qed.
Lemma Qdiv_unit a b : 0 < b -> 0 <= a <= b -> (0 <= inject_Z a / inject_Z b <= 1)%Q.
Proof.
  intros Hb Ha. unfold Qdiv, Qinv, inject_Z, Qle, Qmult. simpl. destruct b as [|b|b]; try lia. simpl. lia.
Qed.
Lemma length_bind_sum {A B} (f : A -> list B) T : Z.of_nat (length (T ≫= f)) = zsumf (fun b => Z.of_nat (length (f b))) T.
Proof.
  induction T as [|b T IH]; [done|]. change ((b :: T) ≫= f) with (f b ++ (T ≫= f)). by rewrite zsumf_cons, app_length, Nat2Z.inj_add, IH.
Qed.
(** [lcc] of an undirected network, for any node-layer [a] (a node if there are no
    aspects): [L] lists the neighbours of [a] and [P] the ordered pairs of distinct linked neighbours. *)
Theorem C40_local_clustering n a L : reachable n -> directed n = false -> length a = S (aspects n) -> lists_exactly L (linked n a) ->
  ((length L < 2)%nat -> lcc n a = Ok None) /\
  ((2 <= length L)%nat -> exists q P, lcc n a = Ok (Some q) /\
     lists_exactly P (fun bc => linked n a (bc.1) /\ linked n a (bc.2) /\ bc.1 <> bc.2 /\ linked n (bc.1) (bc.2)) /\
     (q == inject_Z (Z.of_nat (length P)) / inject_Z (Z.of_nat (length L * (length L - 1))))%Q /\ (0 <= q <= 1)%Q).
Proof.
  intros Hr Hd Ha HL. pose proof (reachable_good _ Hr) as Hg. destruct (iter_total_exact n a None Hg I) as [HN HE].
  set (T := iter_total n a None) in *.
  assert (forall b, b ∈ T <-> linked n a b) as HT.
  { intros b. rewrite HE. split.
    - intros [[?|Hb] _]; [done|]. apply linked_lnk in Hb; [|done]. apply linked_lnk; [done|]. by rewrite (wfL_sym n (proj2 Hg) Hd).
    - intros Hb. split; [by left|done]. }
  assert (Permutation L T) as HP by (apply NoDup_Permutation; [apply HL|done|]; intros b; rewrite HT; apply HL).
  assert (degree n a None = Z.of_nat (length L)) as Hdeg.
  { rewrite (Permutation_length HP). unfold T, degree, iter_total. rewrite Hd. apply degree_out_iter. }
  split.
  { intros Hlt. unfold lcc. rewrite Hdeg. rewrite decide_False by lia. done. }
  intros Hge. set (g := fun b c => ind (b <> c) * zne (weight n b c) (noEdge n)).
  assert (forall b c, b ∈ T -> c ∈ T -> zne (weight n b c) (noEdge n) = ind (rd n b c <> noEdge n)) as Hz.
  { intros b c Hb Hc. apply HT in Hb, Hc. rewrite weight_rd by (destruct Hb as (_ & -> & _); destruct Hc as (_ & -> & _); done). unfold zne, ind.
    destruct (decide (rd n b c = noEdge n)), (decide (rd n b c <> noEdge n)); done. }
  set (P := T ≫= fun b => pair b <$> filter (fun c => b <> c /\ rd n b c <> noEdge n) T).
  assert (lists_exactly P (fun bc => linked n a (bc.1) /\ linked n a (bc.2) /\ bc.1 <> bc.2 /\ linked n (bc.1) (bc.2))) as HPe.
  { split.
    - apply NoDup_bind; [done| |].
      + intros b _. apply NoDup_fmap; [by intros ?? [= ?]|by apply NoDup_filter].
      + intros b b' x _ _ (? & -> & _)%elem_of_list_fmap (? & [= -> _] & _)%elem_of_list_fmap. done.
    - intros [b c]. simpl. unfold P. rewrite elem_of_list_bind. split.
      + intros (b' & (c' & [= <- <-] & [[Hne Hrd] Hc]%elem_of_list_filter)%elem_of_list_fmap & Hb). rewrite <- !HT. rewrite linked_rd by done. done.
      + intros (Hb & Hc & Hne & Hbc). exists b. split; [|by apply HT]. apply elem_of_list_fmap. exists c. split; [done|]. apply elem_of_list_filter. rewrite HT. split; [|done]. split; [done|]. by apply linked_rd. }
  assert (Z.of_nat (length P) = zsumf (fun b => zsumf (fun c => g b c) T) T) as HPl.
  { unfold P. rewrite (zsumf_ext (fun b => zsumf (fun c => g b c) T) (fun b => Z.of_nat (length (filter (fun c => b <> c /\ rd n b c <> noEdge n) T)))).
    - rewrite length_bind_sum. apply zsumf_ext. intros b _. by rewrite fmap_length.
    - intros b Hb. rewrite <- (Z.mul_1_l (Z.of_nat _)), <- zsumf_const, zsumf_filter. apply zsumf_ext. intros c Hc. unfold g. rewrite Hz by done.
      unfold ind. destruct (decide (b <> c)), (decide (rd n b c <> noEdge n)), (decide (b <> c /\ rd n b c <> noEdge n)); try lia; tauto. }
  assert (zsumf (fun b => zsumf (fun c => g b c) T) T = 2 * (cc_num_den n a).1) as Hnum.
  { change (zsumf (fun b => zsumf (fun c => g b c) T) T) with (zsumf (fun b => zsumf (g b) T) T).
    rewrite <- (zsumf_ext (fun b => zsumf (fun c => ind (b <> c) * ind (rd n b c <> noEdge n)) T)).
    2:{ intros b Hb. apply zsumf_ext. intros c Hc. unfold g. by rewrite Hz. }
    rewrite (zsumf_pairs2 (fun b c => ind (b <> c) * ind (rd n b c <> noEdge n))).
    - f_equal. unfold cc_num_den. fold T. cbn [fst]. apply zsumf_ext. intros q Hq. pose proof (pairs2_ne T q HN Hq) as Hne. destruct (pairs2_elem T q Hq).
      rewrite ind_true by done. rewrite Hz by done. lia.
    - intros b c. rewrite (rd_sym n b c Hg Hd). f_equal. apply ind_iff. split; congruence.
    - intros b _. rewrite ind_false by congruence. lia. }
  set (k := Z.of_nat (length L)) in *.
  assert (zsumf (fun b => zsumf (fun c => ind (b <> c)) T) T = k * (k - 1)) as Hkk.
  { rewrite (zsumf_ext _ (fun _ => k - 1)).
    - rewrite zsumf_const, <- (Permutation_length HP). fold k. lia.
    - intros b Hb. rewrite (zsumf_ext _ (fun c => 1 - ind (c = b))).
      + rewrite zsumf_sub, zsumf_const. rewrite (zsumf_ext (fun c => ind (c = b)) (fun c => ind (c = b) * 1)) by (intros; lia).
        rewrite (zsumf_point (fun _ => 1)) by done. rewrite <- (Permutation_length HP). lia.
      + intros c _. destruct (decide (c = b)) as [->|Hne]; [rewrite ind_false, ind_true by congruence; lia|rewrite ind_true, ind_false by congruence; lia]. }
  assert (Z.of_nat (length P) <= k * (k - 1)) as Hle.
  { rewrite HPl, <- Hkk. apply zsumf_le. intros b _. apply zsumf_le. intros c _. unfold g, zne. destruct (ind_01 (b <> c)) as [->| ->]; destruct (decide _); lia. }
  assert (2 * (cc_num_den n a).2 = k * (k - 1)) as Hden.
  { unfold cc_num_den. cbn [snd]. rewrite Hdeg. fold k. assert (exists t, k * (k - 1) = 2 * t) as [t ->]; [|rewrite Z.mul_comm, (Z.mul_comm 2 t), Z.div_mul; lia].
    destruct (Z.Even_or_Odd k) as [[m ->]|[m ->]]; [exists (m * (2 * m - 1))|exists ((2 * m + 1) * m)]; lia. }
  assert (2 <= k) as Hk by (unfold k; lia). assert (0 < (cc_num_den n a).2) as Hpos by nia.
  exists (inject_Z (cc_num_den n a).1 / inject_Z (cc_num_den n a).2)%Q, P. split; [|split; [done|split]].
  - unfold lcc. rewrite Hdeg. rewrite decide_True by done. rewrite zdiv_pos by done. done.
  - apply Qdiv_eq; [done| |]; rewrite ?Nat2Z.inj_mul, ?Nat2Z.inj_sub by lia; fold k; [nia|]. change (Z.of_nat 1) with 1. nia.
  - apply Qdiv_unit; [done|]. split; [lia|]. lia.
Qed.
Definition ex_lcc : mlnet := run (new_net 0 0 false true) [OpSet [A1; A2] 3; OpSet [A1; A3] 1; OpSet [A2; A3] 2; OpSet [A1; NInt 4] 1; OpSet [NInt 4; NInt 5] 1].
Example C40_example : exists q, lcc ex_lcc [A1] = Ok (Some q) /\ (q == 1 # 3)%Q /\ lcc ex_lcc [NInt 5] = Ok None /\ length (iter_total ex_lcc [A1] None) = 3%nat.
Proof. eexists. split; [vm_compute; reflexivity|]. split; by vm_compute. Qed.
Print Assumptions C40_local_clustering.

(** ** C41 *)
(** Every weight written inside a layer satisfies [P]. *)
Definition weights (p : mpx) (P : Z -> Prop) : Prop := forall l i j v, agetitem p (LBare l) [i; j] = Ok v -> P v.
Lemma weights_wt p (P : Z -> Prop) l i j : weights p P -> P 0 -> P (wt p l i j).
Proof.
  intros H H0. unfold wt. destruct (pA p (LBare l)) as [m|] eqn:E; [|done]. apply (H l i j). unfold agetitem. by rewrite E.
Qed.
(** The formula in the docstring of [cc_barrett]. *)
Definition barrett_formula (N ls : list name) (a : name -> name -> name -> Z) (i : name) (q : Q) : Prop :=
  let nom := zsumf (fun j => zsumf (fun h => zsumf (fun k => a k i j * zsumf (fun l => a l i h * zsumf (fun m => a m j h) ls) ls) ls) N) N in
  let den := zsumf (fun j => zsumf (fun h => zsumf (fun k => a k i j * zsumf (fun l => Z.max (a l i h) (a l j h)) ls) ls) N) N in
  (q == inject_Z nom / inject_Z den)%Q.
Theorem C41_barrett_implementations_agree w fi h p x : mhist [CCat w] false 0 fi h p -> w <> 0 -> no_loops p -> weights p (fun v => 0 <= v) ->
  exists an, maggregate p [1%nat] false = Ok an /\
    (2 <= degree an [x] None -> exists q,
       cc_barrett p x an = Ok (Some q) /\ cc_barrett_optimized p x an = Ok (Some q) /\ cc_barrett_explicit p x = Ok (Some q) /\
       forall N ls a, lists_exactly N (mhas p 0) -> lists_exactly ls (mhas p 1) ->
         (forall l i j, l ∈ ls -> agetitem p (LBare l) [i; j] = Ok (a l i j)) -> barrett_formula N ls a x q) /\
    (degree an [x] None = 1 -> cc_barrett p x an = Ok None /\ cc_barrett_optimized p x an = Ok None /\
       exists q, cc_barrett_explicit p x = Ok (Some q) /\ (q == 0)%Q) /\
    (degree an [x] None = 0 -> cc_barrett p x an = Ok None /\ cc_barrett_optimized p x an = Ok None /\ cc_barrett_explicit p x = Ok None) /\
    0 <= degree an [x] None.
Proof.
  intros Hh Hw Hs Hnn. destruct (agg_wt w fi h p Hh Hw Hs) as (an & E & Hg & _ & Ha & Hn & Hd & Hno & HW). exists an. split; [done|].
  pose proof (mhist_inv _ _ _ _ _ _ Hh) as Hi.
  assert (forall l i j, 0 <= wt p l i j) as Hnn' by (intros; by apply weights_wt).
  split; [|split; [|split]].
  - intros Hdg. eexists. split; [|split; [|split]].
    + rewrite (b_plain w fi h p Hi Hs an Hg Ha Hn Hd Hno HW x Hdg). by apply (b_some w fi h p Hi Hs Hnn' an Hg Ha Hn Hd Hno HW x Hdg).
    + rewrite (b_opt w fi h p Hi Hs Hnn' an Hg Ha Hn Hd Hno HW x Hdg). by apply (b_some w fi h p Hi Hs Hnn' an Hg Ha Hn Hd Hno HW x Hdg).
    + by apply (b_some w fi h p Hi Hs Hnn' an Hg Ha Hn Hd Hno HW x Hdg).
    + intros N ls a HN Hls Hav. unfold barrett_formula.
      assert (Permutation N (mnodes p)) as HPN.
      { apply NoDup_Permutation; [apply HN|apply (NoDup_mnodes w fi h p Hi)|]. intros y. destruct HN as [_ HN]. rewrite HN, mnodes_psl. unfold mhas, mget_layers, psl.
        destruct (mslices p !! 0%nat) as [s|]; [|split; [by intros (? & ? & _)|by intros (? & ? & _)]]. split; intros (? & [= <-] & ?); eauto. }
      assert (Permutation ls (lays p)) as HPl.
      { apply NoDup_Permutation; [apply Hls|apply (NoDup_lays w fi h p Hi)|]. intros y. destruct Hls as [_ Hls]. rewrite Hls, (lays_psl w fi h p Hi). unfold mhas, mget_layers, psl.
        destruct (mslices p !! 1%nat) as [s|]; [|split; [by intros (? & ? & _)|by intros (? & ? & _)]]. split; intros (? & [= <-] & ?); eauto. }
      assert (forall l i j, l ∈ ls -> a l i j = wt p l i j) as Haw.
      { intros l i j Hl. specialize (Hav l i j Hl). unfold agetitem, wt in *. destruct (pA p (LBare l)); [|done]. simpl in Hav. injection Hav as <-. done. }
      assert (forall i j, zsumf (fun m => a m i j) ls = w0 an i j) as HaW.
      { intros i j. rewrite HW, <- (zsumf_perm _ _ _ HPl). apply zsumf_ext. intros l Hl. by apply Haw. }
      assert (bnom p an x = zsumf (fun j => zsumf (fun h => zsumf (fun k => a k x j * zsumf (fun l => a l x h * zsumf (fun m => a m j h) ls) ls) ls) N) N) as ->.
      { unfold bnom. rewrite <- (zsumf_perm _ _ _ HPN). apply zsumf_ext. intros j _. rewrite <- (zsumf_perm _ _ _ HPN). apply zsumf_ext. intros k _.
        rewrite zsumf_mul_r, HaW, zsumf_mul_r, !HaW. lia. }
      assert (bden p an x = zsumf (fun j => zsumf (fun h => zsumf (fun k => a k x j * zsumf (fun l => Z.max (a l x h) (a l j h)) ls) ls) N) N) as ->; [|done].
      unfold bden. rewrite <- (zsumf_perm _ _ _ HPN). apply zsumf_ext. intros j _. rewrite <- (zsumf_perm _ _ _ HPN). apply zsumf_ext. intros k _.
      rewrite zsumf_mul_r, HaW. unfold MX. rewrite <- (zsumf_perm _ _ _ HPl). f_equal. apply zsumf_ext. intros l Hl. by rewrite !Haw.
  - intros H1. unfold cc_barrett, cc_barrett_optimized, deg0. rewrite H1. split; [done|]. split; [done|].
    by apply (b_deg1 w fi h p Hi Hs Hnn' an Hg Ha Hn Hd Hno HW x).
  - intros H0. unfold cc_barrett, cc_barrett_optimized, deg0. rewrite H0. split; [done|]. split; [done|].
    by apply (b_deg0 w fi h p Hi Hs an Hg Ha Hn Hd HW x).
  - change (degree an [x] None) with (deg0 an x). rewrite m_deg by done. lia.
Qed.
Definition n4 := NInt 4.
Definition exb_ := mcalls (new_mpx [CCat 1] false 0 true)
  [MSet [n1; n2; sa] 2; MSet [n1; n3; sa] 1; MSet [n2; n3; sb] 1; MSet [n1; n2; sb] 1; MSet [n4; n3; sb] 5; MAddNode (NInt 9) None; MSet [n4; NInt 7; sa] 1].
(** Checking the two conditions on a given network. *)
Lemma wt_out w fi h p l i j : mhist [CCat w] false 0 fi h p -> wt p l i j <> 0 -> l ∈ lays p /\ i ∈ mnodes p /\ j ∈ mnodes p.
Proof.
  intros Hh Hz. pose proof (mhist_inv _ _ _ _ _ _ Hh) as Hi. apply bl_1, (bl_el w fi h p Hi) in Hz as [H1 H2].
  apply (el_in w fi h p Hi) in H1 as [? ?], H2 as [? ?]. done.
Qed.
Lemma get_wt p l i j v : agetitem p (LBare l) [i; j] = Ok v -> v = wt p l i j.
Proof. unfold agetitem, wt. destruct (pA p (LBare l)); [|done]. simpl. by intros [= <-]. Qed.
Lemma weights_by w fi h p (P : Z -> Prop) `{!forall z, Decision (P z)} : mhist [CCat w] false 0 fi h p -> P 0 ->
  forallb (fun l => forallb (fun i => forallb (fun j => bool_decide (P (wt p l i j))) (mnodes p)) (mnodes p)) (lays p) = true -> weights p P.
Proof.
  intros Hh H0 HF l i j v Hv%get_wt. subst v. destruct (decide (wt p l i j = 0)) as [->|Hz]; [done|]. apply (wt_out w fi h p l i j Hh) in Hz as (Hl & Hi & Hj).
  rewrite forallb_forall in HF. specialize (HF l (proj1 (elem_of_list_In _ _) Hl)). cbv beta in HF. rewrite forallb_forall in HF. specialize (HF i (proj1 (elem_of_list_In _ _) Hi)).
  cbv beta in HF. rewrite forallb_forall in HF. specialize (HF j (proj1 (elem_of_list_In _ _) Hj)). by apply bool_decide_eq_true in HF.
Qed.
Lemma no_loops_by w fi h p : mhist [CCat w] false 0 fi h p -> forallb (fun l => forallb (fun i => bool_decide (wt p l i i = 0)) (mnodes p)) (lays p) = true -> no_loops p.
Proof.
  intros Hh HF l i v Hv%get_wt. subst v. destruct (decide (wt p l i i = 0)) as [|Hz]; [done|]. pose proof Hz as (Hl & Hi & _)%(wt_out w fi h p l i i Hh).
  rewrite forallb_forall in HF. specialize (HF l (proj1 (elem_of_list_In _ _) Hl)). cbv beta in HF. rewrite forallb_forall in HF. specialize (HF i (proj1 (elem_of_list_In _ _) Hi)).
  by apply bool_decide_eq_true in HF.
Qed.
Example C41_example : mhist [CCat 1] false 0 true exb_.1 exb_.2 /\ no_loops exb_.2 /\ weights exb_.2 (fun v => 0 <= v) /\
  exists an q, maggregate exb_.2 [1%nat] false = Ok an /\ degree an [n1] None = 2 /\ degree an [n4] None = 2 /\ degree an [NInt 7] None = 1 /\ degree an [NInt 9] None = 0 /\
    cc_barrett exb_.2 n1 an = Ok (Some q) /\ (q == 6 # 34)%Q.
Proof.
  assert (mhist [CCat 1] false 0 true exb_.1 exb_.2) as Hh by apply mcalls_hist. split; [done|]. split; [by eapply no_loops_by; [done|vm_compute]|].
  split; [eapply weights_by; [exact Hh|done|by vm_compute]|]. do 2 eexists. split; [vm_compute; reflexivity|]. split_and!; [by vm_compute..|vm_compute; reflexivity|by vm_compute].
Qed.
(** With negative weights the optimised version misses terms of the denominator. *)
Definition exneg := mcalls (new_mpx [CCat 1] false 0 true)
  [MSet [n1; n2; sa] 1; MSet [n1; n3; sa] 1; MSet [n2; n3; sa] 1; MSet [n1; n4; sa] 1; MSet [n1; n4; sb] (-1)].
Theorem C41_negative_weights_refuted : exists h p an q1 q2, mhist [CCat 1] false 0 true h p /\ no_loops p /\ maggregate p [1%nat] false = Ok an /\
  cc_barrett_optimized p n1 an = Ok (Some q1) /\ cc_barrett_explicit p n1 = Ok (Some q2) /\ ~ (q1 == q2)%Q.
Proof.
  assert (mhist [CCat 1] false 0 true exneg.1 exneg.2) as Hh by apply mcalls_hist. exists exneg.1, exneg.2. do 3 eexists. split; [done|].
  split; [by eapply no_loops_by; [done|vm_compute]|]. split; [vm_compute; reflexivity|]. split; [vm_compute; reflexivity|]. split; [vm_compute; reflexivity|]. by vm_compute.
Qed.
Print Assumptions C41_barrett_implementations_agree.
Print Assumptions C41_negative_weights_refuted.

(** ** C42 *)
(** [cc_cycle_vector_bf(net,node,layer)] counts closed walks. *)
Theorem C42_brute_force w fi h p x l V A C F : mhist [CCat w] false 0 fi h p -> w <> 0 -> no_loops p ->
  lists_exactly V (mexists p) -> indicates (stepA p) A -> indicates (stepC p) C -> indicates (stepF p) F -> mexists p [x; l] ->
  cc_cycle_vector_bf p x l = Ok ((fun W => mprod V W [x; l] [x; l]) <$> cycle_words A C F).
Proof.
  intros Hh Hw Hs HV HA HC HF Hx. pose proof (mhist_inv _ _ _ _ _ _ Hh) as Hi. apply (el_1 w fi h p Hi) in Hx.
  rewrite (words_counts w fi h p Hi Hw Hs V HV A C F HA HC HF x l Hx). pose proof (el_in w fi h p Hi _ _ Hx) as [_ [m Hm]%(lay_view w fi h p Hi)].
  by apply (c_bf w fi h p Hi Hw Hs x l m).
Qed.
(** The matrices exist. *)
Theorem C42_matrices_exist w fi h p : mhist [CCat w] false 0 fi h p -> w <> 0 ->
  exists V A C F, lists_exactly V (mexists p) /\ indicates (stepA p) A /\ indicates (stepC p) C /\ indicates (stepF p) F.
Proof. apply matrices_exist. Qed.
(** Other arguments: zeros where the node is not in the layer, KeyError for an unknown layer. *)
Theorem C42_brute_force_absent w fi h p x l : mhist [CCat w] false 0 fi h p -> ~ mexists p [x; l] ->
  (mhas p 1 l -> cc_cycle_vector_bf p x l = Ok (replicate 10 0)) /\ (~ mhas p 1 l -> cc_cycle_vector_bf p x l = Err KeyError).
Proof.
  intros Hh Hx. pose proof (mhist_inv _ _ _ _ _ _ Hh) as Hi. assert (mhas p 1 l <-> l ∈ lays p) as ->.
  { rewrite (lays_psl w fi h p Hi). unfold mhas, mget_layers, psl. destruct (mslices p !! 1%nat) as [s|]; [|split; [by intros (? & ? & _)|by intros (? & ? & _)]].
    split; intros (? & [= <-] & ?); eauto. }
  split; [intros Hl; apply (c_bf_absent w fi h p Hi); [done|]|by apply (c_bf_nolayer w fi h p Hi)].
  intros He. by apply Hx, (el_1 w fi h p Hi).
Qed.
(** [an] is the network whose links are weighted by the number of layers linking two nodes. *)
Definition overlap_net (p : mpx) (an : mlnet) : Prop := reachable an /\ aspects an = 0%nat /\ noEdge an = 0 /\ directed an = false /\
  forall i j, exists L, lists_exactly L (fun l => mlinked p [i; l] [j; l]) /\ reads an [i] [j] (Z.of_nat (length L)).
(** [elementary_cycles(net,node,layer,anet)], with or without node, layer and aggregated
    network, sums the closed walks from the selected node-layers [S]. *)
Theorem C42_elementary_cycles w fi h p node lay anet V A C F S : mhist [CCat w] false 0 fi h p -> w <> 0 -> no_loops p ->
  lists_exactly V (mexists p) -> indicates (stepA p) A -> indicates (stepC p) C -> indicates (stepF p) F ->
  (forall x, node = Some x -> mhas p 0 x) -> (forall l, lay = Some l -> mhas p 1 l) ->
  (forall an, anet = Some an -> overlap_net p an) -> (fi = true -> node = None -> anet = None -> weights p (fun v => v = 0 \/ v = 1)) ->
  lists_exactly S (fun a => mexists p a /\ (forall x, node = Some x -> a !! 0%nat = Some x) /\ (forall l, lay = Some l -> a !! 1%nat = Some l)) ->
  elementary_cycles p node lay anet = Ok ((fun W => zsumf (fun a => mprod V W a a) S) <$> cycle_words A C F).
Proof.
  intros Hh Hw Hs HV HA HC HF Hno Hla Han Hun HS. pose proof (mhist_inv _ _ _ _ _ _ Hh) as Hi.
  assert (forall l, mhas p 1 l <-> l ∈ lays p) as Hl1.
  { intros l. rewrite (lays_psl w fi h p Hi). unfold mhas, mget_layers, psl. destruct (mslices p !! 1%nat) as [s|]; [|split; [by intros (? & ? & _)|by intros (? & ? & _)]].
    split; intros (? & [= <-] & ?); eauto. }
  assert (forall x, mhas p 0 x <-> x ∈ mnodes p) as Hn1.
  { intros x. rewrite mnodes_psl. unfold mhas, mget_layers, psl. destruct (mslices p !! 0%nat) as [s|]; [|split; [by intros (? & ? & _)|by intros (? & ? & _)]].
    split; intros (? & [= <-] & ?); eauto. }
  rewrite (ec_sum w fi h p Hh Hw Hs V A C F HV HA HC HF node lay anet).
  - f_equal. apply list_fmap_ext. intros _ W _. apply (gcv_sum p V HV).
    + apply NoDup_tgrid; [destruct node; [apply NoDup_singleton|apply (NoDup_mnodes w fi h p Hi)]|destruct lay; [apply NoDup_singleton|apply (NoDup_lays w fi h p Hi)]].
    + eapply lists_exactly_iff; [|exact HS]. intros a. split.
      * intros (Hx & Hx0 & Hx1). split; [done|]. apply elem_of_tgrid. destruct (ex_pair w fi h p Hh a Hx) as (x & l & ->). exists x, l. split; [done|].
        pose proof Hx as [? ?]%(el_1 w fi h p Hi)%(el_in w fi h p Hi). split.
        -- destruct node as [y|]; [|done]. specialize (Hx0 y eq_refl). injection Hx0 as ->. by apply elem_of_list_singleton.
        -- destruct lay as [y|]; [|done]. specialize (Hx1 y eq_refl). injection Hx1 as ->. by apply elem_of_list_singleton.
      * intros (Hx & (x & l & -> & Hx0 & Hx1)%elem_of_tgrid). split; [done|]. split.
        -- intros y ->. by apply elem_of_list_singleton in Hx0 as ->.
        -- intros y ->. by apply elem_of_list_singleton in Hx1 as ->.
  - intros x Hx. by apply Hn1, Hno.
  - intros l Hl. by apply Hl1, Hla.
  - intros an Ha. destruct (Han an Ha) as (Hr & Haa & Hne & Hd & Hov). pose proof (reachable_good _ Hr) as Hg. split; [done|]. split; [done|]. split; [done|]. split; [done|].
    intros i j. destruct (Hov i j) as (L & HL & Hrd). apply reads_rd in Hrd; [|by rewrite Haa..]. unfold w0. rewrite weight_rd by done. rewrite <- Hrd.
    rewrite <- (Z.mul_1_l (Z.of_nat _)), <- zsumf_const.
    rewrite (zsumf_sublist (fun _ => 1) (fun l => bl p l i j) L (lays p)); [|apply HL|apply (NoDup_lays w fi h p Hi)| |].
    + apply zsumf_ext. intros; lia.
    + intros l Hl. apply HL in Hl. apply (linked_intra w fi h p Hh Hs) in Hl. split; [|done]. apply (bl_el w fi h p Hi) in Hl as [Hl _]. by apply (el_in w fi h p Hi) in Hl as [_ ?].
    + intros l _ Hl. destruct (bl_01 p l i j) as [?|B]; [done|]. exfalso. apply Hl, HL. by apply (linked_intra w fi h p Hh Hs).
  - intros E1 E2 E3 l i j. destruct (weights_wt p _ l i j (Hun E1 E2 E3) ltac:(by left)) as [E|E]; unfold bl; rewrite E; done.
Qed.
(** With unit weights [aggregate(net,1)] is such an overlap network. *)
Theorem C42_overlap_by_aggregate w fi h p : mhist [CCat w] false 0 fi h p -> w <> 0 -> no_loops p -> weights p (fun v => v = 0 \/ v = 1) ->
  exists an, maggregate p [1%nat] false = Ok an /\ overlap_net p an.
Proof.
  intros Hh Hw Hs Hun. destruct (agg_wt w fi h p Hh Hw Hs) as (n & E & Hg & Hr & Ha & Hn & Hd & _ & HW). exists n. split; [done|].
  split; [done|]. split; [done|]. split; [done|]. split; [done|]. intros i j. pose proof (mhist_inv _ _ _ _ _ _ Hh) as Hi.
  exists (filter (fun l => bl p l i j = 1) (lays p)). split.
  - split; [apply NoDup_filter, (NoDup_lays w fi h p Hi)|]. intros l. rewrite elem_of_list_filter, (linked_intra w fi h p Hh Hs). split; [by intros [? _]|].
    intros B. split; [done|]. apply (bl_el w fi h p Hi) in B as [B _]. by apply (el_in w fi h p Hi) in B as [_ ?].
  - apply reads_rd; [by rewrite Ha..|]. specialize (HW i j). unfold w0 in HW. rewrite weight_rd in HW by done. rewrite HW.
    rewrite <- (Z.mul_1_l (Z.of_nat _)), <- zsumf_const, zsumf_filter. apply zsumf_ext. intros l _.
    destruct (weights_wt p _ l i j Hun ltac:(by left)) as [E1|E1]; unfold bl; rewrite E1; unfold zne; by repeat destruct (decide _).
Qed.
(** The default aggregated network adds up weights, so with other weights than 1 the total
    over the network is not the sum of the totals of its nodes. *)
Definition exw := mcalls (new_mpx [CCat 1] false 0 true) [MSet [n1; n2; sa] 2; MSet [n2; n3; sa] 1; MSet [n1; n3; sb] 1].
Theorem C42_weights_refuted : exists h p v v1 v2 v3, mhist [CCat 1] false 0 true h p /\ no_loops p /\ (forall x, mhas p 0 x <-> x ∈ [n1; n2; n3]) /\
  elementary_cycles p None None None = Ok v /\ elementary_cycles p (Some n1) None None = Ok v1 /\ elementary_cycles p (Some n2) None None = Ok v2 /\
  elementary_cycles p (Some n3) None None = Ok v3 /\ v <> zip_with Z.add v1 (zip_with Z.add v2 v3).
Proof.
  assert (mhist [CCat 1] false 0 true exw.1 exw.2) as Hh by apply mcalls_hist. exists exw.1, exw.2. do 4 eexists. split; [done|].
  split; [by eapply no_loops_by; [done|vm_compute]|]. split.
  - intros x. unfold mhas. assert (mget_layers exw.2 0 = Ok [n1; n2; n3]) as -> by (vm_compute; reflexivity). split; [by intros (? & [= <-] & ?)|eauto].
  - do 4 (split; [vm_compute; reflexivity|]). vm_compute. discriminate.
Qed.
(** With a self-loop a triangle is counted between two nodes. *)
Theorem C42_self_loop_refuted : exists h p n v, mhist [CCat 1] false 0 true h p /\ (forall x, mhas p 0 x <-> x ∈ [n1; n2]) /\
  cc_cycle_vector_bf p n1 sa = Ok (n :: v) /\ n <> 0.
Proof.
  exists exself.1, exself.2. do 2 eexists. split; [apply mcalls_hist|]. split.
  - intros x. unfold mhas. assert (mget_layers exself.2 0 = Ok [n1; n2]) as -> by (vm_compute; reflexivity). split; [by intros (? & [= <-] & ?)|eauto].
  - split; [vm_compute; reflexivity|]. discriminate.
Qed.
Definition exu := mcalls (new_mpx [CCat 1] false 0 false)
  [MSet [n1; n2; sa] 1; MSet [n1; n3; sa] 1; MSet [n2; n3; sb] 1; MSet [n1; n2; sb] 1; MSet [n3; n1; PropsMpx.sc] 1; MAddNode n2 (Some (LBare PropsMpx.sc))].
Example C42_example : mhist [CCat 1] false 0 false exu.1 exu.2 /\ no_loops exu.2 /\ weights exu.2 (fun v => v = 0 \/ v = 1) /\
  mexists exu.2 [n1; sa] /\ mhas exu.2 0 n1 /\ mhas exu.2 1 sa /\
  cc_cycle_vector_bf exu.2 n1 sa = Ok [0; 0; 1; 2; 1; 2; 2; 2; 4; 2] /\
  elementary_cycles exu.2 None None None = Ok [0; 6; 6; 6; 6; 4; 12; 12; 8; 12].
Proof.
  assert (mhist [CCat 1] false 0 false exu.1 exu.2) as Hh by apply mcalls_hist. split; [done|]. split; [by eapply no_loops_by; [done|vm_compute]|].
  split; [eapply weights_by; [exact Hh|by left|by vm_compute]|]. split; [|split; [|split; [|split; vm_compute; reflexivity]]].
  - unfold mexists. eexists. split; [vm_compute; reflexivity|]. apply (bool_decide_eq_true_1 _). by vm_compute.
  - unfold mhas. eexists. split; [vm_compute; reflexivity|]. apply (bool_decide_eq_true_1 _). by vm_compute.
  - unfold mhas. eexists. split; [vm_compute; reflexivity|]. apply (bool_decide_eq_true_1 _). by vm_compute.
Qed.
Print Assumptions C42_brute_force.
Print Assumptions C42_matrices_exist.
Print Assumptions C42_brute_force_absent.
Print Assumptions C42_elementary_cycles.
Print Assumptions C42_overlap_by_aggregate.
Print Assumptions C42_weights_refuted.
Print Assumptions C42_self_loop_refuted.
