(** * C72-C73: multiplex networks turned into plain networks and into matrices *)
From Verif Require Import PropsNet MpxPlain PropsMpx PropsTrans TransFacts TransFacts2 NetEdges MpxIter MpxEdges PropsMpxEdges PropsSupra.
Local Open Scope nat_scope.

(** ** C72 *)
Theorem C72_threshold cs dir h p t r : mhist cs dir 0 true h p -> faithful cs true p -> loopless p -> r <> ROther ->
  exists n, mthreshold_plain p t r = Ok n /\
    reachable n /\ aspects n = maspects p /\ directed n = dir /\ noEdge n = 0%Z /\ fic n = true /\
    (forall k x, has_elem n k x <-> mhas p k x) /\
    (forall a b w, linked n a b /\ reads n a b w <-> mlink p a b /\ mreads p a b w /\ compares r w t).
Proof.
  intros Hh Hc Hl Hr. destruct (msrc_ok cs dir true h p Hh Hc Hl) as (nls & HL & Hsrc & Hok).
  pose proof (mhist_inv _ _ _ _ _ _ Hh) as Hi. pose proof (pi_wf _ _ _ _ _ _ Hi) as Hw. pose proof (pi_noe _ _ _ _ _ _ Hi) as Hnoe.
  assert (HE : forall a, a ∈ nls <-> mexists p a).
  { intros a. split; [intros; by exists nls|]. intros (L' & HL' & ?). congruence. }
  unfold mthreshold_plain. rewrite Hsrc. cbn [rbind]. set (s := MkSrc _ _ _ _ _ _ _) in *.
  destruct (threshold_spec s (mpairs dir p) (MR p) t r Hok (pi_fic _ _ _ _ _ _ Hi) Hr) as (n & g & E & Hg & Hr1 & Hr2 & Hsl). simpl in Hg, Hr1, Hr2, Hsl.
  rewrite Hnoe, (pi_dir _ _ _ _ _ _ Hi), (pi_fic _ _ _ _ _ _ Hi) in Hg. destruct (hist_inv _ _ _ _ _ _ Hg) as [_ _ Ha Hn Hd _]. pose proof (hist_good _ _ _ _ _ _ Hg) as Hgood.
  exists n. split; [done|]. split; [by repeat eexists|]. split; [done|]. split; [done|]. split; [done|].
  split; [apply (fic_of _ _ _ _ _ _ Hg); by right|]. split.
  { intros k x. rewrite has_elem_sl, Hsl, <- psl_mhas. unfold s_layers, psl. subst s. simpl. destruct (mslices p !! k) as [u|]; simpl.
    - split; [eauto|]. by intros (? & [= <-] & ?).
    - split; [by intros ?%elem_of_nil|]. by intros (? & ? & _). }
  assert (Hlen : forall a, mexists p a -> length a = S (maspects p)) by (intros a Hx; by destruct (mexists_psl p a Hw Hx)).
  intros a b w. split.
  - intros [Hk Hrd]. pose proof Hk as (La & Lb & _). apply reads_rd in Hrd; [|done..]. apply linked_rd in Hk; [|done]. subst w. rewrite Hn in Hk.
    destruct (decide (a ∈ nls /\ b ∈ nls)) as [[Ia Ib]|Hno]; [|by rewrite Hr2 in Hk]. rewrite Hr1 in Hk |- * by done. rewrite Hnoe in *.
    destruct (acc_of r t (MR p a b)) eqn:Eac; [|done]. apply acc_of_true in Eac. apply HE in Ia, Ib.
    assert (mlinked p a b) as Hlk by (by eapply MR_linked). split; [done|]. split; [|done]. by eapply MR_reads.
  - intros ((Ia & Ib & Hlk) & Hrd & Hcmp). pose proof (Hlen a Ia) as La. pose proof (Hlen b Ib) as Lb. rewrite mreads_pair in Hrd by done.
    assert (MR p a b = w) as Hm by (unfold MR; by rewrite Hrd). assert (rd n a b = w) as Hrdw.
    { rewrite Hr1 by (by apply HE). by rewrite Hm, (proj2 (acc_of_true r t w) Hcmp). }
    rewrite linked_rd by done. rewrite reads_rd by congruence. split; [|done]. rewrite Hrdw, Hn, <- Hm. by eapply MR_linked.
Qed.
Theorem C72_threshold_not_fully_interconnected cs dir h p t r a : mhist cs dir 0 false h p -> faithful cs false p -> loopless p ->
  mexists p a -> mthreshold_plain p t r = Err NameError.
Proof.
  intros Hh Hc Hl Ha. destruct (msrc_ok cs dir false h p Hh Hc Hl) as (nls & HL & Hsrc & Hok). pose proof (mhist_inv _ _ _ _ _ _ Hh) as Hi.
  unfold mthreshold_plain. rewrite Hsrc. cbn [rbind]. eapply threshold_nonfic; [exact Hok|apply (pi_fic _ _ _ _ _ _ Hi)|].
  simpl. intros ->. destruct Ha as (L & HL' & Ha). rewrite HL in HL'. injection HL' as <-. by apply elem_of_nil in Ha.
Qed.
(** [str]: see C29. *)
Theorem C72_underlying_graph cs dir fi h p str : mhist cs dir 0 fi h p -> faithful cs fi p -> loopless p ->
  (forall a b, mexists p a -> mexists p b -> str a = str b -> a = b) ->
  exists n, munderlying str p = Ok n /\
    reachable n /\ aspects n = 0 /\ directed n = dir /\ noEdge n = 0%Z /\
    (forall x, has_elem n 0 x <-> exists a, mexists p a /\ x = str a) /\
    (forall x y w, linked n x y /\ reads n x y w <-> exists a b, mlink p a b /\ mreads p a b w /\ x = [str a] /\ y = [str b]).
Proof.
  intros Hh Hc Hl Hinj. destruct (msrc_ok cs dir fi h p Hh Hc Hl) as (nls & HL & Hsrc & Hok).
  pose proof (mhist_inv _ _ _ _ _ _ Hh) as Hi. pose proof (pi_wf _ _ _ _ _ _ Hi) as Hw. pose proof (pi_noe _ _ _ _ _ _ Hi) as Hnoe.
  assert (HE : forall a, a ∈ nls <-> mexists p a).
  { intros a. split; [intros; by exists nls|]. intros (L' & HL' & ?). congruence. }
  unfold munderlying. rewrite Hsrc. cbn [rbind]. set (s := MkSrc _ _ _ _ _ _ _) in *.
  destruct (underlying_spec str s (mpairs dir p) (MR p) Hok) as (n & g & E & Hg & Hr1 & Hr2 & Hsl).
  { simpl. intros a b Ia%HE Ib%HE. by apply Hinj. }
  simpl in Hg, Hr1, Hr2, Hsl. rewrite Hnoe, (pi_dir _ _ _ _ _ _ Hi) in Hg. destruct (hist_inv _ _ _ _ _ _ Hg) as [_ _ Ha Hn Hd _]. pose proof (hist_good _ _ _ _ _ _ Hg) as Hgood.
  exists n. split; [done|]. split; [by repeat eexists|]. split; [done|]. split; [done|]. split; [done|]. split.
  { intros x. rewrite has_elem_sl, Hsl. by setoid_rewrite HE. }
  assert (Hlen : forall a, mexists p a -> length a = S (maspects p)) by (intros a Hx; by destruct (mexists_psl p a Hw Hx)).
  intros x y w. split.
  - intros [Hk Hrd]. pose proof Hk as (La & Lb & _). apply reads_rd in Hrd; [|done..]. apply linked_rd in Hk; [|done]. subst w. rewrite Hn in Hk.
    rewrite Ha in La, Lb. destruct x as [|x [|]]; try done. destruct y as [|y [|]]; try done.
    destruct (decide (Exists (fun a => x = str a) nls)) as [Hx|Hx]; destruct (decide (Exists (fun a => y = str a) nls)) as [Hy|Hy];
      rewrite ?Exists_exists in *.
    + destruct Hx as (a & Ia & ->), Hy as (b & Ib & ->). rewrite Hr1 in Hk |- * by done. apply HE in Ia, Ib.
      assert (mlinked p a b) as Hlk by (by eapply MR_linked). exists a, b. split; [done|]. split; [by eapply MR_reads|done].
    + exfalso. apply Hk. rewrite Hr2; [by rewrite Hnoe|]. intros (a & b & Ia & Ib & [= ->] & [= ->]). apply Hy. eauto.
    + exfalso. apply Hk. rewrite Hr2; [by rewrite Hnoe|]. intros (a & b & Ia & Ib & [= ->] & [= ->]). apply Hx. eauto.
    + exfalso. apply Hk. rewrite Hr2; [by rewrite Hnoe|]. intros (a & b & Ia & Ib & [= ->] & [= ->]). apply Hx. eauto.
  - intros (a & b & (Ia & Ib & Hlk) & Hrd & -> & ->). pose proof (Hlen a Ia) as La. pose proof (Hlen b Ib) as Lb. rewrite mreads_pair in Hrd by done.
    assert (MR p a b = w) as Hm by (unfold MR; by rewrite Hrd). assert (rd n [str a] [str b] = w) as Hrdw by (by rewrite Hr1 by (by apply HE)).
    rewrite linked_rd by done. rewrite reads_rd by (simpl; congruence). split; [|done]. rewrite Hrdw, Hn, <- Hm. by eapply MR_linked.
Qed.
Example C72_example : faithful [CCat 2; COrd 3] true exf.2 /\ loopless exf.2 /\
  exists m1 m2, mthreshold_plain exf.2 3 RGe = Ok m1 /\ reads m1 [n1; sb; n2] [n3; sb; n2] 4 /\ reads m1 [n3; sa; n1] [n3; sa; n2] 3 /\ reads m1 [n3; sa; n1] [n3; sb; n1] 0 /\
  munderlying PropsTrans.join exf.2 = Ok m2 /\ reads m2 [PropsTrans.join [n3; sa; n1]] [PropsTrans.join [n3; sb; n1]] 2 /\ NoDup (PropsTrans.join <$> cart (mslices exf.2)).
Proof.
  destruct C56_example_ordinal as (H1 & H2 & _). split; [done|]. split; [done|]. do 2 eexists. split; [vm_compute; reflexivity|].
  split; [by apply reads_rd|]. split; [by apply reads_rd|]. split; [by apply reads_rd|]. split; [vm_compute; reflexivity|]. split; [by apply reads_rd|].
  apply (bool_decide_unpack _). by vm_compute.
Qed.

(** ** C73 *)
Lemma msupra_w cs dir noe fi h p a b w : pinv cs dir noe fi h p -> length a = S (length cs) -> length b = S (length cs) ->
  pgetitem p (interleave a b) = Ok w <-> mreads p a b w.
Proof.
  intros Hi Ha Hb. pose proof (pinv_asp _ _ _ _ _ _ Hi) as Has. rewrite mreads_pair by congruence.
  rewrite (pgetitem_pair p _ a b); [done|]. apply names_link_full; congruence.
Qed.
Theorem C73_supra_adjacency cs dir noe fi h p inc m nodes : mhist cs dir noe fi h p -> 1 <= length cs ->
  msupra p inc = Ok (m, nodes) ->
  lists_exactly nodes (fun a => length a = S (length cs) /\ forall k x, a !! k = Some x -> mhas p k x) /\
  length m = length nodes /\ (forall row, row ∈ m -> length row = length nodes) /\
  forall i j a b, nodes !! i = Some a -> nodes !! j = Some b ->
    exists v, entry m i j v /\ (inc = true \/ tail a = tail b -> mreads p a b v) /\ (inc = false -> tail a <> tail b -> v = 0%Z).
Proof.
  intros Hh H1 Hs. pose proof (mhist_inv _ _ _ _ _ _ Hh) as Hi. pose proof (pi_wf _ _ _ _ _ _ Hi) as Hw. pose proof (pinv_asp _ _ _ _ _ _ Hi) as Has.
  destruct (supra_exact _ _ _ _ _ _ (pw_nd p Hw) (pw_len p Hw) Hs) as (S1 & S2 & S3 & S4 & S5).
  assert (Hn : forall a, a ∈ nodes <-> length a = S (length cs) /\ forall k x, a !! k = Some x -> mhas p k x).
  { intros a. rewrite S2, Forall2_same_length_lookup, (pw_len p Hw), Has. setoid_rewrite <- psl_mhas. unfold psl. split.
    - intros [La Hf]. split; [done|]. intros k x Hx. destruct (lookup_lt_is_Some_2 (mslices p) k) as [s Hs'].
      { rewrite (pw_len p Hw), Has, <- La. by eapply lookup_lt_Some. }
      exists s. split; [done|]. by eapply Hf.
    - intros [La Hf]. split; [done|]. intros k x s Hx Hs'. destruct (Hf k x Hx) as (s' & ? & ?). congruence. }
  split_and!; [by split|done| |].
  - intros row [i Hrow]%elem_of_list_lookup. by eapply S4.
  - intros i j a b Ha Hb. destruct (S5 i j a b Ha Hb) as (row & v & Hr & Hv & He). exists v. split; [by exists row|].
    apply elem_of_list_lookup_2, Hn in Ha as [La _]. apply elem_of_list_lookup_2, Hn in Hb as [Lb _].
    unfold supra_entry in He. rewrite decide_True in He by lia. rewrite <- (msupra_w cs dir noe fi h) by done. destruct inc; simpl in He.
    + by split.
    + destruct (bool_decide (tail a = tail b)) eqn:Eb; [apply bool_decide_eq_true in Eb|apply bool_decide_eq_false in Eb]; (split; [|try done]).
      * done.
      * by intros [?|?].
      * intros _ _. by injection He.
Qed.
Lemma supra_nodes_ok sl : (exists ns, supra_nodes sl = Ok ns) <-> forall s, s ∈ sl -> ~ mixed s.
Proof.
  unfold supra_nodes. destruct (rmapM py_sorted (rev sl)) as [ss|e] eqn:E; cbn [rbind].
  - split; [|eauto]. intros _ s Hs. apply Supra.rmapM_Forall2 in E.
    apply elem_of_list_In, in_rev, elem_of_list_In, elem_of_list_lookup in Hs as [i Hi].
    destruct (Forall2_lookup_l _ _ _ _ _ E Hi) as (y & _ & Hy). apply py_sorted_ok. eauto.
  - split; [intros [? ?]; done|]. intros Hm. exfalso.
    destruct (Supra.rmapM_err _ _ _ E) as (s & Hs & He). apply elem_of_list_In, in_rev, elem_of_list_In in Hs.
    apply Hm in Hs. apply py_sorted_ok in Hs as [l Hl]. congruence.
Qed.
Lemma supra_ok_iff asp sl w inc : 0 < asp -> Forall NoDup sl -> (exists r, supra asp sl w inc = Ok r) <->
  (forall s, s ∈ sl -> ~ mixed s) /\ forall a b, Forall2 (∈) a sl -> Forall2 (∈) b sl -> inc = true \/ tail a = tail b -> exists v, w a b = Ok v.
Proof.
  intros H0 Hnd. unfold supra. rewrite decide_True by done. rewrite <- supra_nodes_ok. destruct (supra_nodes sl) as [ns|e] eqn:En; cbn [rbind].
  2:{ split; [intros [? ?]; done|]. intros [[? ?] _]; done. }
  destruct (supra_nodes_exact _ _ Hnd En) as [_ Hin]. split.
  - destruct (rmapM _ ns) as [M|] eqn:EM; cbn [rbind]; [|intros [? ?]; done]. intros _. split; [eauto|]. intros a b Ha%Hin Hb%Hin Hinc.
    apply Supra.rmapM_Forall2 in EM. apply elem_of_list_lookup in Ha as [i Ha]. destruct (Forall2_lookup_l _ _ _ _ _ EM Ha) as (row & _ & Hrow).
    apply Supra.rmapM_Forall2 in Hrow. apply elem_of_list_lookup in Hb as [j Hb]. destruct (Forall2_lookup_l _ _ _ _ _ Hrow Hb) as (v & _ & Hv).
    exists v. destruct inc; simpl in Hv; [done|]. destruct Hinc as [?|Ht]; [done|]. by rewrite bool_decide_eq_true_2 in Hv.
  - intros [_ Hw]. match goal with |- context [rmapM ?f ?l] => destruct (rmapM_all_ok f l) as [m ->] end.
    { intros a Ha%Hin. apply rmapM_all_ok. intros b Hb%Hin. destruct inc; simpl; [apply Hw; auto|].
      destruct (bool_decide (tail a = tail b)) eqn:Eb; [|eauto]. apply bool_decide_eq_true in Eb. apply Hw; auto. }
    cbn [rbind]. eauto.
Qed.
(** No set of nodes or of elementary layers contains both integers and strings. *)
Definition sortable (p : mpx) : Prop := ~ exists k i t, mhas p k (NInt i) /\ mhas p k (NStr t).
Lemma msupra_defined cs dir noe fi h p inc : pinv cs dir noe fi h p -> 1 <= length cs ->
  (exists r, msupra p inc = Ok r) <-> sortable p /\
    forall a b, length a = S (length cs) -> length b = S (length cs) ->
      (forall k x, a !! k = Some x -> mhas p k x) -> (forall k x, b !! k = Some x -> mhas p k x) -> inc = true \/ tail a = tail b -> exists v, mreads p a b v.
Proof.
  intros Hi H1. pose proof (pi_wf _ _ _ _ _ _ Hi) as Hw. pose proof (pinv_asp _ _ _ _ _ _ Hi) as Has.
  assert (Hn : forall a, Forall2 (∈) a (mslices p) <-> length a = S (length cs) /\ forall k x, a !! k = Some x -> mhas p k x).
  { intros a. rewrite Forall2_same_length_lookup, (pw_len p Hw), Has. setoid_rewrite <- psl_mhas. unfold psl. split.
    - intros [La Hf]. split; [done|]. intros k x Hx. destruct (lookup_lt_is_Some_2 (mslices p) k) as [s Hs'].
      { rewrite (pw_len p Hw), Has, <- La. by eapply lookup_lt_Some. }
      exists s. split; [done|]. by eapply Hf.
    - intros [La Hf]. split; [done|]. intros k x s Hx Hs'. destruct (Hf k x Hx) as (s' & ? & ?). congruence. }
  unfold msupra. rewrite supra_ok_iff; [|lia|apply (pw_nd p Hw)].
  assert ((forall s, s ∈ mslices p -> ~ mixed s) <-> sortable p) as ->.
  { unfold sortable, mixed. setoid_rewrite <- psl_mhas. split.
    - intros Hm (k & i & t & (s & Hs & Hx) & (s' & Hs' & Ht)). simplify_eq. apply (Hm s); [by eapply elem_of_list_lookup_2|by exists i, t].
    - intros Hm s [k Hk]%elem_of_list_lookup (i & t & Hx & Ht). apply Hm. exists k, i, t. split; exists s; done. }
  setoid_rewrite Hn. split; intros [Hso Hall]; (split; [done|]).
  - intros a b La Lb Ha Hb Hinc. destruct (Hall a b) as [v Hv]; [done..|]. exists v. by apply (msupra_w cs dir noe fi h).
  - intros a b [La Ha] [Lb Hb] Hinc. destruct (Hall a b) as [v Hv]; [done..|]. exists v. by apply (msupra_w cs dir noe fi h).
Qed.
(** Without coupling links the call raises only for names that cannot be sorted. *)
Theorem C73_intra_layer_defined cs dir noe fi h p : mhist cs dir noe fi h p -> 1 <= length cs ->
  (exists r, msupra p false = Ok r) <-> sortable p.
Proof.
  intros Hh H1. pose proof (mhist_inv _ _ _ _ _ _ Hh) as Hi. rewrite (msupra_defined cs dir noe fi h) by done. split; [by intros [? _]|].
  intros Hso. split; [done|]. intros a b La Lb Ha Hb [?|Ht]; [done|]. pose proof (pinv_asp _ _ _ _ _ _ Hi) as Has.
  destruct a as [|x ls]; [done|]. destruct b as [|y ls']; [done|]. simpl in Ht. subst ls'.
  setoid_rewrite mreads_pair; [|congruence..]. destruct (decide (x = y)) as [->|Hne].
  - rewrite pget_pair_none; [eauto|done|]. intros d (_ & _ & Hd). by apply (proj1 (Hd d)).
  - rewrite pget_pair_intra; [destruct (pA _ _); eauto|]. split; [done|]. split; [simpl; lia|]. intros [|k]; simpl; split; try done; congruence.
Qed.
(** With them it is defined for categorical couplings, ordinal couplings between integer
    layers and couplings by networks. *)
Theorem C73_defined cs dir noe h p : mhist cs dir noe true h p -> 1 <= length cs ->
  (forall d c, cs !! d = Some c -> match c with CCat _ => True | COrd _ => forall x, mhas p (S d) x -> exists z, x = NInt z | CNone _ => False | CNet _ => True end) ->
  (exists r, msupra p true = Ok r) <-> sortable p.
Proof.
  intros Hh H1 Hcs. pose proof (mhist_inv _ _ _ _ _ _ Hh) as Hi. rewrite (msupra_defined cs dir noe true h) by done. split; [by intros [? _]|].
  intros Hso. split; [done|]. intros a b La Lb Ha Hb _. pose proof (pinv_asp _ _ _ _ _ _ Hi) as Has.
  setoid_rewrite mreads_pair; [|congruence..]. unfold pget_pair. destruct (inter_aspects a b) as [|d [|]] eqn:Ed; [eauto| |eauto].
  destruct (decide (d = 0)) as [->|Hd]; [destruct (pA _ _); eauto|]. destruct (lin _ _); [|eauto]. rewrite (pi_fic _ _ _ _ _ _ Hi). cbn [rbind].
  apply inter_aspects_single in Ed as (_ & Hdl & _); [|congruence]. destruct d as [|d]; [done|]. simpl. rewrite Nat.sub_0_r, (pi_coup _ _ _ _ _ _ Hi).
  destruct (lookup_lt_is_Some_2 cs d) as [c Hc]; [lia|]. rewrite Hc. specialize (Hcs d c Hc).
  destruct (lookup_lt_is_Some_2 a (S d)) as [x Hx]; [lia|]. destruct (lookup_lt_is_Some_2 b (S d)) as [y Hy]; [lia|]. simpl. rewrite Hx, Hy.
  destruct c as [w|w|o|m]; [eauto| |done|eauto]. destruct (Hcs x (Ha _ _ Hx)) as [z ->]. destruct (Hcs y (Hb _ _ Hy)) as [z' ->]. simpl. eauto.
Qed.
(** A "none" coupling between two existing node-layers makes the full matrix raise. *)
Theorem C73_none_raises cs dir noe fi h p d o a b : mhist cs dir noe fi h p -> cs !! d = Some (CNone o) ->
  mexists p a -> mexists p b -> differ_at (S d) a b -> ~ exists r, msupra p true = Ok r.
Proof.
  intros Hh Hc Ha Hb Hd. pose proof (mhist_inv _ _ _ _ _ _ Hh) as Hi. pose proof (pi_wf _ _ _ _ _ _ Hi) as Hw. pose proof (pinv_asp _ _ _ _ _ _ Hi) as Has.
  assert (1 <= length cs) as H1 by (apply lookup_lt_Some in Hc; lia). rewrite (msupra_defined cs dir noe fi h) by done. intros [_ Hall].
  destruct (mexists_psl p a Hw Ha) as (La & Pa & _). destruct (mexists_psl p b Hw Hb) as (Lb & Pb & _).
  destruct (Hall a b) as [v Hv]; [congruence..| | |by left|].
  - intros k x Hx. apply psl_mhas. by apply Pa.
  - intros k x Hx. apply psl_mhas. by apply Pb.
  - rewrite mreads_pair, (pget_pair_coup_ex p d a b) in Hv by done. unfold cread in Hv. simpl in Hv. by rewrite Nat.sub_0_r, (pi_coup _ _ _ _ _ _ Hi), Hc in Hv.
Qed.
Theorem C73_symmetric cs noe h p inc m nodes : mhist cs false noe true h p -> 1 <= length cs -> (forall c, CNet c ∉ cs) ->
  msupra p inc = Ok (m, nodes) -> forall i j v, entry m i j v <-> entry m j i v.
Proof.
  intros Hh H1 Hn Hs. destruct (C73_supra_adjacency _ _ _ _ _ _ _ _ _ Hh H1 Hs) as ([_ N1] & N2 & N3 & N4).
  pose proof (mhist_inv _ _ _ _ _ _ Hh) as Hi. pose proof (pi_wf _ _ _ _ _ _ Hi) as Hw. pose proof (pinv_asp _ _ _ _ _ _ Hi) as Has.
  assert (forall i j v, entry m i j v -> entry m j i v) as G; [|by split; apply G].
  intros i j v (row & Hr & Hv).
  destruct (lookup_lt_is_Some_2 nodes i) as [a Ha]. { rewrite <- N2. by eapply lookup_lt_Some. }
  destruct (lookup_lt_is_Some_2 nodes j) as [b Hb]. { rewrite <- (N3 row); [by eapply lookup_lt_Some|by eapply elem_of_list_lookup_2]. }
  destruct (N4 i j a b Ha Hb) as (u & (row' & Hr' & Hu) & Y1 & Z1). simplify_eq.
  destruct (N4 j i b a Hb Ha) as (u & (row' & Hr' & Hu) & Y2 & Z2).
  assert (forall c, c ∈ nodes -> mexists p c) as Hex.
  { intros c [Lc Hc]%N1. apply mexists_iff; [done|]. rewrite (pi_fic _ _ _ _ _ _ Hi). split; [congruence|]. intros k x Hx. by apply psl_mhas, Hc. }
  assert (mexists p a /\ mexists p b) as [Ea Eb] by (split; apply Hex; by eapply elem_of_list_lookup_2).
  exists row'. split; [done|]. rewrite Hu. f_equal.
  destruct (decide (inc = true \/ tail a = tail b)) as [Hinc|Hinc].
  - specialize (Y1 Hinc). assert (inc = true \/ tail b = tail a) as Hinc' by (destruct Hinc; auto). specialize (Y2 Hinc').
    apply (C18_symmetric _ _ _ _ _ _ _ _ Hh Hn Eb Ea) in Y2. destruct (mexists_psl p a Hw Ea) as (La & _). destruct (mexists_psl p b Hw Eb) as (Lb & _).
    rewrite mreads_pair in Y1, Y2 by done. congruence.
  - destruct inc; [exfalso; apply Hinc; by left|]. rewrite Z1, Z2; [done|done| |done|]; intros ?; apply Hinc; auto.
Qed.
Example C73_example : exists m nodes, msupra exf.2 true = Ok (m, nodes) /\ length nodes = 24 /\
  nodes !! 2 = Some [n3; sa; n1] /\ nodes !! 6 = Some [n3; sb; n1] /\ entry m 2 6 2 /\ entry m 6 2 2 /\
  (exists m', msupra exf.2 false = Ok (m', nodes) /\ entry m' 2 6 0).
Proof.
  eexists _, _. split; [by vm_compute|]. split_and!; try (by vm_compute); try (eexists; by vm_compute).
  eexists. split; [by vm_compute|]. eexists; by vm_compute.
Qed.
Print Assumptions C72_threshold.
Print Assumptions C72_threshold_not_fully_interconnected.
Print Assumptions C72_underlying_graph.
Print Assumptions C73_supra_adjacency.
Print Assumptions C73_intra_layer_defined.
Print Assumptions C73_defined.
Print Assumptions C73_none_raises.
Print Assumptions C73_symmetric.
